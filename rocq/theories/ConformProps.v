(** Properties C54 to C56: conforming data stay conforming; and one more of C25. *)
From Verif Require Import FileModel FilterModel MergeModel CheckModel FilterMain Sample ToolModel ToolMerge ToolPrograms ToolMain IOMain
  MergeMain MergeSpec ConformSpec ConformFilter ConformMerge ConformStore ConformTools MergeRenaming ConformMain.
Open Scope list_scope.
Open Scope Z_scope.

(** ** C54: filtering introduces no violation *)

Theorem C54_rules : forall pow_half d f f' d', consistent d -> fresh_filter f -> apply_oi_filter pow_half d f = Ok (f', d') ->
  (revisions_ok d -> revisions_ok d') /\ (header_rule d -> header_rule d') /\ (keyword_rule d -> keyword_rule d')
  /\ (refmap_rule d -> refmap_rule d') /\ (unique_rule d -> unique_rule d') /\ (targets_present d -> targets_present d')
  /\ (arrname_rule d -> arrname_rule d') /\ (elements_present d -> elements_present d') /\ (inspol_named d -> inspol_named d')
  /\ (corr_rule d -> corr_rule d') /\ (flagging_rule d -> flagging_rule d') /\ (t3amp_rule d -> t3amp_rule d')
  /\ (order_rule d -> order_rule d') /\ (time_rule d -> time_rule d') /\ (flux_rule d -> flux_rule d').
Proof. exact filter_rules. Qed.
Print Assumptions C54_rules.
Theorem C54_conforms : forall pow_half d f f' d', consistent d -> fresh_filter f -> apply_oi_filter pow_half d f = Ok (f', d') ->
  conforms d -> (conforms d' <-> has_data d').
Proof. exact filter_conforms. Qed.
Print Assumptions C54_conforms.
Theorem C54_passes : forall pow_half d f f' d', consistent d -> fresh_filter f -> apply_oi_filter pow_half d f = Ok (f', d') ->
  distinct_names d -> conforms d -> has_data d' -> passes d'.
Proof. exact filter_passes. Qed.
Print Assumptions C54_passes.
(** Whatever is left conforms: false, a calibrated spectrum alone has no OI_ARRAY. *)
Theorem C54_spectrum_refuted : exists d f f' d', consistent d /\ distinct_names d /\ conforms d /\ fresh_filter f
  /\ apply_oi_filter sqrt64 d f = Ok (f', d') /\ List.length (o_fluxList d') = 1%nat /\ o_arrayList d' = []
  /\ h_content (o_header d') = "OIFITS2"%string /\ ~ conforms d' /\ ~ passes d'.
Proof. exact flux_only_breaks. Qed.
Print Assumptions C54_spectrum_refuted.

Example C54_case : consistent c_fits /\ distinct_names c_fits /\ conforms c_fits /\ fresh_filter s_filter
  /\ apply_oi_filter sqrt64 c_fits s_filter = Ok (s_filter, c_fits1)
  /\ has_data c_fits1 /\ List.length (o_visList c_fits1) = 1%nat /\ o_vis2List c_fits1 = []
  /\ List.length (o_arrayList c_fits1) = 1%nat /\ map wv_nwave (o_wavelengthList c_fits1) = [2].
Proof.
  split; [exact c_consistent|]. split; [exact c_distinct|]. split; [exact c_conforms|]. split; [repeat split; reflexivity|].
  split; [exact c_filtered|exact c_left].
Qed.

(** ** C55: merging conforming data gives conforming data *)

Theorem C55_conforms : forall ins out, Forall (fun d => wf_fits d = true) ins -> merge_oi_fits_list ins = Ok out ->
  Forall merge_ready ins -> plain_names ins -> ins <> [] -> Forall dated ins -> conforms out.
Proof. exact merge_conforms. Qed.
Print Assumptions C55_conforms.
Theorem C55_passes : forall ins out, Forall (fun d => wf_fits d = true) ins -> merge_oi_fits_list ins = Ok out ->
  Forall merge_ready ins -> plain_names ins -> ins <> [] -> Forall dated ins -> Forall fluxes_nonempty ins -> passes out.
Proof. exact merge_passes. Qed.
Print Assumptions C55_passes.
(** Merging data of version 1 that conform to it: false, the result is labelled version 2,
    which needs an OI_ARRAY. *)
Theorem C55_version1_refuted : exists d out, wf_fits d = true /\ conforms d /\ distinct_names d /\ dated d /\ names_fit d
  /\ merge_oi_fits_list [d] = Ok out /\ List.length (o_vis2List out) = 1%nat
  /\ h_content (o_header out) = "OIFITS2"%string /\ o_arrayList out = [] /\ ~ conforms out.
Proof. exact bare_breaks. Qed.
Print Assumptions C55_version1_refuted.

Example C55_case : Forall merge_ready c_ins /\ plain_names c_ins /\ Forall dated c_ins /\ Forall fluxes_nonempty c_ins
  /\ map (fun d => h_content (o_header d)) c_ins = ["OIFITS2"; ""]%string
  /\ exists out, merge_oi_fits_list c_ins = Ok out /\ List.length (o_arrayList out) = 3%nat
       /\ map tb_arrname (o_vis2List out) = ["CHARA"; "VLTI_003"]%string /\ conforms out /\ passes out.
Proof.
  split; [exact c_ready|]. split; [exact c_plain|]. split; [exact c_dated|]. split; [exact c_fluxes|].
  split; [reflexivity|exact c_merged].
Qed.

(** *** C25: the tables of one input that name the same array, instrument or correlations still do *)
Theorem C25_one_name : forall ins out, Forall (fun d => wf_fits d = true) ins -> merge_oi_fits_list ins = Ok out ->
  exists fs, List.length fs = List.length ins /\ Forall keeps_blank fs
  /\ Forall2 renamed (with_inputs o_visList ins fs) (o_visList out)
  /\ Forall2 renamed (with_inputs o_vis2List ins fs) (o_vis2List out)
  /\ Forall2 renamed (with_inputs o_t3List ins fs) (o_t3List out)
  /\ Forall2 renamed (with_inputs o_fluxList ins fs) (o_fluxList out)
  /\ Forall2 inspol_renamed (with_inputs o_inspolList ins fs) (o_inspolList out).
Proof. exact merge_renamed. Qed.
Print Assumptions C25_one_name.

(** ** C56: what oifits-check says of files *)

Theorem C56_check : forall E fmt name d o,
  (String.length name <= 1024)%nat -> reads E name d o -> named_elsewhere o -> uniform_stations o ->
  exists text, summary_of fmt o text
    /\ (oifits_check E fmt [name] d = Ok (mk_outcome 0 (text ++ "All checks passed" ++ nl) d) <-> conforms o).
Proof. exact check_passed_iff. Qed.
Print Assumptions C56_check.
(** a file the library has written conforms exactly when the dataset was ready for that *)
Theorem C56_written : forall E name d o, cf_today E <> ""%string -> file_holds E name d o ->
  exists o', reads E name d o' /\ (conforms o' <-> store_ready o).
Proof. exact written_conforms. Qed.
Print Assumptions C56_written.
Theorem C56_written_check : forall E fmt name d o, (String.length name <= 1024)%nat -> cf_today E <> ""%string ->
  file_holds E name d o -> named_elsewhere o -> store_ready o -> passed E fmt name d.
Proof. exact written_passed. Qed.
Print Assumptions C56_written_check.
Theorem C56_version2 : forall o, conforms o -> h_content (o_header o) = "OIFITS2"%string -> store_ready o.
Proof. exact conforming_ready. Qed.
Print Assumptions C56_version2.
Theorem C56_version1 : forall o, conforms o -> version2_needs o -> header_given (o_header o) -> store_ready o.
Proof. exact version1_ready. Qed.
Print Assumptions C56_version1.
(** oifits-filter, then oifits-check *)
Theorem C56_filter : forall E fmt, cf_today E <> ""%string -> forall pow_half can_remove clobber opts inName out d o,
  (String.length inName <= 1024)%nat -> (String.length out <= 1024)%nat ->
  reads E inName d o -> channels_match o -> storable_fits E o = true ->
  f_target_id (user_filter opts) < 0
    \/ (exists t, In t (ot_targ (o_targets o)) /\ tg_target_id t = f_target_id (user_filter opts)) ->
  find_file out d = None \/ (clobber = true /\ can_remove out = true) ->
  store_ready o ->
  exists f' o' x, apply_oi_filter pow_half o (user_filter opts) = Ok (f', o')
    /\ filter_run E fmt pow_half can_remove clobber opts inName out d = Ok x /\ x_status x = 0
    /\ (has_stations o' -> corrs_elsewhere o' -> passed E fmt out (x_disk x)).
Proof. exact filter_then_check. Qed.
Print Assumptions C56_filter.
(** oifits-merge, then oifits-check *)
Theorem C56_merge : forall E fmt, cf_today E <> ""%string -> forall out names d ins,
  (String.length out <= 1024)%nat ->
  (2 <= List.length names)%nat -> Forall2 (fun n o => reads E n d o) names ins -> targets_match ins ->
  Forall (fun o => storable_fits E o = true) ins -> roomy_names ins -> find_file out d = None ->
  Forall merge_ready ins -> plain_names ins -> Forall named_elsewhere ins ->
  exists x, oifits_merge E fmt (out :: names) d = Ok x /\ x_status x = 0 /\ passed E fmt out (x_disk x).
Proof. exact merge_then_check. Qed.
Print Assumptions C56_merge.
(** oifits-upgrade, then oifits-check *)
Theorem C56_upgrade : forall E fmt, cf_today E <> ""%string -> forall inName out origin observer insmode more d o,
  (String.length out <= 1024)%nat ->
  reads E inName d o -> h_content (o_header o) <> "OIFITS2"%string ->
  storable_fits E o = true -> card_text (cut origin) = true -> card_text (cut observer) = true ->
  card_text (cut insmode) = true -> find_file out d = None ->
  conforms o -> version2_needs o -> named_elsewhere o ->
  Forall (fun v => v <> ""%string) [origin; observer; insmode; h_date_obs (o_header o); h_telescop (o_header o);
    h_instrume (o_header o); h_object (o_header o)] ->
  exists x, oifits_upgrade E fmt (inName :: out :: origin :: observer :: insmode :: more) d = Ok x /\ x_status x = 0
    /\ passed E fmt out (x_disk x).
Proof. exact upgrade_then_check. Qed.
Print Assumptions C56_upgrade.

Example C56_case_filter : reads e0 "c" c_disk t_c /\ channels_match t_c /\ named_elsewhere t_c /\ store_ready t_c
  /\ exists f' o', apply_oi_filter sqrt64 t_c (user_filter c_options) = Ok (f', o')
       /\ has_stations o' /\ corrs_elsewhere o' /\ List.length (o_inspolList o') = 1%nat /\ map wv_nwave (o_wavelengthList o') = [2].
Proof.
  split; [exact c_reads|]. split; [exact c_channels|]. split; [exact c_named|]. split; [exact c_store|exact c_filter_left].
Qed.
Example C56_case_merge : Forall2 (fun n o => reads e0 n c_disk o) ["c"; "n"]%string [t_c; t_n] /\ targets_match [t_c; t_n]
  /\ Forall (fun o => storable_fits e0 o = true) [t_c; t_n] /\ roomy_names [t_c; t_n] /\ Forall merge_ready [t_c; t_n]
  /\ plain_names [t_c; t_n] /\ Forall named_elsewhere [t_c; t_n].
Proof.
  split; [apply Forall2_cons; [exact c_reads|apply Forall2_cons; [exact n_reads|apply Forall2_nil]]|]. split; [exact cn_targets|]. split; [exact cn_storable|].
  split; [exact cn_names|]. split; [exact cn_ready|]. split; [exact cn_plain|]. apply Forall_cons; [exact c_named|apply Forall_cons; [exact n_named|apply Forall_nil]].
Qed.
Example C56_case_upgrade : reads e0 "w" c_disk t_w /\ h_content (o_header t_w) = ""%string /\ storable_fits e0 t_w = true
  /\ conforms t_w /\ version2_needs t_w /\ named_elsewhere t_w
  /\ Forall (fun v => v <> ""%string) ["ESO"%string; "Someone"%string; "HIGH"%string; h_date_obs (o_header t_w); h_telescop (o_header t_w);
    h_instrume (o_header t_w); h_object (o_header t_w)].
Proof.
  split; [exact w_reads|]. split; [reflexivity|]. split; [exact w_storable|]. split; [exact t_w_conforms|]. split; [exact w_needs|].
  split; [exact w_named|]. repeat constructor; discriminate.
Qed.
