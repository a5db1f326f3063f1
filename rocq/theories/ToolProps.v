(** Properties C47-C53: the programs in src/util. *)
From Verif Require Import Base Sample FloatModel FilterProofs MergeMain IOMain ReadModel ReadWf FileModel FilterModel
  MergeModel CheckModel FilterMain ToolModel ToolSpec ToolMerge ToolProofs ToolPrograms ToolMain.
Open Scope list_scope.
Open Scope Z_scope.

(** ** C47: what is read is well formed *)

Theorem C47_fits : forall E name d st o st', read_oi_fits E name d st = Ok (Some o, st') ->
  wf_fits o = true /\ tables_nonempty o /\ 0 < ot_ntarget (o_targets o).
Proof. exact read_wf. Qed.
Print Assumptions C47_fits.
Theorem C47_tables : forall E,
  yields (read_oi_target E) (fun t => wf_targets t = true /\ 0 < ot_ntarget t)
  /\ (forall name, yields (read_oi_array E name) (fun a => wf_array a = true /\ 0 < ar_nelement a))
  /\ (forall name, yields (read_oi_wavelength E name) (fun w => wf_wavelength w = true /\ 0 < wv_nwave w))
  /\ (forall name, yields (read_oi_corr E name) (fun c => wf_corr c = true /\ 0 < co_ncorr c))
  /\ yields (read_next_oi_array E) (fun a => wf_array a = true /\ 0 < ar_nelement a)
  /\ yields (read_next_oi_wavelength E) (fun w => wf_wavelength w = true /\ 0 < wv_nwave w)
  /\ yields (read_next_oi_corr E) (fun c => wf_corr c = true /\ 0 < co_ncorr c)
  /\ yields (read_next_oi_inspol E) (fun t => wf_inspol t = true /\ 0 < is_numrec t /\ 0 < is_nwave t)
  /\ yields (read_next_oi_vis E) (fun t => wf_vis t = true /\ 0 < tb_numrec t /\ 0 < tb_nwave t)
  /\ yields (read_next_oi_vis2 E) (fun t => wf_vis2 t = true /\ 0 < tb_numrec t /\ 0 < tb_nwave t)
  /\ yields (read_next_oi_t3 E) (fun t => wf_t3 t = true /\ 0 < tb_numrec t /\ 0 < tb_nwave t)
  /\ yields (read_next_oi_flux E) (fun t => wf_flux t = true /\ 0 < tb_numrec t /\ 0 < tb_nwave t).
Proof. exact tables_yield. Qed.
Print Assumptions C47_tables.
(** A dataset is returned only with status 0. *)
Theorem C47_status : forall E name d o st, read_oi_fits E name d 0 = Ok (Some o, st) -> st = 0.
Proof. exact read_status. Qed.
Print Assumptions C47_status.

Example C47_case : reads e0 "a" t_disk t_a
  /\ (List.length (o_arrayList t_a), List.length (o_visList t_a), List.length (o_vis2List t_a),
      List.length (o_inspolList t_a)) = (2, 1, 1, 1)%nat.
Proof. exact (conj a_reads eq_refl). Qed.

(** ** C48: oifits-merge *)

Theorem C48_output : forall E fmt out names d ins,
  (2 <= List.length names)%nat -> Forall2 (fun n o => reads E n d o) names ins -> targets_match ins ->
  Forall (fun o => storable_fits E o = true) ins -> roomy_names ins -> find_file out d = None ->
  exists o x text, merge_oi_fits_list ins = Ok o /\ oifits_merge E fmt (out :: names) d = Ok x
    /\ x_status x = 0 /\ x_stdout x = ("=== MERGED DATA: ===" ++ nl ++ text)%string /\ summary_of fmt o text
    /\ only_adds out d (x_disk x) /\ file_holds E out (x_disk x) o.
Proof. exact merge_output. Qed.
Print Assumptions C48_output.
Theorem C48_files : forall E fmt args d x, oifits_merge E fmt args d = Ok x ->
  (x_disk x = d \/ exists out, hd_error args = Some out /\ only_adds out d (x_disk x))
  /\ (x_status x = 0 -> exists out names ins o hdus, args = out :: names /\ (2 <= List.length names)%nat
        /\ Forall2 (fun n o => reads E n d o) names ins /\ merge_oi_fits_list ins = Ok o
        /\ find_file out d = None /\ x_disk x = (out, hdus) :: d /\ version2 o hdus)
  /\ (x_status x = 0 \/ x_status x = 1 \/ x_status x = 2).
Proof. exact merge_files. Qed.
Print Assumptions C48_files.
Theorem C48_existing : forall E fmt out names d hdus x, find_file out d = Some hdus ->
  oifits_merge E fmt (out :: names) d = Ok x -> x_status x <> 0 /\ x_disk x = d.
Proof. exact merge_existing. Qed.
Print Assumptions C48_existing.
Theorem C48_unreadable : forall E fmt out before n after d ins,
  (2 <= List.length (before ++ n :: after))%nat ->
  Forall2 (fun n o => reads E n d o) before ins -> cannot_read E n d ->
  oifits_merge E fmt (out :: before ++ n :: after) d = Ok (mk_outcome 1 "" d).
Proof. exact merge_unreadable. Qed.
Print Assumptions C48_unreadable.
Theorem C48_usage : forall E fmt args d, (List.length args < 3)%nat ->
  exists m, oifits_merge E fmt args d = Ok (mk_outcome 2 m d).
Proof. exact merge_usage. Qed.
Print Assumptions C48_usage.
(** Nothing is left behind by a run that fails: false, part of the output is. *)
Theorem C48_incomplete_refuted : forall fmt, exists d x hdus, List.length (o_vis2List t_y) = 2%nat
  /\ reads e0 "f" d t_y /\ find_file "o" d = None
  /\ oifits_merge e0 fmt ["o"; "f"; "f"]%string d = Ok x /\ x_status x = 1
  /\ find_file "o" (x_disk x) = Some hdus /\ List.length hdus = 4%nat.
Proof. exact merge_incomplete. Qed.
Print Assumptions C48_incomplete_refuted.

Example C48_case : Forall2 (fun n o => reads e0 n t_disk o) ["a"; "b"]%string [t_a; t_b]
  /\ targets_match [t_a; t_b] /\ Forall (fun o => storable_fits e0 o = true) [t_a; t_b]
  /\ roomy_names [t_a; t_b] /\ find_file "o" t_disk = None.
Proof.
  split; [constructor; [exact a_reads|]; constructor; [exact b_reads|]; constructor|].
  split; [exact ab_targets|]. split; [exact (Forall_cons _ a_storable (Forall_cons _ b_storable (Forall_nil _)))|].
  exact (conj ab_names eq_refl).
Qed.
Example C48_unreadable_case : forall E, cannot_read E "nowhere" t_disk.
Proof. intros E. exists 104. split; [discriminate|reflexivity]. Qed.

(** ** C49: oifits-upgrade *)

Theorem C49_output : forall E fmt inName out origin observer insmode more d o,
  reads E inName d o -> h_content (o_header o) <> "OIFITS2"%string -> o_arrayList o <> [] ->
  storable_fits E o = true -> card_text (cut origin) = true -> card_text (cut observer) = true ->
  card_text (cut insmode) = true -> find_file out d = None ->
  exists o' x text, relabelled origin observer insmode o o'
    /\ oifits_upgrade E fmt (inName :: out :: origin :: observer :: insmode :: more) d = Ok x
    /\ x_status x = 0 /\ x_stdout x = ("=== INPUT DATA: ===" ++ nl ++ text)%string /\ summary_of fmt o' text
    /\ only_adds out d (x_disk x) /\ file_holds E out (x_disk x) o'.
Proof. exact upgrade_output. Qed.
Print Assumptions C49_output.
Theorem C49_files : forall E fmt args d x, oifits_upgrade E fmt args d = Ok x ->
  (x_disk x = d \/ exists out, nth_error args 1 = Some out /\ only_adds out d (x_disk x))
  /\ (x_status x = 0 -> exists inName out rest o o' hdus, args = inName :: out :: rest /\ reads E inName d o
        /\ h_content (o_header o) <> "OIFITS2"%string /\ o_arrayList o <> [] /\ find_file out d = None
        /\ o_targets o' = o_targets o /\ o_arrayList o' = o_arrayList o /\ o_wavelengthList o' = o_wavelengthList o
        /\ o_corrList o' = o_corrList o /\ o_inspolList o' = o_inspolList o /\ o_visList o' = o_visList o
        /\ o_vis2List o' = o_vis2List o /\ o_t3List o' = o_t3List o /\ o_fluxList o' = o_fluxList o
        /\ x_disk x = (out, hdus) :: d /\ version2 o' hdus)
  /\ (x_status x = 0 \/ x_status x = 1 \/ x_status x = 2).
Proof. exact upgrade_files. Qed.
Print Assumptions C49_files.
Theorem C49_existing : forall E fmt inName out rest d hdus x, find_file out d = Some hdus ->
  oifits_upgrade E fmt (inName :: out :: rest) d = Ok x -> x_status x <> 0 /\ x_disk x = d.
Proof. exact upgrade_existing. Qed.
Print Assumptions C49_existing.
Theorem C49_refused : forall E fmt inName out origin observer more d,
  cannot_read E inName d
  \/ (exists o, reads E inName d o /\ (h_content (o_header o) = "OIFITS2"%string \/ o_arrayList o = [])) ->
  exists m, oifits_upgrade E fmt (inName :: out :: origin :: observer :: more) d = Ok (mk_outcome 1 m d).
Proof. exact upgrade_refused. Qed.
Print Assumptions C49_refused.
Theorem C49_twice : forall E fmt name d o out origin observer more, file_holds E name d o ->
  exists m, oifits_upgrade E fmt (name :: out :: origin :: observer :: more) d = Ok (mk_outcome 1 m d).
Proof. exact upgrade_twice. Qed.
Print Assumptions C49_twice.
Theorem C49_usage_partial : forall E fmt args d, (List.length args < 4)%nat ->
  exists m, oifits_upgrade E fmt args d = Ok (mk_outcome 2 m d).
Proof. exact upgrade_usage. Qed.
Print Assumptions C49_usage_partial.
(** Missing: the case of four arguments, where INSMODE has not been given. *)
Theorem C49_usage_refuted : forall fmt, exists x o,
  oifits_upgrade e0 fmt ["v"; "o"; "me"; "you"]%string v_disk = Ok x /\ x_status x = 0
  /\ reads e0 "o" (x_disk x) o /\ h_insmode (o_header o) = "UNKNOWN"%string.
Proof. exact upgrade_four. Qed.
Print Assumptions C49_usage_refuted.

Example C49_case : reads e0 "v" v_disk t_v /\ storable_fits e0 t_v = true
  /\ (h_content (o_header t_v) = ""%string /\ List.length (o_arrayList t_v) = 2%nat
      /\ List.length (o_vis2List t_v) = 1%nat /\ ot_revision (o_targets t_v) = 1)
  /\ card_text (cut "my observatory") = true /\ find_file "o" v_disk = None.
Proof. exact (conj v_reads (conj v_storable (conj v_old (conj eq_refl eq_refl)))). Qed.
Example C49_twice_case : forall fmt, exists x o, oifits_upgrade e0 fmt ["v"; "o"; "me"; "you"; "HIGH"]%string v_disk = Ok x
  /\ file_holds e0 "o" (x_disk x) o.
Proof.
  intros fmt. destruct (upgrade_output e0 fmt "v" "o" "me" "you" "HIGH" [] v_disk t_v) as (o' & x & text & _ & H & _ & _ & _ & _ & H1);
    [exact v_reads|discriminate|discriminate|exact v_storable|reflexivity|reflexivity|reflexivity|reflexivity|].
  exists x, o'. exact (conj H H1).
Qed.

(** ** C50: oifits-filter *)

Theorem C50_output : forall E fmt pow_half can_remove clobber opts inName out d o,
  (String.length inName <= 1024)%nat -> (String.length out <= 1024)%nat ->
  reads E inName d o -> channels_match o -> storable_fits E o = true ->
  f_target_id (user_filter opts) < 0
    \/ (exists t, In t (ot_targ (o_targets o)) /\ tg_target_id t = f_target_id (user_filter opts)) ->
  find_file out d = None \/ (clobber = true /\ can_remove out = true) ->
  exists f' o' x, apply_oi_filter pow_half o (user_filter opts) = Ok (f', o')
    /\ filter_run E fmt pow_half can_remove clobber opts inName out d = Ok x /\ x_status x = 0
    /\ (exists text1 text2, summary_of fmt o text1 /\ summary_of fmt o' text2
          /\ x_stdout x = ("=== INPUT DATA: ===" ++ nl ++ text1 ++ "=== Applying filter: ===" ++ nl
               ++ filter_text fmt (user_filter opts) ++ "--> OUTPUT DATA: ===" ++ nl ++ text2)%string)
    /\ others_kept out d (x_disk x) /\ file_holds E out (x_disk x) o'.
Proof. exact filter_output. Qed.
Print Assumptions C50_output.
Theorem C50_files : forall E fmt pow_half can_remove clobber opts inName out d x,
  (String.length out <= 1024)%nat -> filter_run E fmt pow_half can_remove clobber opts inName out d = Ok x ->
  others_kept out d (x_disk x)
  /\ (clobber = false -> only_adds out d (x_disk x))
  /\ (clobber = false -> find_file out d <> None -> x_status x = 1 /\ x_disk x = d)
  /\ (x_status x = 0 -> (String.length inName <= 1024)%nat ->
      exists o f' o' hdus, reads E inName d o /\ apply_oi_filter pow_half o (user_filter opts) = Ok (f', o')
        /\ find_file out (x_disk x) = Some hdus /\ version2 o' hdus)
  /\ (x_status x = 0 \/ x_status x = 1).
Proof. exact filter_files. Qed.
Print Assumptions C50_files.
Theorem C50_refused : forall E fmt pow_half can_remove clobber opts inName out d o,
  (String.length inName <= 1024)%nat -> (String.length out <= 1024)%nat ->
  reads E inName d o -> channels_match o ->
  f_target_id (user_filter opts) < 0
    \/ (exists t, In t (ot_targ (o_targets o)) /\ tg_target_id t = f_target_id (user_filter opts)) ->
  find_file out d <> None -> clobber = false \/ can_remove out = false ->
  exists f' o' text1 text2, apply_oi_filter pow_half o (user_filter opts) = Ok (f', o')
    /\ summary_of fmt o text1 /\ summary_of fmt o' text2
    /\ filter_run E fmt pow_half can_remove clobber opts inName out d = Ok (mk_outcome 1
         ("=== INPUT DATA: ===" ++ nl ++ text1 ++ "=== Applying filter: ===" ++ nl
          ++ filter_text fmt (user_filter opts) ++ "--> OUTPUT DATA: ===" ++ nl ++ text2
          ++ (if clobber then "Failed to remove existing output file '" ++ out ++ "'" ++ nl
              else "Output file '" ++ out ++ "' exists and '--clobber' not specified -> Exiting..." ++ nl)) d).
Proof. exact filter_refused. Qed.
Print Assumptions C50_refused.
Theorem C50_unremovable : forall E fmt pow_half can_remove opts inName out d x,
  (String.length out <= 1024)%nat -> find_file out d <> None -> can_remove out = false ->
  filter_run E fmt pow_half can_remove true opts inName out d = Ok x -> x_status x = 1 /\ x_disk x = d.
Proof. exact filter_unremovable. Qed.
Print Assumptions C50_unremovable.
Theorem C50_unreadable : forall E fmt pow_half can_remove clobber opts inName out d,
  (String.length inName <= 1024)%nat -> cannot_read E inName d ->
  filter_run E fmt pow_half can_remove clobber opts inName out d = Ok (mk_outcome 1 "" d).
Proof. exact filter_unreadable. Qed.
Print Assumptions C50_unreadable.
Theorem C50_usage : forall E fmt pow_half can_remove clobber opts args d, List.length args <> 2%nat ->
  exists m, oifits_filter E fmt pow_half can_remove (Some (mk_command_line clobber opts args)) d = Ok (mk_outcome 2 m d).
Proof. exact filter_usage. Qed.
Print Assumptions C50_usage.
(** With --clobber a failed run leaves the old file: false, and it may have been the input. *)
Theorem C50_clobber_refuted : forall fmt, exists d x,
  reads e0 "f" d t_y /\ channels_match t_y
  /\ filter_run e0 fmt sqrt64 (fun _ => true) true [] "f" "f" d = Ok x /\ x_status x = 1
  /\ (exists hdus, find_file "f" d = Some hdus /\ List.length hdus = 5%nat)
  /\ (forall name hdus, find_file name (x_disk x) = Some hdus -> List.length hdus = 4%nat).
Proof. exact clobber_loses. Qed.
Print Assumptions C50_clobber_refuted.
(** The output of a run that succeeds can be read: false if the target selected is absent. *)
Theorem C50_target_refuted : forall fmt, exists x,
  filter_run e0 fmt sqrt64 (fun _ => true) false [Target_id 99] "a" "o" t_disk = Ok x
  /\ x_status x = 0 /\ read_oi_fits e0 "o" (x_disk x) 0 = Abort.
Proof. exact absent_target. Qed.
Print Assumptions C50_target_refuted.
(** Only the output file named changes: false for names of more than 1024 characters. *)
Theorem C50_long_name_refuted : forall fmt, exists d out x, find_file out d = None
  /\ filter_run e0 fmt sqrt64 (fun _ => true) true [] "a" out d = Ok x /\ x_status x = 0
  /\ exists other hdus, other <> out /\ find_file other d = Some hdus /\ find_file other (x_disk x) <> Some hdus.
Proof. exact clobber_other. Qed.
Print Assumptions C50_long_name_refuted.

Example C50_case : reads e0 "a" t_disk t_a /\ channels_match t_a /\ storable_fits e0 t_a = true
  /\ (exists t, In t (ot_targ (o_targets t_a)) /\ tg_target_id t = f_target_id (user_filter [Target_id 9; Wave_min (fl 2050 1)]))
  /\ find_file "a" t_disk <> None /\ find_file "o" t_disk = None.
Proof.
  split; [exact a_reads|]. split; [exact a_channels|]. split; [exact a_storable|].
  split; [eexists; split; [right; left; reflexivity|reflexivity]|]. split; [discriminate|reflexivity].
Qed.

(** ** C51: oifits-check *)

Theorem C51_output_partial : forall E fmt name d o,
  (String.length name <= 1024)%nat -> reads E name d o -> named_elsewhere o -> checkable o ->
  exists text, summary_of fmt o text /\ check_run E fmt name d = Ok (mk_outcome 0 (text ++ check_text o) d).
Proof. exact check_output. Qed.
Print Assumptions C51_output_partial.
(** Missing: datasets for which the index disagrees with the lists (C06), and those with two
    kinds of violation found by one check, on which it aborts. *)
Theorem C51_aborts : forall E fmt name d o,
  (String.length name <= 1024)%nat -> reads E name d o -> named_elsewhere o ->
  (~ tables_present o /\ ~ revisions_ok o) \/ (~ inspol_named o /\ ~ elements_present o) ->
  check_run E fmt name d = Abort.
Proof. exact check_aborts. Qed.
Print Assumptions C51_aborts.
Theorem C51_output_refuted : forall E fmt, exists o, reads E "z" [("z"%string, z_file)] o
  /\ check_run E fmt "z" [("z"%string, z_file)] = Abort.
Proof. exact check_stops. Qed.
Print Assumptions C51_output_refuted.
Theorem C51_unreadable : forall E fmt name d, (String.length name <= 1024)%nat -> cannot_read E name d ->
  check_run E fmt name d = Ok (mk_outcome 1 "" d).
Proof. exact check_unreadable. Qed.
Print Assumptions C51_unreadable.
Theorem C51_usage : forall E fmt args d, List.length args <> 1%nat ->
  exists m, oifits_check E fmt args d = Ok (mk_outcome 2 m d).
Proof. exact check_usage. Qed.
Print Assumptions C51_usage.

Example C51_case : reads e0 "a" t_disk t_a /\ named_elsewhere t_a /\ checkable t_a
  /\ check_text t_a = ("*** Does not conform to the OIFITS standard:" ++ nl
       ++ "ARRNAME/STA_INDEX/FOVTYPE present (missing) in (un)calibrated fluxes, 1 occurrences:-" ++ nl
       ++ "    OI_FLUX #1 Uncalibrated but FOVTYPE present" ++ nl)%string.
Proof.
  split; [exact a_reads|]. split; [exact a_named|]. split; [exact a_checkable|]. vm_compute. reflexivity.
Qed.

(** ** C52: the filter of the command line *)

Theorem C52_filter : forall opts, filter_of opts (user_filter opts).
Proof. exact user_filter_ok. Qed.
Print Assumptions C52_filter.
Theorem C52_default : user_filter [] = init_oi_filter.
Proof. exact user_filter_default. Qed.
Print Assumptions C52_default.

(** what is printed of any filter *)
Theorem C52_text : forall fmt f, format_oi_filter fmt f = filter_text fmt f.
Proof. exact filter_described. Qed.
Print Assumptions C52_text.

Example C52_case :
  (f_target_id (user_filter [Target_id 4; Arrname "V*"; Target_id 9]),
   f_arrname (user_filter [Target_id 4; Arrname "V*"; Target_id 9]),
   f_insname (user_filter [Target_id 4; Arrname "V*"; Target_id 9])) = (9, "V*", "*")%string.
Proof. reflexivity. Qed.

Example C52_text_case : exists text,
  format_oi_filter (fun _ _ => "?"%string) (user_filter [Target_id 4; Accept_vis 0]) = text
  /\ String.length text = 340%nat.
Proof. eexists. split; vm_compute; reflexivity. Qed.

(** ** C53: the summary *)

Theorem C53_summary : forall fmt o, wf_fits o = true ->
  exists text, format_oi_fits_summary fmt o = Ok text /\ summary_of fmt o text.
Proof. exact summary_ok. Qed.
Print Assumptions C53_summary.

Example C53_case : wf_fits s_fits = true
  /\ exists text, format_oi_fits_summary (fun _ _ => "?"%string) s_fits = Ok text
     /\ String.length text = 1073%nat.
Proof. split; [reflexivity|]. eexists. split; vm_compute; reflexivity. Qed.
