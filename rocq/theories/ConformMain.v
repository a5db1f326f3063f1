(** Concrete conforming datasets and files. *)
From Coq Require Import Lia.
From Verif Require Import BaseLemmas Sample FloatModel FilterMain FilterProofs FilterModel MergeModel MergeMain MergeSpec CheckModel CheckSpec CheckMain
  IOMain IOProofs WriteKeys ReadModel WriteModel ReadWf ToolModel ToolSpec ToolFilter ToolMerge ToolProofs ToolPrograms ToolMain
  ConformSpec ConformFilter ConformMerge ConformStore ConformTools.
Open Scope list_scope.
Open Scope string_scope.
Open Scope Z_scope.

(** ** A version 2 dataset with tables of every kind, and one of version 1 *)

Lemma conforming o : wf_fits o = true -> fluxes_nonempty o -> uniform_stations o -> forallb (fun vs : list violation => match vs with [] => true | _ => false end) (findings o) = true -> conforms o.
Proof.
  intros W N U F. apply findings_nil; try assumption. apply Forall_forall. intros vs Hv.
  pose proof (proj1 (forallb_forall _ _) F vs Hv) as E. now destruct vs.
Qed.
Definition c_fits : oi_fits := with_flux k_flux_ok.
Lemma c_conforms : conforms c_fits.
Proof.
  destruct k_flux_case as (N & U & _). apply conforming; [vm_compute; reflexivity|exact N|exact U|vm_compute; reflexivity].
Qed.
Lemma m_conforms : conforms m_fits.
Proof. apply conforming; [vm_compute; reflexivity|intros t []|intros t []|vm_compute; reflexivity]. Qed.

(** ** Filtering *)

Lemma c_consistent : consistent c_fits.
Proof.
  split.
  - reflexivity.
  - reflexivity.
  - intros a [<-|[<-|[]]]; reflexivity.
  - intros c [<-|[]]; reflexivity.
  - intros w [<-|[<-|[]]]; split; reflexivity.
  - repeat constructor; cbn; intuition discriminate.
  - intros w [<-|[<-|[]]] _; reflexivity.
  - intros t [<-|[]]; split; [reflexivity|]. intros w [[<-|[<-|[]]] E]; [reflexivity|discriminate].
  - intros t [<-|[]]; split; [reflexivity|]. intros w [[<-|[<-|[]]] E]; [discriminate|reflexivity].
  - intros t [<-|[]]; split; [reflexivity|]. intros w [[<-|[<-|[]]] E]; [reflexivity|discriminate].
  - intros t [<-|[]]; split; [reflexivity|]. intros w [[<-|[<-|[]]] E]; [reflexivity|discriminate].
  - intros t [<-|[]]; split; [reflexivity|]. exists "GRAVITY"%string. split.
    + intros r [<-|[]]. reflexivity.
    + intros w [[<-|[<-|[]]] E]; [reflexivity|discriminate].
Qed.
Definition c_fits1 : oi_fits := Eval vm_compute in out_of (apply_oi_filter sqrt64 c_fits s_filter).
Lemma c_filtered : apply_oi_filter sqrt64 c_fits s_filter = Ok (s_filter, c_fits1).
Proof. vm_compute. reflexivity. Qed.
Lemma distinct_intro o : NoDup (map ar_arrname (o_arrayList o)) -> NoDup (map wv_insname (o_wavelengthList o)) ->
  NoDup (map co_corrname (o_corrList o)) -> distinct_names o.
Proof. repeat split; assumption. Qed.
Lemma c_distinct : distinct_names c_fits.
Proof. apply distinct_intro; cbn; repeat constructor; cbn; intuition discriminate. Qed.
Lemma c_left : has_data c_fits1 /\ List.length (o_visList c_fits1) = 1%nat /\ o_vis2List c_fits1 = []
  /\ List.length (o_arrayList c_fits1) = 1%nat /\ map wv_nwave (o_wavelengthList c_fits1) = [2].
Proof. split; [left; left; discriminate|]. repeat split; vm_compute; reflexivity. Qed.

(** a calibrated spectrum beside other data, and a filter that leaves only that *)
Definition c_spectrum : oi_flux :=
  mk_dtab 1 "2019-12-31" "" "GRAVITY" "" (mk_flux_extra (fl 1 10) "FWHM" "C" "Jy") 1 3
    [let r := s_flux_record 4 58848 [false; false; false] in
     mk_flux_record (fr_target_id r) (fr_mjd r) (fr_int_time r) (fr_fluxdata r) (fr_fluxerr r) (fr_corrindx_fluxdata r) (-1) (fr_flag r)].
Definition c_both : oi_fits := with_flux c_spectrum.
Definition flux_only : filter_spec :=
  mk_filter "*" "*" "*" (-1) (f64_of_Z 0) (f64_of_Z 10000000)
    (fl32 0 1) (fl32 1 10000) (f64_of_Z 0) (f64_of_Z 10000)
    (f64_of_Z 0) (f64_of_Z 100000000000) (fl32 (-5) 1) (fl32 10000000000 1)
    false false false false true true None None None.
Lemma c_both_conforms : conforms c_both.
Proof.
  apply conforming; [vm_compute; reflexivity|intros t [<-|[]]; discriminate| |vm_compute; reflexivity].
  intros t [<-|[]]. left. repeat constructor.
Qed.
Lemma c_both_consistent : consistent c_both.
Proof.
  split.
  - reflexivity.
  - reflexivity.
  - intros a [<-|[<-|[]]]; reflexivity.
  - intros c [<-|[]]; reflexivity.
  - intros w [<-|[<-|[]]]; split; reflexivity.
  - repeat constructor; cbn; intuition discriminate.
  - intros w [<-|[<-|[]]] _; reflexivity.
  - intros t [<-|[]]; split; [reflexivity|]. intros w [[<-|[<-|[]]] E]; [reflexivity|discriminate].
  - intros t [<-|[]]; split; [reflexivity|]. intros w [[<-|[<-|[]]] E]; [discriminate|reflexivity].
  - intros t [<-|[]]; split; [reflexivity|]. intros w [[<-|[<-|[]]] E]; [reflexivity|discriminate].
  - intros t [<-|[]]; split; [reflexivity|]. intros w [[<-|[<-|[]]] E]; [reflexivity|discriminate].
  - intros t [<-|[]]; split; [reflexivity|]. exists "GRAVITY"%string. split.
    + intros r [<-|[]]. reflexivity.
    + intros w [[<-|[<-|[]]] E]; [reflexivity|discriminate].
Qed.
Lemma flux_only_breaks : exists d f f' d', consistent d /\ distinct_names d /\ conforms d /\ fresh_filter f
  /\ apply_oi_filter sqrt64 d f = Ok (f', d') /\ List.length (o_fluxList d') = 1%nat /\ o_arrayList d' = []
  /\ h_content (o_header d') = "OIFITS2" /\ ~ conforms d' /\ ~ passes d'.
Proof.
  destruct (apply_oi_filter sqrt64 c_both flux_only) as [(f' & d')| |] eqn:E; [|exfalso; vm_compute in E; discriminate E..].
  assert (Ef : exists n, result (fun fd => (List.length (o_fluxList (snd fd)), List.length (o_arrayList (snd fd)),
    h_content (o_header (snd fd)), option_map cr_level (match check_tables (snd fd) with Ok r => Some r | _ => None end)))
    (apply_oi_filter sqrt64 c_both flux_only) = n /\ n = Some (1%nat, 0%nat, "OIFITS2", Some 2)).
  { eexists. split; vm_compute; reflexivity. }
  destruct Ef as (n & En & ->). rewrite E in En. cbn [result snd] in En. apply some_eq in En.
  injection En as E1 E2 E3 E4.
  exists c_both, flux_only, f', d'. split; [exact c_both_consistent|]. split; [|split; [exact c_both_conforms|]].
  { apply distinct_intro; cbn; repeat constructor; cbn; intuition discriminate. }
  split; [repeat split; reflexivity|]. split; [exact E|]. split; [congruence|].
  assert (Ea : o_arrayList d' = []) by (destruct (o_arrayList d'); [reflexivity|discriminate]).
  split; [exact Ea|]. split; [congruence|]. split.
  - intros Cf. destruct (cf_tables d' Cf) as (T & _). apply T; [congruence|exact Ea].
  - intros P. apply Forall_inv in P as (r & Er & Lr). rewrite Er in E4. cbn in E4. unfold OI_BREACH_NONE in Lr. congruence.
Qed.

(** ** Merging *)

Definition c_ins : list oi_fits := [c_fits; m_fits].
Lemma c_wf : Forall (fun d => wf_fits d = true) c_ins.
Proof. all_of; vm_compute; reflexivity. Qed.
Lemma c_plain : plain_names c_ins.
Proof.
  assert (K : forall lit n, three_digits n = false -> ~ looks_generated lit n).
  { intros lit n E G. apply looks_three_digits in G. congruence. }
  split; [|split; [|split]].
  1,2,3: intros d x [<-|[<-|[]]] Hx; cbn in Hx;
    repeat (destruct Hx as [<-|Hx]; [apply K; reflexivity|]); contradiction.
  repeat split; vm_compute; reflexivity.
Qed.
Lemma m_needs : version2_needs m_fits.
Proof. constructor; cbn; [discriminate|..]; all_of; cbn; try discriminate; reflexivity. Qed.
Lemma c_ready : Forall merge_ready c_ins.
Proof.
  all_of.
  - constructor.
    + exact c_conforms.
    + intros N. now destruct N.
    + exact c_distinct.
    + unfold arrays_named. cbn. all_of; discriminate.
    + (split; [|split]); cbn; all_of; reflexivity.
    + unfold header_fits. all_of; reflexivity.
  - constructor.
    + exact m_conforms.
    + intros _. exact m_needs.
    + apply distinct_intro; cbn; repeat constructor; cbn; intuition discriminate.
    + unfold arrays_named. cbn. all_of; discriminate.
    + (split; [|split]); cbn; all_of; reflexivity.
    + unfold header_fits. all_of; reflexivity.
Qed.
Lemma c_dated : Forall dated c_ins.
Proof.
  all_of.
  - exists (Some (2019, 12, 31)). split; [lia|]. split; [reflexivity|]. exists "". reflexivity.
  - exists (Some (2018, 2, 3)). split; [lia|]. split; [reflexivity|]. exists "T12:00:00". reflexivity.
Qed.
Lemma c_fluxes : Forall fluxes_nonempty c_ins.
Proof. all_of; [intros t [<-|[]]; discriminate|intros t []]. Qed.
Lemma c_merged : exists out, merge_oi_fits_list c_ins = Ok out /\ List.length (o_arrayList out) = 3%nat
  /\ map tb_arrname (o_vis2List out) = ["CHARA"; "VLTI_003"] /\ conforms out /\ passes out.
Proof.
  destruct (result_some (fun o => (List.length (o_arrayList o), map tb_arrname (o_vis2List o))) (merge_oi_fits_list c_ins)
    (3%nat, ["CHARA"; "VLTI_003"])) as (out & E & F); [vm_compute; reflexivity|].
  exists out. split; [exact E|]. injection F as F1 F2. split; [exact F1|]. split; [exact F2|]. split.
  - exact (merge_conforms c_ins out c_wf E c_ready c_plain ltac:(discriminate) c_dated).
  - exact (merge_passes c_ins out c_wf E c_ready c_plain ltac:(discriminate) c_dated c_fluxes).
Qed.

(** a version 1 dataset without OI_ARRAY *)
Definition bare_vis2 : oi_vis2 :=
  mk_dtab 1 "2019-12-30" "" "GRAVITY" "" tt 1 2 [s_vis2_record 7 58800 [false; false]].
Definition bare_fits : oi_fits :=
  mk_fits (mk_header "NOAO" "" "2018-02-03" "" "VLTI" "" "" "" "" "" "AB" "" "" "")
    (mk_oi_target 1 1 [s_target 7 "beta"] false) 0 1 0 0 0 1 0 0 []
    [m_wave] [] [] [] [bare_vis2] [] [] [] [("GRAVITY", Some m_wave)] [].
Lemma bare_breaks : exists d out, wf_fits d = true /\ conforms d /\ distinct_names d /\ dated d /\ names_fit d
  /\ merge_oi_fits_list [d] = Ok out /\ List.length (o_vis2List out) = 1%nat
  /\ h_content (o_header out) = "OIFITS2" /\ o_arrayList out = [] /\ ~ conforms out.
Proof.
  destruct (result_some (fun o => (List.length (o_vis2List o), h_content (o_header o), List.length (o_arrayList o)))
    (merge_oi_fits_list [bare_fits]) (1%nat, "OIFITS2", 0%nat)) as (out & E & F); [vm_compute; reflexivity|].
  injection F as F1 F2 F3.
  assert (Ea : o_arrayList out = []) by (destruct (o_arrayList out); [reflexivity|discriminate]).
  exists bare_fits, out. split; [vm_compute; reflexivity|]. split.
  { apply conforming; [vm_compute; reflexivity|intros t []|intros t []|vm_compute; reflexivity]. }
  split; [apply distinct_intro; cbn; repeat constructor; cbn; intuition discriminate|].
  split; [exists (Some (2018, 2, 3)); split; [lia|]; split; [reflexivity|]; exists ""; reflexivity|].
  split; [(split; [|split]); cbn; all_of; reflexivity|]. split; [exact E|]. split; [exact F1|]. split; [exact F2|].
  split; [exact Ea|]. intros Cf. destruct (cf_tables out Cf) as (T & _). exact (T F2 Ea).
Qed.

(** ** Files *)

(** "c" (version 2), "n" (version 1, made from [m_fits]) and "w" (version 1, made from "c") *)
Definition new_file (name : string) (o : oi_fits) : disk := disk_of (write_oi_fits e0 name o [] 0).
Definition old_file (name : string) (d : disk) : disk :=
  [(name, match d with (_, hs) :: _ => flat_map old_hdu hs | [] => [] end)].
Definition c_disk : disk := Eval vm_compute in
  (new_file "c" c_fits ++ old_file "n" (new_file "n" m_fits) ++ old_file "w" (new_file "w" c_fits))%list.
Definition t_c : oi_fits := Eval vm_compute in fits_of (read_oi_fits e0 "c" c_disk 0).
Definition t_n : oi_fits := Eval vm_compute in fits_of (read_oi_fits e0 "n" c_disk 0).
Definition t_w : oi_fits := Eval vm_compute in fits_of (read_oi_fits e0 "w" c_disk 0).
Lemma c_reads : reads e0 "c" c_disk t_c.
Proof. vm_compute. reflexivity. Qed.
Lemma n_reads : reads e0 "n" c_disk t_n.
Proof. vm_compute. reflexivity. Qed.
Lemma w_reads : reads e0 "w" c_disk t_w.
Proof. vm_compute. reflexivity. Qed.
Lemma cn_storable : Forall (fun o => storable_fits e0 o = true) [t_c; t_n].
Proof. all_of; vm_compute; reflexivity. Qed.
Lemma w_storable : storable_fits e0 t_w = true.
Proof. vm_compute. reflexivity. Qed.
Lemma t_c_conforms : conforms t_c.
Proof.
  apply conforming; [vm_compute; reflexivity|intros t [<-|[]]; discriminate| |vm_compute; reflexivity].
  intros t [<-|[]]. right. constructor; [discriminate|constructor].
Qed.
Lemma t_n_conforms : conforms t_n.
Proof. apply conforming; [vm_compute; reflexivity|intros t []|intros t []|vm_compute; reflexivity]. Qed.
Lemma t_w_conforms : conforms t_w.
Proof. apply conforming; [vm_compute; reflexivity|intros t []|intros t []|vm_compute; reflexivity]. Qed.
Lemma c_store : store_ready t_c.
Proof. apply conforming_ready; [exact t_c_conforms|reflexivity]. Qed.
Lemma c_channels : channels_match t_c.
Proof.
  split.
  - cbn. repeat constructor.
  - cbn. repeat constructor; cbn; intuition discriminate.
  - intros t w [<-|[]] ([<-|[<-|[]]] & H); (reflexivity || discriminate H).
  - intros t w [<-|[]] ([<-|[<-|[]]] & H); (reflexivity || discriminate H).
  - intros t w [<-|[]] ([<-|[<-|[]]] & H); (reflexivity || discriminate H).
  - intros t w [<-|[]] ([<-|[<-|[]]] & H); (reflexivity || discriminate H).
  - intros t [<-|[]]. exists "GRAVITY". split; [intros r [<-|[]]; reflexivity|].
    intros w ([<-|[<-|[]]] & H); (reflexivity || discriminate H).
Qed.
Lemma c_named : named_elsewhere t_c.
Proof.
  split.
  - intros t [<-|[]] _. split; [discriminate|]. left. eexists. split; [left; reflexivity|reflexivity].
  - intros t [<-|[]] H. now destruct H.
Qed.
Lemma n_named : named_elsewhere t_n.
Proof. split; intros t []. Qed.
Lemma w_named : named_elsewhere t_w.
Proof. split; intros t []. Qed.
Lemma w_needs : version2_needs t_w.
Proof. constructor; cbn; [discriminate|..]; all_of; cbn; try discriminate; try reflexivity. split; tauto. Qed.
Lemma cn_targets : targets_match [t_c; t_n].
Proof.
  split; [|vm_compute; lia]. repeat apply Forall_cons; try apply Forall_nil; split.
  - repeat split; cbn; all_of; cbn; all_of; cbn; auto.
  - exists (Some (2019, 12, 31)%Z). split; [lia|]. split; [reflexivity|]. exists "". reflexivity.
  - repeat split; cbn; all_of; cbn; all_of; cbn; auto.
  - exists (Some (2019, 11, 13)%Z). split; [lia|]. split; [reflexivity|]. exists "". reflexivity.
Qed.
Lemma cn_names : roomy_names [t_c; t_n].
Proof.
  split; [|split; [|split; [|split; [|split]]]]; try (vm_compute; reflexivity);
    intros d x [<-|[<-|[]]] Hx; cbn in Hx; decompose [or] Hx; try contradiction; subst x; vm_compute; discriminate.
Qed.
Lemma cn_plain : plain_names [t_c; t_n].
Proof.
  assert (K : forall lit n, three_digits n = false -> ~ looks_generated lit n).
  { intros lit n E G. apply looks_three_digits in G. congruence. }
  split; [|split; [|split]].
  1,2,3: intros d x [<-|[<-|[]]] Hx; cbn in Hx;
    repeat (destruct Hx as [<-|Hx]; [apply K; reflexivity|]); contradiction.
  repeat split; vm_compute; reflexivity.
Qed.
Lemma cn_ready : Forall merge_ready [t_c; t_n].
Proof.
  all_of.
  - constructor.
    + exact t_c_conforms.
    + intros N. now destruct N.
    + apply distinct_intro; cbn; repeat constructor; cbn; intuition discriminate.
    + unfold arrays_named. cbn. all_of; discriminate.
    + (split; [|split]); cbn; all_of; reflexivity.
    + unfold header_fits. all_of; reflexivity.
  - constructor.
    + exact t_n_conforms.
    + intros _. constructor; cbn; [discriminate|..]; all_of; cbn; try discriminate; reflexivity.
    + apply distinct_intro; cbn; repeat constructor; cbn; intuition discriminate.
    + unfold arrays_named. cbn. all_of; discriminate.
    + (split; [|split]); cbn; all_of; reflexivity.
    + unfold header_fits. all_of; reflexivity.
Qed.
(** options --target-id=4 --wave-min=2050 --accept-flagged=0 *)
Definition c_options : list filter_option := [Target_id 4; Wave_min (f64_of_Z 2050); Accept_flagged 0].
Lemma c_filter_left : exists f' o', apply_oi_filter sqrt64 t_c (user_filter c_options) = Ok (f', o')
  /\ has_stations o' /\ corrs_elsewhere o' /\ List.length (o_inspolList o') = 1%nat /\ map wv_nwave (o_wavelengthList o') = [2].
Proof.
  eexists. eexists. split; [vm_compute; reflexivity|]. split; [left; left; discriminate|].
  split; [|split; reflexivity]. intros t [<-|[]] H. now destruct H.
Qed.
