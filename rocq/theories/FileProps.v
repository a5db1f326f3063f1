(** Properties C03-C10: operations of oifile.c other than file input/output. *)
From Verif Require Import FileModel FileSpec FileProofs DateSpec Sample.
Open Scope Z_scope.

(** ** C03: deep copies are equal to the original.  The hypotheses say that the
    table has at least one row (and channel) and that counts match storage. *)

Theorem C03_dup_target : forall t, wf_targets t = true -> 0 < ot_ntarget t -> dup_oi_target t = Ok t.
Proof. exact dup_oi_target_ok. Qed.
Print Assumptions C03_dup_target.
Theorem C03_dup_array : forall a, wf_array a = true -> 0 < ar_nelement a -> dup_oi_array a = Ok a.
Proof. exact dup_oi_array_ok. Qed.
Print Assumptions C03_dup_array.
Theorem C03_dup_wavelength : forall w,
  wf_wavelength w = true -> 0 < wv_nwave w -> dup_oi_wavelength w = Ok w.
Proof. exact dup_oi_wavelength_ok. Qed.
Print Assumptions C03_dup_wavelength.
Theorem C03_dup_corr : forall c, wf_corr c = true -> 0 < co_ncorr c -> dup_oi_corr c = Ok c.
Proof. exact dup_oi_corr_ok. Qed.
Print Assumptions C03_dup_corr.
Theorem C03_dup_inspol : forall t,
  wf_inspol t = true -> 0 < is_numrec t -> 0 < is_nwave t -> dup_oi_inspol t = Ok t.
Proof. exact dup_oi_inspol_ok. Qed.
Print Assumptions C03_dup_inspol.
Theorem C03_dup_vis2 : forall t,
  wf_vis2 t = true -> 0 < tb_numrec t -> 0 < tb_nwave t -> dup_oi_vis2 t = Ok t.
Proof. exact dup_oi_vis2_ok. Qed.
Print Assumptions C03_dup_vis2.
Theorem C03_dup_t3 : forall t,
  wf_t3 t = true -> 0 < tb_numrec t -> 0 < tb_nwave t -> dup_oi_t3 t = Ok t.
Proof. exact dup_oi_t3_ok. Qed.
Print Assumptions C03_dup_t3.
Theorem C03_dup_flux : forall t,
  wf_flux t = true -> 0 < tb_numrec t -> 0 < tb_nwave t -> dup_oi_flux t = Ok t.
Proof. exact dup_oi_flux_ok. Qed.
Print Assumptions C03_dup_flux.
(** OI_VIS without complex visibilities *)
Theorem C03_dup_vis_without_complex : forall t,
  wf_vis t = true -> 0 < tb_numrec t -> 0 < tb_nwave t -> vx_usecomplex (tb_x t) = false ->
  dup_oi_vis t = Ok t.
Proof. exact dup_oi_vis_plain. Qed.
Print Assumptions C03_dup_vis_without_complex.
(** The full statement [dup_oi_vis t = Ok t] fails: IVISERR of the copy holds RVISERR. *)
Theorem C03_dup_vis_refuted : exists t t',
  wf_vis t = true /\ 0 < tb_numrec t /\ 0 < tb_nwave t /\ dup_oi_vis t = Ok t' /\ t' <> t
  /\ map vr_iviserr (tb_record t') = map vr_rviserr (tb_record t)
  /\ map vr_iviserr (tb_record t') <> map vr_iviserr (tb_record t).
Proof. exact dup_oi_vis_counterexample. Qed.
Print Assumptions C03_dup_vis_refuted.
(** Everything other than IVISERR is copied.  Missing: IVISERR. *)
Theorem C03_dup_vis_partial : forall t,
  wf_vis t = true -> 0 < tb_numrec t -> 0 < tb_nwave t ->
  exists t', dup_oi_vis t = Ok t' /\ tb_revision t' = tb_revision t /\ same_attributes t t'
    /\ Forall2 (fun r r' => vr_time r' = vr_time r /\
         same_but_time_vis r (mk_vis_record (vr_target_id r') (vr_time r') (vr_mjd r')
           (vr_int_time r') (vr_visamp r') (vr_visamperr r') (vr_corrindx_visamp r')
           (vr_visphi r') (vr_visphierr r') (vr_corrindx_visphi r') (vr_visrefmap r')
           (vr_rvis r') (vr_rviserr r') (vr_corrindx_rvis r') (vr_ivis r') (vr_iviserr r)
           (vr_corrindx_ivis r') (vr_ucoord r') (vr_vcoord r') (vr_sta_index r') (vr_flag r')))
         (tb_record t) (tb_record t').
Proof. exact dup_oi_vis_partial. Qed.
Print Assumptions C03_dup_vis_partial.
(** Copying a table without rows aborts (chkmalloc of zero bytes). *)
Theorem C03_dup_empty_aborts :
  (forall t, ot_ntarget t <= 0 -> dup_oi_target t = Abort)
  /\ (forall a, ar_nelement a <= 0 -> dup_oi_array a = Abort)
  /\ (forall w, wv_nwave w <= 0 -> dup_oi_wavelength w = Abort)
  /\ (forall c, co_ncorr c <= 0 -> dup_oi_corr c = Abort)
  /\ (forall t, is_numrec t <= 0 -> dup_oi_inspol t = Abort)
  /\ (forall t, tb_numrec t <= 0 -> dup_oi_vis t = Abort)
  /\ (forall t, tb_numrec t <= 0 -> dup_oi_vis2 t = Abort)
  /\ (forall t, tb_numrec t <= 0 -> dup_oi_t3 t = Abort)
  /\ (forall t, tb_numrec t <= 0 -> dup_oi_flux t = Abort).
Proof. exact dup_empty_aborts. Qed.
Print Assumptions C03_dup_empty_aborts.

Example C03_example :
  wf_targets s_targets = true /\ 0 < ot_ntarget s_targets /\ wf_array s_array1 = true
  /\ wf_wavelength s_wave1 = true /\ wf_corr s_corr = true /\ wf_inspol s_inspol = true
  /\ wf_vis s_vis = true /\ wf_vis2 s_vis2 = true /\ wf_t3 s_t3 = true /\ wf_flux s_flux = true
  /\ 0 < tb_numrec s_vis /\ dup_oi_vis2 s_vis2 = Ok s_vis2.
Proof. vm_compute. repeat split. Qed.

(** ** C04: upgrades *)

Theorem C04_upgrade_vis : forall t, wf_vis t = true ->
  exists t', upgrade_oi_vis t = Ok t' /\ upgraded vr_time same_but_time_vis t t'.
Proof. exact upgrade_oi_vis_ok. Qed.
Print Assumptions C04_upgrade_vis.
Theorem C04_upgrade_vis2 : forall t, wf_vis2 t = true ->
  exists t', upgrade_oi_vis2 t = Ok t' /\ upgraded v2_time same_but_time_vis2 t t'.
Proof. exact upgrade_oi_vis2_ok. Qed.
Print Assumptions C04_upgrade_vis2.
Theorem C04_upgrade_t3 : forall t, wf_t3 t = true ->
  exists t', upgrade_oi_t3 t = Ok t' /\ upgraded t3_time same_but_time_t3 t t'.
Proof. exact upgrade_oi_t3_ok. Qed.
Print Assumptions C04_upgrade_t3.
(** OI_TARGET, OI_ARRAY, OI_WAVELENGTH: only the revision changes. *)
Theorem C04_upgrade_target : forall t,
  (ot_revision t = 1 -> upgrade_oi_target t
     = mk_oi_target 2 (ot_ntarget t) (ot_targ t) (ot_usecategory t))
  /\ (ot_revision t <> 1 -> upgrade_oi_target t = t).
Proof. exact upgrade_oi_target_ok. Qed.
Print Assumptions C04_upgrade_target.
Theorem C04_upgrade_array : forall a,
  (ar_revision a = 1 -> upgrade_oi_array a
     = mk_array 2 (ar_arrname a) (ar_frame a) (ar_arrayx a) (ar_arrayy a) (ar_arrayz a)
         (ar_nelement a) (ar_elem a))
  /\ (ar_revision a <> 1 -> upgrade_oi_array a = a).
Proof. exact upgrade_oi_array_ok. Qed.
Print Assumptions C04_upgrade_array.
Theorem C04_upgrade_wavelength : forall w,
  (wv_revision w = 1 -> upgrade_oi_wavelength w
     = mk_wavelength 2 (wv_insname w) (wv_nwave w) (wv_eff_wave w) (wv_eff_band w))
  /\ (wv_revision w <> 1 -> upgrade_oi_wavelength w = w).
Proof. exact upgrade_oi_wavelength_ok. Qed.
Print Assumptions C04_upgrade_wavelength.
(** A second upgrade changes nothing. *)
Theorem C04_upgrade_idempotent :
  (forall t t', upgrade_oi_vis t = Ok t' -> upgrade_oi_vis t' = Ok t')
  /\ (forall t t', upgrade_oi_vis2 t = Ok t' -> upgrade_oi_vis2 t' = Ok t')
  /\ (forall t t', upgrade_oi_t3 t = Ok t' -> upgrade_oi_t3 t' = Ok t').
Proof. exact upgrade_idempotent. Qed.
Print Assumptions C04_upgrade_idempotent.

Example C04_example :
  let t := set_revision 1 (set_record (map (v2_set_time (fl 3600 1)) (tb_record s_vis2)) s_vis2) in
  wf_vis2 t = true /\ upgrade_oi_vis2 t = Ok s_vis2 /\ map v2_time (tb_record t) <> map v2_time (tb_record s_vis2).
Proof. vm_compute. repeat split. discriminate. Qed.

(** ** C05: lookups return the first match *)

Theorem C05_lookup_target : forall o i, wf_targets (o_targets o) = true ->
  exists r, oi_fits_lookup_target o i = Ok r /\
    lookup_result (fun t => tg_target_id t = i) (ot_targ (o_targets o)) r.
Proof. exact lookup_target_ok. Qed.
Print Assumptions C05_lookup_target.
Theorem C05_lookup_target_by_name : forall o s, wf_targets (o_targets o) = true ->
  exists r, oi_fits_lookup_target_by_name o s = Ok r /\
    lookup_result (fun t => tg_target t = s) (ot_targ (o_targets o)) r.
Proof. exact lookup_target_by_name_ok. Qed.
Print Assumptions C05_lookup_target_by_name.
Theorem C05_lookup_element : forall o name i a,
  oi_fits_lookup_array o name = Some a -> wf_array a = true ->
  exists r, oi_fits_lookup_element o name i = Ok r /\
    lookup_result (fun e => el_sta_index e = i) (ar_elem a) r.
Proof. exact lookup_element_ok. Qed.
Print Assumptions C05_lookup_element.
Theorem C05_lookup_element_no_array : forall o name i,
  oi_fits_lookup_array o name = None -> oi_fits_lookup_element o name i = Ok None.
Proof. exact lookup_element_none. Qed.
Print Assumptions C05_lookup_element_no_array.

Example C05_example :
  oi_fits_lookup_target s_fits 9 = Ok (Some (s_target 9 "beta"))
  /\ oi_fits_lookup_target s_fits 5 = Ok None
  /\ oi_fits_lookup_target_by_name s_fits "alpha" = Ok (Some (s_target 4 "alpha"))
  /\ oi_fits_lookup_element s_fits "CHARA" 5 = Ok (Some (s_element "W2" 5 50))
  /\ oi_fits_lookup_element s_fits "CHARA" 2 = Ok None
  /\ oi_fits_lookup_element s_fits "KECK" 2 = Ok None.
Proof. vm_compute. repeat split. Qed.

(** ** C06: lookups by name in a dataset built by read_oi_fits *)

(** No lookup ever returns a table other than the first of that name. *)
Theorem C06_lookup_sound : forall h tg arrays waves corrs inspols vis vis2 t3 flux o,
  assemble h tg arrays waves corrs inspols vis vis2 t3 flux = Ok o ->
  (forall name a, oi_fits_lookup_array o name = Some a ->
     first_match (fun x => ar_arrname x = name) arrays a)
  /\ (forall name w, oi_fits_lookup_wavelength o name = Some w ->
     first_match (fun x => wv_insname x = name) waves w)
  /\ (forall name c, oi_fits_lookup_corr o name = Some c ->
     first_match (fun x => co_corrname x = name) corrs c).
Proof. exact assemble_sound. Qed.
Print Assumptions C06_lookup_sound.
(** Names referenced by data tables resolve whenever a table of that name exists. *)
Theorem C06_lookup_complete_partial :
  forall h tg arrays waves corrs inspols vis vis2 t3 flux o,
  assemble h tg arrays waves corrs inspols vis vis2 t3 flux = Ok o ->
  let refs {X R} (t : dtab X R) :=
    (tb_arrname t <> ""%string ->
     lookup_result (fun x => ar_arrname x = tb_arrname t) arrays
       (oi_fits_lookup_array o (tb_arrname t)))
    /\ lookup_result (fun x => wv_insname x = tb_insname t) waves
         (oi_fits_lookup_wavelength o (tb_insname t)) in
  let corr_ref {X R} (t : dtab X R) :=
    tb_corrname t <> ""%string ->
    lookup_result (fun x => co_corrname x = tb_corrname t) corrs
      (oi_fits_lookup_corr o (tb_corrname t)) in
  (forall t, In t vis -> refs t /\ corr_ref t)
  /\ (forall t, In t vis2 -> refs t /\ corr_ref t)
  /\ (forall t, In t t3 -> refs t /\ corr_ref t)
  /\ (forall t, In t flux -> refs t).
Proof. exact assemble_complete. Qed.
Print Assumptions C06_lookup_complete_partial.
(** Missing above, because false: CORRNAME of OI_FLUX ... *)
Theorem C06_flux_corrname_refuted : exists h tg arrays waves corrs flux o t c,
  assemble h tg arrays waves corrs [] [] [] [] flux = Ok o /\ In t flux /\ In c corrs
  /\ co_corrname c = tb_corrname t /\ oi_fits_lookup_corr o (tb_corrname t) = None.
Proof. exact flux_corrname_not_indexed. Qed.
Print Assumptions C06_flux_corrname_refuted.
(** ... and ARRNAME and INSNAME of OI_INSPOL. *)
Theorem C06_inspol_arrname_refuted : exists h tg arrays waves inspols o t a w r,
  assemble h tg arrays waves [] inspols [] [] [] [] = Ok o /\ In t inspols /\ In a arrays
  /\ ar_arrname a = is_arrname t /\ oi_fits_lookup_array o (is_arrname t) = None
  /\ In r (is_record t) /\ In w waves /\ wv_insname w = ip_insname r
  /\ oi_fits_lookup_wavelength o (ip_insname r) = None.
Proof. exact inspol_arrname_not_indexed. Qed.
Print Assumptions C06_inspol_arrname_refuted.

Example C06_example :
  assemble s_header s_targets [s_array1; s_array2] [s_wave1; s_wave2] [s_corr] [s_inspol] [s_vis]
    [s_vis2] [s_t3] [s_flux] = Ok s_fits
  /\ oi_fits_lookup_array s_fits "CHARA" = Some s_array2.
Proof. vm_compute. split; reflexivity. Qed.

(** ** C07: counts of unflagged data *)

Theorem C07_counts : forall o, forallb wf_vis (o_visList o) = true ->
  forallb wf_vis2 (o_vis2List o) = true -> forallb wf_t3 (o_t3List o) = true ->
  count_oi_fits_data o = Ok (Z.of_nat (total_unflagged vr_flag (o_visList o)),
    Z.of_nat (total_unflagged v2_flag (o_vis2List o)),
    Z.of_nat (total_unflagged t3_flag (o_t3List o))).
Proof. exact count_ok. Qed.
Print Assumptions C07_counts.

Example C07_example : wf_fits s_fits = true /\ count_oi_fits_data s_fits = Ok (4, 3, 2).
Proof. vm_compute. split; reflexivity. Qed.

(** ** C08: is_atomic *)

(** Missing: datasets with an MJD outside (0, 100000), see the refutation. *)
Theorem C08_is_atomic_partial : forall o maxDays, wf_fits o = true -> all_mjd o <> [] ->
  forallb mjd_in_range (all_mjd o) = true ->
  exists b lo hi, is_atomic o maxDays = Ok b
  /\ earliest (all_mjd o) lo /\ latest (all_mjd o) hi /\
  (b = true <-> (List.length (o_arrayList o) <= 1)%nat /\ List.length (o_wavelengthList o) = 1%nat
     /\ List.length (ot_targ (o_targets o)) = 1%nat
     /\ SFltb maxDays (SFabs (f64_sub hi lo)) = false).
Proof. exact is_atomic_ok. Qed.
Print Assumptions C08_is_atomic_partial.
(** A dataset whose observations span no time at all is reported as not atomic,
    because MJDs from 100000 on do not enter the minimum (and negative ones not the
    maximum). *)
Theorem C08_is_atomic_refuted : exists o maxDays lo hi,
  wf_fits o = true /\ earliest (all_mjd o) lo /\ latest (all_mjd o) hi
  /\ SFltb maxDays (SFabs (f64_sub hi lo)) = false /\ is_atomic o maxDays = Ok false
  /\ (List.length (o_arrayList o) <= 1)%nat /\ List.length (o_wavelengthList o) = 1%nat
  /\ List.length (ot_targ (o_targets o)) = 1%nat.
Proof. exact is_atomic_counterexample. Qed.
Print Assumptions C08_is_atomic_refuted.

Example C08_example : wf_fits s_v1 = true /\ forallb mjd_in_range (all_mjd s_v1) = true
  /\ all_mjd s_v1 <> [] /\ is_atomic s_v1 (fl 3 1) = Ok true /\ is_atomic s_v1 (fl 2 1) = Ok false.
Proof. repeat split; try (vm_compute; reflexivity). vm_compute. discriminate. Qed.

(** ** C09: set_oi_header *)

Theorem C09_set_oi_header : forall o, wf_fits o = true -> all_mjd o <> [] ->
  forallb mjd_in_range (all_mjd o) = true ->
  forallb (fun a => fits_value (ar_arrname a)) (o_arrayList o) = true ->
  forallb (fun w => fits_value (wv_insname w)) (o_wavelengthList o) = true ->
  forallb (fun t => fits_value (tg_target t)) (ot_targ (o_targets o)) = true ->
  exists h, set_oi_header o = Ok h /\ header_from_tables o (o_header o) h.
Proof. exact set_oi_header_ok. Qed.
Print Assumptions C09_set_oi_header.

Example C09_example : set_oi_header s_v1 = Ok (mk_header "UNKNOWN" "" "2019-12-30" "" "UNKNOWN"
    "PIONIER" "UNKNOWN" "UNKNOWN" "alpha" "" "" "" "" "")
  /\ set_oi_header s_fits = Ok (mk_header "UNKNOWN" "2020-01-01" "2019-12-30" "OIFITS2" "MULTIPLE"
    "MULTIPLE" "UNKNOWN" "UNKNOWN" "MULTIPLE" "" "" "P1" "" "").
Proof. vm_compute. split; reflexivity. Qed.

(** ** C10: version predicates *)

Theorem C10_is_oi_fits_one : forall o, is_oi_fits_one o = true <->
  h_content (o_header o) <> "OIFITS2"%string /\ ot_revision (o_targets o) = 1
  /\ (forall a, In a (o_arrayList o) -> ar_revision a = 1)
  /\ (forall a, In a (o_wavelengthList o) -> wv_revision a = 1)
  /\ (forall a, In a (o_visList o) -> tb_revision a = 1)
  /\ (forall a, In a (o_vis2List o) -> tb_revision a = 1)
  /\ (forall a, In a (o_t3List o) -> tb_revision a = 1).
Proof. exact is_one_spec. Qed.
Print Assumptions C10_is_oi_fits_one.
Theorem C10_is_oi_fits_two : forall o,
  is_oi_fits_two o = true <-> h_content (o_header o) = "OIFITS2"%string.
Proof. exact is_two_spec. Qed.
Print Assumptions C10_is_oi_fits_two.
Theorem C10_exclusive : forall o, is_oi_fits_one o = true -> is_oi_fits_two o = false.
Proof. exact one_two_exclusive. Qed.
Print Assumptions C10_exclusive.
(** A new dataset is neither. *)
Theorem C10_new_dataset_neither :
  is_oi_fits_one init_oi_fits = false /\ is_oi_fits_two init_oi_fits = false.
Proof. exact init_neither. Qed.
Print Assumptions C10_new_dataset_neither.

Example C10_example : is_oi_fits_one s_v1 = true /\ is_oi_fits_two s_fits = true.
Proof. vm_compute. split; reflexivity. Qed.
