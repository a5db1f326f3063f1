(** Concrete datasets for the checks, and counterexamples. *)
From Verif Require Import BaseLemmas Sample FileModel FileSpec FileProofs MergeModel MergeSpec
  MergeMain CheckModel CheckSpec CheckProofs CheckReports CheckRules CheckWhole.
From Coq Require Import Lia.
Open Scope Z_scope.

(** ** A dataset that violates every rule *)

Definition k_header : oi_header :=
  mk_header "ESO" "" "2019-12-31" "OIFITS2" "VLTI" "GRAVITY" "" "HIGH" "alpha" "" "" "P1" "" "".
Definition k_array : oi_array :=
  mk_array 2 "VLTI" "LOCAL" (fl 1 1) (fl 2 1) (fl 3 1) 1 [s_element "A0" 1 10].
Definition k_targets : oi_target :=
  mk_oi_target 2 3 [s_target 4 "alpha"; s_target 9 "beta"; s_target 5 "alpha"] false.
Definition k_wave : oi_wavelength :=
  mk_wavelength 2 "GRAVITY" 3 [fl32 20 10000000; fl32 22 10000000; fl32 21 10000000]
    [fl32 1 100000000; fl32 1 100000000; fl32 1 100000000].
Definition k_vis_record : vis_record :=
  mk_vis_record 4 f64_zero (fl 58848 1) (fl 10 1)
    [fl 9 10; fl 8 10; fl 7 10] [fl 1 10; fl 1 10; fl 1 10] 1
    [fl 30 1; fl 40 1; fl 50 1] [fl 1 1; fl 2 1; fl 3 1] 1
    None None None 1 None None 1 (fl 30 1) (fl 40 1) (1, 2) [false; false; true].
Definition k_vis : oi_vis :=
  mk_dtab 2 "2019-12-31" "" "GRAVITY" "CORR9"
    (mk_vis_extra "absolute" "differential" (-1) 2 false false "Jy" "") 1 3 [k_vis_record].
(** Eleven records of an unlisted target, with a TIME and a negative error bar *)
Definition k_vis2_record : vis2_record :=
  mk_vis2_record 7 (fl 5 1) (fl 58848 1) (fl 10 1) [fl 1 2; fl 1 4] [fl 1 100; fl (-1) 100] 1
    (fl 60 1) (fl 80 1) (1, 5) [true; false].
Definition k_vis2 : oi_vis2 :=
  mk_dtab 2 "2019-12-30" "VLTI" "PIONIER" "" tt 11 2 (repeat k_vis2_record 11).
Definition k_t3_record : t3_record :=
  mk_t3_record 4 f64_zero (fl 58848 1) (fl 10 1) [fl 1 2; fl 3 2; fl 1 8]
    [fl 1 100; fl 1 100; fl 1 100] 1 [fl 10 1; fl (-20) 1; fl 30 1] [fl 1 1; fl 1 1; fl 2 1] 1
    (fl 30 1) (fl 40 1) (fl 5 1) (fl 12 1) (1, 1, 1) [false; false; true].
Definition k_t3 : oi_t3 := mk_dtab 2 "2019-12-31" "VLTI" "GRAVITY" "" tt 1 3 [k_t3_record].
Definition k_flux : oi_flux :=
  mk_dtab 1 "2019-12-31" "VLTI" "GRAVITY" "" (mk_flux_extra (fl 1 10) "" "C" "Jy") 1 3
    [s_flux_record 4 58848 [false; false; false]].
Definition k_fits : oi_fits :=
  mk_fits k_header k_targets 1 1 0 0 1 1 1 1 [k_array] [k_wave] [] [] [k_vis] [k_vis2] [k_t3] [k_flux]
    [("VLTI", Some k_array)]%string [("GRAVITY", Some k_wave)]%string [].

Lemma k_wf : wf_fits k_fits = true.
Proof. vm_compute. reflexivity. Qed.
Lemma s_wf : wf_fits s_fits = true.
Proof. vm_compute. reflexivity. Qed.

(** Level and number of breaches *)
Definition summary (c : res check_result) : option (Z * Z) :=
  match c with Ok r => Some (cr_level r, cr_numBreach r) | _ => None end.

Lemma k_summary : map summary
    [check_tables k_fits; check_header k_fits; check_keywords k_fits; check_visrefmap k_fits;
     check_unique_targets k_fits; check_targets_present k_fits; check_arrname k_fits;
     check_elements_present k_fits; check_corr_present k_fits; check_flagging k_fits;
     check_t3amp k_fits; check_waveorder k_fits; check_time k_fits; check_flux k_fits]
  = [Some (0, 0); Some (2, 2); Some (2, 1); Some (2, 1); Some (1, 1); Some (2, 11); Some (2, 1);
     Some (2, 12); Some (2, 1); Some (2, 11); Some (2, 1); Some (1, 2); Some (1, 11); Some (2, 2)].
Proof. vm_compute. reflexivity. Qed.
Lemma s_summary : map summary
    [check_tables s_fits; check_header s_fits; check_keywords s_fits; check_visrefmap s_fits;
     check_unique_targets s_fits; check_targets_present s_fits; check_arrname s_fits;
     check_elements_present s_fits; check_corr_present s_fits; check_flagging s_fits;
     check_t3amp s_fits; check_waveorder s_fits; check_time s_fits]
  = repeat (Some (0, 0)) 13.
Proof. vm_compute. reflexivity. Qed.

Lemma found_intro {A} (nm : A -> string) (l : list A) (r : option A) name :
  r = find (fun a => str_eqb (nm a) name) l -> lookup_result (fun a => nm a = name) l r.
Proof. intros ->. apply find_lookup_result. intros a. apply str_eqb_eq. Qed.
Ltac found :=
  repeat match goal with
  | |- _ /\ _ => split
  | |- forall t, In t _ -> _ => let H := fresh in intros ? H; cbn [In] in H;
      repeat destruct H as [<-|H]; [..|destruct H]
  | |- array_found _ _ => let N := fresh in intros N; try (exfalso; apply N; reflexivity); apply found_intro; vm_compute; reflexivity
  | |- corr_found _ _ => let N := fresh in intros N; try (exfalso; apply N; reflexivity); apply found_intro; vm_compute; reflexivity
  end.
Local Opaque fl fl32.
Lemma k_arrays : arrays_found k_fits.
Proof. unfold arrays_found. cbn [o_inspolList o_visList o_vis2List o_t3List o_fluxList k_fits]. found. Qed.
Lemma s_arrays : arrays_found s_fits.
Proof. unfold arrays_found. cbn [o_inspolList o_visList o_vis2List o_t3List o_fluxList s_fits]. found. Qed.
Lemma k_corrs : corrs_found k_fits.
Proof. unfold corrs_found. cbn [o_inspolList o_visList o_vis2List o_t3List o_fluxList k_fits]. found. Qed.
Lemma s_corrs : corrs_found s_fits.
Proof. unfold corrs_found. cbn [o_inspolList o_visList o_vis2List o_t3List o_fluxList s_fits]. found. Qed.
Lemma k_nonempty : fluxes_nonempty k_fits.
Proof. intros t [<-|[]]. discriminate. Qed.
Lemma k_uniform : uniform_stations k_fits.
Proof. intros t [<-|[]]. right. unfold all_stations. cbn [tb_record k_flux]. constructor; [|constructor]. discriminate. Qed.

(** A dataset that passes check_flux *)
Definition k_flux_ok : oi_flux :=
  mk_dtab 1 "2019-12-31" "VLTI" "GRAVITY" "" (mk_flux_extra (fl 1 10) "" "U" "Jy") 1 3
    [s_flux_record 4 58848 [false; false; false]].
Definition with_flux (t : oi_flux) : oi_fits :=
  mk_fits s_header s_targets 2 2 1 1 1 1 1 1 [s_array1; s_array2] [s_wave1; s_wave2] [s_corr]
    [s_inspol] [s_vis] [s_vis2] [s_t3] [t]
    [("CHARA", Some s_array2); ("VLTI", Some s_array1)]%string
    [("PIONIER", Some s_wave2); ("GRAVITY", Some s_wave1)]%string
    [("CORR1", Some s_corr)]%string.
Lemma k_flux_case : fluxes_nonempty (with_flux k_flux_ok) /\ uniform_stations (with_flux k_flux_ok)
  /\ summary (check_flux (with_flux k_flux_ok)) = Some (0, 0).
Proof.
  split; [intros t [<-|[]]; discriminate|]. split; [|vm_compute; reflexivity].
  intros t [<-|[]]. right. constructor; [discriminate|constructor].
Qed.

(** ** Location lists *)

Lemma k_locations : exists r, check_targets_present k_fits = Ok r /\ cr_location r =
  map Some ["OI_VIS2 #1 record 1"; "OI_VIS2 #1 record 2"; "OI_VIS2 #1 record 3"; "OI_VIS2 #1 record 4";
   "OI_VIS2 #1 record 5"; "OI_VIS2 #1 record 6"; "OI_VIS2 #1 record 7"; "OI_VIS2 #1 record 8";
   "OI_VIS2 #1 record 9"; "[List truncated]"]%string.
Proof. eexists. split; vm_compute; reflexivity. Qed.
Lemma k_text : exists r, check_unique_targets k_fits = Ok r /\ format_check_result r = Ok (Some
  ("*** Valid OIFITS, but may cause problems for some reading software:" ++ nl
   ++ "Duplicate value in TARGET column of OI_TARGET, 1 occurrences:-" ++ nl
   ++ "    TARGET_ID=5  TARGET='alpha'" ++ nl)%string).
Proof. eexists. split; vm_compute; reflexivity. Qed.

(** ** Counterexamples *)

(** An OI_CORR table named only by an OI_FLUX table is reported missing. *)
Definition x_flux : oi_flux := set_corrname "CORR1" s_flux.
Definition x_corr : oi_fits :=
  match assemble s_header s_targets [s_array1] [s_wave1] [s_corr] [] [] [] [] [x_flux] with
  | Ok o => o | _ => init_oi_fits end.
Lemma x_corr_eq : x_corr =
  mk_fits s_header s_targets 1 1 1 0 0 0 0 1 [s_array1] [s_wave1] [s_corr] [] [] [] [] [x_flux]
    (o_arrayHash x_corr) (o_wavelengthHash x_corr) (o_corrHash x_corr).
Proof. vm_compute. reflexivity. Qed.
Lemma corr_counterexample : exists h tg arrays waves corrs flux o r,
  assemble h tg arrays waves corrs [] [] [] [] flux = Ok o /\ wf_fits o = true
  /\ corr_rule o /\ check_corr_present o = Ok r /\ cr_level r = 2.
Proof.
  assert (R : corr_rule x_corr).
  { rewrite x_corr_eq. unfold corr_rule. cbn [o_visList o_vis2List o_t3List o_fluxList o_corrList].
    repeat split; repeat constructor. }
  exists s_header, s_targets, [s_array1], [s_wave1], [s_corr], [x_flux], x_corr.
  eexists. split; [vm_compute; reflexivity|]. split; [vm_compute; reflexivity|]. split; [exact R|].
  split; vm_compute; reflexivity.
Qed.

(** Only the first record of an OI_FLUX table is examined. *)
Definition x_flux2 : oi_flux :=
  mk_dtab 1 "2019-12-31" "VLTI" "GRAVITY" "" (mk_flux_extra (fl 1 10) "" "U" "Jy") 2 3
    [s_flux_record 4 58848 [false; false; false];
     mk_flux_record 4 (fl 58848 1) (fl 10 1) [fl 100 1; fl 200 1; fl 300 1]
       [fl 1 1; fl 1 1; fl 2 1] 1 (-1) [false; false; false]].
Lemma flux_counterexample : exists o r, wf_fits o = true /\ fluxes_nonempty o /\ check_flux o = Ok r
  /\ cr_level r = 0 /\ ~ flux_rule o.
Proof.
  exists (with_flux x_flux2). eexists. split; [vm_compute; reflexivity|].
  split; [intros t [<-|[]]; discriminate|]. split; [vm_compute; reflexivity|]. split; [reflexivity|].
  intros F. destruct (F x_flux2 (or_introl eq_refl)) as [_ K].
  destruct (K eq_refl) as (_ & A & _). unfold all_stations in A.
  cbn [tb_record x_flux2] in A. apply Forall_inv_tail, Forall_inv in A. apply A. reflexivity.
Qed.
(** A table without records is read out of bounds. *)
Definition x_flux0 : oi_flux :=
  mk_dtab 1 "2019-12-31" "VLTI" "GRAVITY" "" (mk_flux_extra (fl 1 10) "" "U" "Jy") 0 3 [].
Lemma flux_empty_counterexample : exists o, wf_fits o = true /\ check_flux o = UB.
Proof. exists (with_flux x_flux0). split; vm_compute; reflexivity. Qed.

(** No OI_WAVELENGTH table and a wrong OI_REVN *)
Definition x_tables : oi_fits :=
  mk_fits s_header (mk_oi_target 1 1 [s_target 1 "alpha"] false) 1 0 0 0 0 0 0 1 [s_array1] [] []
    [] [] [] [] [k_flux_ok] [("VLTI", Some s_array1)]%string [] [].
Lemma tables_counterexample : exists o, wf_fits o = true /\ check_tables o = Abort.
Proof. exists x_tables. split; vm_compute; reflexivity. Qed.

(** An OI_INSPOL table without ARRNAME and a reference to a missing station *)
Definition x_inspol : oi_inspol :=
  mk_inspol 1 "2019-12-31" 2 "" "NORTH" "M" 1 3
    [mk_inspol_record 4 "GRAVITY" (fl 58848 1) (fl 58849 1) s_cplx s_cplx s_cplx s_cplx 1].
Definition x_elements : oi_fits :=
  mk_fits s_header s_targets 1 1 0 1 0 0 1 0 [k_array] [s_wave1] [] [x_inspol] [] [] [s_t3] []
    [("VLTI", Some k_array)]%string [("GRAVITY", Some s_wave1)]%string [].
Lemma x_arrays : arrays_found x_elements.
Proof. unfold arrays_found. cbn [o_inspolList o_visList o_vis2List o_t3List o_fluxList x_elements]. found. Qed.
Lemma elements_counterexample : exists o, wf_fits o = true /\ arrays_found o /\ check_elements_present o = Abort.
Proof.
  exists x_elements. split; [vm_compute; reflexivity|]. split; [exact x_arrays|]. vm_compute. reflexivity.
Qed.
(** The stations of an array named only by an OI_INSPOL table are reported missing. *)
Definition x_spurious : oi_fits :=
  match assemble s_header s_targets [s_array1] [s_wave1] [] [s_inspol] [] [] [] [] with
  | Ok o => o | _ => init_oi_fits end.
Lemma x_spurious_eq : x_spurious =
  mk_fits s_header s_targets 1 1 0 1 0 0 0 0 [s_array1] [s_wave1] [] [s_inspol] [] [] [] []
    (o_arrayHash x_spurious) (o_wavelengthHash x_spurious) (o_corrHash x_spurious).
Proof. vm_compute. reflexivity. Qed.
Lemma spurious_counterexample : exists h tg arrays waves inspols o r,
  assemble h tg arrays waves [] inspols [] [] [] [] = Ok o /\ wf_fits o = true
  /\ elements_present o /\ inspol_named o /\ check_elements_present o = Ok r /\ cr_level r = 2.
Proof.
  assert (N : element_violations x_spurious = []) by (vm_compute; reflexivity).
  apply elements_nil in N as [N1 N2].
  exists s_header, s_targets, [s_array1], [s_wave1], [s_inspol], x_spurious.
  eexists. split; [vm_compute; reflexivity|]. split; [vm_compute; reflexivity|].
  split; [exact N1|]. split; [exact N2|]. split; vm_compute; reflexivity.
Qed.
(** The second of two OI_INSPOL tables lacks ARRNAME. *)
Lemma location_counterexample : exists o r, wf_fits o = true
  /\ (exists t1 t2, o_inspolList o = [t1; t2] /\ is_arrname t1 <> ""%string /\ is_arrname t2 = ""%string)
  /\ check_arrname o = Ok r /\ hd None (cr_location r) = Some "OI_INSPOL #0"%string.
Proof.
  exists (mk_fits s_header s_targets 1 1 0 2 0 0 1 0 [s_array1] [s_wave1] [] [s_inspol; x_inspol] [] [] [s_t3] []
    [("VLTI", Some s_array1)]%string [("GRAVITY", Some s_wave1)]%string []).
  eexists. split; [vm_compute; reflexivity|].
  split; [exists s_inspol, x_inspol; split; [reflexivity|]; split; [discriminate|reflexivity]|].
  split; vm_compute; reflexivity.
Qed.

(** Datasets meeting the hypotheses of the two partial theorems *)
Lemma tables_case : tables_present s_fits /\ revisions_ok s_fits.
Proof. rewrite <- missing_nil, <- revision_nil. split; vm_compute; reflexivity. Qed.
Lemma tables_bad_case : ~ tables_present x_tables /\ ~ revisions_ok x_tables /\ wf_fits x_tables = true.
Proof. rewrite <- missing_nil, <- revision_nil. repeat split; try (vm_compute; discriminate). Qed.
Lemma elements_case : inspol_named k_fits /\ ~ elements_present k_fits.
Proof. rewrite <- element_named, <- element_nil. split; [vm_compute; reflexivity|vm_compute; discriminate]. Qed.
Lemma elements_bad_case : ~ inspol_named x_elements /\ ~ elements_present x_elements.
Proof. rewrite <- element_named, <- element_nil. split; vm_compute; discriminate. Qed.
