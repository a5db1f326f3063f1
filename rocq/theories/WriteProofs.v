(** The HDU each function of write_fits.c appends for a table that fits in FITS. *)
From Coq Require Import Lia.
From Verif Require Import BaseLemmas FileProofs WriteModel FitsRows IOSpec FitsText WriteTables.
Open Scope Z_scope.
Local Open Scope string_scope.
Local Open Scope list_scope.

Ltac split_and :=
  repeat match goal with
         | H : _ && _ = true |- _ => apply andb_true_iff in H; destruct H
         | H : (_ <=? _)%Z = true |- _ => apply Z.leb_le in H
         end.
Ltac texts := repeat match goal with H : forallb card_text _ = true |- _ =>
  cbn [forallb] in H; rewrite ?andb_true_r in H; split_and end.

Definition C {R} (name : string) (k : kind) (n : Z) (v : R -> list value) : cspec R :=
  mk_cspec name (mk_form k n) None None v.
Definition CU {R} (name : string) (k : kind) (n : Z) (u : string) (v : R -> list value) : cspec R :=
  mk_cspec name (mk_form k n) (Some u) None v.

Ltac step := eapply runs_seq.

(** cells of every record: [Hs : forall r, In r l -> storable r = true] *)
Ltac cell := first [apply cell_dbl | apply cell_flt | apply cell_str; assumption
  | apply cell_short; assumption | apply cell_long; assumption | apply cell_dbls; assumption
  | apply cell_logs; assumption | apply cell_shorts2; assumption | apply cell_shorts3; assumption
  | apply cell_cplxs; assumption | idtac].
Ltac unfold_wf H := unfold wf_inspol_record, wf_vis_record, wf_vis2_record, wf_t3_record,
  wf_flux_record in H.
Ltac rows Hs defn :=
  first [apply Forall2_nil
        |apply Forall2_cons;
         [let r := fresh "r" in let Hr := fresh "Hr" in
          intros r Hr; specialize (Hs r Hr); unfold defn in Hs; unfold_wf Hs; split_and; cbn [C CU cs_form cs_val]; cell
         |rows Hs defn]].

Ltac tform :=
  repeat (eapply make_tform_cons; [first [reflexivity | apply make_form_wave; lia]|]); reflexivity.

Section Tables.
Variable E : cfitsio.

(** ** OI_ARRAY *)
Definition array_specs : list (cspec element) :=
  [C "TEL_NAME" Chars 16 (fun e => [VStr (el_tel_name e)]);
   C "STA_NAME" Chars 16 (fun e => [VStr (el_sta_name e)]);
   C "STA_INDEX" Short 1 (fun e => [VInt (el_sta_index e)]);
   CU "DIAMETER" Float 1 "m" (fun e => [VFlt (el_diameter e)]);
   CU "STAXYZ" Double 3 "m" (fun e => let '(x, y, z) := el_staxyz e in [VDbl x; VDbl y; VDbl z]);
   CU "FOV" Double 1 "arcsec" (fun e => [VDbl (el_fov e)]);
   C "FOVTYPE" Chars 6 (fun e => [VStr (el_fovtype e)])].
Definition array_keys (a : oi_array) (extver : Z) : list (bool * string * kval) :=
  [(true, "EXTNAME", KStr "OI_ARRAY"); (true, "OI_REVN", KInt 2);
   (true, "ARRNAME", KStr (ar_arrname a)); (true, "FRAME", KStr (ar_frame a));
   (true, "ARRAYX", KDbl (kept_double E (ar_arrayx a)));
   (true, "ARRAYY", KDbl (kept_double E (ar_arrayy a)));
   (true, "ARRAYZ", KDbl (kept_double E (ar_arrayz a)));
   (true, "EXTVER", KInt extver)].
Definition array_hdu (a : oi_array) (extver : Z) : hdu :=
  sums E (mk_hdu BINARY_TBL (mkkeys (array_keys a extver))
            (map (scol (ar_elem a)) array_specs) (ar_nelement a)).

Lemma writes_array a extver :
  storable_array E a = true -> writes (write_oi_array E a extver) (array_hdu a extver).
Proof.
  intros H. unfold storable_array in H. split_and. rename H0 into Hel.
  unfold write_oi_array. eapply writes_table; [reflexivity|].
  step; [apply runs_int|]. cbn [app].
  step; [apply runs_str; assumption|]. cbn [app].
  step; [apply runs_str; assumption|]. cbn [app].
  step; [apply runs_double; assumption|]. cbn [app].
  step; [apply runs_double; assumption|]. cbn [app].
  step; [apply runs_double; assumption|]. cbn [app].
  step; [apply runs_int|]. cbn [app].
  step; [|apply runs_chksum].
  change (map make_column _) with (map empty_col array_specs).
  apply runs_rows with (gs := [fun e => str (el_tel_name e); fun e => str (el_sta_name e);
    fun e => int (el_sta_index e); fun e => flt_ (el_diameter e);
    fun e => let '(x, y, z) := el_staxyz e in Ok [VDbl x; VDbl y; VDbl z];
    fun e => dbl (el_fov e); fun e => str (el_fovtype e)]).
  - intros e. unfold array_cells. cbn [map]. destruct (el_staxyz e) as [[x y] z]. reflexivity.
  - now apply Z.eqb_eq.
  - cbn. lia.
  - rewrite forallb_forall in Hel.
    assert (Hs : forall r, In r (ar_elem a) -> storable_element r = true) by exact Hel.
    rows Hs storable_element.
    destruct (el_staxyz r) as [[x y] z]. apply cell_dbl3.
Qed.

(** ** OI_TARGET *)
Definition target_specs (usecategory : bool) : list (cspec target) :=
  [C "TARGET_ID" Short 1 (fun t => [VInt (tg_target_id t)]);
   C "TARGET" Chars 32 (fun t => [VStr (tg_target t)]);
   CU "RAEP0" Double 1 "deg" (fun t => [VDbl (tg_raep0 t)]);
   CU "DECEP0" Double 1 "deg" (fun t => [VDbl (tg_decep0 t)]);
   CU "EQUINOX" Float 1 "yr" (fun t => [VFlt (tg_equinox t)]);
   CU "RA_ERR" Double 1 "deg" (fun t => [VDbl (tg_ra_err t)]);
   CU "DEC_ERR" Double 1 "deg" (fun t => [VDbl (tg_dec_err t)]);
   CU "SYSVEL" Double 1 "m/s" (fun t => [VDbl (tg_sysvel t)]);
   C "VELTYP" Chars 8 (fun t => [VStr (tg_veltyp t)]);
   C "VELDEF" Chars 8 (fun t => [VStr (tg_veldef t)]);
   CU "PMRA" Double 1 "deg/yr" (fun t => [VDbl (tg_pmra t)]);
   CU "PMDEC" Double 1 "deg/yr" (fun t => [VDbl (tg_pmdec t)]);
   CU "PMRA_ERR" Double 1 "deg/yr" (fun t => [VDbl (tg_pmra_err t)]);
   CU "PMDEC_ERR" Double 1 "deg/yr" (fun t => [VDbl (tg_pmdec_err t)]);
   CU "PARALLAX" Float 1 "deg" (fun t => [VFlt (tg_parallax t)]);
   CU "PARA_ERR" Float 1 "deg" (fun t => [VFlt (tg_para_err t)]);
   C "SPECTYP" Chars 32 (fun t => [VStr (tg_spectyp t)])]
  ++ (if usecategory then [C "CATEGORY" Chars 3 (fun t => [VStr (tg_category t)])] else []).
Definition target_hdu (t : oi_target) : hdu :=
  sums E (mk_hdu BINARY_TBL
            (mkkeys [(true, "EXTNAME", KStr "OI_TARGET"); (true, "OI_REVN", KInt 2)])
            (map (scol (ot_targ t)) (target_specs (ot_usecategory t))) (ot_ntarget t)).
Lemma writes_target t : storable_target t = true -> writes (write_oi_target E t) (target_hdu t).
Proof.
  intros H. unfold storable_target in H. split_and. rename H0 into Ht.
  apply Z.eqb_eq in H. unfold write_oi_target. eapply writes_table; [reflexivity|].
  step; [apply runs_int|]. cbn [app].
  assert (Hs : forall r, In r (ot_targ t) -> storable_target1 (ot_usecategory t) r = true)
    by (apply forallb_forall; exact Ht).
  step.
  { change (map make_column _) with (map empty_col (target_specs false)).
    apply runs_rows with (gs := [fun t => int (tg_target_id t); fun t => str (tg_target t);
      fun t => dbl (tg_raep0 t); fun t => dbl (tg_decep0 t); fun t => flt_ (tg_equinox t);
      fun t => dbl (tg_ra_err t); fun t => dbl (tg_dec_err t); fun t => dbl (tg_sysvel t);
      fun t => str (tg_veltyp t); fun t => str (tg_veldef t); fun t => dbl (tg_pmra t);
      fun t => dbl (tg_pmdec t); fun t => dbl (tg_pmra_err t); fun t => dbl (tg_pmdec_err t);
      fun t => flt_ (tg_parallax t); fun t => flt_ (tg_para_err t); fun t => str (tg_spectyp t)]).
    - reflexivity.
    - exact H.
    - cbn. lia.
    - rows Hs storable_target1. }
  step; [|apply runs_chksum].
  unfold target_specs. destruct (ot_usecategory t) eqn:Hu; [|apply runs_skip].
  cbn [when]. step; [apply runs_insert; reflexivity|].
  cbn [hd_type hd_keys hd_cols hd_nrows].
  eapply runs_fill with (ksg := [(18, (C "CATEGORY" Chars 3 (fun t => [VStr (tg_category t)]),
                                      fun t => str (tg_category t)))]).
  - reflexivity.
  - exact H.
  - cbn. repeat constructor. cbn. tauto.
  - constructor; [|constructor]. split; [cbn; lia|]. split; [reflexivity|]. split; [cbn; lia|].
    intros r Hr. specialize (Hs r Hr). unfold storable_target1 in Hs. split_and. now apply cell_str.
  - reflexivity.
Qed.

(** ** OI_WAVELENGTH *)
Definition wavelength_hdu (w : oi_wavelength) (extver : Z) : hdu :=
  sums E (mk_hdu BINARY_TBL
    (mkkeys [(true, "EXTNAME", KStr "OI_WAVELENGTH"); (true, "OI_REVN", KInt 2);
             (true, "INSNAME", KStr (wv_insname w)); (true, "EXTVER", KInt extver)])
    [mk_column "EFF_WAVE" (mk_form Float 1) (Some "m") None (map VFlt (wv_eff_wave w));
     mk_column "EFF_BAND" (mk_form Float 1) (Some "m") None (map VFlt (wv_eff_band w))]
    (wv_nwave w)).

Lemma runs_cells_cons irow k v vs l h h' h'' :
  v = Ok vs -> runs (fits_write_col k irow vs) h h' -> runs (write_cells irow l) h' h'' ->
  runs (write_cells irow ((k, v) :: l)) h h''.
Proof.
  intros -> H1 H2 f. rewrite write_cells_cons, bind_Ok, H1, bind_Ok. apply H2.
Qed.
Lemma runs_cells_nil irow h : runs (write_cells irow []) h h.
Proof. intros f. reflexivity. Qed.
Lemma plain_vals F (vs : list value) :
  (forall v, In v vs -> store F v = (v, false)) -> stored_vals F vs = vs /\ overflow F vs = false.
Proof.
  intros H. unfold stored_vals, overflow.
  induction vs as [|v vs IH]; [split; reflexivity|]. cbn [map existsb].
  rewrite (H v) by now left. destruct IH as [I1 I2]; [intros v' Hv; apply H; now right|].
  cbn [fst snd orb]. now rewrite I1, I2.
Qed.

Definition plain (F : form) (vs : list value) : Prop := forall v, In v vs -> store F v = (v, false).
Lemma runs_column1 ty keys name k u cols vs :
  k <> Complex -> plain (mk_form k 1) vs ->
  runs (fits_write_col 1 1 vs) (mk_hdu ty keys (mk_column name (mk_form k 1) u None [] :: cols) 0)
    (mk_hdu ty keys (mk_column name (mk_form k 1) u None vs
                     :: map (extend_col (Z.of_nat (List.length vs)) 0) cols)
       (Z.of_nat (List.length vs))).
Proof.
  intros Hk Hp. destruct (plain_vals _ _ Hp) as [Hv Ho].
  pose proof (runs_first_column ty keys (mk_column name (mk_form k 1) u None []) cols vs
                eq_refl Hk eq_refl Ho) as R.
  unfold with_data in R. cbn [c_name c_form c_unit c_dim] in R. rewrite Hv in R. exact R.
Qed.
Lemma runs_column ty keys pre name k u post vs n i :
  i = Z.of_nat (List.length pre) + 1 -> n = Z.of_nat (List.length vs) ->
  k <> Complex -> plain (mk_form k 1) vs ->
  runs (fits_write_col i 1 vs)
    (mk_hdu ty keys (pre ++ extend_col n 0 (mk_column name (mk_form k 1) u None []) :: post) n)
    (mk_hdu ty keys (pre ++ mk_column name (mk_form k 1) u None vs :: post) n).
Proof.
  intros Hi Hn Hk Hp. destruct (plain_vals _ _ Hp) as [Hv Ho].
  pose proof (runs_next_column ty keys pre (mk_column name (mk_form k 1) u None []) post vs n i
                Hi Hn eq_refl Hk eq_refl Ho) as R.
  unfold with_data in R. cbn [c_name c_form c_unit c_dim] in R. rewrite Hv in R. exact R.
Qed.
Lemma plain_flts l : plain (mk_form Float 1) (map VFlt l).
Proof. intros v Hv. apply in_map_iff in Hv as (x & <- & _). reflexivity. Qed.
Lemma plain_dbls l : plain (mk_form Double 1) (map VDbl l).
Proof. intros v Hv. apply in_map_iff in Hv as (x & <- & _). reflexivity. Qed.
Lemma plain_longs l : forallb long l = true -> plain (mk_form Long 1) (map VInt l).
Proof.
  intros H v Hv. apply in_map_iff in Hv as (x & <- & Hx). apply store_long.
  rewrite forallb_forall in H. now apply H.
Qed.

Lemma writes_wavelength w extver :
  storable_wavelength w = true -> writes (write_oi_wavelength E w extver) (wavelength_hdu w extver).
Proof.
  intros H. unfold storable_wavelength, wf_wavelength in H. split_and.
  unfold write_oi_wavelength. eapply writes_table; [reflexivity|].
  step; [apply runs_int|]. cbn [app].
  step; [apply runs_str; assumption|]. cbn [app].
  step; [apply runs_int|]. cbn [app].
  step; [|apply runs_chksum]. cbn [map make_column is_empty].
  pose proof (proj1 (Z.eqb_eq _ _) H) as Hl1. pose proof (proj1 (Z.eqb_eq _ _) H2) as Hl2.
  eapply runs_cells_cons; [unfold flts; rewrite take_all by assumption; reflexivity| |].
  { apply runs_column1; [discriminate|apply plain_flts]. }
  eapply runs_cells_cons; [unfold flts; rewrite take_all by assumption; reflexivity| |apply runs_cells_nil].
  cbn [map]. rewrite map_length, Hl1.
  apply (runs_column _ _ [_] _ _ _ []); [reflexivity| |discriminate|apply plain_flts].
  now rewrite map_length.
Qed.

(** ** OI_CORR *)
Definition corr_hdu (c : oi_corr) (extver : Z) : hdu :=
  sums E (mk_hdu BINARY_TBL
    (mkkeys [(true, "EXTNAME", KStr "OI_CORR"); (true, "OI_REVN", KInt 1);
             (true, "CORRNAME", KStr (co_corrname c)); (true, "NDATA", KInt (co_ndata c));
             (true, "EXTVER", KInt extver)])
    [mk_column "IINDX" (mk_form Long 1) None None (map VInt (co_iindx c));
     mk_column "JINDX" (mk_form Long 1) None None (map VInt (co_jindx c));
     mk_column "CORR" (mk_form Double 1) None None (map VDbl (co_corr c))]
    (co_ncorr c)).
Lemma writes_corr c extver :
  storable_corr c = true -> writes (write_oi_corr E c extver) (corr_hdu c extver).
Proof.
  intros H. unfold storable_corr, wf_corr in H. split_and.
  unfold write_oi_corr. eapply writes_table; [reflexivity|].
  step; [apply runs_int|]. cbn [app].
  step; [apply runs_str; assumption|]. cbn [app].
  step; [apply runs_int|]. cbn [app].
  step; [apply runs_int|]. cbn [app].
  step; [|apply runs_chksum]. cbn [map make_column is_empty].
  pose proof (proj1 (Z.eqb_eq _ _) H) as Hl1. pose proof (proj1 (Z.eqb_eq _ _) H5) as Hl2.
  pose proof (proj1 (Z.eqb_eq _ _) H4) as Hl3.
  eapply runs_cells_cons; [unfold ints_; rewrite take_all by assumption; reflexivity| |].
  { apply runs_column1; [discriminate|now apply plain_longs]. }
  cbn [map]. rewrite map_length, Hl1.
  eapply runs_cells_cons; [unfold ints_; rewrite take_all by assumption; reflexivity| |].
  { apply (runs_column _ _ [_] _ _ _ [_]); [reflexivity| |discriminate|now apply plain_longs].
    now rewrite map_length. }
  eapply runs_cells_cons; [unfold dbls; rewrite take_all by assumption; reflexivity| |apply runs_cells_nil].
  apply (runs_column _ _ [_; _] _ _ _ []); [reflexivity| |discriminate|apply plain_dbls].
  now rewrite map_length.
Qed.

(** ** OI_INSPOL *)
Definition inspol_specs (nwave : Z) : list (cspec inspol_record) :=
  let j f := fun r => map VFlt (flat_map (fun c : cplx => [fst c; snd c]) (f r)) in
  [C "TARGET_ID" Short 1 (fun r => [VInt (ip_target_id r)]);
   C "INSNAME" Chars 70 (fun r => [VStr (ip_insname r)]);
   CU "MJD_OBS" Double 1 "day" (fun r => [VDbl (ip_mjd_obs r)]);
   CU "MJD_END" Double 1 "day" (fun r => [VDbl (ip_mjd_end r)]);
   C "JXX" Complex nwave (j ip_jxx); C "JYY" Complex nwave (j ip_jyy);
   C "JXY" Complex nwave (j ip_jxy); C "JYX" Complex nwave (j ip_jyx);
   C "STA_INDEX" Short 1 (fun r => [VInt (ip_sta_index r)])].
Definition inspol_keys (t : oi_inspol) (extver : Z) : list (bool * string * kval) :=
  [(true, "EXTNAME", KStr "OI_INSPOL"); (true, "OI_REVN", KInt 1);
   (true, "DATE-OBS", KStr (is_date_obs t)); (true, "NPOL", KInt (is_npol t));
   (true, "ARRNAME", KStr (is_arrname t)); (true, "ORIENT", KStr (is_orient t));
   (true, "MODEL", KStr (is_model t)); (true, "EXTVER", KInt extver)].
Definition inspol_hdu (t : oi_inspol) (extver : Z) : hdu :=
  sums E (mk_hdu BINARY_TBL (mkkeys (inspol_keys t extver))
            (map (scol (is_record t)) (inspol_specs (is_nwave t))) (is_numrec t)).
Lemma writes_inspol t extver :
  storable_inspol t = true -> writes (write_oi_inspol E t extver) (inspol_hdu t extver).
Proof.
  intros H. unfold storable_inspol, wf_inspol in H. split_and. texts.
  assert (Hs : forall r, In r (is_record t) ->
            wf_inspol_record (is_nwave t) r && storable_inspol_record r = true).
  { intros r Hr. apply andb_true_iff. split; [now apply (proj1 (forallb_forall _ _) H5)|].
    now apply (proj1 (forallb_forall _ _) H0). }
  unfold write_oi_inspol. eapply writes_table; [tform|].
  step; [apply runs_int|]. cbn [app].
  step; [apply runs_str; assumption|]. cbn [app].
  step; [apply runs_int|]. cbn [app].
  do 3 (step; [apply runs_str; assumption|]; cbn [app]).
  step; [apply runs_int|]. cbn [app].
  step; [|apply runs_chksum].
  change (map make_column _) with (map empty_col (inspol_specs (is_nwave t))).
  apply runs_rows with (gs := [fun r => int (ip_target_id r); fun r => str (ip_insname r);
    fun r => dbl (ip_mjd_obs r); fun r => dbl (ip_mjd_end r); fun r => cplxs (is_nwave t) (ip_jxx r);
    fun r => cplxs (is_nwave t) (ip_jyy r); fun r => cplxs (is_nwave t) (ip_jxy r);
    fun r => cplxs (is_nwave t) (ip_jyx r); fun r => int (ip_sta_index r)]).
  - reflexivity.
  - now apply Z.eqb_eq.
  - cbn. lia.
  - rows Hs (@storable_inspol_record).
Qed.
End Tables.
