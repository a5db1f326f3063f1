(** What the functions of read_fits.c return for the HDUs of WriteProofs, WriteData and
    WriteVis. *)
From Coq Require Import Lia.
From Verif Require Import BaseLemmas FileProofs ReadModel FitsRows IOSpec FitsText WriteTables
  WriteProofs WriteData WriteVis ReadCells.
Open Scope Z_scope.
Local Open Scope string_scope.
Local Open Scope list_scope.

(** keywords of an HDU [sums E (mk_hdu ty (mkkeys l) c n)] *)
Ltac key := rewrite find_keys by reflexivity; reflexivity.
Ltac kstep := eapply ret_bind;
  [first [ apply key_int_ok; key | apply key_str_ok; key | apply key_dbl_ok; key
         | apply key_opt_name; key | apply corrname_ok; key ]|].
(** cells of a row: the hypotheses of section Columns are in the context *)
Ltac found := first [eassumption | reflexivity].
Ltac cellstep := eapply ret_bind;
  [first [ eapply int_at_ok; [eassumption|eassumption|eassumption|reflexivity|reflexivity]
         | eapply dbl_at_ok; [eassumption|eassumption|eassumption|reflexivity|reflexivity]
         | eapply flt_at_ok; [eassumption|eassumption|eassumption|reflexivity|reflexivity]
         | eapply dbls_at_ok; [eassumption|eassumption|eassumption|reflexivity|reflexivity|reflexivity]
         | eapply bools_at_ok; [eassumption|eassumption|eassumption|reflexivity|reflexivity|reflexivity]
         | eapply pair_at_ok; [eassumption|eassumption|eassumption|reflexivity|reflexivity|reflexivity]
         | eapply triple_at_ok; [eassumption|eassumption|eassumption|reflexivity|reflexivity|reflexivity]
         | eapply str_at_ok; [eassumption|eassumption|eassumption|reflexivity|reflexivity|cbn; lia|reflexivity]
         | eapply cplxs_at_ok; [eassumption|eassumption|eassumption|reflexivity|reflexivity|lia|reflexivity]
         ]|].
(** widths of the cells; [Hs] as for [rows] *)
Ltac widths Hs defn :=
  repeat (apply Forall_cons;
    [let r := fresh "r" in let Hr := fresh "Hr" in
     intros r Hr; try specialize (Hs r Hr); unfold defn in Hs; unfold_wf Hs; split_and;
     repeat match goal with H : len_is _ _ = true |- _ => apply Z.eqb_eq in H end;
     cbn [C CU cs_form cs_val per_row fm_kind fm_repeat];
     rewrite ?map_length; try reflexivity; try assumption
    |]); try apply Forall_nil.

Lemma split_in {R} (recs pre post : list R) r : recs = pre ++ r :: post -> In r recs.
Proof. intros ->. apply in_or_app. right. now left. Qed.

Section Read.
Variable E : cfitsio.

(** ** OI_ARRAY *)
Lemma read_array a extver given :
  storable_array E a = true -> match given with Some s => s = ar_arrname a | None => True end ->
  returns (read_oi_array_chdu E (array_hdu E a extver) given) (Some (stored_array E a)).
Proof.
  intros H Hg. unfold storable_array in H. split_and. rename H0 into Hel. apply Z.eqb_eq in H.
  unfold read_oi_array_chdu, array_hdu.
  apply ret_unless. kstep. apply ret_unless.
  apply ret_bind with (a := ar_arrname a).
  { destruct given as [s|]; cbn [name_of]; [subst s; apply ret_ret|]. apply key_str_ok. key. }
  do 4 kstep.
  apply ret_bind with (a := Some (ar_nelement a)).
  { unfold get_num_rows.
    match goal with |- context [sums E ?h] => destruct (sums_rest E h) as (-> & _ & ->) end. reflexivity. }
  apply ret_unless. cbn [slot_int slot].
  eapply ret_bind; [apply ret_malloc; lia|].
  match goal with |- context [sums E ?h] =>
    set (hd := sums E h); destruct (sums_rest E h) as (_ & Hcols & _); fold hd in Hcols end.
  cbn [hd_cols] in Hcols.
  apply ret_bind with (a := ar_elem a).
  2: { apply ret_finish. }
  rewrite <- (map_id (ar_elem a)).
  apply new_rows_ok with (g := fun e : element => e); [exact H|].
  assert (Hs : forall r, In r (ar_elem a) -> storable_element r = true) by now apply forallb_forall.
  assert (Hw : Forall (fun s => forall r, In r (ar_elem a) ->
    Z.of_nat (List.length (cs_val s r)) = per_row (cs_form s)) array_specs).
  { widths Hs storable_element. now destruct (el_staxyz r) as [[x y] z]. }
  intros pre r post Hsp. unfold read_element.
  do 4 cellstep.
  destruct (el_staxyz r) as [[x y] z] eqn:Hxyz.
  eapply ret_bind.
  { eapply dbls_at_ok with (l := [x; y; z]); [eassumption|eassumption|eassumption|reflexivity|reflexivity|].
    cbn [cs_val CU]. now rewrite Hxyz. }
  eapply ret_bind; [reflexivity|]. cbn [Z.leb Z.compare Pos.compare Pos.compare_cont].
  eapply ret_bind; [do 2 cellstep; apply ret_ret|]. cbn [fst snd]. rewrite <- Hxyz.
  destruct r; apply ret_ret.
Qed.

(** ** OI_TARGET *)
Lemma read_targets t :
  storable_target t = true ->
  returns (read_oi_target_chdu E (target_hdu E t)) (Some (stored_target E t)).
Proof.
  intros H. unfold storable_target in H. split_and. rename H0 into Hel. apply Z.eqb_eq in H.
  assert (Hs : forall r, In r (ot_targ t) -> storable_target1 (ot_usecategory t) r = true)
    by now apply forallb_forall.
  unfold read_oi_target_chdu, target_hdu.
  apply ret_unless. kstep. apply ret_unless.
  apply ret_bind with (a := Some (ot_ntarget t)).
  { unfold get_num_rows.
    match goal with |- context [sums E ?h] => destruct (sums_rest E h) as (-> & _ & ->) end. reflexivity. }
  apply ret_unless. cbn [slot_int slot].
  eapply ret_bind; [apply ret_malloc; lia|].
  match goal with |- context [sums E ?h] =>
    set (hd := sums E h); destruct (sums_rest E h) as (_ & Hcols & _); fold hd in Hcols end.
  cbn [hd_cols] in Hcols.
  assert (Hw : Forall (fun s => forall r, In r (ot_targ t) ->
    Z.of_nat (List.length (cs_val s r)) = per_row (cs_form s)) (target_specs (ot_usecategory t))).
  { clear - E. unfold target_specs. cbn [app]. repeat (apply Forall_cons; [reflexivity|]).
    destruct (ot_usecategory t); repeat (first [apply Forall_nil|apply Forall_cons; [reflexivity|]]). }
  apply ret_bind with (a := map (stored_target1 E false) (ot_targ t)).
  { apply new_rows_ok; [exact H|]. intros pre r post Hsp. unfold read_target.
    specialize (Hs r (split_in _ _ _ _ Hsp)). unfold storable_target1 in Hs. split_and.
    repeat match goal with H : cell_text _ _ = true |- _ => apply cell_text_len in H end.
    destruct (ot_usecategory t);
    (cellstep;
     eapply ret_bind; [eapply str_trunc_at_ok with (t := tg_target r);
       [eassumption|eassumption|eassumption|reflexivity|reflexivity|cbn; lia|eassumption|reflexivity]|];
     do 14 cellstep;
     eapply ret_bind; [eapply str_trunc_at_ok with (t := tg_spectyp r);
       [eassumption|eassumption|eassumption|reflexivity|reflexivity|cbn; lia|eassumption|reflexivity]|];
     apply ret_ret). }
  eapply ret_bind with (a := (map (stored_target1 E (ot_usecategory t)) (ot_targ t), ot_usecategory t)).
  2: { apply ret_finish. }
  unfold read_category. cbn [Z.leb Z.compare Pos.compare Pos.compare_cont].
  destruct (ot_targ t) as [|t1 ts] eqn:Ht; [cbn [List.length] in H; lia|]. cbn [map].
  destruct (ot_usecategory t) eqn:Hu.
  - eapply ret_bind.
    { eapply (col_string_ok hd (t1 :: ts) _ Hcols Hw [] t1 ts eq_refl); try reflexivity; cbn; lia. }
    cbn [fst snd slot].
    apply ret_bind with (a := map (stored_target1 E true) ts).
    2: { destruct t1; apply ret_ret. }
    apply (rows_from_ok _ (stored_target1 E false) (stored_target1 E true) ts [t1]); [reflexivity|].
    intros pre r post Hsp Hle. cbn [app] in Hsp.
    eapply ret_bind.
    { eapply (col_string_ok hd (t1 :: ts) _ Hcols Hw pre r post Hsp); try reflexivity; cbn; lia. }
    destruct r; apply ret_ret.
  - apply ret_bind with (a := (None, false)).
    { unfold read_col_string, column_number, rbind, get_status, returns.
      rewrite bind_Ok. cbn [fst snd Z.eqb negb].
      rewrite (col_missing hd _ _ Hcols "CATEGORY") by reflexivity. reflexivity. }
    cbn [fst snd slot]. destruct t1; apply ret_ret.
Qed.

(** ** OI_WAVELENGTH and OI_CORR *)
Lemma read_wavelength w extver given :
  storable_wavelength w = true -> match given with Some s => s = wv_insname w | None => True end ->
  returns (read_oi_wavelength_chdu E (wavelength_hdu E w extver) given) (Some (stored_wavelength w)).
Proof.
  intros H Hg. unfold storable_wavelength, wf_wavelength in H. split_and.
  repeat match goal with H : len_is _ _ = true |- _ => apply Z.eqb_eq in H end.
  unfold read_oi_wavelength_chdu, wavelength_hdu.
  apply ret_unless. kstep. apply ret_unless.
  apply ret_bind with (a := wv_insname w).
  { destruct given as [s|]; cbn [name_of]; [subst s; apply ret_ret|]. apply key_str_ok. key. }
  match goal with |- context [sums E ?h] =>
    set (hd := sums E h); destruct (sums_rest E h) as (Ht & Hcols & Hn); fold hd in Ht, Hcols, Hn end.
  cbn [hd_cols hd_type hd_nrows] in *.
  apply ret_bind with (a := Some (wv_nwave w)).
  { unfold get_num_rows. now rewrite Ht, Hn. }
  apply ret_unless. cbn [slot_int slot].
  eapply ret_bind; [apply ret_malloc; lia|].
  apply ret_bind with (a := wv_eff_wave w).
  { unfold flts_at. eapply ret_then.
    - eapply read_whole; [rewrite Hcols; reflexivity|unfold nth_col; rewrite Hcols; reflexivity|..].
      + cbn [c_data]. now rewrite map_length.
      + apply convert_all_map. reflexivity.
    - reflexivity. }
  apply ret_bind with (a := wv_eff_band w).
  { unfold flts_at. eapply ret_then.
    - eapply read_whole; [rewrite Hcols; reflexivity|unfold nth_col; rewrite Hcols; reflexivity|..].
      + cbn [c_data]. now rewrite map_length.
      + apply convert_all_map. reflexivity.
    - reflexivity. }
  apply ret_finish.
Qed.
Lemma read_corr c extver given :
  storable_corr c = true -> match given with Some s => s = co_corrname c | None => True end ->
  returns (read_oi_corr_chdu E (corr_hdu E c extver) given) (Some (stored_corr c)).
Proof.
  intros H Hg. unfold storable_corr, wf_corr in H. split_and.
  repeat match goal with H : len_is _ _ = true |- _ => apply Z.eqb_eq in H end.
  unfold read_oi_corr_chdu, corr_hdu.
  apply ret_unless. kstep. apply ret_unless.
  apply ret_bind with (a := co_corrname c).
  { destruct given as [s|]; cbn [name_of]; [subst s; apply ret_ret|]. apply key_str_ok. key. }
  kstep.
  match goal with |- context [sums E ?h] =>
    set (hd := sums E h); destruct (sums_rest E h) as (Ht & Hcols & Hn); fold hd in Ht, Hcols, Hn end.
  cbn [hd_cols hd_type hd_nrows] in *.
  apply ret_bind with (a := Some (co_ncorr c)).
  { unfold get_num_rows. now rewrite Ht, Hn. }
  apply ret_unless. cbn [slot_int slot].
  eapply ret_bind; [apply ret_malloc; lia|].
  apply ret_bind with (a := co_iindx c).
  { unfold ints_at. eapply ret_then.
    - eapply read_whole; [rewrite Hcols; reflexivity|unfold nth_col; rewrite Hcols; reflexivity|..].
      + cbn [c_data]. now rewrite map_length.
      + apply convert_all_map. reflexivity.
    - reflexivity. }
  apply ret_bind with (a := co_jindx c).
  { unfold ints_at. eapply ret_then.
    - eapply read_whole; [rewrite Hcols; reflexivity|unfold nth_col; rewrite Hcols; reflexivity|..].
      + cbn [c_data]. now rewrite map_length.
      + apply convert_all_map. reflexivity.
    - reflexivity. }
  apply ret_bind with (a := co_corr c).
  { unfold dbls_at. eapply ret_then.
    - eapply read_whole; [rewrite Hcols; reflexivity|unfold nth_col; rewrite Hcols; reflexivity|..].
      + cbn [c_data]. now rewrite map_length.
      + apply convert_all_map. reflexivity.
    - reflexivity. }
  apply ret_finish.
Qed.

(** ** OI_INSPOL *)
Lemma read_inspol t extver :
  storable_inspol t = true ->
  returns (read_oi_inspol_chdu E (inspol_hdu E t extver)) (Some (stored_inspol E t)).
Proof.
  intros H. unfold storable_inspol, wf_inspol in H. split_and.
  repeat match goal with H : len_is _ _ = true |- _ => apply Z.eqb_eq in H end.
  assert (Hs : forall r, In r (is_record t) -> wf_inspol_record (is_nwave t) r = true)
    by now apply forallb_forall.
  unfold read_oi_inspol_chdu, inspol_hdu.
  apply ret_unless. kstep. apply ret_unless. do 5 kstep.
  match goal with |- context [sums E ?h] =>
    set (hd := sums E h); destruct (sums_rest E h) as (Ht & Hcols & Hn); fold hd in Ht, Hcols, Hn end.
  cbn [hd_cols hd_type hd_nrows] in *.
  destruct (dimensions_ok E hd _ _ "JXX" _ _ Hcols Ht Hn eq_refl) as (k & Hd & _).
  eapply ret_bind; [exact Hd|]. apply ret_unless. cbn [cs_form C fm_repeat].
  eapply ret_bind; [apply ret_alloc; lia|].
  apply ret_bind with (a := map (stored_inspol_record E (is_nwave t)) (is_record t)).
  2: { apply ret_finish. }
  assert (Hw : Forall (fun s => forall r, In r (is_record t) ->
    Z.of_nat (List.length (cs_val s r)) = per_row (cs_form s)) (inspol_specs (is_nwave t))).
  { widths Hs (@wf_inspol_record); rewrite flat_map_pair_length; unfold cplx in *; lia. }
  apply new_rows_ok; [assumption|]. intros pre r post Hsp. unfold read_inspol_record.
  do 9 cellstep. apply ret_ret.
Qed.

(** ** OI_VIS2, OI_T3, OI_FLUX *)
Lemma int_if_ok {R} h (recs : list R) specs pre r post (b : bool) name s z :
  hd_cols h = map (scol recs) specs ->
  Forall (fun s => forall r, In r recs -> Z.of_nat (List.length (cs_val s r)) = per_row (cs_form s)) specs ->
  recs = pre ++ r :: post -> (b = true -> picks specs name s) -> cs_val s r = [VInt z] ->
  returns (int_if E b h name (Z.of_nat (List.length pre) + 1)) (index_if E b z).
Proof.
  intros Hc Hw Hsp Hp Hv. destruct b; cbn [int_if index_if]; [|apply ret_ret].
  eapply int_at_ok; eauto.
Qed.

Lemma read_vis2 t extver :
  storable_vis2 t = true ->
  returns (read_oi_vis2_chdu E (vis2_hdu E t extver)) (Some (stored_vis2 E t)).
Proof.
  intros H. unfold storable_vis2, storable_dtab in H. split_and.
  destruct (wf_storable _ _ _ H H0) as [Hl Hs]. clear H H0.
  unfold read_oi_vis2_chdu, vis2_hdu.
  apply ret_unless. kstep. apply ret_unless. do 3 kstep.
  cbn [Z.leb Z.compare Pos.compare Pos.compare_cont]. kstep. cbn [fst snd].
  match goal with |- context [sums E ?h] =>
    set (hd := sums E h); destruct (sums_rest E h) as (Ht & Hcols & Hn); fold hd in Ht, Hcols, Hn end.
  cbn [hd_cols hd_type hd_nrows] in *.
  assert (Hd : exists k, returns (dimensions E hd "VIS2DATA") (tb_numrec t, tb_nwave t, k)).
  { destruct (nonempty (tb_corrname t));
    (destruct (dimensions_ok E hd _ _ "VIS2DATA" _ _ Hcols Ht Hn eq_refl) as (k & Hd & _);
     exists k; exact Hd). }
  destruct Hd as (k & Hd). eapply ret_bind; [exact Hd|]. apply ret_unless.
  eapply ret_bind; [apply ret_alloc; lia|].
  apply ret_bind with (a := map (stored_vis2_record E t) (tb_record t)).
  2: { apply ret_finish. }
  assert (Hw : Forall (fun s => forall r, In r (tb_record t) ->
    Z.of_nat (List.length (cs_val s r)) = per_row (cs_form s))
      (vis2_specs (tb_nwave t) (nonempty (tb_corrname t)))).
  { destruct (nonempty (tb_corrname t)); cbn [vis2_specs]; widths Hs (@storable_vis2_record). }
  apply new_rows_ok; [assumption|]. intros pre r post Hsp. unfold read_vis2_record, stored_vis2_record.
  destruct (nonempty (tb_corrname t));
  (do 10 cellstep;
   eapply ret_bind; [eapply int_if_ok with (s := vis2_corr);
     [eassumption|eassumption|eassumption|(discriminate || reflexivity)|reflexivity]|];
   cbn [fst snd]; rewrite <- surjective_pairing; apply ret_ret).
Qed.

Lemma read_t3 t extver :
  storable_t3 t = true ->
  returns (read_oi_t3_chdu E (t3_hdu E t extver)) (Some (stored_t3 E t)).
Proof.
  intros H. unfold storable_t3, storable_dtab in H. split_and.
  destruct (wf_storable _ _ _ H H0) as [Hl Hs]. clear H H0.
  unfold read_oi_t3_chdu, t3_hdu.
  apply ret_unless. kstep. apply ret_unless. do 3 kstep.
  cbn [Z.leb Z.compare Pos.compare Pos.compare_cont]. kstep. cbn [fst snd].
  match goal with |- context [sums E ?h] =>
    set (hd := sums E h); destruct (sums_rest E h) as (Ht & Hcols & Hn); fold hd in Ht, Hcols, Hn end.
  cbn [hd_cols hd_type hd_nrows] in *.
  assert (Hd : exists k, returns (dimensions E hd "T3AMP") (tb_numrec t, tb_nwave t, k)).
  { destruct (nonempty (tb_corrname t));
    (destruct (dimensions_ok E hd _ _ "T3AMP" _ _ Hcols Ht Hn eq_refl) as (k & Hd & _);
     exists k; exact Hd). }
  destruct Hd as (k & Hd). eapply ret_bind; [exact Hd|]. apply ret_unless.
  eapply ret_bind; [apply ret_alloc; lia|].
  apply ret_bind with (a := map (stored_t3_record E t) (tb_record t)).
  2: { apply ret_finish. }
  assert (Hw : Forall (fun s => forall r, In r (tb_record t) ->
    Z.of_nat (List.length (cs_val s r)) = per_row (cs_form s))
      (t3_specs (tb_nwave t) (nonempty (tb_corrname t)))).
  { destruct (nonempty (tb_corrname t)); cbn [t3_specs]; widths Hs (@storable_t3_record). }
  apply new_rows_ok; [assumption|]. intros pre r post Hsp. unfold read_t3_record, stored_t3_record.
  destruct (nonempty (tb_corrname t));
  (do 14 cellstep;
   eapply ret_bind; [eapply int_if_ok with (s := t3_corr_amp);
     [eassumption|eassumption|eassumption|(discriminate || reflexivity)|reflexivity]|];
   eapply ret_bind; [eapply int_if_ok with (s := t3_corr_phi);
     [eassumption|eassumption|eassumption|(discriminate || reflexivity)|reflexivity]|];
   cbn [fst snd]; rewrite <- !surjective_pairing; apply ret_ret).
Qed.

Lemma first_of_one c : first_char (one_char c) = c.
Proof.
  unfold one_char. destruct (Ascii.eqb_spec c zero) as [->|_]; reflexivity.
Qed.

Lemma read_flux t extver :
  storable_flux E t = true ->
  returns (read_oi_flux_chdu E (flux_hdu E t extver)) (Some (stored_flux E t)).
Proof.
  intros H. unfold storable_flux, storable_dtab in H. split_and.
  destruct (wf_storable _ _ _ H H0) as [Hl Hs]. clear H H0.
  unfold read_oi_flux_chdu, flux_hdu.
  apply ret_unless. kstep. apply ret_unless. do 4 kstep. cbn [fst snd].
  eapply ret_bind; [eapply key_opt_dbl_ok; key|]. kstep. kstep.
  match goal with |- context [sums E ?h] =>
    set (hd := sums E h); destruct (sums_rest E h) as (Ht & Hcols & Hn); fold hd in Ht, Hcols, Hn end.
  cbn [hd_cols hd_type hd_nrows] in *.
  assert (Hd : exists k, returns (dimensions E hd "FLUXDATA") (tb_numrec t, tb_nwave t, k)
                         /\ returns (read_tunit hd k) (Some (fx_fluxunit (tb_x t)))).
  { destruct (nonempty (tb_corrname t)), (nonempty (tb_arrname t));
    (destruct (dimensions_ok E hd _ _ "FLUXDATA" _ _ Hcols Ht Hn eq_refl) as (k & Hd & Hk);
     exists k; split; [exact Hd|unfold read_tunit; rewrite Hk; reflexivity]). }
  destruct Hd as (k & Hd & Hu). eapply ret_bind; [exact Hd|]. apply ret_unless.
  eapply ret_bind; [apply ret_alloc; lia|]. eapply ret_bind; [exact Hu|].
  apply ret_bind with (a := map (stored_flux_record E t) (tb_record t)).
  2: { rewrite first_of_one. apply ret_finish. }
  assert (Hw : Forall (fun s => forall r, In r (tb_record t) ->
    Z.of_nat (List.length (cs_val s r)) = per_row (cs_form s))
      (flux_specs (tb_nwave t) (fx_fluxunit (tb_x t)) (nonempty (tb_corrname t)) (nonempty (tb_arrname t)))).
  { destruct (nonempty (tb_corrname t)), (nonempty (tb_arrname t)); cbn [flux_specs];
    widths Hs (@storable_flux_record). }
  apply new_rows_ok; [assumption|]. intros pre r post Hsp. unfold read_flux_record, stored_flux_record.
  assert (Hrest : forall sta, returns
    (corrindx <~ int_if E (nonempty (tb_corrname t)) hd "CORRINDX_FLUXDATA" (Z.of_nat (List.length pre) + 1) ;~
     rret (mk_flux_record (fr_target_id r) (fr_mjd r) (fr_int_time r) (fr_fluxdata r) (fr_fluxerr r)
             corrindx sta (fr_flag r)))
    (mk_flux_record (fr_target_id r) (fr_mjd r) (fr_int_time r) (fr_fluxdata r) (fr_fluxerr r)
       (index_if E (nonempty (tb_corrname t)) (fr_corrindx_fluxdata r)) sta (fr_flag r))).
  { intros sta. eapply ret_bind; [eapply int_if_ok with (s := flux_corr);
     [eassumption|eassumption|eassumption| |reflexivity]|apply ret_ret].
    intros ->. destruct (nonempty (tb_arrname t)); reflexivity. }
  destruct (nonempty (tb_arrname t)) eqn:Ha.
  - destruct (nonempty (tb_corrname t));
    (do 6 cellstep;
     eapply colnum_found with (name := "STA_INDEX") (s := flux_sta); [exact Hcols|reflexivity|];
     intros k' Hk'; eapply ret_bind; [|apply Hrest];
     eapply ret_bind;
       [eapply read_cell with (s := flux_sta);
         [exact Hcols|exact Hw|exact Hsp|eapply picks_in with (name := "STA_INDEX"); reflexivity
         |exact Hk'|cbn; lia|reflexivity]
       |reflexivity]).
  - destruct (nonempty (tb_corrname t));
    (do 6 cellstep;
     eapply colnum_missing; [exact Hcols|reflexivity|];
     apply clear_status; eapply ret_bind; [apply ret_ret|apply Hrest]).
Qed.
End Read.
