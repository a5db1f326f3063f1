(** A dataset read from a file gives that file when it is written again. *)
From Coq Require Import Lia.
From Verif Require Import BaseLemmas FileProofs FileModel ReadModel IOSpec FitsText FitsRows WriteModel WriteTables WriteProofs
  WriteData WriteVis RoundTrip IOClaims IOProofs ByName CutSpec CutWhole TwiceSpec.
Open Scope list_scope.
Open Scope Z_scope.

Section Twice.
Variable E : cfitsio.
Hypothesis HE : settled E.

Lemma kept_twice x : key_double E x = true -> kept_double E (kept_double E x) = kept_double E x.
Proof.
  unfold key_double, kept_double. destruct (cf_key_double E x) as [y|] eqn:H; [|discriminate]. intros _.
  now rewrite (HE x y H).
Qed.
Lemma key_twice x : key_double E x = true -> key_double E (kept_double E x) = true.
Proof.
  unfold key_double, kept_double. destruct (cf_key_double E x) as [y|] eqn:H; [|discriminate]. intros _.
  now rewrite (HE x y H).
Qed.

Definition same_value {R} (f : R -> R) (s : cspec R) : Prop := forall r, cs_val s (f r) = cs_val s r.
Lemma scol_map {R} (f : R -> R) l (s : cspec R) : same_value f s -> scol (map f l) s = scol l s.
Proof.
  intros H. unfold scol. f_equal. induction l as [|r l IH]; [reflexivity|]. cbn [map flat_map]. now rewrite H, IH.
Qed.
Lemma scols_map {R} (f : R -> R) l (ss : list (cspec R)) : Forall (same_value f) ss ->
  map (scol (map f l)) ss = map (scol l) ss.
Proof. induction 1 as [|s ss Hs _ IH]; [reflexivity|]. cbn [map]. now rewrite scol_map, IH. Qed.
Lemma numbered_ext {A} (g : A -> Z -> hdu) (f : A -> A) (ok : A -> bool) l :
  (forall a v, ok a = true -> g (f a) v = g a v) -> forallb ok l = true ->
  forall k, numbered g k (map f l) = numbered g k l.
Proof.
  intros H. induction l as [|a l IH]; intros Ho k; [reflexivity|]. cbn [forallb] in Ho. apply andb_true_iff in Ho as [Ha Ho].
  cbn [map numbered]. now rewrite H, IH.
Qed.

Lemma header_same h : header_hdu E (stored_header E h) = header_hdu E h.
Proof. reflexivity. Qed.
Lemma array_same a v : storable_array E a = true -> array_hdu E (stored_array E a) v = array_hdu E a v.
Proof.
  intros H. unfold storable_array in H. split_and. unfold array_hdu, array_keys, stored_array.
  cbn [ar_arrname ar_frame ar_arrayx ar_arrayy ar_arrayz ar_nelement ar_elem]. now rewrite !kept_twice.
Qed.
Lemma target_same t : target_hdu E (stored_target E t) = target_hdu E t.
Proof.
  unfold target_hdu, stored_target. cbn [ot_ntarget ot_targ ot_usecategory].
  rewrite scols_map; [reflexivity|]. unfold target_specs. apply Forall_app. split.
  - repeat (apply Forall_cons; [intros r; reflexivity|]). constructor.
  - destruct (ot_usecategory t); [|constructor]. constructor; [|constructor]. intros r. reflexivity.
Qed.
Lemma wavelength_same w v : wavelength_hdu E (stored_wavelength w) v = wavelength_hdu E w v.
Proof. reflexivity. Qed.
Lemma corr_same c v : corr_hdu E (stored_corr c) v = corr_hdu E c v.
Proof. reflexivity. Qed.

Ltac specs := unfold insert_at; cbn [firstn skipn app Nat.sub];
  repeat (apply Forall_cons; [intros r; try reflexivity|]); try apply Forall_nil.
Ltac fields := cbn [tb_revision tb_date_obs tb_arrname tb_insname tb_corrname tb_x tb_numrec tb_nwave tb_record].
Lemma vis2_same t v : vis2_hdu E (stored_vis2 E t) v = vis2_hdu E t v.
Proof.
  unfold vis2_hdu, vis2_keys, stored_vis2, stored_dtab. fields. rewrite scols_map; [reflexivity|].
  unfold vis2_specs, vis2_base. destruct (nonempty (tb_corrname t)) eqn:Hc; specs.
  cbn. unfold stored_vis2_record. cbn. now rewrite Hc.
Qed.
Lemma t3_same t v : t3_hdu E (stored_t3 E t) v = t3_hdu E t v.
Proof.
  unfold t3_hdu, t3_keys, stored_t3, stored_dtab. fields. rewrite scols_map; [reflexivity|].
  unfold t3_specs, t3_base. destruct (nonempty (tb_corrname t)) eqn:Hc; specs;
    cbn; unfold stored_t3_record; cbn; now rewrite Hc.
Qed.
Lemma flux_same t v : storable_flux E t = true -> flux_hdu E (stored_flux E t) v = flux_hdu E t v.
Proof.
  intros H. unfold storable_flux in H. split_and.
  unfold flux_hdu, flux_keys, stored_flux, stored_dtab, stored_flux_extra. fields. cbn [fx_fov fx_fovtype fx_calstat fx_fluxunit].
  rewrite scols_map.
  - cbv zeta. destruct (nonempty (fx_fovtype (tb_x t))) eqn:Hf; [|reflexivity].
    rewrite kept_twice; [reflexivity|]. unfold nonempty in Hf. destruct (is_empty (fx_fovtype (tb_x t))); [discriminate|assumption].
  - unfold flux_specs, flux_base. destruct (nonempty (tb_corrname t)) eqn:Hc, (nonempty (tb_arrname t)) eqn:Ha; specs;
      cbn; unfold stored_flux_record; cbn; now rewrite ?Hc, ?Ha.
Qed.
Lemma vis_same t v : vis_hdu E (stored_vis E t) v = vis_hdu E t v.
Proof.
  unfold vis_hdu, stored_vis, stored_dtab. cbv zeta. fields.
  replace (vis_ampunit (stored_vis_extra (tb_x t))) with (vis_ampunit (tb_x t)).
  2: { unfold vis_ampunit, stored_vis_extra. cbn [vx_amptyp vx_ampunit]. now destruct (str_eqb _ _). }
  rewrite scols_map with (l := tb_record t).
  - f_equal. f_equal.
    + unfold vis_keys. cbv zeta. fields. unfold stored_vis_extra. cbn [vx_amptyp vx_phityp vx_amporder vx_phiorder].
      unfold order_if_any. destruct (0 <=? vx_amporder (tb_x t)) eqn:H1, (0 <=? vx_phiorder (tb_x t)) eqn:H2;
        rewrite ?H1, ?H2; reflexivity.
    + unfold stored_vis_extra. cbn [vx_usevisrefmap vx_usecomplex vx_complexunit]. now destruct (vx_usecomplex (tb_x t)).
  - unfold stored_vis_extra. cbn [vx_usevisrefmap vx_usecomplex vx_complexunit].
    unfold vis_specs, vis_specs3, vis_specs2, vis_specs1, vis_base, vis_complex. cbv zeta.
    destruct (nonempty (tb_corrname t)) eqn:Hc, (vx_usevisrefmap (tb_x t)) eqn:Hm, (vx_usecomplex (tb_x t)) eqn:Hx;
      cbn [andb]; specs; cbn; unfold stored_vis_record; cbn; now rewrite ?Hc, ?Hx.
Qed.

(** ** Storable again *)

Lemma forallb_imp {A} (p q : A -> bool) f l : (forall a, p a = true -> q (f a) = true) -> forallb p l = true ->
  forallb q (map f l) = true.
Proof.
  intros H. induction l as [|a l IH]; [reflexivity|]. cbn [map forallb]. intros Ha. apply andb_true_iff in Ha as [H1 H2].
  now rewrite H, IH.
Qed.
Ltac both := match goal with |- andb _ _ = true => apply andb_true_intro; split end.
Lemma array_again a : storable_array E a = true -> storable_array E (stored_array E a) = true.
Proof.
  intros H. unfold storable_array in H. split_and. unfold storable_array, stored_array, wf_array in *.
  cbn [ar_arrname ar_frame ar_arrayx ar_arrayy ar_arrayz ar_nelement ar_elem]. rewrite !key_twice by assumption.
  repeat both; auto; now apply Z.leb_le.
Qed.
Lemma target_again t : storable_target t = true -> storable_target (stored_target E t) = true.
Proof.
  unfold storable_target, stored_target, wf_targets, len_is. cbn [ot_ntarget ot_targ ot_usecategory]. rewrite map_length.
  intros H. apply andb_true_iff in H as [H1 H2]. rewrite H1. cbn [andb]. eapply forallb_imp; [|exact H2].
  intros x. unfold storable_target1, stored_target1. cbn [tg_target_id tg_target tg_veltyp tg_veldef tg_spectyp tg_category].
  destruct (ot_usecategory t); [easy|]. cbn [negb orb]. auto.
Qed.
Lemma dtab_again {X R} (x : X) rev f (t : dtab X R) : storable_dtab t = true -> storable_dtab (stored_dtab rev x f t) = true.
Proof. exact (fun H => H). Qed.
Lemma wf_again {X R} (wfr wfr' : Z -> R -> bool) (x : X) rev f (t : dtab X R) :
  (forall r, wfr (tb_nwave t) r = true -> wfr' (tb_nwave t) (f r) = true) ->
  wf_dtab wfr t = true -> wf_dtab wfr' (stored_dtab rev x f t) = true.
Proof.
  intros H. unfold wf_dtab, stored_dtab, len_is. fields. rewrite map_length. intros Hw. apply andb_true_iff in Hw as [H1 H2].
  rewrite H1. cbn [andb]. eapply forallb_imp; [exact H|exact H2].
Qed.
Ltac record := intros r; cbn; try easy.
Lemma vis2_again t : storable_vis2 t = true -> storable_vis2 (stored_vis2 E t) = true.
Proof.
  unfold storable_vis2. intros H. apply andb_true_iff in H as [H H3]. apply andb_true_iff in H as [H1 H2].
  repeat both; [eapply wf_again; [|exact H1]; auto|exact H2|].
  unfold stored_vis2, stored_dtab. fields. eapply forallb_imp; [|exact H3]. intros r.
  unfold storable_vis2_record, stored_vis2_record, indices, nonempty. fields.
  cbn [v2_target_id v2_sta_index v2_corrindx_vis2data]. destruct (is_empty (tb_corrname t)); cbn [negb index_if orb]; auto.
Qed.
Lemma t3_again t : storable_t3 t = true -> storable_t3 (stored_t3 E t) = true.
Proof.
  unfold storable_t3. intros H. apply andb_true_iff in H as [H H3]. apply andb_true_iff in H as [H1 H2].
  repeat both; [eapply wf_again; [|exact H1]; auto|exact H2|].
  unfold stored_t3, stored_dtab. fields. eapply forallb_imp; [|exact H3]. intros r.
  unfold storable_t3_record, stored_t3_record, indices, nonempty. fields.
  cbn [t3_target_id t3_sta_index t3_corrindx_t3amp t3_corrindx_t3phi].
  destruct (is_empty (tb_corrname t)); cbn [negb index_if orb]; auto.
Qed.
Lemma flux_again t : storable_flux E t = true -> storable_flux E (stored_flux E t) = true.
Proof.
  intros H. unfold storable_flux in H. apply andb_true_iff in H as [H H6]. apply andb_true_iff in H as [H H5].
  unfold storable_flux. both; [both|].
  - revert H. unfold stored_flux, stored_dtab. intros H. split_and. fields. cbn [stored_flux_extra fx_fov fx_fovtype fx_calstat fx_fluxunit].
    repeat both; auto. match goal with W : wf_flux t = true |- _ => eapply wf_again; [|exact W]; auto end.
  - unfold stored_flux, stored_dtab. fields. cbn [stored_flux_extra fx_fov fx_fovtype]. unfold nonempty.
    destruct (is_empty (fx_fovtype (tb_x t))); [reflexivity|]. cbn [orb negb] in *. now apply key_twice.
  - unfold stored_flux, stored_dtab. fields. eapply forallb_imp; [|exact H6]. intros r.
    unfold storable_flux_record, stored_flux_record, indices, nonempty. fields.
    cbn [fr_target_id fr_sta_index fr_corrindx_fluxdata].
    destruct (is_empty (tb_corrname t)), (is_empty (tb_arrname t)); cbn [negb index_if orb]; auto.
Qed.
Lemma vis_again t : storable_vis t = true -> storable_vis (stored_vis E t) = true.
Proof.
  intros H. unfold storable_vis in H. apply andb_true_iff in H as [H H4]. apply andb_true_iff in H as [H H3].
  apply andb_true_iff in H as [H1 H2]. unfold storable_vis. repeat both.
  - eapply wf_again; [|exact H1]; auto.
  - exact H2.
  - unfold stored_vis, stored_dtab. fields. unfold stored_vis_extra. cbn [forallb vx_amptyp vx_phityp vx_complexunit vx_ampunit] in *.
    split_and. repeat both; auto; [destruct (vx_usecomplex (tb_x t))|destruct (str_eqb _ _)]; auto.
  - unfold stored_vis, stored_dtab. fields. eapply forallb_imp; [|exact H4]. intros r.
    unfold storable_vis_record, stored_vis_record, indices, nonempty. cbv zeta. fields.
    cbn [stored_vis_extra vx_usecomplex vr_target_id vr_sta_index vr_corrindx_visamp vr_corrindx_visphi vr_corrindx_rvis vr_corrindx_ivis].
    destruct (is_empty (tb_corrname t)), (vx_usecomplex (tb_x t)); cbn [negb index_if orb andb]; auto.
Qed.

Lemma misread_len n l : 0 <= n -> len_is n l = true -> len_is n (misread E n l) = true.
Proof.
  intros Hn. unfold len_is, misread. rewrite !map_length, firstn_length. intros H. apply Z.eqb_eq in H. apply Z.eqb_eq.
  match goal with |- context [Nat.min _ ?n] => assert (L : n = (2 * List.length l)%nat) end.
  { clear. induction l as [|a l IH]; [reflexivity|]. cbn [flat_map app List.length]. lia. }
  rewrite L. lia.
Qed.
Lemma inspol_again t : storable_inspol t = true -> storable_inspol (stored_inspol E t) = true.
Proof.
  intros H. unfold storable_inspol, wf_inspol in H. split_and.
  unfold storable_inspol, wf_inspol, stored_inspol, len_is in *.
  cbn [is_date_obs is_npol is_arrname is_orient is_model is_numrec is_nwave is_record]. rewrite map_length.
  repeat both; auto; try (now apply Z.leb_le).
  - match goal with W : forallb (wf_inspol_record _) _ = true |- _ => eapply forallb_imp; [|exact W] end.
    intros r Hr. unfold wf_inspol_record in *. split_and. cbn [stored_inspol_record ip_jxx ip_jyy ip_jxy ip_jyx].
    rewrite !misread_len by (assumption || lia). reflexivity.
  - match goal with W : forallb storable_inspol_record _ = true |- _ => eapply forallb_imp; [|exact W] end.
    intros r Hr. exact Hr.
Qed.

(** ** The whole dataset *)

Definition tables_of (o' o : oi_fits) : Prop :=
  has_tables o' (stored_header E (o_header o)) (stored_target E (o_targets o))
    (map (stored_array E) (o_arrayList o)) (map stored_wavelength (o_wavelengthList o))
    (map stored_corr (o_corrList o)) (map (stored_inspol E) (o_inspolList o))
    (map (stored_vis E) (o_visList o)) (map (stored_vis2 E) (o_vis2List o))
    (map (stored_t3 E) (o_t3List o)) (map (stored_flux E) (o_fluxList o)).
Lemma fits_again o o' : storable_fits E o = true -> tables_of o' o -> storable_fits E o' = true.
Proof.
  intros H Ht. unfold storable_fits in H. split_and. unfold tables_of, has_tables in Ht.
  destruct Ht as (T1 & T2 & T3 & T4 & T5 & T6 & T7 & T8 & T9 & T10 & _).
  unfold storable_fits. rewrite T1, T2, T3, T4, T5, T6, T7, T8, T9, T10.
  repeat both.
  - assumption.
  - now apply target_again.
  - eapply forallb_imp; [apply array_again|assumption].
  - eapply forallb_imp; [|eassumption]. auto.
  - eapply forallb_imp; [|eassumption]. auto.
  - eapply forallb_imp; [apply inspol_again|assumption].
  - eapply forallb_imp; [apply vis_again|assumption].
  - eapply forallb_imp; [apply vis2_again|assumption].
  - eapply forallb_imp; [apply t3_again|assumption].
  - eapply forallb_imp; [apply flux_again|assumption].
Qed.
Lemma hdus_again o o' : storable_fits E o = true -> tables_of o' o -> o_inspolList o = [] ->
  file_hdus E o' = file_hdus E o.
Proof.
  intros H Ht Hi. unfold storable_fits in H. split_and. unfold tables_of, has_tables in Ht.
  destruct Ht as (T1 & T2 & T3 & T4 & T5 & T6 & T7 & T8 & T9 & T10 & _).
  unfold file_hdus. rewrite T1, T2, T3, T4, T5, T6, T7, T8, T9, T10, Hi.
  rewrite header_same, target_same. f_equal. f_equal.
  rewrite (numbered_ext _ _ (storable_array E)) by (assumption || apply array_same).
  rewrite (numbered_ext _ _ storable_wavelength) by (assumption || intros; apply wavelength_same).
  rewrite (numbered_ext _ _ storable_corr) by (assumption || intros; apply corr_same).
  rewrite (numbered_ext (A:=oi_vis) _ _ storable_vis) by (assumption || intros; apply vis_same).
  rewrite (numbered_ext (A:=oi_vis2) _ _ storable_vis2) by (assumption || intros; apply vis2_same).
  rewrite (numbered_ext (A:=oi_t3) _ _ storable_t3) by (assumption || intros; apply t3_same).
  rewrite (numbered_ext (A:=oi_flux) _ _ (storable_flux E)) by (assumption || apply flux_same).
  reflexivity.
Qed.
Lemma copy_storable o name name2 d d1 : storable_fits E o = true -> o_inspolList o = [] ->
  find_file name d = None -> find_file name2 d = None -> name2 <> name ->
  write_oi_fits E name o d 0 = Ok (d1, 0) ->
  exists o1 d2, read_oi_fits E name d1 0 = Ok (Some o1, 0) /\ write_oi_fits E name2 o1 d1 0 = Ok (d2, 0)
    /\ find_file name2 d2 = find_file name d1
    /\ read_oi_fits E name2 d2 0 = Ok (Some o1, 0)
    /\ (forall other, other <> name2 -> find_file other d2 = find_file other d1).
Proof.
  intros Hs Hi Hd Hd2 Hn Hw. destruct (file_round_trip E o name d Hs Hd) as (d1' & o1 & Hw' & Hf & Hr & Ht).
  rewrite Hw in Hw'. injection Hw' as <-. exists o1.
  assert (Hs1 : storable_fits E o1 = true) by (eapply fits_again; eassumption).
  assert (Hd1 : find_file name2 d1 = None) by (rewrite Hf; assumption).
  destruct (file_round_trip E o1 name2 d1 Hs1 Hd1) as (d2 & o2 & Hw2 & Hf2 & Hr2 & _).
  exists d2. split; [exact Hr|]. split; [exact Hw2|].
  assert (Hsame : find_file name2 d2 = find_file name d1).
  { rewrite (written_hdus E o1 name2 d1 d2), (written_hdus E o name d d1) by assumption. f_equal.
    now apply hdus_again. }
  split; [exact Hsame|]. split; [|exact Hf2]. revert Hr. unfold read_oi_fits. cbn [Z.eqb negb]. now rewrite Hsame.
Qed.
Lemma copy_same o name name2 d d1 : wf_fits o = true -> kept_strings o -> filled o -> o_inspolList o = [] ->
  find_file name2 d = None -> name2 <> name -> write_oi_fits E name o d 0 = Ok (d1, 0) ->
  exists o1 d2, read_oi_fits E name d1 0 = Ok (Some o1, 0) /\ write_oi_fits E name2 o1 d1 0 = Ok (d2, 0)
    /\ find_file name2 d2 = find_file name d1
    /\ read_oi_fits E name2 d2 0 = Ok (Some o1, 0)
    /\ (forall other, other <> name2 -> find_file other d2 = find_file other d1).
Proof.
  intros Hw Hk Hf Hi Hd2 Hn H. destruct (write_cut E o name d d1 Hw Hk Hf H) as (Hd & Hs & Hc).
  apply (copy_storable (cut o) name name2 d d1); try assumption. unfold cut. cbn [o_inspolList]. now rewrite Hi.
Qed.
End Twice.
