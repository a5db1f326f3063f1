(** Each table is written as if its strings were cut before. *)
From Coq Require Import Lia.
From Verif Require Import BaseLemmas FileProofs FileModel IOSpec FitsText FitsRows WriteModel WriteTables WriteProofs
  WritableSpec WritableProofs WritableTables WritableWhole CutSpec CutProofs.
Open Scope list_scope.
Open Scope Z_scope.

Section Cut.
Variable E : cfitsio.

Lemma when_key_cut k s : kept s ->
  when (nonempty (card s)) (write_key_str k (card s)) = when (nonempty s) (write_key_str k s).
Proof. intros H. rewrite kept_nonempty by exact H. now rewrite (key_same k (card s) s (card_card s)). Qed.
Lemma key_cut k s : write_key_str k (card s) = write_key_str k s.
Proof. apply key_same, card_card. Qed.
Lemma unit_cut k s : write_tunit k (card s) = write_tunit k s.
Proof.
  unfold write_tunit. f_equal. unfold on_col, set_unit. now rewrite card_card.
Qed.

Lemma header_cut h s : Forall kept [h_referenc h; h_author h; h_prog_id h; h_procsoft h; h_obstech h] ->
  write_oi_header E (cut_header h) s = write_oi_header E h s.
Proof.
  intros H. repeat match goal with H : Forall _ (_ :: _) |- _ =>
    pose proof (Forall_inv H); apply Forall_inv_tail in H end.
  unfold write_oi_header, cut_header.
  cbn [h_origin h_date_obs h_telescop h_instrume h_observer h_insmode h_object h_referenc h_author h_prog_id
       h_procsoft h_obstech].
  rewrite !when_key_cut by assumption. now rewrite !key_cut.
Qed.
Lemma wavelength_cut w v s : write_oi_wavelength E (cut_wavelength w) v s = write_oi_wavelength E w v s.
Proof. unfold write_oi_wavelength, cut_wavelength. cbn [wv_insname wv_nwave wv_eff_wave wv_eff_band]. now rewrite key_cut. Qed.
Lemma corr_cut c v s : write_oi_corr E (cut_corr c) v s = write_oi_corr E c v s.
Proof.
  unfold write_oi_corr, cut_corr. cbn [co_corrname co_ndata co_ncorr co_iindx co_jindx co_corr]. now rewrite key_cut.
Qed.
Ltac fields := cbn [tb_revision tb_date_obs tb_arrname tb_insname tb_corrname tb_x tb_numrec tb_nwave tb_record].
Lemma vis2_cut t v s : kept_dtab t -> write_oi_vis2 E (cut_vis2 t) v s = write_oi_vis2 E t v s.
Proof.
  intros [H1 H2]. unfold write_oi_vis2, cut_vis2, cut_dtab. fields.
  rewrite (when_key_cut "ARRNAME") by exact H1. rewrite (kept_nonempty _ H2). now rewrite !key_cut.
Qed.
Lemma t3_cut t v s : kept_dtab t -> write_oi_t3 E (cut_t3 t) v s = write_oi_t3 E t v s.
Proof.
  intros [H1 H2]. unfold write_oi_t3, cut_t3, cut_dtab. fields.
  rewrite (when_key_cut "ARRNAME") by exact H1. rewrite (kept_nonempty _ H2). now rewrite !key_cut.
Qed.
Lemma flux_cut t v s : kept_dtab t -> kept (fx_fovtype (tb_x t)) -> write_oi_flux E (cut_flux t) v s = write_oi_flux E t v s.
Proof.
  intros [H1 H2] H3. unfold write_oi_flux, cut_flux, cut_dtab. fields. cbn [fx_fov fx_fovtype fx_calstat fx_fluxunit].
  rewrite (when_key_cut "ARRNAME") by exact H1.
  rewrite (key_same "CALSTAT" (one_char (cut_char (fx_calstat (tb_x t)))) _ (one_char_cut _)).
  rewrite (kept_nonempty _ H1), (kept_nonempty _ H2), (kept_nonempty _ H3). now rewrite !key_cut, !unit_cut.
Qed.
Lemma vis_cut t v s : kept_vis t -> write_oi_vis E (cut_vis t) v s = write_oi_vis E t v s.
Proof.
  intros ([H1 H2] & H3 & H4 & H5).
  assert (Ha : str_eqb (card (vx_amptyp (tb_x t))) "correlated flux" = str_eqb (vx_amptyp (tb_x t)) "correlated flux").
  { destruct (str_eqb (vx_amptyp (tb_x t)) "correlated flux") eqn:Ha.
    - apply str_eqb_eq in Ha. rewrite Ha. reflexivity.
    - destruct (str_eqb (card (vx_amptyp (tb_x t))) "correlated flux") eqn:Hb; [|reflexivity].
      apply str_eqb_eq in Hb. apply H5 in Hb. apply (proj2 (str_eqb_eq _ _)) in Hb. congruence. }
  unfold write_oi_vis, write_oi_vis_opt, cut_vis, cut_dtab. fields. cbv zeta.
  cbn [vx_amptyp vx_phityp vx_amporder vx_phiorder vx_usevisrefmap vx_usecomplex vx_complexunit vx_ampunit].
  rewrite Ha, (when_key_cut "ARRNAME") by exact H1. rewrite (when_key_cut "AMPTYP") by exact H3.
  rewrite (when_key_cut "PHITYP") by exact H4. rewrite (kept_nonempty _ H2). now rewrite !key_cut, !unit_cut.
Qed.

Lemma same_string fs k w s : 1 <= k -> 0 <= w -> nth_error fs (Z.to_nat (k - 1)) = Some (mk_form Chars w) ->
  same_cell fs (k, str s) (k, str (cell w s)).
Proof. intros H1 H2 H3. right. exists k, w, s, (cell w s). repeat split; auto. now rewrite cell_cell. Qed.
Ltac same_cells_tac := repeat (apply Forall2_cons;
  [first [(apply same_string; [lia|lia|nats; cbn [nth_error]; reflexivity]) | (left; reflexivity)]|]);
  apply Forall2_nil.
Ltac same_steps := repeat (eapply same_seq; [apply same_eq; intros; now rewrite ?key_cut|step|]).
Lemma array_cut a v s : wf_array a = true -> write_oi_array E (cut_array a) v s = write_oi_array E a v s.
Proof.
  intros Hw. symmetry. unfold write_oi_array, cut_array.
  cbn [ar_arrname ar_frame ar_arrayx ar_arrayy ar_arrayz ar_nelement ar_elem].
  eapply same_table; [reflexivity|]. cbn [map snd array_cols]. rewrite !key_cut.
  do 7 (eapply same_seq; [apply same_refl|step|]).
  eapply same_seq; [| |apply same_refl].
  - apply same_rows; [exact Hw|]. intros e _. destruct e as [e1 e2 e3 e4 [[x y] z] e6 e7]. unfold array_cells, cut_element.
    cbn [el_tel_name el_sta_name el_sta_index el_diameter el_staxyz el_fov el_fovtype].
    split; [same_cells_tac|]. eexists. cells.
  - apply (acts_records _ _ _ _ (fun e => short (el_sta_index e))); [exact Hw|].
    intros [? ? ? ? [[x y] z] ? ?] _. eexists. split; [unfold array_cells; cbn [el_staxyz]; cells|]. cbn. bools.
Qed.
Lemma target_cut t s : wf_targets t = true -> write_oi_target E (cut_target t) s = write_oi_target E t s.
Proof.
  intros Hw. symmetry. unfold write_oi_target, cut_target. cbn [ot_revision ot_ntarget ot_targ ot_usecategory].
  eapply same_table; [reflexivity|]. cbn [map snd target_cols].
  eapply same_seq; [apply same_refl|step|].
  eapply same_seq; [| |].
  - apply same_rows; [exact Hw|]. intros e _. unfold target_cells, cut_target1.
    cbn [tg_target_id tg_target tg_raep0 tg_decep0 tg_equinox tg_ra_err tg_dec_err tg_sysvel tg_veltyp tg_veldef tg_pmra
         tg_pmdec tg_pmra_err tg_pmdec_err tg_parallax tg_para_err tg_spectyp].
    split; [same_cells_tac|]. eexists. cells.
  - apply (acts_records _ _ _ _ (fun e => short (tg_target_id e))); [exact Hw|].
    intros e _. eexists. split; [unfold target_cells; cells|]. cbn. bools.
  - destruct (ot_usecategory t); cbn [when]; [|apply same_refl].
    match goal with |- same (?a ;> ?b) (?a' ;> ?b) ?fs => intros st Hst; unfold seq_ at 1 3; f_equal; revert st Hst; change (same a a' fs) end.
    eapply same_seq; [apply same_refl|step|].
    apply same_rows; [exact Hw|]. intros e _. unfold cut_target1. cbn [tg_category].
    split; [same_cells_tac|]. eexists. cells.
Qed.
Lemma inspol_cut t v s : wf_inspol t = true -> 0 <= is_nwave t <= 9999 ->
  write_oi_inspol E (cut_inspol t) v s = write_oi_inspol E t v s.
Proof.
  intros Hw Hn. unfold wf_inspol in Hw. split_and. symmetry. unfold write_oi_inspol, cut_inspol.
  cbn [is_revision is_date_obs is_npol is_arrname is_orient is_model is_numrec is_nwave is_record].
  rewrite forallb_forall in *.
  eapply same_table; [unfold inspol_cols, nC; narrow_form tt|]. cbn [map snd]. rewrite !key_cut.
  do 7 (eapply same_seq; [apply same_refl|step|]).
  eapply same_seq; [| |apply same_refl].
  - apply same_rows; [assumption|]. intros r Hr.
    match goal with H : forall x, In x (is_record t) -> _ |- _ => pose proof (H r Hr) as Hwr; unfold wf_inspol_record in Hwr end.
    split_and. unfold inspol_cells, cut_inspol_record.
    cbn [ip_target_id ip_insname ip_mjd_obs ip_mjd_end ip_jxx ip_jyy ip_jxy ip_jyx ip_sta_index].
    split; [same_cells_tac|]. eexists. cells.
  - apply (acts_records _ _ _ _ (fun r => short (ip_target_id r) && short (ip_sta_index r))); [assumption|].
    intros r Hr.
    match goal with H : forall x, In x (is_record t) -> _ |- _ => pose proof (H r Hr) as Hwr; unfold wf_inspol_record in Hwr end.
    split_and. eexists. split; [unfold inspol_cells; cells|]. cbn. bools.
Qed.
End Cut.
