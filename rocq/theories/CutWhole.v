(** What is read of a file that was written without an error. *)
From Coq Require Import Lia.
From Verif Require Import BaseLemmas FileProofs FileModel ReadModel IOSpec FitsText FitsRows WriteModel WriteTables WriteProofs
  IOClaims IOProofs WritableSpec WritableProofs WritableTables WritableWhole CutSpec CutProofs CutTables.
Open Scope list_scope.
Open Scope Z_scope.

Lemma forallb_map' {A B} (p : B -> bool) (f : A -> B) l : forallb p (map f l) = forallb (fun a => p (f a)) l.
Proof. induction l as [|a l IH]; cbn; congruence. Qed.
Lemma forallb_all {A} (p : A -> bool) l : (forall a, In a l -> p a = true) -> forallb p l = true.
Proof. apply forallb_forall. Qed.

Section Whole.
Variable E : cfitsio.

Lemma write_list_ext {A} (w w' : A -> Z -> wstate -> res wstate) f l :
  (forall a v s, In a l -> w (f a) v s = w' a v s) -> forall k s, write_list w k (map f l) s = write_list w' k l s.
Proof.
  intros H. induction l as [|a l IH]; intros k s; cbn [map write_list]; [reflexivity|]. unfold seq_.
  rewrite H by now left. destruct (w' a k s) as [s'| |]; [rewrite !bind_Ok|reflexivity|reflexivity].
  apply IH. intros b v s0 Hb. apply H. now right.
Qed.
Lemma seq_ext (a a' b b' : wstate -> res wstate) : (forall s, a s = a' s) -> (forall s, b s = b' s) ->
  forall s, seq_ a b s = seq_ a' b' s.
Proof. intros H1 H2 s. unfold seq_. rewrite H1. destruct (a' s); [rewrite !bind_Ok; apply H2|reflexivity|reflexivity]. Qed.
Lemma tables_cut o s : wf_fits o = true -> kept_strings o ->
  Forall (fun t => 0 <= is_nwave t <= 9999) (o_inspolList o) ->
  write_tables E (cut o) s = write_tables E o s.
Proof.
  intros Hw (K1 & K2 & K3 & K4 & K5) Hi. unfold wf_fits in Hw. split_and. rewrite forallb_forall in *.
  rewrite Forall_forall in K2, K3, K4, K5, Hi. unfold write_tables, cut.
  cbn [o_header o_targets o_arrayList o_wavelengthList o_corrList o_inspolList o_visList o_vis2List o_t3List o_fluxList].
  revert s.
  apply seq_ext; [intros; now apply header_cut|].
  apply seq_ext; [intros; now apply target_cut|].
  apply seq_ext; [intros; apply write_list_ext; intros; apply array_cut; auto|].
  apply seq_ext; [intros; apply write_list_ext; intros; apply wavelength_cut|].
  apply seq_ext; [intros; apply write_list_ext; intros; apply corr_cut|].
  apply seq_ext; [intros; apply write_list_ext; intros; apply inspol_cut; auto|].
  apply seq_ext; [intros; apply write_list_ext; intros; apply vis_cut; auto|].
  apply seq_ext; [intros; apply write_list_ext; intros; apply vis2_cut; auto|].
  apply seq_ext; [intros; apply write_list_ext; intros; apply t3_cut; auto|].
  intros; apply write_list_ext; intros; apply flux_cut; now apply K5.
Qed.

Lemma filled_counted o : filled o -> channels_counted o.
Proof.
  intros (_ & _ & _ & _ & H & _). unfold channels_counted. rewrite Forall_forall in *. intros t Ht.
  destruct (H t Ht). lia.
Qed.
Lemma written_good o name d d' : wf_fits o = true -> channels_counted o ->
  write_oi_fits E name o d 0 = Ok (d', 0) -> find_file name d = None /\ Forall good (verdicts E o).
Proof.
  intros Hw Hc H. destruct (find_file name d) eqn:Hd.
  - unfold write_oi_fits in H. cbn [Z.eqb negb] in H. rewrite Hd in H. discriminate.
  - split; [reflexivity|]. destruct (write_outcome E o name d Hw Hc Hd) as [H1 H2].
    destruct (H2) as (hdus & st & Hr & Hs).
    + intros Hst. apply H1 in Hst. congruence.
    + rewrite H in Hr. injection Hr as _ <-. now apply Hs.
Qed.

Lemma verdicts_good o : Forall good (verdicts E o) ->
  writable_target (o_targets o) = true
  /\ (forall a, In a (o_arrayList o) -> writable_array E a = true)
  /\ (forall a, In a (o_corrList o) -> writable_corr a = true)
  /\ (forall t, In t (o_inspolList o) -> is_nwave t <= 9999 /\ writable_inspol t = true)
  /\ (forall t, In t (o_visList o) -> tb_nwave t <= 9999 /\ writable_vis t = true)
  /\ (forall t, In t (o_vis2List o) -> tb_nwave t <= 9999 /\ writable_vis2 t = true)
  /\ (forall t, In t (o_t3List o) -> tb_nwave t <= 9999 /\ writable_t3 t = true)
  /\ (forall t, In t (o_fluxList o) -> tb_nwave t <= 9999 /\ writable_flux E t = true).
Proof.
  assert (G : forall A (f : A -> bool * bool) l, Forall good (map f l) -> forall a, In a l -> f a = (true, true)).
  { intros A f l H a Ha. rewrite Forall_forall in H. apply (H (f a)). now apply in_map. }
  intros H. unfold verdicts in H. pose proof (Forall_inv H) as H0. apply Forall_inv_tail in H.
  rewrite !Forall_app in H. destruct H as (H1 & H2 & H3 & H4 & H5 & H6 & H7 & H8).
  split; [unfold good in H0; congruence|].
  split; [intros a Ha; pose proof (G _ _ _ H1 a Ha); congruence|].
  split; [intros a Ha; pose proof (G _ _ _ H3 a Ha); congruence|].
  split; [intros a Ha; pose proof (G _ _ _ H4 a Ha) as G1; injection G1 as G1 G2; split; [now apply Z.leb_le|exact G2]|].
  split; [intros a Ha; pose proof (G _ _ _ H5 a Ha) as G1; injection G1 as G1 G2; split; [now apply Z.leb_le|exact G2]|].
  split; [intros a Ha; pose proof (G _ _ _ H6 a Ha) as G1; injection G1 as G1 G2; split; [now apply Z.leb_le|exact G2]|].
  split; [intros a Ha; pose proof (G _ _ _ H7 a Ha) as G1; injection G1 as G1 G2; split; [now apply Z.leb_le|exact G2]|].
  intros a Ha; pose proof (G _ _ _ H8 a Ha) as G1; injection G1 as G1 G2; split; [now apply Z.leb_le|exact G2].
Qed.

Ltac both := match goal with |- andb _ _ = true => apply andb_true_intro; split end.
Ltac fields := cbn [tb_revision tb_date_obs tb_arrname tb_insname tb_corrname tb_x tb_numrec tb_nwave tb_record].
Lemma kept_indices s l : kept s -> indexed s l = true -> indices (card s) l = true.
Proof.
  intros H. unfold indexed, indices. pose proof (kept_nonempty s H) as Hn. unfold nonempty in Hn.
  destruct (is_empty (card s)), (is_empty s); cbn in *; try discriminate; auto.
Qed.
Lemma storable_dtab_cut {X R} (x : X) (t : dtab X R) : filled_dtab t -> tb_nwave t <= 9999 ->
  storable_dtab (cut_dtab x t) = true.
Proof.
  intros [H1 H2] H3. unfold storable_dtab, cut_dtab. fields. cbn [forallb]. rewrite ?card_is_text.
  apply Z.leb_le in H1, H2, H3. now rewrite H1, H2, H3.
Qed.
Lemma storable_cut o : wf_fits o = true -> kept_strings o -> filled o -> Forall good (verdicts E o) ->
  storable_fits E (cut o) = true.
Proof.
  intros Hw (K1 & K2 & K3 & K4 & K5) (F0 & F1 & F2 & F3 & F4 & F5 & F6 & F7 & F8) Hg.
  destruct (verdicts_good o Hg) as (G0 & G1 & G3 & G4 & G5 & G6 & G7 & G8). clear Hg.
  unfold wf_fits in Hw. split_and. rewrite forallb_forall in *. rewrite Forall_forall in *.
  unfold storable_fits, cut.
  cbn [o_header o_targets o_arrayList o_wavelengthList o_corrList o_inspolList o_visList o_vis2List o_t3List o_fluxList].
  rewrite !forallb_map'. repeat both.
  - unfold storable_header, cut_header.
    cbn [h_origin h_date_obs h_telescop h_instrume h_observer h_insmode h_object h_referenc h_author h_prog_id
         h_procsoft h_obstech forallb]. now rewrite !card_is_text.
  - unfold storable_target, cut_target. cbn [ot_ntarget ot_targ ot_usecategory].
    unfold wf_targets, len_is in *. cbn [ot_ntarget ot_targ]. rewrite map_length. repeat both; [assumption|now apply Z.leb_le|].
    rewrite forallb_map'. apply forallb_all. intros x Hx. unfold storable_target1, cut_target1.
    cbn [tg_target_id tg_target tg_veltyp tg_veldef tg_spectyp tg_category].
    unfold writable_target in G0. rewrite forallb_forall in G0. rewrite G0 by exact Hx.
    rewrite !cell_is_text by lia. cbn [andb]. now destruct (ot_usecategory (o_targets o)).
  - apply forallb_all. intros a Ha. specialize (G1 a Ha). specialize (F1 a Ha). unfold writable_array in G1. split_and.
    unfold storable_array, cut_array. cbn [ar_arrname ar_frame ar_arrayx ar_arrayy ar_arrayz ar_nelement ar_elem].
    repeat both; try assumption; try apply card_is_text; [|now apply Z.leb_le|].
    + unfold wf_array, len_is in *. cbn [ar_nelement ar_elem]. rewrite map_length. auto.
    + rewrite forallb_map'. apply forallb_all. intros x Hx. unfold storable_element, cut_element.
      cbn [el_tel_name el_sta_name el_sta_index el_fovtype]. rewrite !cell_is_text by lia.
      match goal with H : forallb _ (ar_elem a) = true |- _ => rewrite forallb_forall in H; now rewrite (H x Hx) end.
  - apply forallb_all. intros a Ha. specialize (F2 a Ha). unfold storable_wavelength, cut_wavelength.
    cbn [wv_insname wv_nwave]. repeat both; [|now apply Z.leb_le|apply card_is_text].
    unfold wf_wavelength in *. cbn [wv_nwave wv_eff_wave wv_eff_band]. auto.
  - apply forallb_all. intros a Ha. specialize (G3 a Ha). specialize (F3 a Ha). unfold writable_corr in G3. split_and.
    unfold storable_corr, cut_corr. cbn [co_corrname co_ncorr co_iindx co_jindx].
    repeat both; try assumption; try apply card_is_text; [|now apply Z.leb_le].
    unfold wf_corr in *. cbn [co_ncorr co_iindx co_jindx co_corr]. auto.
  - apply forallb_all. intros a Ha. destruct (G4 a Ha) as [Gn G]. destruct (F4 a Ha) as [Fn Fw].
    unfold storable_inspol, cut_inspol.
    cbn [is_date_obs is_arrname is_orient is_model is_numrec is_nwave is_record forallb]. rewrite !card_is_text.
    repeat both; try reflexivity; try (now apply Z.leb_le).
    + assert (Hwf : wf_inspol a = true) by auto. unfold wf_inspol in Hwf |- *. split_and.
      unfold len_is in *. cbn [is_numrec is_nwave is_record]. rewrite map_length, forallb_map'. both; [assumption|].
      rewrite forallb_forall in *. intros r Hr. unfold wf_inspol_record, cut_inspol_record in *.
      cbn [ip_jxx ip_jyy ip_jxy ip_jyx]. auto.
    + rewrite forallb_map'. apply forallb_all. intros r Hr. unfold writable_inspol in G. rewrite forallb_forall in G.
      specialize (G r Hr). split_and. unfold storable_inspol_record, cut_inspol_record.
      cbn [ip_target_id ip_insname ip_sta_index]. rewrite cell_is_text by lia. repeat both; auto.
  - apply forallb_all. intros t Ht. destruct (G5 t Ht) as [Gn G]. destruct (K2 t Ht) as ((Ka & Kc) & _).
    unfold storable_vis. unfold cut_vis at 1 2. cbv zeta. rewrite storable_dtab_cut by auto.
    repeat both; try reflexivity.
    + assert (Hwf : wf_vis t = true) by auto. exact Hwf.
    + unfold cut_vis, cut_dtab. cbv zeta. fields. cbn [forallb vx_amptyp vx_phityp vx_complexunit vx_ampunit].
      now rewrite !card_is_text.
    + apply forallb_all. intros r Hr. unfold writable_vis in G. rewrite forallb_forall in G. specialize (G r Hr). split_and.
      unfold storable_vis_record, cut_vis, cut_dtab. cbv zeta. fields. cbn [vx_usecomplex].
      repeat both; auto; [now apply kept_indices|].
      match goal with H : negb _ || _ = true |- _ => apply orb_true_iff in H as [H|H]; [now rewrite H|] end.
      rewrite kept_indices by assumption. apply orb_true_r.
  - apply forallb_all. intros t Ht. destruct (G6 t Ht) as [Gn G]. destruct (K3 t Ht) as (Ka & Kc).
    unfold storable_vis2. unfold cut_vis2 at 1 2. rewrite storable_dtab_cut by auto.
    repeat both; try reflexivity; [assert (Hwf : wf_vis2 t = true) by auto; exact Hwf|].
    apply forallb_all. intros r Hr. unfold writable_vis2 in G. rewrite forallb_forall in G. specialize (G r Hr). split_and.
    unfold storable_vis2_record. cbn [cut_vis2 cut_dtab tb_corrname].
    repeat both; auto. now apply kept_indices.
  - apply forallb_all. intros t Ht. destruct (G7 t Ht) as [Gn G]. destruct (K4 t Ht) as (Ka & Kc).
    unfold storable_t3. unfold cut_t3 at 1 2. rewrite storable_dtab_cut by auto.
    repeat both; try reflexivity; [assert (Hwf : wf_t3 t = true) by auto; exact Hwf|].
    apply forallb_all. intros r Hr. unfold writable_t3 in G. rewrite forallb_forall in G. specialize (G r Hr). split_and.
    unfold storable_t3_record. cbn [cut_t3 cut_dtab tb_corrname].
    repeat both; auto. now apply kept_indices.
  - apply forallb_all. intros t Ht. destruct (G8 t Ht) as [Gn G]. destruct (K5 t Ht) as ((Ka & Kc) & Kf).
    unfold writable_flux in G. split_and.
    unfold storable_flux. unfold cut_flux at 1 2. cbv zeta. rewrite storable_dtab_cut by auto.
    unfold cut_flux, cut_dtab. cbv zeta. fields. cbn [fx_fov fx_fovtype fx_calstat fx_fluxunit].
    rewrite !card_is_text, char_is_text.
    repeat both; try reflexivity.
    + assert (Hwf : wf_flux t = true) by auto. exact Hwf.
    + pose proof (kept_nonempty _ Kf) as Hn. unfold nonempty in Hn.
      destruct (is_empty (card (fx_fovtype (tb_x t)))), (is_empty (fx_fovtype (tb_x t))); cbn in *; try discriminate; auto.
    + apply forallb_all. intros r Hr.
      match goal with H : forallb _ (tb_record t) = true |- _ => rewrite forallb_forall in H; specialize (H r Hr) end. split_and.
      unfold storable_flux_record. fields. repeat both; auto; [|now apply kept_indices].
      pose proof (kept_nonempty _ Ka) as Hn. unfold nonempty in Hn.
      destruct (is_empty (card (tb_arrname t))), (is_empty (tb_arrname t)); cbn in *; try discriminate; auto.
Qed.

Lemma write_cut o name d d' : wf_fits o = true -> kept_strings o -> filled o ->
  write_oi_fits E name o d 0 = Ok (d', 0) ->
  find_file name d = None /\ storable_fits E (cut o) = true /\ write_oi_fits E name (cut o) d 0 = Ok (d', 0).
Proof.
  intros Hw Hk Hf H. destruct (written_good o name d d' Hw (filled_counted o Hf) H) as [Hd Hg].
  split; [exact Hd|]. split; [now apply storable_cut|].
  unfold write_oi_fits in *. cbn [Z.eqb negb] in *. rewrite Hd in *. rewrite tables_cut; try assumption.
  destruct (verdicts_good o Hg) as (_ & _ & _ & G4 & _).
  destruct Hf as (_ & _ & _ & _ & F4 & _). rewrite Forall_forall in *. intros t Ht.
  destruct (G4 t Ht), (F4 t Ht). lia.
Qed.
Lemma read_cut o name d d' : wf_fits o = true -> kept_strings o -> filled o ->
  write_oi_fits E name o d 0 = Ok (d', 0) ->
  exists o', read_oi_fits E name d' 0 = Ok (Some o', 0)
    /\ has_tables o' (stored_header E (cut_header (o_header o))) (stored_target E (cut_target (o_targets o)))
         (map (fun a => stored_array E (cut_array a)) (o_arrayList o))
         (map (fun w => stored_wavelength (cut_wavelength w)) (o_wavelengthList o))
         (map (fun c => stored_corr (cut_corr c)) (o_corrList o))
         (map (fun t => stored_inspol E (cut_inspol t)) (o_inspolList o))
         (map (fun t => stored_vis E (cut_vis t)) (o_visList o))
         (map (fun t => stored_vis2 E (cut_vis2 t)) (o_vis2List o))
         (map (fun t => stored_t3 E (cut_t3 t)) (o_t3List o))
         (map (fun t => stored_flux E (cut_flux t)) (o_fluxList o)).
Proof.
  intros Hw Hk Hf H. destruct (write_cut o name d d' Hw Hk Hf H) as (Hd & Hs & Hc).
  destruct (file_round_trip E (cut o) name d Hs Hd) as (d2 & o' & Hc2 & _ & Hr & Ht).
  rewrite Hc in Hc2. injection Hc2 as <-. exists o'. split; [exact Hr|].
  unfold cut in Ht.
  cbn [o_header o_targets o_arrayList o_wavelengthList o_corrList o_inspolList o_visList o_vis2List o_t3List o_fluxList] in Ht.
  rewrite !map_map in Ht. exact Ht.
Qed.
End Whole.
