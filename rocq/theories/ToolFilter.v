(** Filtering keeps datasets fit to be written. *)
From Verif Require Import Base BaseLemmas FloatModel Types FileModel FileSpec FileProofs FilterModel FilterSpec FilterLemmas FilterProofs FilterRecords FilterTables FilterApply FilterFacts FilterResults FilterOutput FilterWhole FilterMain FilterFinal FitsModel IOSpec.
From Coq Require Import Lia.
Local Open Scope Z_scope.

Lemma new_id_short f id id' : new_id f id id' -> short id = true -> short id' = true.
Proof.
  intros [H1 H2] H. destruct (Z_lt_ge_dec (f_target_id f) 0) as [L|G].
  - now rewrite H1.
  - rewrite H2 by lia. reflexivity.
Qed.

Lemma kept_forallb {A B} (P : A -> Prop) (Q : A -> B -> Prop) (p : A -> bool) (q : B -> bool) l m :
  kept P Q l m -> (forall a b, In a l -> In b m -> P a -> Q a b -> p a = true -> q b = true) ->
  forallb p l = true -> forallb q m = true.
Proof.
  intros K. induction K as [|a b l m HP HQ K IH|a l m HP K IH]; intros H HF; [reflexivity| |].
  - cbn [forallb] in *. apply andb_prop in HF as [Ha Hl]. apply andb_true_intro. split.
    + apply (H a b); auto; now left.
    + apply IH; [|exact Hl]. intros a' b' Ha' Hb'. apply H; now right.
  - cbn [forallb] in HF. apply andb_prop in HF as [Ha Hl]. apply IH; [|exact Hl].
    intros a' b' Ha' Hb'. apply H; auto. now right.
Qed.

Lemma kept_none {A B} (P : A -> Prop) (Q : A -> B -> Prop) l :
  kept P Q l [] -> forall a, In a l -> ~ P a.
Proof.
  induction l as [|a l IH]; intros K x Hx; [contradiction|]. inversion K; subst.
  destruct Hx as [<-|Hx]; auto.
Qed.

Lemma kept_le {A B} (P : A -> Prop) (Q : A -> B -> Prop) l m : kept P Q l m -> (length m <= length l)%nat.
Proof. intros K. induction K; cbn [length]; lia. Qed.

Ltac ands := repeat match goal with H : (_ && _)%bool = true |- _ => apply andb_prop in H; destruct H end.
Ltac bands := repeat match goal with |- (_ && _)%bool = true => apply andb_true_intro; split end.

Section Filtered.
Variables (E : cfitsio) (pow_half : f64 -> f64) (d : oi_fits) (f f' : filter_spec) (d' : oi_fits).
Hypothesis C : consistent d.
Hypothesis HF : fresh_filter f.
Hypothesis EA : apply_oi_filter pow_half d f = Ok (f', d').
Hypothesis HT : f_target_id f < 0 \/ (exists x, In x (ot_targ (o_targets d)) /\ tg_target_id x = f_target_id f).
Hypothesis ST : storable_fits E d = true.

Let C' : consistent d' := main_consistent _ _ _ _ _ C HF EA HT.

(** a retained OI_WAVELENGTH and the one it was *)
Lemma wave_origin n w' : instrument d' n w' ->
  exists w, instrument d n w /\ wave_filtered f w w' /\ 1 <= wv_nwave w' <= wv_nwave w.
Proof.
  intros [H1 H2]. destruct (kept_true _ _ _ _ (main_waves _ _ _ _ _ C HF EA) _ H1) as (w & Hw & _ & Q).
  exists w. assert (Q' := Q). destruct Q' as (_ & Q1 & idx & Qi & Qp & _ & Qn).
  split; [split; [exact Hw|congruence]|]. split; [exact Q|].
  split; [destruct (cs_waves d' C' w' H1) as [H3 _]; lia|].
  rewrite Qn. apply kept_le in Qi. rewrite seq_length in Qi.
  assert (W : wf_wavelength w = true).
  { pose proof (cs_wf d C) as W. unfold wf_fits in W. ands.
    match goal with H : forallb wf_wavelength _ = true |- _ => rewrite forallb_forall in H; now apply H end. }
  unfold wf_wavelength in W. ands. apply len_is_eq in H. lia.
Qed.

Lemma dtab_storable {X R} (t t' : dtab X R) :
  same_keywords t t' -> table_ready d t -> table_ready d' t' ->
  (exists w, instrument d' (tb_insname t') w /\ wv_nwave w = tb_nwave t') ->
  storable_dtab t = true -> storable_dtab t' = true.
Proof.
  intros (K1 & K2 & K3 & K4 & K5 & K6) [_ R1] [R2 _] (w' & Hw & Nw) S. unfold storable_dtab in *. ands.
  rewrite K4 in Hw. destruct (wave_origin _ _ Hw) as (w & Iw & _ & B). specialize (R1 w Iw).
  bands; [apply Z.leb_le; lia|apply Z.leb_le; lia| |].
  - apply Z.leb_le. match goal with H : (tb_nwave t <=? 9999) = true |- _ => apply Z.leb_le in H end. lia.
  - now rewrite K2, K3, K4, K5.
Qed.

Lemma storable_parts : storable_header (o_header d) = true /\ storable_target (o_targets d) = true
  /\ forallb (storable_array E) (o_arrayList d) = true /\ forallb storable_wavelength (o_wavelengthList d) = true
  /\ forallb storable_corr (o_corrList d) = true /\ forallb storable_inspol (o_inspolList d) = true
  /\ forallb storable_vis (o_visList d) = true /\ forallb storable_vis2 (o_vis2List d) = true
  /\ forallb storable_t3 (o_t3List d) = true /\ forallb (storable_flux E) (o_fluxList d) = true.
Proof. pose proof ST as S. unfold storable_fits in S. ands. tauto. Qed.

Lemma wf_parts : forallb wf_wavelength (o_wavelengthList d') = true /\ wf_targets (o_targets d') = true
  /\ forallb wf_inspol (o_inspolList d') = true
  /\ forallb wf_vis (o_visList d') = true /\ forallb wf_vis2 (o_vis2List d') = true
  /\ forallb wf_t3 (o_t3List d') = true /\ forallb wf_flux (o_fluxList d') = true.
Proof. pose proof (cs_wf d' C') as S. unfold wf_fits in S. ands. tauto. Qed.

(** one kind of data table *)
Lemma tables_storable {X R} (k : FilterSpec.kind R) (Q : dtab X R -> oi_wavelength -> R -> R -> Prop)
  (sr : dtab X R -> R -> bool) (st wft : dtab X R -> bool) (rest : dtab X R -> bool) l l' :
  (forall t, st t = (wft t && storable_dtab t && rest t && forallb (sr t) (tb_record t))%bool) ->
  (forall t t', tb_x t' = tb_x t -> rest t' = rest t) ->
  (forall t t' w r r', same_keywords t t' -> Q t w r r' -> sr t r = true -> sr t' r' = true) ->
  filtered_tables k f d Q l l' -> forallb wft l' = true ->
  (forall t, In t l -> table_ready d t) -> (forall t, In t l' -> table_ready d' t) ->
  (forall t, In t l' -> exists w, instrument d' (tb_insname t) w /\ wv_nwave w = tb_nwave t) ->
  forallb st l = true -> forallb st l' = true.
Proof.
  intros Hst Hrest Hsr K W R1 R2 N S. rewrite forallb_forall in W.
  unfold filtered_tables in K. apply (kept_forallb _ _ st st _ _ K); [|exact S].
  intros t t' Ht Ht' _ (SK & w & Iw & KR & _) Hs. rewrite Hst in *. ands. bands.
  - now apply W.
  - apply (dtab_storable t t'); auto.
  - rewrite (Hrest t t'); [assumption|apply SK].
  - apply (kept_forallb _ _ (sr t) (sr t') _ _ KR); [|assumption]. intros r r' _ _ _ HQ Hr.
    now apply (Hsr t t' w r).
Qed.

Lemma vis_storable : forallb storable_vis (o_visList d') = true.
Proof.
  destruct storable_parts as (_ & _ & _ & _ & _ & _ & S & _).
  destruct (main_ready _ _ _ _ _ C HF EA) as (RD & _).
  destruct (final_nwave _ _ _ _ _ C HF EA) as (N & _).
  destruct wf_parts as (_ & _ & _ & W & _).
  apply (tables_storable (kind_vis pow_half) (fun _ w r r' => exists idx, accepted_channels f w idx /\ vis_data_kept f (length (wv_eff_wave w)) idx r r')
    storable_vis_record storable_vis wf_vis
    (fun t => forallb card_text [vx_amptyp (tb_x t); vx_phityp (tb_x t); vx_complexunit (tb_x t); vx_ampunit (tb_x t)])
    (o_visList d)); auto.
  - intros t t' H. now rewrite H.
  - intros t t' w r r' (_ & _ & _ & _ & K5 & K6) (idx & _ & HI & HS & _) Hr.
    destruct HS as (_ & _ & _ & S4 & S5 & S6 & S7 & _ & _ & S10). unfold storable_vis_record in *. ands.
    rewrite K5, K6, S4, S5, S6, S7, S10. bands; auto. now apply (new_id_short f (vr_target_id r)).
  - exact (final_vis_data _ _ _ _ _ C HF EA).
  - apply (cs_vis d C).
Qed.
Lemma vis2_storable : forallb storable_vis2 (o_vis2List d') = true.
Proof.
  destruct storable_parts as (_ & _ & _ & _ & _ & _ & _ & S & _).
  destruct (main_ready _ _ _ _ _ C HF EA) as (_ & RD & _).
  destruct (final_nwave _ _ _ _ _ C HF EA) as (_ & N & _).
  destruct wf_parts as (_ & _ & _ & _ & W & _).
  apply (tables_storable (kind_vis2 pow_half) (fun _ w r r' => exists idx, accepted_channels f w idx /\ vis2_data_kept f idx r r')
    storable_vis2_record storable_vis2 wf_vis2 (fun _ => true) (o_vis2List d)); auto.
  - intros t. unfold storable_vis2. now rewrite andb_true_r.
  - intros t t' w r r' (_ & _ & _ & _ & K5 & K6) (idx & _ & HI & _ & _ & _ & S4 & _ & _ & S7 & _) Hr.
    unfold storable_vis2_record in *. ands. rewrite K5, S4, S7. bands; auto.
    now apply (new_id_short f (v2_target_id r)).
  - exact (final_vis2_data _ _ _ _ _ C HF EA).
  - apply (cs_vis2 d C).
Qed.
Lemma t3_storable : forallb storable_t3 (o_t3List d') = true.
Proof.
  destruct storable_parts as (_ & _ & _ & _ & _ & _ & _ & _ & S & _).
  destruct (main_ready _ _ _ _ _ C HF EA) as (_ & _ & RD & _).
  destruct (final_nwave _ _ _ _ _ C HF EA) as (_ & _ & N & _).
  destruct wf_parts as (_ & _ & _ & _ & _ & W & _).
  apply (tables_storable (kind_t3 pow_half) (fun _ w r r' => exists idx, accepted_channels f w idx /\ t3_data_kept f idx r r')
    storable_t3_record storable_t3 wf_t3 (fun _ => true) (o_t3List d)); auto.
  - intros t. unfold storable_t3. now rewrite andb_true_r.
  - intros t t' w r r' (_ & _ & _ & _ & K5 & K6) (idx & _ & HI & _ & _ & _ & S4 & S5 & _ & _ & _ & _ & S10 & _) Hr.
    unfold storable_t3_record in *. ands. rewrite K5, S4, S5, S10. bands; auto.
    now apply (new_id_short f (t3_target_id r)).
  - exact (final_t3_data _ _ _ _ _ C HF EA).
  - apply (cs_t3 d C).
Qed.
Lemma flux_storable : forallb (storable_flux E) (o_fluxList d') = true.
Proof.
  destruct storable_parts as (_ & _ & _ & _ & _ & _ & _ & _ & _ & S).
  destruct (main_ready _ _ _ _ _ C HF EA) as (_ & _ & _ & RD).
  destruct (final_nwave _ _ _ _ _ C HF EA) as (_ & _ & _ & N).
  destruct wf_parts as (_ & _ & _ & _ & _ & _ & W).
  apply (tables_storable kind_flux (fun _ w r r' => exists idx, accepted_channels f w idx /\ flux_data_kept f idx r r')
    storable_flux_record (storable_flux E) wf_flux
    (fun t => card_text (fx_fovtype (tb_x t)) && card_text (fx_fluxunit (tb_x t)) && char_text (fx_calstat (tb_x t))
      && (is_empty (fx_fovtype (tb_x t)) || key_double E (fx_fov (tb_x t)))) (o_fluxList d)); auto.
  - intros t. unfold storable_flux. now rewrite !andb_assoc.
  - intros t t' H. now rewrite H.
  - intros t t' w r r' (_ & _ & K3 & _ & K5 & K6) (idx & _ & HI & _ & _ & S4 & S5 & _) Hr.
    unfold storable_flux_record in *. ands. rewrite K3, K5, S4, S5. bands; auto.
    now apply (new_id_short f (fr_target_id r)).
  - exact (final_flux_data _ _ _ _ _ C HF EA).
  - apply (cs_flux d C).
Qed.

Lemma inspol_storable : forallb storable_inspol (o_inspolList d') = true.
Proof.
  destruct storable_parts as (_ & _ & _ & _ & _ & S & _). destruct wf_parts as (_ & _ & W & _).
  rewrite forallb_forall in W.
  apply (kept_forallb _ _ storable_inspol storable_inspol _ _ (main_inspol _ _ _ _ _ C HF EA)); [|exact S].
  intros t t' Ht Ht' _ (Q1 & Q2 & Q3 & Q4 & Q5 & Q6 & Q7 & Q8) Hs.
  unfold storable_inspol in *. ands.
  destruct (cs_inspol d' C' t' Ht') as (NR & _). destruct (cs_inspol d C t Ht) as (_ & name & Hn & Hw).
  pose proof (W t' Ht') as Wt.
  (* a record of the output *)
  destruct (is_record t') as [|r' rest] eqn:Er; [cbn in Q7; lia|].
  destruct (kept_true _ _ _ _ Q8 r' (or_introl eq_refl)) as (r & Hr & RA & RK).
  destruct RK as (_ & _ & _ & _ & _ & w & idx & Iw & HI & P1 & _).
  destruct RA as (_ & _ & _ & _ & w2 & j & Iw2 & HJ).
  assert (w2 = w) by (eapply instrument_unique; [apply (cs_unique d C)|exact Iw2|exact Iw]). subst w2.
  assert (B : (1 <= length idx <= length (wv_eff_wave w))%nat).
  { split; [|apply kept_le in HI; now rewrite seq_length in HI].
    destruct idx as [|i idx]; [exfalso|cbn; lia].
    assert (G : forall l, kept (chan_accepted f w) eq l [] -> ~ In j l).
    { intros l K Hl. exact (kept_none _ _ _ K j Hl HJ). }
    apply (G _ HI). apply in_seq. destruct HJ as (x & Hx & _). assert (j < length (wv_eff_wave w))%nat by (apply nth_error_Some; congruence). lia. }
  apply picks_length in P1.
  assert (L : is_nwave t' = Z.of_nat (length idx)).
  { unfold wf_inspol in Wt. ands. rewrite Er in H6. cbn [forallb] in H6. ands. unfold wf_inspol_record in H6. ands.
    apply len_is_eq in H6. congruence. }
  assert (Lw : Z.of_nat (length (wv_eff_wave w)) = is_nwave t).
  { rewrite <- (Hw w); [|destruct Iw as [I1 I2]; split; [exact I1|rewrite I2; now apply Hn]].
    pose proof (cs_wf d C) as Wd. unfold wf_fits in Wd. ands.
    match goal with H : forallb wf_wavelength _ = true |- _ => rewrite forallb_forall in H; specialize (H w (proj1 Iw)) end.
    unfold wf_wavelength in *. ands. match goal with H : len_is (wv_nwave w) (wv_eff_wave w) = true |- _ => apply len_is_eq in H end. congruence. }
  repeat match goal with H : (_ <=? _) = true |- _ => apply Z.leb_le in H end.
  bands; auto; try (apply Z.leb_le; lia).
  - now rewrite Q2, Q4, Q5, Q6.
  - apply (kept_forallb _ _ storable_inspol_record storable_inspol_record _ _ Q8); [|assumption].
    intros r1 r1' _ _ _ (R1 & R2 & _ & _ & R5 & _) Hr1. unfold storable_inspol_record in *. ands.
    rewrite R2, R5. bands; auto. now apply (new_id_short f (ip_target_id r1)).
Qed.

Lemma target_storable : storable_target (o_targets d') = true.
Proof.
  destruct storable_parts as (_ & S & _). destruct wf_parts as (_ & W & _).
  pose proof (cs_targets d' C') as P. unfold storable_target in *. ands. bands; auto; [apply Z.leb_le; lia|].
  rewrite (main_targets _ _ _ _ _ C HF EA). unfold target_out. cbn [compiled set_pttns f_target_id].
  replace (f_target_id (compiled f)) with (f_target_id f) by reflexivity.
  destruct (0 <=? f_target_id f); [|assumption].
  destruct (rev (filter (fun x => tg_target_id x =? f_target_id f) (ot_targ (o_targets d)))) as [|x l] eqn:Ex; [reflexivity|].
  cbn [ot_usecategory ot_targ forallb]. rewrite andb_true_r.
  assert (Hx : In x (ot_targ (o_targets d))).
  { assert (I : In x (rev (filter (fun x => tg_target_id x =? f_target_id f) (ot_targ (o_targets d))))) by (rewrite Ex; now left).
    apply in_rev in I. apply filter_In in I. apply I. }
  rewrite forallb_forall in H0. specialize (H0 x Hx). unfold storable_target1 in *. ands. bands; auto.
Qed.

Lemma filtered_storable : storable_fits E d' = true.
Proof.
  destruct storable_parts as (S1 & S2 & S3 & S4 & S5 & _). destruct wf_parts as (W & _).
  unfold storable_fits. bands.
  - now rewrite (main_header _ _ _ _ _ C HF EA).
  - exact target_storable.
  - apply (kept_forallb _ _ (storable_array E) (storable_array E) _ _ (main_arrays _ _ _ _ _ C HF EA)); [|exact S3].
    intros a b _ _ _ <-. auto.
  - rewrite forallb_forall in W.
    apply (kept_forallb _ _ storable_wavelength storable_wavelength _ _ (main_waves _ _ _ _ _ C HF EA)); [|exact S4].
    intros a b _ Hb _ (_ & Q1 & _) Ha. unfold storable_wavelength in *. ands. bands.
    + now apply W.
    + apply Z.leb_le. destruct (cs_waves d' C' b Hb). lia.
    + now rewrite Q1.
  - apply (kept_forallb _ _ storable_corr storable_corr _ _ (main_corrs _ _ _ _ _ C HF EA)); [|exact S5].
    intros a b _ _ _ <-. auto.
  - exact inspol_storable.
  - exact vis_storable.
  - exact vis2_storable.
  - exact t3_storable.
  - exact flux_storable.
Qed.
End Filtered.
