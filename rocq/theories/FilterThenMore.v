(** Two filters in turn: which OI_INSPOL tables remain. *)
From Verif Require Import Base BaseLemmas FloatModel FloatLemmas Types FileModel FileSpec FileProofs FilterModel FilterSpec FilterThenSpec FilterLemmas FilterProofs FilterRecords FilterTables FilterApply FilterFacts FilterResults FilterOutput FilterWhole FilterMain FilterStepsSpec FilterStepsWhole FilterThenWhole FilterAgain.
From Coq Require Import Lia.

Lemma kept_narrowed {A B} (P : B -> Prop) (u k : A -> bool) (g : A -> B) l :
  (forall a, In a l -> k a = true -> (u a = true <-> P (g a))) ->
  kept P eq (map g (filter k l)) (map g (filter k (filter u l))).
Proof.
  induction l as [|a l IH]; intros H; cbn [filter map]; [constructor|].
  assert (K : kept P eq (map g (filter k l)) (map g (filter k (filter u l)))) by (apply IH; intros; apply H; auto; now right).
  destruct (u a) eqn:U; cbn [filter]; destruct (k a) eqn:E; cbn [map]; auto.
  - constructor; auto. apply (H a); auto. now left.
  - constructor; auto. intros Q. apply (H a) in Q; auto; [congruence|now left].
Qed.
Lemma kept_filtered {B} (P : B -> Prop) (b : B -> bool) l m : kept P eq l m -> kept P eq (filter b l) (filter b m).
Proof.
  induction 1 as [|a c l m HP HQ K IH|a l m HP K IH]; cbn [filter]; [constructor| |].
  - subst c. destruct (b a); [now constructor|exact IH].
  - destruct (b a); [now constructor|exact IH].
Qed.
Lemma filter_narrowed {A B} (u k : A -> bool) (g : A -> B) (b : B -> bool) l :
  (forall a, In a l -> k a = true -> u a = false -> b (g a) = false) ->
  filter b (map g (filter k (filter u l))) = filter b (map g (filter k l)).
Proof.
  induction l as [|a l IH]; intros H; [reflexivity|]. assert (IH' := IH (fun x Hx => H x (or_intror Hx))).
  cbn [filter]. destruct (u a) eqn:U; cbn [filter]; destruct (k a) eqn:E; cbn [map filter]; auto.
  - now rewrite IH'.
  - rewrite (H a); auto. now left.
Qed.

Section Pow.
Variable pow_half : f64 -> f64.

Lemma consistent_narrowed u d : consistent d -> consistent (set_inspols (filter u (o_inspolList d)) d).
Proof.
  intros [W H1 H2 H3 H4 H5 H6 H7 H8 H9 H10 H11]. constructor; try assumption.
  - unfold wf_fits in *. rewrite !andb_true_iff in *.
    destruct W as ((((((((((((((((W1 & W2) & W3) & W4) & W5) & W6) & W7) & W8) & W9) & W10) & W11) & W12) & W13) & W14) & W15) & W16) & W17).
    repeat split; try assumption.
    + cbn [o_inspolList set_inspols]. rewrite forallb_forall in *. intros t Ht. apply filter_In in Ht as [Ht _]. auto.
    + cbn [o_inspolList o_numInspol set_inspols]. unfold len_is. apply Z.eqb_refl.
  - intros t Ht. cbn in Ht. apply filter_In in Ht as [Ht _]. exact (H11 t Ht).
Qed.

Section Then.
Variables (d : oi_fits) (f1 f2 g : filter_spec) (arrh : hash oi_array)
  (wavh : hash oi_wavelength) (corh : hash oi_corr).
Hypothesis C : consistent d.
Hypothesis P1 : pats f1.
Hypothesis P2 : pats f2.
Hypothesis Pg : pats g.
Hypothesis ST : in_steps f1 f2 g.
Hypothesis HT : selects_target d f1.
Hypothesis IW : indexes wv_insname (wave_list pow_half d f1) wavh.
Let D := filter_image pow_half d f1 arrh wavh corh.
Let u (t : oi_inspol) : bool := forallb (fun r => listed (insnames pow_half d f1) (ip_insname r)) (is_record t).
Let d' := set_inspols (filter u (o_inspolList d)) d.
Let D' := filter_image pow_half d' f1 arrh wavh corh.

(** The rows a filter leaves keep their instrument *)
Lemma out_row f t r : In r (is_record (inspol_out d f t)) -> exists r0, In r0 (is_record t) /\ inspol_okb d f r0 = true
  /\ ip_insname r = ip_insname r0.
Proof.
  cbn [is_record inspol_out]. intros H. apply in_map_iff in H as (r0 & <- & H). apply filter_In in H as [H O].
  exists r0. split; [exact H|]. split; [exact O|]. unfold inspol_rec_out. now destruct (wv_of d (ip_insname r0)).
Qed.
Lemma out_used f t : In t (o_inspolList d) -> inspol_keptb d f t = true -> (u t = true <-> in_use D (inspol_out d f t)).
Proof.
  intros Ht K. destruct (cs_inspol d C t Ht) as (_ & name & N & _). unfold u. rewrite forallb_forall. split.
  - intros H r Hr. destruct (out_row f t r Hr) as (r0 & H0 & _ & ->).
    apply (uses_insname_D pow_half d f1 arrh wavh corh). now apply H.
  - intros H r Hr. apply (uses_insname_D pow_half d f1 arrh wavh corh).
    apply andb_true_iff in K as [_ K]. apply existsb_exists in K as (r0 & H0 & O).
    rewrite (N r Hr), <- (N r0 H0).
    replace (ip_insname r0) with (ip_insname (inspol_rec_out d f r0)) by (unfold inspol_rec_out; now destruct (wv_of d (ip_insname r0))).
    apply H. cbn [is_record inspol_out]. apply in_map. now apply filter_In.
Qed.

Lemma then_inspols : kept (in_use D) eq (inspol_list pow_half d g) (inspol_list pow_half D f2).
Proof.
  assert (E1 : inspol_list pow_half D' f2 = inspol_list pow_half d' g).
  { apply (steps_inspols pow_half d' f1 f2 g arrh wavh corh); try assumption.
    - now apply consistent_narrowed.
    - intros t r Ht Hr. change (uses_insname D (ip_insname r)).
      change (o_inspolList (filter_image pow_half d' f1 arrh wavh corh)) with (inspol_list pow_half d' f1) in Ht.
      unfold inspol_list in Ht. apply filter_In in Ht as [Ht _]. apply in_map_iff in Ht as (t0 & <- & Ht).
      apply filter_In in Ht as [Ht K]. cbn [o_inspolList set_inspols d'] in Ht. apply filter_In in Ht as [Ht U].
      apply (out_used f1 t0 Ht K); [exact U|exact Hr]. }
  assert (E2 : inspol_list pow_half D f2 = inspol_list pow_half D' f2).
  { unfold inspol_list at 1 2. f_equal. f_equal.
    change (filter (inspol_keptb D f2) (inspol_list pow_half d f1) = filter (inspol_keptb D f2) (inspol_list pow_half d' f1)).
    unfold inspol_list. rewrite !(filter_filter _ (fun t => listed _ _)).
    symmetry. apply filter_narrowed. intros t Ht K U. apply andb_false_iff. right.
    apply not_true_iff_false. intros Q. apply andb_true_iff in Q as [_ Q]. apply existsb_exists in Q as (r & Hr & O).
    assert (CD : NoDup (map wv_insname (o_wavelengthList D))).
    { exact (wave_list_unique pow_half d f1 C). }
    apply inspol_okb_spec in O; [|exact CD|exact P2]. destruct O as (_&_&_&_&w&j&[Hw En]&_).
    apply wave_in in Hw as (w0 & _ & -> & _ & HU). cbn [wv_insname wave_out] in En. rewrite En in HU.
    assert (U' : u t = true); [|congruence]. apply (out_used f1 t Ht K). intros r' Hr'.
    destruct (out_row f1 t r Hr) as (r0 & H0 & _ & e0). destruct (out_row f1 t r' Hr') as (r1 & H1 & _ & e1).
    destruct (cs_inspol d C t Ht) as (_ & name & N & _).
    rewrite e1, (N r1 H1), <- (N r0 H0), <- e0. exact HU. }
  rewrite E2, E1. unfold inspol_list. apply kept_filtered.
  change (kept (in_use D) eq (map (inspol_out d g) (filter (inspol_keptb d g) (o_inspolList d)))
    (map (inspol_out d g) (filter (inspol_keptb d g) (filter u (o_inspolList d))))).
  apply kept_narrowed. intros t Ht K. now apply out_used.
Qed.
End Then.

Theorem filter_then_inspols d f g h f1 d1 : consistent d -> fresh_filter f -> fresh_filter g -> fresh_filter h ->
  joint f g h ->
  (f_target_id f < 0 \/ exists x, In x (ot_targ (o_targets d)) /\ tg_target_id x = f_target_id f) ->
  apply_oi_filter pow_half d f = Ok (f1, d1) ->
  exists d2 d3, apply_oi_filter pow_half d1 g = Ok (g, d2) /\ apply_oi_filter pow_half d h = Ok (h, d3)
    /\ same_data d2 d3 /\ same_config d2 d3 /\ same_lookups d2 d3
    /\ kept (in_use d1) eq (o_inspolList d3) (o_inspolList d2).
Proof.
  intros C Ff Fg Fh J HT E.
  destruct (filter_then pow_half d f g h f1 d1 C Ff Fg Fh J HT E) as (d2 & d3 & E2 & E3 & S1 & S2 & S3 & _).
  exists d2, d3. do 5 (split; [assumption|]). assert (ST := in_steps_compiled _ _ _ (joint_in_steps f g h J)).
  destruct (apply_oi_filter_ok pow_half d f C Ff) as (a1 & a2 & a3 & E1 & I1 & I2 & I3).
  rewrite E1 in E. injection E as <- <-.
  assert (C1 : consistent (filter_image pow_half d (compiled f) a1 a2 a3)) by (apply output_consistent; auto; apply pats_ok).
  destruct (apply_oi_filter_ok pow_half _ g C1 Fg) as (b1 & b2 & b3 & F2 & _). rewrite F2 in E2. injection E2 as <-.
  destruct (apply_oi_filter_ok pow_half d h C Fh) as (c1 & c2 & c3 & F3 & _). rewrite F3 in E3. injection E3 as <-.
  exact (then_inspols d _ _ _ a1 a2 a3 C (pats_ok f) (pats_ok g) (pats_ok h) ST HT I2).
Qed.
End Pow.
