(** Two filters in turn do what the joint filter does; such a filter exists. *)
From Verif Require Import Base BaseLemmas FloatModel FloatLemmas Types FileModel FileSpec FileProofs FilterModel FilterSpec FilterThenSpec FilterLemmas FilterProofs FilterApply FilterStepsSpec FilterStepsWhole.
From Coq Require Import Lia.

Lemma joint_in_steps f g h : joint f g h -> in_steps f g h.
Proof.
  intros [[] T3 Dr]. constructor; try assumption;
    try (split; intros x; match goal with H : joint_range _ _ _ _ _ _ |- _ => now destruct (H x) end).
  - lia.
  - destruct Dr as [Dr|Dr]; congruence.
  - unfold agree_t3 in T3. tauto.
Qed.
Theorem filter_then pow_half d f g h f1 d1 : consistent d -> fresh_filter f -> fresh_filter g -> fresh_filter h ->
  joint f g h ->
  (f_target_id f < 0 \/ exists x, In x (ot_targ (o_targets d)) /\ tg_target_id x = f_target_id f) ->
  apply_oi_filter pow_half d f = Ok (f1, d1) ->
  exists d2 d3, apply_oi_filter pow_half d1 g = Ok (g, d2) /\ apply_oi_filter pow_half d h = Ok (h, d3)
    /\ same_data d2 d3 /\ same_config d2 d3 /\ same_lookups d2 d3
    /\ ((forall t r, In t (o_inspolList d1) -> In r (is_record t) -> uses_insname d1 (ip_insname r)) ->
        o_inspolList d3 = o_inspolList d2).
Proof.
  intros C Ff Fg Fh J HT E.
  destruct (filter_steps pow_half d f g h d1 f1 C Ff Fg Fh (joint_in_steps f g h J) HT E)
    as (d2 & d3 & E2 & E3 & (A1 & A2 & A3 & A4 & A5 & A6) & (B1 & B2 & B3) & L & I).
  exists d2, d3. split; [exact E2|]. split; [exact E3|]. split; [repeat split; congruence|].
  split; [repeat split; congruence|]. split; [|intros H; symmetry; exact (I H)].
  intros n. destruct (L n) as (L1 & L2 & L3). repeat split; congruence.
Qed.

(** ** Such a filter exists *)

Lemma higher a b : exists c, forall x, SFltb x c = true <-> SFltb x a = true \/ SFltb x b = true.
Proof.
  change SFltb with flt.
  destruct (is_nan a) eqn:A; [exists b; intros x; rewrite !flt_spec; intuition congruence|].
  destruct (is_nan b) eqn:B; [exists a; intros x; rewrite !flt_spec; intuition congruence|].
  destruct (flt a b) eqn:E.
  - exists b. intros x. split; [auto|]. intros [H|H]; [|exact H]. rewrite flt_spec in *. destruct E as (_&_&E), H as (N&_&H).
    repeat split; auto. eapply klt_trans; eauto.
  - exists a. intros x. split; [auto|]. intros [H|H]; [exact H|]. apply not_true_iff_false in E.
    rewrite flt_spec in *. destruct H as (N&_&H). repeat split; auto.
    assert (G : ~ klt (key a) (key b)) by tauto. revert G H. destruct (key x) as [[? ?] ?], (key a) as [[? ?] ?], (key b) as [[? ?] ?].
    unfold klt. lia.
Qed.
Lemma lower a b : exists c, forall x, SFltb c x = true <-> SFltb a x = true \/ SFltb b x = true.
Proof.
  change SFltb with flt.
  destruct (is_nan a) eqn:A; [exists b; intros x; rewrite !flt_spec; intuition congruence|].
  destruct (is_nan b) eqn:B; [exists a; intros x; rewrite !flt_spec; intuition congruence|].
  destruct (flt a b) eqn:E.
  - exists a. intros x. split; [auto|]. intros [H|H]; [exact H|]. rewrite flt_spec in *. destruct E as (_&_&E), H as (_&N&H).
    repeat split; auto. eapply klt_trans; eauto.
  - exists b. intros x. split; [auto|]. intros [H|H]; [|exact H]. apply not_true_iff_false in E.
    rewrite flt_spec in *. destruct H as (_&N&H). repeat split; auto.
    assert (G : ~ klt (key a) (key b)) by tauto. revert G H. destruct (key x) as [[? ?] ?], (key a) as [[? ?] ?], (key b) as [[? ?] ?].
    unfold klt. lia.
Qed.
Lemma joint_range_exists flo fhi glo ghi : exists hlo hhi, joint_range flo fhi glo ghi hlo hhi.
Proof.
  destruct (higher flo glo) as [lo H1]. destruct (lower fhi ghi) as [hi H2]. exists lo, hi. intros x. auto.
Qed.
Lemma joint_pattern_exists f g : f = "*"%string \/ g = "*"%string \/ f = g -> exists h, joint_pattern f g h.
Proof.
  assert (S : forall s, glob_match "*"%string s) by (intros s; apply glob_star).
  intros [E|[E|E]]; subst; [exists g|exists f|exists g]; intros s; specialize (S s); tauto.
Qed.
Lemma joint_exists f g : joinable f g -> exists h, fresh_filter h /\ joint f g h.
Proof.
  intros [A1 A2 A3 T T3 Dr].
  destruct (joint_pattern_exists _ _ A1) as [n1 N1]. destruct (joint_pattern_exists _ _ A2) as [n2 N2].
  destruct (joint_pattern_exists _ _ A3) as [n3 N3].
  destruct (joint_range_exists (f_mjd_lo f) (f_mjd_hi f) (f_mjd_lo g) (f_mjd_hi g)) as (l1 & u1 & R1).
  destruct (joint_range_exists (f_wave_lo f) (f_wave_hi f) (f_wave_lo g) (f_wave_hi g)) as (l2 & u2 & R2).
  destruct (joint_range_exists (f_bas_lo f) (f_bas_hi f) (f_bas_lo g) (f_bas_hi g)) as (l3 & u3 & R3).
  destruct (joint_range_exists (f_uvrad_lo f) (f_uvrad_hi f) (f_uvrad_lo g) (f_uvrad_hi g)) as (l4 & u4 & R4).
  destruct (joint_range_exists (f_snr_lo f) (f_snr_hi f) (f_snr_lo g) (f_snr_hi g)) as (l5 & u5 & R5).
  exists (mk_filter n1 n2 n3 (if f_target_id f <? 0 then f_target_id g else f_target_id f) l1 u1 l2 u2 l3 u3 l4 u4 l5 u5
    (f_accept_vis f && f_accept_vis g) (f_accept_vis2 f && f_accept_vis2 g) (f_accept_t3amp f && f_accept_t3amp g)
    (f_accept_t3phi f && f_accept_t3phi g) (f_accept_flux f && f_accept_flux g) (f_accept_flagged g) None None None).
  split; [repeat split|]. split; [|exact T3|exact Dr]. split; try assumption; try reflexivity.
  cbn. destruct (Z.ltb_spec (f_target_id f) 0); [left; auto|right]. split; [|reflexivity]. destruct T as [T|[T|T]]; [lia|now left|right; auto].
Qed.
