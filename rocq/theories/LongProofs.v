(** Proofs about the range of [long]. *)
From Verif Require Import Base BaseLemmas FloatModel Types DateModel FileModel FileSpec FileProofs MergeModel LongModel LongSpec.
From Coq Require Import Lia.
Local Open Scope Z_scope.

Lemma long_ok z : in_long z -> long z = Ok z.
Proof.
  unfold in_long, long. intros [H1 H2]. destruct (Z.leb_spec LONG_MIN z); [|lia]. destruct (Z.leb_spec z LONG_MAX); [reflexivity|lia].
Qed.
Lemma long_out z : ~ in_long z -> long z = UB.
Proof.
  unfold in_long, long. intros H. destruct (Z.leb_spec LONG_MIN z); [|reflexivity].
  destruct (Z.leb_spec z LONG_MAX); [exfalso; apply H; split; assumption|reflexivity].
Qed.
Ltac in_range := unfold in_long, LONG_MIN, LONG_MAX; try lia.

Lemma quot_bounds a b : 0 < b -> (0 <= a -> b * Z.quot a b <= a < b * Z.quot a b + b /\ 0 <= Z.quot a b)
  /\ (a <= 0 -> b * Z.quot a b - b < a <= b * Z.quot a b /\ Z.quot a b <= 0).
Proof.
  intros B. pose proof (Z.quot_rem' a b) as Q. split; intros H.
  - pose proof (Z.rem_bound_pos a b H B) as R. split; [lia|]. nia.
  - destruct (Z.eq_dec a 0) as [->|N].
    + rewrite Z.quot_0_l by lia. lia.
    + assert (R : - b < Z.rem a b <= 0).
      { replace a with (- (- a)) by lia. rewrite Z.rem_opp_l by lia. pose proof (Z.rem_bound_pos (- a) b ltac:(lia) B). lia. }
      split; [lia|]. nia.
Qed.
(** one bound for both signs *)
Lemma quot_abs a b : 0 < b -> - b < a - b * Z.quot a b < b.
Proof. intros B. destruct (quot_bounds a b B) as [H1 H2]. destruct (Z_le_gt_dec 0 a); [destruct H1|destruct H2]; lia. Qed.

Lemma date2mjd_long y m d : - 10 ^ 16 <= m <= 10 ^ 16 -> - 10 ^ 18 <= d <= 10 ^ 18 ->
  date2mjd_l y m d = date2mjd y m d.
Proof.
  intros M D. unfold date2mjd_l, date2mjd, assert_. cbn [bind].
  destruct (Z.leb_spec 1901 y); [|reflexivity]. destruct (Z.leb_spec y 2099); [|reflexivity]. cbn [andb bind].
  pose proof (quot_abs (m + 9) 12 ltac:(lia)) as Q1.
  pose proof (quot_abs (7 * (y + Z.quot (m + 9) 12)) 4 ltac:(lia)) as Q2.
  pose proof (quot_abs (275 * m) 9 ltac:(lia)) as Q3.
  repeat (rewrite long_ok by in_range; cbn [bind]). reflexivity.
Qed.

Lemma mjd2date_long mjd : in_long mjd ->
  (date_range mjd -> mjd2date_l mjd = Ok (mjd2date mjd)) /\ (~ date_range mjd -> mjd2date_l mjd = UB).
Proof.
  intros R. unfold in_long, LONG_MIN, LONG_MAX in R. unfold date_range. change (2 ^ 61) with 2305843009213693952. split; intros H.
  - unfold mjd2date_l, mjd2date.
    rewrite long_ok by in_range; cbn [bind]. rewrite long_ok by in_range; cbn [bind].
    set (L0 := mjd + 2400001 + 68569).
    assert (H0 : -2305843009213693952 <= L0 < 2305843009213693952) by (unfold L0; lia). clearbody L0. clear H R.
    rewrite long_ok by in_range; cbn [bind].
    pose proof (quot_bounds (4 * L0) 146097 ltac:(lia)) as [Q1 Q1'].
    set (N := Z.quot (4 * L0) 146097) in *.
    assert (B1 : -9223372036854775808 <= 146097 * N <= 9223372036854775804) by lia.
    assert (B1' : - 146097 < 4 * L0 - 146097 * N < 146097) by lia. clear Q1 Q1'. clearbody N.
    rewrite long_ok by in_range; cbn [bind]. rewrite long_ok by in_range; cbn [bind].
    pose proof (quot_abs (146097 * N + 3) 4 ltac:(lia)) as Q2.
    set (x := Z.quot (146097 * N + 3) 4) in *. clearbody x.
    rewrite long_ok by in_range; cbn [bind]. set (L1 := L0 - x).
    assert (B2 : - 40000 < L1 < 40000) by (unfold L1; lia). clearbody L1. clear Q2.
    rewrite long_ok by in_range; cbn [bind]. rewrite long_ok by in_range; cbn [bind].
    pose proof (quot_abs (4000 * (L1 + 1)) 1461001 ltac:(lia)) as Q3.
    set (I := Z.quot (4000 * (L1 + 1)) 1461001) in *. clearbody I.
    assert (B3 : - 200 < I < 200) by lia. clear Q3.
    rewrite long_ok by in_range; cbn [bind].
    pose proof (quot_abs (1461 * I) 4 ltac:(lia)) as Q4. set (i := Z.quot (1461 * I) 4) in *. clearbody i.
    rewrite long_ok by in_range; cbn [bind]. rewrite long_ok by in_range; cbn [bind].
    set (L2 := L1 - i + 31). assert (B4 : - 200000 < L2 < 200000) by (unfold L2; lia). clearbody L2. clear Q4.
    rewrite long_ok by in_range; cbn [bind].
    pose proof (quot_abs (80 * L2) 2447 ltac:(lia)) as Q5. set (J := Z.quot (80 * L2) 2447) in *. clearbody J.
    assert (B5 : - 10000 < J < 10000) by lia. clear Q5.
    rewrite long_ok by in_range; cbn [bind].
    pose proof (quot_abs (2447 * J) 80 ltac:(lia)) as Q6. set (j := Z.quot (2447 * J) 80) in *. clearbody j.
    rewrite long_ok by in_range; cbn [bind].
    pose proof (quot_abs J 11 ltac:(lia)) as Q7. set (L3 := Z.quot J 11) in *. clearbody L3.
    repeat (rewrite long_ok by in_range; cbn [bind]). reflexivity.
  - unfold mjd2date_l. destruct (Z_le_gt_dec LONG_MIN (mjd + 2400001)) as [A|A];
      [destruct (Z_le_gt_dec (mjd + 2400001) LONG_MAX) as [B|B]|]; unfold LONG_MIN, LONG_MAX in *.
    + rewrite long_ok by in_range; cbn [bind].
      destruct (Z_le_gt_dec (mjd + 2400001 + 68569) LONG_MAX) as [C|C]; unfold LONG_MAX in C.
      * rewrite long_ok by in_range; cbn [bind]. rewrite (long_out (4 * _)) by in_range. reflexivity.
      * rewrite (long_out (_ + 68569)) by in_range. reflexivity.
    + rewrite long_out by in_range. reflexivity.
    + rewrite long_out by in_range. reflexivity.
Qed.

(** ** set_oi_header *)

Lemma fold_min_in l m0 : fold_left (fun m x => if flt x m then x else m) l m0 = m0
  \/ In (fold_left (fun m x => if flt x m then x else m) l m0) l.
Proof.
  revert m0. induction l as [|x l IH]; intros m0; [now left|]. cbn [fold_left].
  destruct (flt x m0).
  - destruct (IH x) as [->|H]; right; cbn; auto.
  - destruct (IH m0) as [->|H]; [now left|right; now right].
Qed.
Lemma set_header_long o : wf_fits o = true -> mjds_in_date_range o -> set_oi_header_l o = set_oi_header o.
Proof.
  intros W H. unfold set_oi_header_l. destruct (set_oi_header o) as [h| |] eqn:E; try reflexivity. cbn [bind].
  rewrite (get_min_mjd_ok o W). cbn [bind].
  set (m := fold_left _ _ _). revert E. unfold set_oi_header. rewrite (get_min_mjd_ok o W). fold m. cbn [bind].
  do 3 (match goal with |- (_ <- ?x ;; _) = _ -> _ => destruct x; cbn [bind]; try discriminate end).
  destruct (floor_Z m) as [z|] eqn:F; [|discriminate]. intros E. injection E as <-. cbn.
  assert (R : date_range z).
  { destruct (fold_min_in (all_mjd o) (f64_of_Z 100000)) as [G|G]; fold m in G.
    - rewrite G in F. vm_compute in F. injection F as <-. unfold date_range. change (2 ^ 61) with 2305843009213693952. lia.
    - exact (H m z G F). }
  assert (L : in_long z) by (unfold date_range in R; change (2 ^ 61) with 2305843009213693952 in R; in_range).
  rewrite (long_ok z L). cbn [bind]. rewrite (proj1 (mjd2date_long z L) R). reflexivity.
Qed.

(** ** Merging *)

Lemma digit_small c v : digit_value c = Some v -> 0 <= v <= 9.
Proof.
  unfold digit_value. destruct (Nat.leb_spec 48 (nat_of_ascii c)); [|discriminate].
  destruct (Nat.leb_spec (nat_of_ascii c) 57); [|discriminate]. intros H1. injection H1 as <-. lia.
Qed.
Lemma scan_digits_small w : forall acc n s v k r, 0 <= acc -> scan_digits w acc n s = (v, k, r) ->
  0 <= v < (acc + 1) * 10 ^ Z.of_nat w.
Proof.
  induction w as [|w IH]; intros acc n s v k r H E.
  - cbn in E. injection E as <- _ _. lia.
  - cbn [scan_digits] in E. assert (P : 0 < 10 ^ Z.of_nat w) by (apply Z.pow_pos_nonneg; lia).
    rewrite Nat2Z.inj_succ, Z.pow_succ_r by lia.
    destruct s as [|c s]; [injection E as <- _ _; nia|].
    destruct (digit_value c) as [x|] eqn:D; [|injection E as <- _ _; nia].
    apply digit_small in D. apply IH in E; [|lia]. nia.
Qed.
Lemma scan_ld_small w s v r : scan_ld w s = Some (v, r) -> - 10 ^ Z.of_nat w < v < 10 ^ Z.of_nat w.
Proof.
  unfold scan_ld. set (t := skip_space s). clearbody t.
  assert (G : forall (neg : bool) w' t', (w' <= w)%nat ->
    (let '(v0, n, rest) := scan_digits w' 0 0 t' in
     match n with O => None | S _ => Some (if neg then - v0 else v0, rest) end) = Some (v, r) ->
    - 10 ^ Z.of_nat w < v < 10 ^ Z.of_nat w).
  { intros neg w' t' Hw H. destruct (scan_digits w' 0 0 t') as [[v0 n] rest] eqn:E.
    apply scan_digits_small in E; [|lia]. destruct n; [discriminate|]. injection H as <- _.
    assert (10 ^ Z.of_nat w' <= 10 ^ Z.of_nat w) by (apply Z.pow_le_mono_r; lia).
    destruct neg; lia. }
  destruct w as [|w']; [apply (G false); lia|]. destruct t as [|c t']; [apply (G false); lia|].
  destruct (Ascii.eqb c "-"); [apply (G true); lia|]. destruct (Ascii.eqb c "+"); apply (G false); lia.
Qed.
Lemma scan_ld_long w s : (w <= 4)%nat -> scan_ld_l w s = Ok (scan_ld w s).
Proof.
  intros W. unfold scan_ld_l. destruct (scan_ld w s) as [[v r]|] eqn:E; [|reflexivity].
  apply scan_ld_small in E. assert (10 ^ Z.of_nat w <= 10 ^ 4) by (apply Z.pow_le_mono_r; lia).
  rewrite long_ok by in_range. reflexivity.
Qed.
Lemma scan_date_long s : scan_date_l s = Ok (scan_date s)
  /\ forall y m d, scan_date s = Some (y, m, d) -> - 100 < m < 100 /\ - 100 < d < 100.
Proof.
  unfold scan_date_l, scan_date. rewrite scan_ld_long by lia. cbn [bind].
  destruct (scan_ld 4 s) as [[y s1]|]; [|now split]. destruct (scan_char "-" s1) as [s2|]; [|now split].
  rewrite scan_ld_long by lia. cbn [bind]. destruct (scan_ld 2 s2) as [[m s3]|] eqn:M; [|now split].
  destruct (scan_char "-" s3) as [s4|]; [|now split].
  rewrite scan_ld_long by lia. cbn [bind]. destruct (scan_ld 2 s4) as [[d s5]|] eqn:D; [|now split].
  apply scan_ld_small in M, D. split; [reflexivity|]. intros ? ? ? E. injection E as <- <- <-. cbn in M, D. lia.
Qed.
Lemma files_min_long ins : files_min_mjd_l ins = files_min_mjd ins.
Proof.
  unfold files_min_mjd_l, files_min_mjd. generalize 100000. induction ins as [|i ins IH]; intros z; [reflexivity|].
  cbn [foreach]. destruct (scan_date_long (h_date_obs (o_header i))) as [-> B]. cbn [bind].
  destruct (scan_date (h_date_obs (o_header i))) as [[[y m] d]|]; [|cbn [bind]; apply IH].
  destruct (B y m d eq_refl). rewrite date2mjd_long by lia.
  destruct (date2mjd y m d); cbn [bind]; [apply IH|reflexivity|reflexivity].
Qed.
Lemma files_min_small ins z : files_min_mjd ins = Ok z -> 0 <= z <= 100000.
Proof.
  unfold files_min_mjd. assert (G : forall z0, 0 <= z0 <= 100000 ->
    foreach ins (fun d minMjd => match scan_date (h_date_obs (o_header d)) with
      | None => Ok minMjd
      | Some (y, m, dd) => mjd <- date2mjd y m dd ;; Ok (if mjd <? minMjd then mjd else minMjd)
      end) z0 = Ok z -> 0 <= z <= 100000); [|intros; eapply G; eauto; lia].
  induction ins as [|i ins IH]; intros z0 H0 E; [cbn in E; injection E as <-; exact H0|].
  cbn [foreach] in E. destruct (scan_date_long (h_date_obs (o_header i))) as [_ B].
  destruct (scan_date (h_date_obs (o_header i))) as [[[y m] d]|]; [|cbn [bind] in E; exact (IH _ H0 E)].
  destruct (B y m d eq_refl) as [B1 B2]. unfold date2mjd, assert_ in E. cbn [bind] in E.
  destruct (Z.leb_spec 1901 y); [|discriminate]. destruct (Z.leb_spec y 2099); [|discriminate]. cbn [andb bind] in E.
  pose proof (quot_abs (m + 9) 12 ltac:(lia)) as Q1.
  pose proof (quot_abs (7 * (y + Z.quot (m + 9) 12)) 4 ltac:(lia)) as Q2.
  pose proof (quot_abs (275 * m) 9 ltac:(lia)) as Q3.
  eapply IH; [|exact E]. match goal with |- context [?a <? z0] => destruct (Z.ltb_spec a z0) end; lia.
Qed.
Lemma merged_date_long ins z : files_min_mjd ins = Ok z ->
  merged_date_l ins = Ok (strlcpy FLEN_VALUE (format_date (mjd2date z))).
Proof.
  intros E. unfold merged_date_l. rewrite files_min_long, E. cbn [bind]. apply files_min_small in E.
  assert (L : in_long z) by in_range. rewrite (proj1 (mjd2date_long z L)); [reflexivity|].
  unfold date_range. change (2 ^ 61) with 2305843009213693952. lia.
Qed.
