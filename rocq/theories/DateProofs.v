From Verif Require Import Base BaseLemmas DateModel DateSpec.
From Coq Require Import Lia ZifyBool.
Ltac Zify.zify_post_hook ::= Z.div_mod_to_equations.

(** First MJD handled: 2468570 days before the epoch. *)
Definition first_mjd : Z := -2468570.

(** mjd2date in terms of L = mjd - first_mjd, with floor division. *)
Definition m2d (L : Z) : Z * Z * Z :=
  let N := 4 * L / 146097 in
  let L1 := L - (146097 * N + 3) / 4 in
  let I := 4000 * (L1 + 1) / 1461001 in
  let L2 := L1 - 1461 * I / 4 + 31 in
  let J := 80 * L2 / 2447 in
  let day := L2 - 2447 * J / 80 in
  let L3 := J / 11 in
  (100 * (N - 49) + I + L3, J + 2 - 12 * L3, day).

Lemma L1_nonneg L : 0 <= L -> 0 <= L - (146097 * (4 * L / 146097) + 3) / 4.
Proof. intros. lia. Qed.

Lemma quot_div a b : 0 <= a -> 0 < b -> Z.quot a b = a / b.
Proof. intros. apply Z.quot_div_nonneg; lia. Qed.

Lemma m2d_eq mjd : first_mjd <= mjd -> mjd2date mjd = m2d (mjd - first_mjd).
Proof.
  unfold first_mjd. intros H. unfold mjd2date, m2d.
  replace (mjd + 2400001 + 68569) with (mjd - -2468570) by lia.
  set (L := mjd - -2468570). assert (HL : 0 <= L) by (unfold L; lia).
  clearbody L. clear H mjd.
  rewrite (quot_div (4 * L)) by lia.
  pose proof (L1_nonneg L HL) as H1.
  assert (HN : 0 <= 4 * L / 146097) by (apply Z.div_pos; lia).
  set (N := 4 * L / 146097) in *. clearbody N.
  rewrite (quot_div (146097 * N + 3)) by lia.
  set (L1 := L - (146097 * N + 3) / 4) in *. clearbody L1.
  rewrite (quot_div (4000 * (L1 + 1))) by lia.
  assert (HI : 0 <= 4000 * (L1 + 1) / 1461001) by (apply Z.div_pos; lia).
  assert (HI2 : 1461 * (4000 * (L1 + 1) / 1461001) / 4 <= L1 + 1) by lia.
  set (I := 4000 * (L1 + 1) / 1461001) in *. clearbody I.
  rewrite (quot_div (1461 * I)) by lia.
  assert (H2 : 0 <= L1 - 1461 * I / 4 + 31) by lia.
  set (L2 := L1 - 1461 * I / 4 + 31) in *. clearbody L2.
  rewrite (quot_div (80 * L2)) by lia.
  assert (HJ : 0 <= 80 * L2 / 2447) by (apply Z.div_pos; lia).
  set (J := 80 * L2 / 2447) in *. clearbody J.
  rewrite (quot_div (2447 * J)) by lia.
  rewrite (quot_div J) by lia.
  reflexivity.
Qed.

Definition valid_ymd (ymd : Z * Z * Z) : bool := let '(y, m, d) := ymd in valid_date y m d.

(** Day number, with years starting on 1 March: [ystart y] is the number of 1 March
    of year y, months are counted from March = 0. *)
Definition ystart (y : Z) : Z := 365 * y + y / 4 - y / 100 + y / 400.
Definition mstart (m : Z) : Z := (153 * m + 2) / 5.
Definition march_year (y m : Z) : Z := if m <=? 2 then y - 1 else y.
Definition march_month (m : Z) : Z := if m <=? 2 then m + 9 else m - 3.
Definition dn (ymd : Z * Z * Z) : Z :=
  let '(y, m, d) := ymd in ystart (march_year y m) + mstart (march_month m) + d - 1.

#[local] Arguments leap : simpl never.
#[local] Arguments ystart : simpl never.
#[local] Arguments Z.mul : simpl never.
#[local] Arguments Z.add : simpl never.
#[local] Arguments Z.sub : simpl never.
#[local] Arguments Z.div : simpl never.
Ltac ground_add := repeat match goal with
  | |- context [Zpos ?p + Zpos ?q] => let c := eval compute in (Zpos p + Zpos q) in
      change (Zpos p + Zpos q) with c end.

Lemma leap_ystart y : ystart (y + 1) = ystart y + 365 + (if leap (y + 1) then 1 else 0).
Proof. unfold leap, ystart. destruct (_ && _) eqn:E; lia. Qed.
Lemma ystart_mono a b : a < b -> ystart (a + 1) <= ystart b.
Proof. unfold ystart. lia. Qed.

Lemma ystart_bounds y e : 0 <= e <= 365 -> 678881 <= ystart y + e < 778881 ->
  1001 <= y < 2999.
Proof. unfold ystart. lia. Qed.

Lemma month_cases m (P : Z -> Prop) :
  P 1 -> P 2 -> P 3 -> P 4 -> P 5 -> P 6 -> P 7 -> P 8 -> P 9 -> P 10 -> P 11 -> P 12 ->
  1 <= m <= 12 -> P m.
Proof.
  intros. assert (C : m = 1 \/ m = 2 \/ m = 3 \/ m = 4 \/ m = 5 \/ m = 6 \/ m = 7 \/ m = 8 \/ m = 9
    \/ m = 10 \/ m = 11 \/ m = 12) by lia.
  repeat (destruct C as [->|C]; [assumption|]). now subst.
Qed.

(** Position of a valid date in its March year *)
Lemma doy_bounds y m d : valid_date y m d = true ->
  0 <= mstart (march_month m) + d - 1 < 365 + (if leap (march_year y m + 1) then 1 else 0).
Proof.
  unfold valid_date. rewrite !andb_true_iff. intros [[[H1 H2] H3] H4].
  assert (Hm : 1 <= m <= 12) by lia. clear H1 H2.
  revert H4. pattern m. apply month_cases; [..|exact Hm];
    unfold month_length, march_month, march_year, mstart; cbn;
    replace (y - 1 + 1) with y by lia; destruct (leap y), (leap (y + 1)); lia.
Qed.

Lemma dn_next_day a : valid_ymd a = true -> dn (next_day a) = dn a + 1.
Proof.
  destruct a as [[y m] d]. unfold valid_ymd, valid_date. rewrite !andb_true_iff.
  intros [[[H1 H2] H3] H4]. assert (Hm : 1 <= m <= 12) by lia. clear H1 H2.
  unfold next_day. destruct (Z.ltb_spec d (month_length y m)) as [Hl|Hl].
  - unfold dn. lia.
  - assert (E : d = month_length y m) by lia. clear H3 H4 Hl. subst d.
    pose proof (leap_ystart (y - 1)) as L. replace (y - 1 + 1) with y in L by lia.
    pattern m. apply month_cases; [..|exact Hm];
      unfold dn, month_length, march_month, march_year, mstart; ground_add; cbn;
      replace (y + 1 - 1) with y by lia; try lia.
    revert L. destruct (leap y); cbn; lia.
Qed.

Lemma dn_inj a b : valid_ymd a = true -> valid_ymd b = true -> dn a = dn b -> a = b.
Proof.
  destruct a as [[y m] d], b as [[y' m'] d']. unfold valid_ymd. intros Va Vb E.
  pose proof (doy_bounds _ _ _ Va) as Ba. pose proof (doy_bounds _ _ _ Vb) as Bb.
  unfold dn in E.
  assert (Ey : march_year y m = march_year y' m').
  { destruct (Z.lt_trichotomy (march_year y m) (march_year y' m')) as [H|[H|H]]; [exfalso|exact H|exfalso].
    - pose proof (ystart_mono _ _ H). pose proof (leap_ystart (march_year y m)). lia.
    - pose proof (ystart_mono _ _ H). pose proof (leap_ystart (march_year y' m')). lia. }
  rewrite Ey in E. clear Ba Bb.
  assert (E2 : mstart (march_month m) + d = mstart (march_month m') + d') by lia. clear E.
  unfold valid_date in Va, Vb. rewrite !andb_true_iff in Va, Vb.
  destruct Va as [[[A1 A2] A3] A4], Vb as [[[B1 B2] B3] B4].
  assert (Hm : 1 <= m <= 12) by lia. assert (Hm' : 1 <= m' <= 12) by lia. clear A1 A2 B1 B2.
  assert (Em : m = m').
  { revert A4 B4 E2 Ey. pattern m. apply month_cases; [..|exact Hm];
    pattern m'; apply month_cases; try exact Hm';
    unfold month_length, march_month, march_year, mstart; cbn;
    try reflexivity; intros; exfalso; try lia; destruct (leap y), (leap y'); lia. }
  subst m'. assert (d = d') by lia. subst d'.
  f_equal. f_equal. unfold march_year in Ey. destruct (m <=? 2); lia.
Qed.

Lemma next_day_valid a : valid_ymd a = true -> valid_ymd (next_day a) = true.
Proof.
  destruct a as [[y m] d]. unfold valid_ymd, valid_date, next_day. intros Ha.
  assert (Hd : forall y m, 28 <= month_length y m <= 31).
  { intros. unfold month_length. destruct (_ =? 2); [destruct (leap _); lia|].
    destruct (_ || _); lia. }
  destruct (d <? month_length y m) eqn:E1; [lia|].
  destruct (m <? 12) eqn:E2.
  - pose proof (Hd y (m + 1)). lia.
  - pose proof (Hd (y + 1) 1). lia.
Qed.

(** First stage: century [N] and day [L1] within it *)
Lemma m2d_century L : 0 <= L -> let N := 4 * L / 146097 in
  let L1 := L - (146097 * N + 3) / 4 in
  0 <= N /\ 0 <= L1 <= 36524 /\ (L1 = 36524 -> N mod 4 = 0).
Proof. intros. cbv zeta. lia. Qed.
(** Second stage: year [I] of the century and day [D] of the year *)
Lemma m2d_year L1 : 0 <= L1 <= 36524 ->
  let I := 4000 * (L1 + 1) / 1461001 in let D := L1 - 1461 * I / 4 in
  0 <= I <= 99 /\ 0 <= D <= 365 /\ (D = 365 -> I mod 4 = 3).
Proof. intros. cbv zeta. lia. Qed.
(** Third stage: month [J] and day *)
Lemma m2d_month D : 0 <= D <= 365 ->
  let L2 := D + 31 in let J := 80 * L2 / 2447 in let L3 := J / 11 in
  let m := J + 2 - 12 * L3 in let d := L2 - 2447 * J / 80 in
  1 <= J <= 12 /\ 1 <= d /\ mstart (march_month m) + d - 1 = D /\ (L3 = if m <=? 2 then 1 else 0)
  /\ 1 <= m <= 12
  /\ d <= (if m =? 2 then 28 + D / 365
           else if (m =? 4) || (m =? 6) || (m =? 9) || (m =? 11) then 30 else 31).
Proof.
  intros H. cbv zeta.
  assert (HJ : 1 <= 80 * (D + 31) / 2447 <= 12) by lia.
  remember (80 * (D + 31) / 2447) as J eqn:EJ.
  assert (B : 2447 * J <= 80 * (D + 31) < 2447 * J + 2447) by lia. clear EJ.
  revert B. pattern J. apply month_cases; [..|exact HJ];
    intros B;
    match goal with |- context [Zpos ?j + 2 - 12 * (Zpos ?j / 11)] =>
      let c := eval compute in (Zpos j + 2 - 12 * (Zpos j / 11)) in
      change (Zpos j + 2 - 12 * (Zpos j / 11)) with c end;
    unfold march_month, mstart; cbn; lia.
Qed.

Lemma m2d_spec L : 0 <= L -> valid_ymd (m2d L) = true /\ dn (m2d L) = L + dn (-4900, 3, 1).
Proof.
  intros HL. destruct (m2d_century L HL) as (HN & H1 & H1'). cbv zeta in *.
  unfold m2d. set (N := 4 * L / 146097) in *. set (L1 := L - (146097 * N + 3) / 4) in *.
  assert (EL : L = L1 + (146097 * N + 3) / 4) by (unfold L1; lia). clearbody N L1.
  destruct (m2d_year L1 H1) as (HI & HD & HD'). cbv zeta in *.
  set (I := 4000 * (L1 + 1) / 1461001) in *.
  set (D := L1 - 1461 * I / 4) in *.
  assert (EL1 : L1 = D + 1461 * I / 4) by (unfold D; lia).
  destruct (m2d_month D HD) as (HJ & Hd & Hdoy & HL3 & Hm & Hlen). cbv zeta in *.
  set (J := 80 * (D + 31) / 2447) in *. set (L3 := J / 11) in *.
  set (m := J + 2 - 12 * L3) in *. set (d := D + 31 - 2447 * J / 80) in *.
  clearbody I D J L3 m d.
  assert (Emy : march_year (100 * (N - 49) + I + L3) m = 100 * (N - 49) + I).
  { unfold march_year. rewrite HL3. destruct (m <=? 2); lia. }
  assert (Hleap : D = 365 -> leap (100 * (N - 49) + I + 1) = true).
  { intros ->. specialize (HD' eq_refl). unfold leap.
    destruct (Z.eq_dec I 99) as [->|Hne].
    - assert (L1 = 36524) by lia. specialize (H1' H). lia.
    - lia. }
  split.
  - unfold valid_ymd, valid_date, month_length.
    destruct (Z.eqb_spec m 2) as [->|Hm2].
    + cbn in HL3. subst L3. destruct (Z.eq_dec D 365) as [->|].
      * rewrite Hleap by reflexivity. cbn in Hlen. lia.
      * destruct (leap _); lia.
    + lia.
  - unfold dn. rewrite Emy.
    replace (ystart (100 * (N - 49) + I) + mstart (march_month m) + d - 1)
      with (ystart (100 * (N - 49) + I) + D) by lia.
    rewrite EL, EL1. clear - HI HN. unfold dn, march_year, march_month, mstart, ystart. cbn.
    assert (E100 : (100 * (N - 49) + I) / 100 = N - 49) by lia.
    assert (E400 : (100 * (N - 49) + I) / 400 = (N - 49) / 4) by lia.
    assert (E4 : (100 * (N - 49) + I) / 4 = 25 * (N - 49) + I / 4) by lia.
    rewrite E100, E400, E4. lia.
Qed.

Lemma m2d_step L : 0 <= L -> m2d (L + 1) = next_day (m2d L) /\ valid_ymd (m2d L) = true.
Proof.
  intros HL. destruct (m2d_spec L HL) as [V E]. destruct (m2d_spec (L + 1) ltac:(lia)) as [V' E'].
  split; [|exact V]. apply dn_inj; [exact V'|now apply next_day_valid|].
  rewrite dn_next_day by exact V. lia.
Qed.

Lemma mjd2date_step mjd : first_mjd <= mjd ->
  mjd2date (mjd + 1) = next_day (mjd2date mjd) /\ valid_ymd (mjd2date mjd) = true.
Proof.
  intros H. rewrite !m2d_eq by lia.
  replace (mjd + 1 - first_mjd) with (mjd - first_mjd + 1) by lia.
  apply m2d_step. lia.
Qed.

Lemma mjd2date_days_after n mjd : first_mjd <= mjd ->
  mjd2date (mjd + Z.of_nat n) = days_after n (mjd2date mjd).
Proof.
  intros H. induction n as [|n IH].
  - simpl. f_equal. lia.
  - cbn [days_after]. rewrite <- IH.
    replace (mjd + Z.of_nat (S n)) with (mjd + Z.of_nat n + 1) by lia.
    apply mjd2date_step. lia.
Qed.

Lemma mjd2date_epoch : mjd2date 0 = mjd_epoch.
Proof. vm_compute. reflexivity. Qed.

Lemma mjd2date_correct mjd : first_mjd <= mjd ->
  is_date_of_mjd mjd (mjd2date mjd) /\
  (let '(y, m, d) := mjd2date mjd in valid_date y m d = true).
Proof.
  intros H. split.
  2:{ pose proof (proj2 (mjd2date_step mjd H)) as V. unfold valid_ymd in V.
      destruct (mjd2date mjd) as [[y m] d]. exact V. }
  unfold is_date_of_mjd. destruct (Z.leb_spec 0 mjd).
  - rewrite <- mjd2date_epoch.
    rewrite <- mjd2date_days_after by (unfold first_mjd; lia). f_equal. lia.
  - rewrite <- mjd2date_days_after by exact H.
    replace (mjd + Z.of_nat (Z.to_nat (- mjd))) with 0 by lia. apply mjd2date_epoch.
Qed.

(** The date of an MJD is unique (among valid dates when negative). *)
Lemma next_day_inj a b : valid_ymd a = true -> valid_ymd b = true ->
  next_day a = next_day b -> a = b.
Proof.
  destruct a as [[y m] d], b as [[y' m'] d'].
  unfold valid_ymd, valid_date, next_day. intros Ha Hb.
  assert (Hd : forall y m, 28 <= month_length y m <= 31).
  { intros. unfold month_length. destruct (_ =? 2); [destruct (leap _); lia|].
    destruct (_ || _); lia. }
  pose proof (Hd y m). pose proof (Hd y' m').
  rewrite !andb_true_iff in Ha, Hb.
  assert (Hdec : month_length y 12 = 31) by reflexivity.
  assert (Hdec' : month_length y' 12 = 31) by reflexivity.
  destruct (d <? month_length y m) eqn:E1; destruct (d' <? month_length y' m') eqn:E2;
  destruct (m <? 12) eqn:E3; destruct (m' <? 12) eqn:E4; intros E5; injection E5; clear E5; intros; try lia;
  try (assert (m = 12) by lia; subst m; assert (m' = 12) by lia; subst m';
       assert (y = y') by lia; subst y'; f_equal; lia).
  all: try (subst y' m'; f_equal; lia).
  assert (m = m') by lia. subst y' m'. f_equal; lia.
Qed.

Lemma days_after_valid n a : valid_ymd a = true -> valid_ymd (days_after n a) = true.
Proof. intros; induction n; simpl; auto using next_day_valid. Qed.

Lemma days_after_inj n a b : valid_ymd a = true -> valid_ymd b = true ->
  days_after n a = days_after n b -> a = b.
Proof.
  intros Ha Hb. induction n as [|n IH]; simpl; [auto|].
  intros E. apply IH. apply next_day_inj; auto using days_after_valid.
Qed.

Lemma is_date_unique mjd a b :
  valid_ymd a = true -> valid_ymd b = true ->
  is_date_of_mjd mjd a -> is_date_of_mjd mjd b -> a = b.
Proof.
  unfold is_date_of_mjd. destruct (0 <=? mjd).
  - congruence.
  - intros Ha Hb E1 E2. apply (days_after_inj (Z.to_nat (- mjd))); congruence.
Qed.

Lemma mjd2date_dn mjd : first_mjd <= mjd ->
  valid_ymd (mjd2date mjd) = true /\ dn (mjd2date mjd) = mjd - first_mjd + dn (-4900, 3, 1).
Proof. intros H. rewrite m2d_eq by exact H. apply m2d_spec. lia. Qed.

Lemma date2mjd_inv y m d :
  1901 <= y <= 2099 -> valid_date y m d = true ->
  exists mjd, date2mjd y m d = Ok mjd /\ first_mjd <= mjd /\ mjd2date mjd = (y, m, d).
Proof.
  intros Hy Hv. unfold date2mjd, assert_. destruct (_ && _) eqn:E; [|lia]. cbn [bind].
  eexists. split; [reflexivity|].
  assert (Hm : 1 <= m <= 12) by (unfold valid_date in Hv; lia).
  assert (Hd : 1 <= d) by (unfold valid_date in Hv; lia).
  set (mjd := _ - 2400000).
  assert (Edn : dn (y, m, d) = mjd - first_mjd + dn (-4900, 3, 1)).
  { unfold mjd. clear Hv E mjd. rewrite (quot_div (m + 9)) by lia.
    rewrite (quot_div (7 * _)) by lia. rewrite (quot_div (275 * m)) by lia.
    unfold dn, march_year, march_month, mstart, ystart, first_mjd.
    pattern m. apply month_cases; [..|exact Hm]; cbn -[Z.mul Z.add]; lia. }
  assert (Hf : first_mjd <= mjd).
  { change (dn (-4900, 3, 1)) with (-1789689) in Edn. unfold dn in Edn. pose proof (doy_bounds _ _ _ Hv).
    assert (1900 <= march_year y m) by (unfold march_year; destruct (m <=? 2); lia).
    assert (ystart 1900 <= ystart (march_year y m)) by (unfold ystart; lia).
    change (ystart 1900) with 693960 in *. unfold first_mjd in *. lia. }
  split; [exact Hf|]. destruct (mjd2date_dn mjd Hf) as [V E'].
  apply dn_inj; [exact V|exact Hv|]. lia.
Qed.

Lemma date2mjd_correct y m d :
  1901 <= y <= 2099 -> valid_date y m d = true ->
  exists mjd, date2mjd y m d = Ok mjd /\ is_date_of_mjd mjd (y, m, d).
Proof.
  intros Hy Hv. destruct (date2mjd_inv y m d Hy Hv) as (mjd & E & Hf & Em).
  exists mjd. split; [exact E|]. rewrite <- Em. apply mjd2date_correct. exact Hf.
Qed.

Lemma date2mjd_aborts y m d : ~ (1901 <= y <= 2099) -> date2mjd y m d = Abort.
Proof. intros H. unfold date2mjd, assert_. destruct (_ && _) eqn:E; [lia|reflexivity]. Qed.

Lemma date2mjd_mjd2date mjd y m d :
  first_mjd <= mjd -> mjd2date mjd = (y, m, d) -> 1901 <= y <= 2099 -> date2mjd y m d = Ok mjd.
Proof.
  intros Hf E Hy.
  pose proof (mjd2date_correct mjd Hf) as [Hd Hv]. rewrite E in *.
  destruct (date2mjd_correct y m d Hy Hv) as (mjd' & E' & Hd').
  rewrite E'. f_equal.
  (* both are day numbers of the same valid date *)
  destruct (date2mjd_inv y m d Hy Hv) as (mjd'' & E'' & Hf' & Em).
  assert (mjd'' = mjd') by congruence. subst mjd''. clear E' E'' Hd Hd'.
  destruct (mjd2date_dn mjd Hf) as [_ D1]. destruct (mjd2date_dn mjd' Hf') as [_ D2].
  rewrite E in D1. rewrite Em in D2. lia.
Qed.
