(** Names generated by the merge: the number can be read back. *)
From Verif Require Import BaseLemmas FileModel FileSpec FileProofs MergeModel MergeSpec.
From Coq Require Import DecimalString Decimal DecimalN DecimalZ DecimalPos DecimalFacts Lia NArith.
Open Scope Z_scope.
Local Open Scope string_scope.

Fixpoint chars (s : string) : list ascii :=
  match s with EmptyString => []%list | String c s' => (c :: chars s')%list end.
Lemma chars_app a b : chars (a ++ b) = (chars a ++ chars b)%list.
Proof. induction a; cbn; congruence. Qed.
Lemma chars_inj a b : chars a = chars b -> a = b.
Proof. revert b. induction a; destruct b; cbn; intros [= ]; f_equal; auto. Qed.

Definition is_digit (c : ascii) : bool :=
  match uint_of_char c (Some Nil) with Some _ => true | None => false end.

(** decimal value of a string of digits *)
Definition decode (s : string) : option N := option_map N.of_uint (NilEmpty.uint_of_string s).

Lemma digits_of_uint u : Forall (fun c => is_digit c = true) (chars (NilEmpty.string_of_uint u)).
Proof. induction u; cbn; constructor; auto. Qed.

Lemma decode_uint u : decode (NilEmpty.string_of_uint u) = Some (N.of_uint u).
Proof. unfold decode. rewrite NilEmpty.usu. reflexivity. Qed.
Lemma decode_zeros n u :
  decode (repeat_char "0" n ++ NilEmpty.string_of_uint u) = Some (N.of_uint u).
Proof.
  induction n as [|n IH]; [apply decode_uint|]. unfold decode in *. cbn.
  destruct (NilEmpty.uint_of_string _) as [v|] eqn:E; [|discriminate]. cbn in *.
  exact IH.
Qed.
Lemma repeat_digits n : Forall (fun c => is_digit c = true) (chars (repeat_char "0" n)).
Proof. induction n; cbn; constructor; auto. Qed.

Lemma fmt_0wd_pos w p : exists n u, fmt_0wd w (Zpos p) = repeat_char "0" n ++ NilEmpty.string_of_uint u
  /\ N.of_uint u = Npos p.
Proof.
  exists (w - String.length (string_of_Z (Zpos p)))%nat, (Pos.to_uint p). split.
  - unfold fmt_0wd. cbn [Z.ltb Z.compare]. f_equal. unfold string_of_Z. cbn.
    unfold NilZero.string_of_uint. destruct (Pos.to_uint p) eqn:E; try reflexivity.
    exfalso. pose proof (DecimalPos.Unsigned.to_uint_nonnil p). contradiction.
  - change (Pos.to_uint p) with (N.to_uint (Npos p)). apply DecimalN.Unsigned.of_to.
Qed.
Lemma fmt_0wd_digits w k : 0 < k -> Forall (fun c => is_digit c = true) (chars (fmt_0wd w k)).
Proof.
  intros H. destruct k as [|p|p]; try lia. destruct (fmt_0wd_pos w p) as (n & u & -> & _).
  rewrite chars_app. apply Forall_app. split; [apply repeat_digits|apply digits_of_uint].
Qed.
Lemma fmt_0wd_decode w k : 0 < k -> decode (fmt_0wd w k) = Some (Z.to_N k).
Proof.
  intros H. destruct k as [|p|p]; try lia. destruct (fmt_0wd_pos w p) as (n & u & -> & E).
  rewrite decode_zeros, E. reflexivity.
Qed.
Lemma fmt_0wd_inj w k k' : 0 < k -> 0 < k' -> fmt_0wd w k = fmt_0wd w k' -> k = k'.
Proof.
  intros H H' E. pose proof (fmt_0wd_decode w k H) as D. rewrite E, (fmt_0wd_decode w k' H') in D.
  injection D. lia.
Qed.

(** The digits at the end of a string after a non-digit are determined. *)
Lemma trailing_digits p c d p' c' d' :
  Forall (fun x => is_digit x = true) d -> Forall (fun x => is_digit x = true) d' ->
  is_digit c = false -> is_digit c' = false ->
  (p ++ c :: d = p' ++ c' :: d')%list -> d = d'.
Proof.
  intros Hd Hd' Hc Hc' E.
  assert (G : forall (d d' p p' : list ascii),
    Forall (fun x => is_digit x = true) d -> Forall (fun x => is_digit x = true) d' ->
    (d ++ c :: p = d' ++ c' :: p')%list -> d = d').
  { clear -Hc Hc'. induction d as [|x d IH]; intros d' p p' H H' E.
    - destruct d' as [|x' d']; [reflexivity|]. cbn in E. injection E as -> _.
      inversion H'; subst. congruence.
    - destruct d' as [|x' d']; cbn in E; injection E as E1 E2.
      + subst. inversion H; subst. congruence.
      + subst. inversion H; inversion H'; subst. f_equal. eapply IH; eauto. }
  apply (f_equal (@List.rev ascii)) in E. rewrite !rev_app_distr in E. cbn in E.
  rewrite <- !app_assoc in E. cbn in E.
  apply G in E; [|now apply Forall_rev|now apply Forall_rev].
  apply (f_equal (@List.rev ascii)) in E. now rewrite !rev_involutive in E.
Qed.

(** Name number [k], for a literal ending in a non-digit *)
Definition generated (literal : string) (k : Z) (s : string) : Prop :=
  0 < k /\ ((exists base, s = base ++ "_" ++ fmt_0wd 3 k) \/ s = literal ++ fmt_0wd 3 k).
Definition ends_in_letter (literal : string) : Prop :=
  exists p c, literal = p ++ String c "" /\ is_digit c = false.

Lemma generated_shape literal k s : ends_in_letter literal -> generated literal k s ->
  exists p c, chars s = (p ++ c :: chars (fmt_0wd 3 k))%list /\ is_digit c = false.
Proof.
  intros (q & x & -> & Hx) (_ & [(base & ->)| ->]).
  - exists (chars base), "_"%char. rewrite chars_app. split; reflexivity.
  - exists (chars q), x. rewrite !chars_app. cbn. rewrite <- app_assoc. split; [reflexivity|auto].
Qed.
Lemma generated_inj literal k k' s : ends_in_letter literal ->
  generated literal k s -> generated literal k' s -> k = k'.
Proof.
  intros Hl G G'. pose proof (proj1 G) as Hk. pose proof (proj1 G') as Hk'.
  apply (generated_shape _ _ _ Hl) in G as (p & c & E & Hc).
  apply (generated_shape _ _ _ Hl) in G' as (p' & c' & E' & Hc').
  rewrite E in E'. apply trailing_digits in E'; auto using fmt_0wd_digits.
  apply chars_inj in E'. eapply fmt_0wd_inj; eauto.
Qed.
Lemma array_letter : ends_in_letter "array".
Proof. exists "arra", "y"%char. split; reflexivity. Qed.
Lemma ins_letter : ends_in_letter "ins".
Proof. exists "in", "s"%char. split; reflexivity. Qed.

(** Length of numbers up to 9999 *)
Lemma length_app a b : String.length (a ++ b) = (String.length a + String.length b)%nat.
Proof. induction a; cbn; congruence. Qed.
Lemma length_repeat c n : String.length (repeat_char c n) = n.
Proof. induction n; cbn; congruence. Qed.

Lemma string_of_uint_length u : String.length (NilEmpty.string_of_uint u) = nb_digits u.
Proof. induction u; cbn; congruence. Qed.
Lemma of_uint_acc_bound u acc :
  Zpos acc * 10 ^ Z.of_nat (nb_digits u) <= Zpos (Pos.of_uint_acc u acc).
Proof.
  revert acc. induction u as [|u IH|u IH|u IH|u IH|u IH|u IH|u IH|u IH|u IH|u IH]; intros acc;
    cbn [Pos.of_uint_acc nb_digits]; [lia|..];
    rewrite Nat2Z.inj_succ, Z.pow_succ_r by lia;
    match goal with |- _ <= Zpos (Pos.of_uint_acc _ ?a) => specialize (IH a) end;
    eapply Z.le_trans; try exact IH; rewrite Z.mul_assoc; apply Z.mul_le_mono_nonneg_r; lia.
Qed.
Lemma of_uint_bound p : 10 ^ (Z.of_nat (nb_digits (Pos.to_uint p)) - 1) <= Zpos p.
Proof.
  pose proof (DecimalPos.Unsigned.of_to p) as E.
  assert (Hn : unorm (Pos.to_uint p) = Pos.to_uint p).
  { pose proof (DecimalN.Unsigned.to_of (N.to_uint (Npos p))) as T.
    rewrite DecimalN.Unsigned.of_to in T. symmetry. exact T. }
  assert (G : forall u, Pos.of_uint u = Npos p -> unorm u = u ->
    10 ^ (Z.of_nat (nb_digits u) - 1) <= Zpos p).
  { clear. intros u E Hn. destruct u as [|u|u|u|u|u|u|u|u|u|u]; cbn [Pos.of_uint] in E;
      try discriminate; try (injection E as <-; cbn [nb_digits];
        rewrite Nat2Z.inj_succ; replace (Z.succ (Z.of_nat (nb_digits u)) - 1)
          with (Z.of_nat (nb_digits u)) by lia;
        match goal with |- _ <= Zpos (Pos.of_uint_acc _ ?a) =>
          pose proof (of_uint_acc_bound u a) end;
        eapply Z.le_trans; [|eassumption];
        rewrite <- (Z.mul_1_l (10 ^ _)) at 1; apply Z.mul_le_mono_nonneg_r; lia).
    exfalso. cbn [unorm] in Hn. unfold unorm in Hn. cbn [nzhead] in Hn.
    destruct (nzhead u) eqn:Z; try discriminate.
    - injection Hn as Hn. subst u. discriminate.
    - exfalso. exact (DecimalFacts.nzhead_nonzero _ _ Z). }
  apply G; auto.
Qed.
Lemma fmt_0wd_length k : 0 < k < 10000 -> (String.length (fmt_0wd 3 k) <= 4)%nat.
Proof.
  intros H. destruct k as [|p|p]; try lia. unfold fmt_0wd. cbn [Z.ltb Z.compare].
  rewrite length_app, length_repeat.
  assert (String.length (string_of_Z (Zpos p)) <= 4)%nat; [|lia].
  unfold string_of_Z. cbn. unfold NilZero.string_of_uint.
  assert (L : (String.length (NilEmpty.string_of_uint (Pos.to_uint p)) <= 4)%nat).
  { rewrite string_of_uint_length. pose proof (of_uint_bound p) as B.
    assert (N : nb_digits (Pos.to_uint p) = 0%nat \/ (1 <= nb_digits (Pos.to_uint p))%nat) by lia.
    destruct (Nat.le_gt_cases (nb_digits (Pos.to_uint p)) 4) as [?|G]; [assumption|exfalso].
    assert (10 ^ 4 <= 10 ^ (Z.of_nat (nb_digits (Pos.to_uint p)) - 1))
      by (apply Z.pow_le_mono_r; lia). change (10 ^ 4) with 10000 in *. lia. }
  destruct (Pos.to_uint p) eqn:E; try exact L. cbn. lia.
Qed.

Lemma new_name_generated literal name k : 0 <= k < 9999 -> (String.length literal <= 60)%nat ->
  fits_value name = true -> generated literal (k + 1) (new_name literal name k).
Proof.
  intros Hk Hl Hf. unfold new_name, generated. split; [lia|].
  pose proof (fmt_0wd_length (k + 1) ltac:(lia)) as L.
  destruct (Z.ltb_spec (strlen name) (FLEN_VALUE - 5)) as [H|H].
  - left. exists name. rewrite (strlcpy_fits (name ++ "_" ++ fmt_0wd 3 (k + 1))); [apply strlcpy_fits|];
      unfold fits_value, strlen in *; rewrite !length_app; cbn [String.length];
      apply Z.ltb_lt; unfold FLEN_VALUE in *; lia.
  - right. rewrite (strlcpy_fits (literal ++ _)); [apply strlcpy_fits|];
      unfold fits_value, strlen in *; rewrite !length_app;
      apply Z.ltb_lt; unfold FLEN_VALUE in *; lia.
Qed.

(** A generated name always fits *)
Lemma substring_length n s : (String.length (substring 0 n s) <= n)%nat.
Proof. revert n. induction s; destruct n; cbn; try lia. apply le_n_S. auto. Qed.
Lemma new_name_fits literal name k : fits_value (new_name literal name k) = true.
Proof.
  unfold new_name. unfold strlcpy at 1.
  match goal with |- fits_value (substring 0 _ ?s) = true =>
    pose proof (substring_length (Z.to_nat (FLEN_VALUE - 1)) s);
    generalize dependent (substring 0 (Z.to_nat (FLEN_VALUE - 1)) s) end.
  intros x H. unfold fits_value, strlen. apply Z.ltb_lt.
  unfold FLEN_VALUE in *. lia.
Qed.
