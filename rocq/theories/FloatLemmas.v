(** Order properties of the float comparisons. *)
From Verif Require Import FloatModel.
From Coq Require Import Lia Bool PArith.

Definition key (x : spec_float) : Z * Z * Z :=
  match x with
  | S754_zero _ => (0, 0, 0)
  | S754_infinity s => (if s then -2 else 2, 0, 0)
  | S754_nan => (0, 0, 0)
  | S754_finite s m e => if s then (-1, - e, - Zpos m) else (1, e, Zpos m)
  end.

Definition klt (a b : Z * Z * Z) : Prop :=
  let '(a1, a2, a3) := a in let '(b1, b2, b3) := b in
  a1 < b1 \/ (a1 = b1 /\ (a2 < b2 \/ (a2 = b2 /\ a3 < b3))).

Lemma SFcompare_key x y : is_nan x = false -> is_nan y = false ->
  match SFcompare x y with
  | Some Lt => klt (key x) (key y)
  | Some Gt => klt (key y) (key x)
  | Some Eq => key x = key y
  | None => False
  end.
Proof.
  destruct x as [s|s| |s m e], y as [s'|s'| |s' m' e']; intros H1 H2; try discriminate;
    try (destruct s; destruct s'; cbn -[Z.lt]; unfold klt; simpl; (reflexivity || lia));
    try (destruct s; cbn; unfold klt; simpl; (reflexivity || lia));
    try (destruct s'; cbn; unfold klt; simpl; (reflexivity || lia)).
  destruct s, s'; cbn -[Z.compare]; unfold klt; try lia.
  - destruct (Z.compare_spec e e') as [->|H|H]; try lia.
    change (Pos.compare_cont Eq m m') with (Pos.compare m m').
    destruct (Pos.compare_spec m m') as [->|H|H]; cbn [CompOpp]; try lia. reflexivity.
  - destruct (Z.compare_spec e e') as [->|H|H]; try lia.
    change (Pos.compare_cont Eq m m') with (Pos.compare m m').
    destruct (Pos.compare_spec m m') as [->|H|H]; try lia. reflexivity.
Qed.

Lemma SFcompare_nan_l y : SFcompare S754_nan y = None.
Proof. reflexivity. Qed.
Lemma SFcompare_nan_r x : SFcompare x S754_nan = None.
Proof. destruct x; reflexivity. Qed.

Lemma flt_spec x y :
  flt x y = true <-> is_nan x = false /\ is_nan y = false /\ klt (key x) (key y).
Proof.
  unfold flt, SFltb. destruct (is_nan x) eqn:Hx.
  { destruct x; try discriminate. simpl. intuition discriminate. }
  destruct (is_nan y) eqn:Hy.
  { destruct y; try discriminate. rewrite SFcompare_nan_r. intuition discriminate. }
  pose proof (SFcompare_key x y Hx Hy) as H.
  destruct (key x) as [[a1 a2] a3], (key y) as [[b1 b2] b3]. unfold klt in *.
  destruct (SFcompare x y) as [[| |]|]; try tauto.
  - injection H as -> -> ->. split; [discriminate|]. intros (_ & _ & Hk). lia.
  - split; [discriminate|]. intros (_ & _ & Hk). lia.
Qed.

Lemma fle_spec x y :
  SFleb x y = true <-> is_nan x = false /\ is_nan y = false /\ ~ klt (key y) (key x).
Proof.
  unfold SFleb. destruct (is_nan x) eqn:Hx.
  { destruct x; try discriminate. simpl. intuition discriminate. }
  destruct (is_nan y) eqn:Hy.
  { destruct y; try discriminate. rewrite SFcompare_nan_r. intuition discriminate. }
  pose proof (SFcompare_key x y Hx Hy) as H.
  destruct (key x) as [[a1 a2] a3], (key y) as [[b1 b2] b3]. unfold klt in *.
  destruct (SFcompare x y) as [[| |]|]; try tauto.
  - injection H as -> -> ->. split; [|auto]. intros _. repeat split; auto. lia.
  - split; [|auto]. intros _. repeat split; auto. lia.
  - split; [discriminate|]. intros (_ & _ & Hk). lia.
Qed.

Lemma klt_trans a b c : klt a b -> klt b c -> klt a c.
Proof. destruct a as [[? ?] ?], b as [[? ?] ?], c as [[? ?] ?]. unfold klt. lia. Qed.
Lemma klt_irrefl a : ~ klt a a.
Proof. destruct a as [[? ?] ?]. unfold klt. lia. Qed.
Lemma klt_cotrans a b c : klt a c -> klt a b \/ klt b c \/ (a = b /\ klt b c).
Proof. destruct a as [[a1 a2] a3], b as [[b1 b2] b3], c as [[c1 c2] c3]. unfold klt. lia. Qed.

Lemma flt_irrefl x : flt x x = false.
Proof. destruct (flt x x) eqn:E; [|reflexivity]. apply flt_spec in E as (_ & _ & E).
  now apply klt_irrefl in E. Qed.
Lemma flt_trans x y z : flt x y = true -> flt y z = true -> flt x z = true.
Proof. rewrite !flt_spec. intros (?&?&?) (?&?&?). repeat split; auto. eauto using klt_trans. Qed.
Lemma flt_false_trans x y z : is_nan y = false ->
  flt y x = false -> flt z y = false -> flt z x = false.
Proof.
  intros Hy H1 H2. destruct (flt z x) eqn:E; [|reflexivity].
  apply flt_spec in E as (Hz & Hx & Hk).
  assert (N1 : ~ klt (key y) (key x)).
  { intros K. assert (flt y x = true) by (apply flt_spec; auto). congruence. }
  assert (N2 : ~ klt (key z) (key y)).
  { intros K. assert (flt z y = true) by (apply flt_spec; auto). congruence. }
  exfalso. destruct (key x) as [[? ?] ?], (key y) as [[? ?] ?], (key z) as [[? ?] ?].
  unfold klt in *. lia.
Qed.
Lemma flt_asym x y : flt x y = true -> flt y x = false.
Proof. intros H. destruct (flt y x) eqn:E; [|reflexivity].
  pose proof (flt_trans _ _ _ H E) as F. now rewrite flt_irrefl in F. Qed.
