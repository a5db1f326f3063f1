(** Lemmas about buffers, channel selection and loops. *)
From Verif Require Import Base BaseLemmas FloatModel Types FileModel FileSpec FileProofs FilterModel FilterSpec.
From Coq Require Import Lia.

(** ** Loops with a known trajectory *)

Lemma for_from_det {S} (body : Z -> S -> res S) (f : nat -> S) n i :
  (forall k, (i <= k < i + n)%nat -> body (Z.of_nat k) (f k) = Ok (f (1 + k)%nat)) ->
  for_from n (Z.of_nat i) body (f i) = Ok (f (i + n)%nat).
Proof.
  revert i. induction n as [|n IH]; intros i H.
  - cbn [for_from]. do 2 f_equal. lia.
  - cbn [for_from]. rewrite H by lia. cbn [bind].
    replace (Z.of_nat i + 1) with (Z.of_nat (1 + i)) by lia.
    rewrite IH by (intros; apply H; lia). do 2 f_equal. lia.
Qed.

Lemma for_det {S} (body : Z -> S -> res S) (f : nat -> S) n s0 sn :
  s0 = f 0%nat -> sn = f (Z.to_nat n) ->
  (forall k, (k < Z.to_nat n)%nat -> body (Z.of_nat k) (f k) = Ok (f (1 + k)%nat)) ->
  for_ n body s0 = Ok sn.
Proof.
  intros -> -> H. unfold for_. change 0 with (Z.of_nat 0).
  rewrite for_from_det by (intros; apply H; lia). reflexivity.
Qed.

Lemma any_from_spec n i (body : Z -> res bool) (p : nat -> bool) :
  (forall k, (i <= k < i + n)%nat -> body (Z.of_nat k) = Ok (p k)) ->
  any_from n (Z.of_nat i) body = Ok (existsb p (seq i n)).
Proof.
  revert i. induction n as [|n IH]; intros i H; [reflexivity|].
  cbn [any_from seq existsb]. rewrite H by lia. cbn [bind].
  destruct (p i); [reflexivity|]. cbn [orb].
  replace (Z.of_nat i + 1) with (Z.of_nat (S i)) by lia.
  apply IH. intros; apply H; lia.
Qed.
Lemma any_spec n (body : Z -> res bool) (p : nat -> bool) :
  (forall k, (k < Z.to_nat n)%nat -> body (Z.of_nat k) = Ok (p k)) ->
  any_ n body = Ok (existsb p (seq 0 (Z.to_nat n))).
Proof. intros H. unfold any_. apply (any_from_spec _ 0). intros; apply H; lia. Qed.

Lemma for_filter {A B} (body : A -> list B -> res (list B)) (p : A -> bool) (g : A -> B) l n :
  n = Z.of_nat (length l) ->
  (forall a out, In a l -> body a out = Ok (if p a then out ++ [g a] else out)) ->
  for_ n (fun i out => a <- get l i ;; body a out) [] = Ok (map g (filter p l)).
Proof.
  intros Hn H. rewrite (for_foreach body l n []) by exact Hn.
  assert (G : forall out, foreach l body out = Ok (out ++ map g (filter p l))).
  { clear Hn. induction l as [|a l IH]; intros out; cbn [foreach filter map].
    - now rewrite app_nil_r.
    - rewrite H by now left. cbn [bind].
      rewrite IH by (intros; apply H; now right).
      destruct (p a); cbn [map]; [now rewrite <- app_assoc|reflexivity]. }
  rewrite G. reflexivity.
Qed.

(** ** Selection by a list of booleans *)

Fixpoint sel {A} (use : list bool) (l : list A) : list A :=
  match use, l with
  | u :: us, a :: ls => if u : bool then a :: sel us ls else sel us ls
  | _, _ => []
  end.
Definition cnt (use : list bool) : nat := length (filter (fun b => b) use).

Lemma cnt_app a b : cnt (a ++ b) = (cnt a + cnt b)%nat.
Proof. unfold cnt. now rewrite filter_app, app_length. Qed.

Lemma sel_length {A} use (l : list A) : length use = length l -> length (sel use l) = cnt use.
Proof.
  revert l. induction use as [|u us IH]; intros [|a l] H; try discriminate; [reflexivity|].
  injection H as H. cbn [sel]. unfold cnt in *. cbn [filter].
  destruct u; cbn [length]; rewrite (IH l H); reflexivity.
Qed.

Lemma sel_app {A} u1 u2 (l1 l2 : list A) : length u1 = length l1 ->
  sel (u1 ++ u2) (l1 ++ l2) = sel u1 l1 ++ sel u2 l2.
Proof.
  revert l1. induction u1 as [|u us IH]; intros [|a l1] H; try discriminate; [reflexivity|].
  injection H as H. cbn [app sel]. rewrite IH by exact H. destruct u; reflexivity.
Qed.

Lemma sel_map {A B} (f : A -> B) use l : sel use (map f l) = map f (sel use l).
Proof.
  revert l. induction use as [|u us IH]; intros [|a l]; try reflexivity.
  cbn [map sel]. rewrite IH. destruct u; reflexivity.
Qed.

(** The selection after [i] channels have been looked at *)
Definition selu {A} (i : nat) (use : list bool) (l : list A) : list A :=
  sel (firstn i use) (firstn i l).
Definition cntu (i : nat) (use : list bool) : nat := cnt (firstn i use).

Lemma firstn_step {A} i (l : list A) a : nth_error l i = Some a ->
  firstn (1 + i) l = firstn i l ++ [a].
Proof.
  revert l. induction i as [|i IH]; intros [|b l] H; try discriminate.
  - injection H as ->. reflexivity.
  - cbn [nth_error] in H. change (firstn (1 + S i) (b :: l)) with (b :: firstn (1 + i) l).
    rewrite (IH l H). reflexivity.
Qed.

Lemma firstn_same {A B} i (l : list A) (m : list B) : length l = length m ->
  length (firstn i l) = length (firstn i m).
Proof. intros H. now rewrite !firstn_length, H. Qed.

Lemma selu_step {A} i use (l : list A) u a : length use = length l ->
  nth_error use i = Some u -> nth_error l i = Some a ->
  selu (1 + i) use l = selu i use l ++ (if u then [a] else []).
Proof.
  intros HL Hu Ha. unfold selu. rewrite (firstn_step _ _ _ Hu), (firstn_step _ _ _ Ha).
  rewrite sel_app by now apply firstn_same. cbn [sel]. reflexivity.
Qed.
Lemma cntu_step i use u : nth_error use i = Some u ->
  cntu (1 + i) use = (cntu i use + if u then 1 else 0)%nat.
Proof.
  intros Hu. unfold cntu. rewrite (firstn_step _ _ _ Hu), cnt_app. now destruct u.
Qed.
Lemma selu_length {A} i use (l : list A) : length use = length l ->
  length (selu i use l) = cntu i use.
Proof. intros H. apply sel_length. now apply firstn_same. Qed.
Lemma selu_all {A} n use (l : list A) : length use = length l -> (length l <= n)%nat ->
  selu n use l = sel use l.
Proof. intros H Hn. unfold selu. rewrite !firstn_all2 by lia. reflexivity. Qed.
Lemma cntu_lt i use : nth_error use i = Some true -> (cntu i use < cnt use)%nat.
Proof.
  intros H. rewrite <- (firstn_skipn i use) at 2. rewrite cnt_app. unfold cntu.
  assert (E : exists t, skipn i use = true :: t).
  { revert i H. induction use as [|u us IH]; intros [|i] H; try discriminate.
    - injection H as ->. now exists us.
    - cbn [skipn]. now apply IH. }
  destruct E as [t ->]. unfold cnt at 3. cbn. lia.
Qed.
Lemma cntu_le i use : (cntu i use <= cnt use)%nat.
Proof. rewrite <- (firstn_skipn i use) at 2. rewrite cnt_app. unfold cntu. lia. Qed.
Lemma cntu_all n use : (length use <= n)%nat -> cntu n use = cnt use.
Proof. intros H. unfold cntu. now rewrite firstn_all2. Qed.

(** ** Buffers *)

Definition fill {A} (cap : nat) (l : list A) : buffer A :=
  map Some l ++ repeat None (cap - length l).

Lemma alloc_ok {A} n : 0 < n -> @alloc A n = Ok (fill (Z.to_nat n) []).
Proof.
  intros H. unfold alloc, chkmalloc. destruct (Z.ltb_spec 0 n); [|lia].
  cbn [bind]. unfold fill. cbn [map app length]. now rewrite Nat.sub_0_r.
Qed.

Lemma write_fill {A} cap (l : list A) i a : i = Z.of_nat (length l) -> (length l < cap)%nat ->
  write (fill cap l) i a = Ok (fill cap (l ++ [a])).
Proof.
  intros -> H. unfold write, fill.
  replace (cap - length l)%nat with (S (cap - length (l ++ [a])))
    by (rewrite app_length; cbn [length]; lia).
  cbn [repeat]. rewrite <- (map_length Some l) at 1. rewrite put_middle.
  rewrite map_app, <- app_assoc. reflexivity.
Qed.

Lemma contents_map {A} (l : list A) : contents (map Some l) = Ok l.
Proof. induction l as [|a l IH]; [reflexivity|]. cbn [map contents]. rewrite IH. reflexivity. Qed.
Lemma contents_fill {A} cap (l : list A) : length l = cap -> contents (fill cap l) = Ok l.
Proof.
  intros <-. unfold fill. rewrite Nat.sub_diag. cbn [repeat]. rewrite app_nil_r.
  apply contents_map.
Qed.
Lemma shrink_fill {A} cap (l : list A) : (length l <= cap)%nat ->
  shrink (Z.of_nat (length l)) (fill cap l) = map Some l.
Proof.
  intros H. unfold shrink, fill. rewrite Nat2Z.id.
  rewrite <- (map_length Some l) at 1. rewrite firstn_app, Nat.sub_diag, firstn_all.
  cbn [firstn]. apply app_nil_r.
Qed.

(** Writing the next selected entry of a column *)
Lemma write_sel {A} i use (col : list A) a cap : length use = length col -> cap = cnt use ->
  nth_error use i = Some true -> nth_error col i = Some a ->
  write (fill cap (selu i use col)) (Z.of_nat (cntu i use)) a = Ok (fill cap (selu (1 + i) use col)).
Proof.
  intros HL -> Hu Ha. rewrite (selu_step i use col true a HL Hu Ha).
  apply write_fill; rewrite selu_length by exact HL; [reflexivity|now apply cntu_lt].
Qed.
Lemma selu_skip {A} i use (col : list A) a : length use = length col ->
  nth_error use i = Some false -> nth_error col i = Some a ->
  selu (1 + i) use col = selu i use col.
Proof. intros HL Hu Ha. rewrite (selu_step i use col false a HL Hu Ha). apply app_nil_r. Qed.

(** ** Counting accepted channels *)
Lemma count_use_ok use n : n = Z.of_nat (length use) ->
  count_use use n = Ok (Z.of_nat (cnt use)).
Proof.
  intros Hn. unfold count_use.
  rewrite (for_foreach (fun u n => Ok (if u : bool then n + 1 else n)) use n 0 Hn).
  rewrite (foreach_fold (fun (u : bool) n => if u then n + 1 else n)).
  f_equal. assert (G : forall m, fold_left (fun s (a : bool) => if a then s + 1 else s) use m
    = m + Z.of_nat (cnt use)).
  { clear. unfold cnt. induction use as [|u us IH]; intros m; cbn [fold_left filter].
    - cbn. lia.
    - rewrite IH. destruct u; cbn [length]; lia. }
  rewrite G. lia.
Qed.

(** ** kept *)

Lemma kept_filter {A B} (P : A -> Prop) (Q : A -> B -> Prop) (p : A -> bool) (g : A -> B) l :
  (forall a, In a l -> (p a = true <-> P a)) -> (forall a, In a l -> p a = true -> Q a (g a)) ->
  kept P Q l (map g (filter p l)).
Proof.
  induction l as [|a l IH]; intros HP HQ; [constructor|].
  cbn [filter]. destruct (p a) eqn:E.
  - cbn [map]. constructor.
    + now apply HP; [left|].
    + now apply HQ; [left|].
    + apply IH; intros; [apply HP|apply HQ]; auto; now right.
  - constructor.
    + intros H. apply HP in H; [congruence|now left].
    + apply IH; intros; [apply HP|apply HQ]; auto; now right.
Qed.

Lemma kept_impl {A B} (P P' : A -> Prop) (Q Q' : A -> B -> Prop) l m :
  (forall a, In a l -> (P a <-> P' a)) -> (forall a b, In a l -> P a -> Q a b -> Q' a b) ->
  kept P Q l m -> kept P' Q' l m.
Proof.
  intros HP HQ K. induction K; constructor.
  - now apply HP; [left|].
  - apply HQ; auto. now left.
  - apply IHK; intros; [apply HP|apply HQ]; auto; now right.
  - intros HP'. apply H. apply HP; [now left|exact HP'].
  - apply IHK; intros; [apply HP|apply HQ]; auto; now right.
Qed.

Lemma kept_seq_filter (P : nat -> Prop) (p : nat -> bool) l :
  (forall j, In j l -> (p j = true <-> P j)) -> kept P eq l (filter p l).
Proof.
  intros H. rewrite <- (map_id (filter p l)). apply kept_filter; [exact H|auto].
Qed.

(** Indices selected by [use] *)
Definition idx_of (use : list bool) : list nat := sel use (seq 0 (length use)).

Lemma sel_seq_filter (use : list bool) s :
  sel use (seq s (length use)) =
  filter (fun j => match nth_error use (j - s) with Some b => b | None => false end) (seq s (length use)).
Proof.
  revert s. induction use as [|u us IH]; intros s; [reflexivity|].
  cbn [length seq sel filter]. rewrite Nat.sub_diag. cbn [nth_error].
  rewrite IH.
  assert (E : filter (fun j => match nth_error us (j - S s) with Some b => b | None => false end)
                (seq (S s) (length us))
            = filter (fun j => match nth_error (u :: us) (j - s) with Some b => b | None => false end)
                (seq (S s) (length us))).
  { apply filter_ext_in. intros j Hj. apply in_seq in Hj.
    replace (j - s)%nat with (S (j - S s)) by lia. reflexivity. }
  rewrite E. destruct u; reflexivity.
Qed.

Lemma idx_of_filter use :
  idx_of use = filter (fun j => match nth_error use j with Some b => b | None => false end)
                 (seq 0 (length use)).
Proof.
  unfold idx_of. rewrite sel_seq_filter. apply filter_ext. intros j. now rewrite Nat.sub_0_r.
Qed.

Lemma idx_of_length use : length (idx_of use) = cnt use.
Proof. unfold idx_of. apply sel_length. now rewrite seq_length. Qed.

Lemma idx_of_in use j : In j (idx_of use) <-> nth_error use j = Some true.
Proof.
  rewrite idx_of_filter, filter_In, in_seq. split.
  - intros [_ H]. destruct (nth_error use j) as [[]|]; congruence.
  - intros H. split; [|now rewrite H].
    assert (j < length use)%nat by (apply nth_error_Some; congruence). lia.
Qed.

Lemma sel_map_seq {A} (l : list A) s use (col : list A) : 
  length use = length l -> (forall i, (i < length l)%nat -> nth_error col (s + i) = nth_error l i) ->
  map (nth_error col) (sel use (seq s (length use))) = map Some (sel use l).
Proof.
  revert s l. induction use as [|u us IH]; intros s l HL H.
  - destruct l; [reflexivity|discriminate].
  - destruct l as [|a l]; [discriminate|]. injection HL as HL.
    assert (Ha : nth_error col s = Some a).
    { rewrite <- (Nat.add_0_r s). rewrite H by (cbn; lia). reflexivity. }
    assert (E : map (nth_error col) (sel us (seq (S s) (length us))) = map Some (sel us l)).
    { apply IH; [exact HL|]. intros i Hi. specialize (H (S i)). cbn [length nth_error] in H.
      rewrite <- H by lia. f_equal. lia. }
    cbn [length seq sel]. destruct u; cbn [map]; rewrite ?Ha, ?E; reflexivity.
Qed.

Lemma picks_sel {A} use (col : list A) : length use = length col -> picks (idx_of use) col (sel use col).
Proof.
  intros HL. unfold picks, idx_of. apply sel_map_seq; [exact HL|]. reflexivity.
Qed.

Lemma picks_length {A} idx (col out : list A) : picks idx col out -> length out = length idx.
Proof. intros H. apply (f_equal (@length _)) in H. now rewrite !map_length in H. Qed.

Lemma picks_nth {A} idx (col out : list A) k j : picks idx col out ->
  nth_error idx k = Some j -> nth_error out k = nth_error col j.
Proof.
  intros H Hk. apply (f_equal (fun l => nth_error l k)) in H.
  rewrite !nth_error_map, Hk in H. cbn in H.
  destruct (nth_error out k); cbn in H; [now injection H as <-|discriminate].
Qed.
