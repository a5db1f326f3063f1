(** General lemmas about the vocabulary of Base.v. *)
From Verif Require Import Base.
From Coq Require Import Lia.

Lemma bind_Ok {A B} (a : A) (f : A -> res B) : bind (Ok a) f = f a.
Proof. reflexivity. Qed.

Lemma bind_inv {A B} (x : res A) (f : A -> res B) b :
  bind x f = Ok b -> exists a, x = Ok a /\ f a = Ok b.
Proof. destruct x as [a| |]; simpl; try discriminate. eauto. Qed.

Lemma get_nth_error {A} (l : list A) n a :
  nth_error l n = Some a -> get l (Z.of_nat n) = Ok a.
Proof.
  intros H. unfold get.
  destruct (Z.ltb_spec (Z.of_nat n) 0); [lia|].
  rewrite Nat2Z.id, H. reflexivity.
Qed.

Lemma get_at {A} (l : list A) i a :
  0 <= i -> nth_error l (Z.to_nat i) = Some a -> get l i = Ok a.
Proof.
  intros Hi H. unfold get.
  destruct (Z.ltb_spec i 0); [lia|]. rewrite H. reflexivity.
Qed.

Lemma get_inv {A} (l : list A) i a :
  get l i = Ok a -> 0 <= i /\ nth_error l (Z.to_nat i) = Some a.
Proof.
  unfold get. destruct (Z.ltb_spec i 0); [discriminate|].
  destruct (nth_error l (Z.to_nat i)) eqn:E; [|discriminate].
  intros [= ->]. auto.
Qed.

Lemma get_middle {A} (pre : list A) a post :
  get (pre ++ a :: post) (Z.of_nat (length pre)) = Ok a.
Proof.
  apply get_nth_error. rewrite nth_error_app2 by lia.
  rewrite Nat.sub_diag. reflexivity.
Qed.

(** A loop indexing a list from front to back is a traversal of the list. *)
Lemma for_from_foreach {A S} (body : A -> S -> res S) (l pre : list A) s :
  for_from (length l) (Z.of_nat (length pre))
    (fun i s => a <- get (pre ++ l) i ;; body a s) s
  = foreach l body s.
Proof.
  revert pre s. induction l as [|a l IH]; intros pre s; [reflexivity|].
  cbn [length for_from foreach]. rewrite get_middle, bind_Ok.
  destruct (body a s) as [s'| |]; try reflexivity. cbn [bind].
  specialize (IH (pre ++ [a]) s'). rewrite <- app_assoc in IH. simpl in IH.
  rewrite app_length in IH. simpl in IH.
  replace (Z.of_nat (length pre) + 1) with (Z.of_nat (length pre + 1)) by lia.
  exact IH.
Qed.

Lemma for_foreach {A S} (body : A -> S -> res S) (l : list A) n s :
  n = Z.of_nat (length l) ->
  for_ n (fun i s => a <- get l i ;; body a s) s = foreach l body s.
Proof.
  intros ->. unfold for_. rewrite Nat2Z.id. exact (for_from_foreach body l [] s).
Qed.

Lemma foreach_ext_in {A S} (b1 b2 : A -> S -> res S) (l : list A) s :
  (forall a s, In a l -> b1 a s = b2 a s) -> foreach l b1 s = foreach l b2 s.
Proof.
  revert s. induction l as [|a l IH]; intros s H; [reflexivity|].
  simpl. rewrite (H a s (or_introl eq_refl)).
  destruct (b2 a s); simpl; auto. apply IH. intros; apply H; now right.
Qed.

Lemma for_from_ext {S} (b1 b2 : Z -> S -> res S) n i s :
  (forall j s, i <= j < i + Z.of_nat n -> b1 j s = b2 j s) ->
  for_from n i b1 s = for_from n i b2 s.
Proof.
  revert i s. induction n as [|n IH]; intros i s H; [reflexivity|].
  cbn [for_from]. rewrite H by lia.
  destruct (b2 i s); simpl; auto. apply IH. intros; apply H; lia.
Qed.

(** A loop that cannot fail is a fold. *)
Lemma foreach_fold {A S} (f : A -> S -> S) (l : list A) s :
  foreach l (fun a s => Ok (f a s)) s = Ok (fold_left (fun s a => f a s) l s).
Proof. revert s. induction l; intros; simpl; auto. Qed.

Lemma foreach_fold_in {A S} (body : A -> S -> res S) (f : A -> S -> S) l s :
  (forall a s, In a l -> body a s = Ok (f a s)) ->
  foreach l body s = Ok (fold_left (fun s a => f a s) l s).
Proof.
  intros H. rewrite (foreach_ext_in body (fun a s => Ok (f a s))) by exact H.
  apply foreach_fold.
Qed.

Lemma str_eqb_eq a b : str_eqb a b = true <-> a = b.
Proof. apply String.eqb_eq. Qed.
Lemma str_eqb_neq a b : str_eqb a b = false <-> a <> b.
Proof. apply String.eqb_neq. Qed.
Lemma str_eqb_refl a : str_eqb a a = true.
Proof. apply String.eqb_refl. Qed.

Lemma nonempty_true s : nonempty s = true <-> s <> ""%string.
Proof. destruct s; cbv; split; intros; congruence. Qed.
Lemma nonempty_false s : nonempty s = false <-> s = ""%string.
Proof. destruct s; cbv; split; intros; congruence. Qed.

(** Hash tables *)

Lemma hash_find_remove_same {V} (h : hash V) k : hash_find (hash_remove h k) k = None.
Proof.
  induction h as [|[k' v] h IH]; [reflexivity|]. unfold hash_remove in *. simpl.
  destruct (str_eqb k' k) eqn:E; simpl; [exact IH|]. rewrite E. exact IH.
Qed.

Lemma hash_find_remove_other {V} (h : hash V) k k' :
  k' <> k -> hash_find (hash_remove h k) k' = hash_find h k'.
Proof.
  intros Hn. induction h as [|[a v] h IH]; [reflexivity|].
  unfold hash_remove in *. simpl.
  destruct (str_eqb a k) eqn:E; simpl.
  - apply str_eqb_eq in E. subst a.
    destruct (str_eqb k k') eqn:E2; [apply str_eqb_eq in E2; congruence|exact IH].
  - destruct (str_eqb a k'); [reflexivity|exact IH].
Qed.

Lemma hash_find_insert_same {V} (h : hash V) k v : hash_find (hash_insert h k v) k = Some v.
Proof. unfold hash_insert. simpl. rewrite str_eqb_refl. reflexivity. Qed.

Lemma hash_find_insert_other {V} (h : hash V) k v k' :
  k' <> k -> hash_find (hash_insert h k v) k' = hash_find h k'.
Proof.
  intros Hn. unfold hash_insert. simpl.
  destruct (str_eqb k k') eqn:E; [apply str_eqb_eq in E; congruence|].
  apply hash_find_remove_other. exact Hn.
Qed.

Lemma hash_lookup_insert_same {V} (h : hash V) k v : hash_lookup (hash_insert h k v) k = v.
Proof. unfold hash_lookup. rewrite hash_find_insert_same. reflexivity. Qed.
Lemma hash_lookup_insert_other {V} (h : hash V) k v k' :
  k' <> k -> hash_lookup (hash_insert h k v) k' = hash_lookup h k'.
Proof. intros. unfold hash_lookup. rewrite hash_find_insert_other by auto. reflexivity. Qed.
Lemma hash_lookup_remove_same {V} (h : hash V) k : hash_lookup (hash_remove h k) k = None.
Proof. unfold hash_lookup. rewrite hash_find_remove_same. reflexivity. Qed.
Lemma hash_lookup_remove_other {V} (h : hash V) k k' :
  k' <> k -> hash_lookup (hash_remove h k) k' = hash_lookup h k'.
Proof. intros. unfold hash_lookup. rewrite hash_find_remove_other by auto. reflexivity. Qed.
