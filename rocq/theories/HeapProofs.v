(** Lemmas on the heap, and the loops that copy and free. *)
From Coq Require Import Lia.
From Verif Require Import HeapSpec BaseLemmas.
Open Scope Z_scope.

(** ** Heap and struct access *)

Lemma lookup_remove h a x : lookup (remove h a) x = if a =? x then None else lookup h x.
Proof.
  unfold remove. induction h as [|[y b] h IH]; cbn [filter lookup fst].
  - destruct (a =? x); reflexivity.
  - destruct (Z.eqb_spec y a); cbn [negb lookup].
    + subst. rewrite IH. destruct (a =? x); reflexivity.
    + cbn [lookup]. rewrite IH. destruct (Z.eqb_spec y x), (Z.eqb_spec a x); congruence.
Qed.
Lemma lookup_replace h a b x : lookup (replace h a b) x = if a =? x then Some b else lookup h x.
Proof. unfold replace. cbn [lookup]. rewrite lookup_remove. destruct (a =? x); reflexivity. Qed.
Lemma lookup_cons h a b x : lookup ((a, b) :: h) x = if a =? x then Some b else lookup h x.
Proof. reflexivity. Qed.

Lemma getf_setf s f v g :
  getf (setf s f v) g = if str_eqb f g then (match getf s g with Some _ => Some v | None => None end)
                        else getf s g.
Proof.
  induction s as [|[k w] s IH]; cbn [setf map getf fst].
  - destruct (str_eqb f g); reflexivity.
  - fold (setf s f v). destruct (str_eqb k f) eqn:Hk; cbn [getf].
    + apply str_eqb_eq in Hk; subst k. destruct (str_eqb f g) eqn:Hf; [reflexivity|].
      exact IH.
    + destruct (str_eqb k g) eqn:Hg.
      * apply str_eqb_eq in Hg; subst k.
        destruct (str_eqb f g) eqn:Hf; [|reflexivity].
        apply str_eqb_eq in Hf; subst. rewrite str_eqb_refl in Hk. discriminate.
      * exact IH.
Qed.

Lemma erase_setf names s f v : In f names -> erase names (setf s f v) = erase names s.
Proof.
  intros Hin. unfold erase. induction s as [|[k w] s IH]; [reflexivity|].
  cbn [setf map filter fst]. fold (setf s f v).
  destruct (str_eqb k f) eqn:Hk; cbn [fst].
  - apply str_eqb_eq in Hk; subst k.
    assert (E : existsb (str_eqb f) names = true).
    { apply existsb_exists. exists f. split; [exact Hin | apply str_eqb_refl]. }
    rewrite E. cbn [negb]. exact IH.
  - rewrite IH. reflexivity.
Qed.

(** the pointers [qs] put into the fields [fs] *)
Fixpoint sets (s : struct) (fs : list string) (qs : list addr) : struct :=
  match fs, qs with
  | f :: fs', q :: qs' => sets (setf s f (Ptr (Some q))) fs' qs'
  | _, _ => s
  end.
Lemma erase_sets names fs : forall s qs, incl fs names -> erase names (sets s fs qs) = erase names s.
Proof.
  induction fs as [|f fs IH]; intros s qs Hi; [reflexivity|]. destruct qs as [|q qs]; [reflexivity|].
  cbn [sets]. rewrite IH by (intros x Hx; apply Hi; right; exact Hx).
  apply erase_setf, Hi. left. reflexivity.
Qed.
Lemma getf_sets_other fs : forall s qs g, ~ In g fs -> getf (sets s fs qs) g = getf s g.
Proof.
  induction fs as [|f fs IH]; intros s qs g Hn; [reflexivity|]. destruct qs as [|q qs]; [reflexivity|].
  cbn [sets]. rewrite IH by (intros H; apply Hn; right; exact H).
  rewrite getf_setf. destruct (str_eqb f g) eqn:E; [|reflexivity].
  apply str_eqb_eq in E. exfalso. apply Hn. left. exact E.
Qed.
Lemma getf_sets fs : forall s qs, NoDup fs -> (forall f, In f fs -> getf s f <> None) ->
  List.length qs = List.length fs ->
  Forall2 (fun f q => getf (sets s fs qs) f = Some (Ptr (Some q))) fs qs.
Proof.
  induction fs as [|f fs IH]; intros s qs Hd Hex Hl; destruct qs as [|q qs]; try discriminate; [constructor|].
  inversion Hd as [|? ? Hnf Hd']; subst. cbn [sets]. constructor.
  - rewrite getf_sets_other by exact Hnf. rewrite getf_setf, str_eqb_refl.
    destruct (getf s f) eqn:E; [reflexivity|]. exfalso. apply (Hex f); [left; reflexivity | exact E].
  - apply IH; [exact Hd' | | cbn in Hl; lia].
    intros g Hg. rewrite getf_setf. destruct (str_eqb f g) eqn:E.
    + apply str_eqb_eq in E. subst. contradiction.
    + apply Hex. right. exact Hg.
Qed.

Lemma put_at_middle {A} (l1 l2 : list A) a b i : i = Z.of_nat (List.length l1) ->
  put_at (l1 ++ a :: l2) i b = l1 ++ b :: l2.
Proof.
  intros ->. unfold put_at. rewrite Nat2Z.id.
  rewrite firstn_app, firstn_all, Nat.sub_diag, firstn_O, app_nil_r.
  f_equal. f_equal. rewrite skipn_app, skipn_all2 by lia.
  replace (List.length l1 + 1 - List.length l1)%nat with 1%nat by lia. reflexivity.
Qed.
Lemma get_mid {A} (l1 l2 : list A) a i : i = Z.of_nat (List.length l1) -> get (l1 ++ a :: l2) i = Ok a.
Proof.
  intros ->. unfold get. destruct (Z.ltb_spec (Z.of_nat (List.length l1)) 0); [lia|].
  rewrite Nat2Z.id, nth_error_app2, Nat.sub_diag by lia. reflexivity.
Qed.

Lemma load_at h p l1 r l2 i : lookup h p = Some (l1 ++ r :: l2) -> i = Z.of_nat (List.length l1) ->
  load h p i = Ok r.
Proof. intros Hl Hi. unfold load. rewrite Hl. apply get_mid, Hi. Qed.
Lemma load_ptr_at h p l1 r l2 i f q : lookup h p = Some (l1 ++ r :: l2) ->
  i = Z.of_nat (List.length l1) -> getf r f = Some (Ptr q) -> load_ptr h p i f = Ok q.
Proof. intros Hl Hi Hf. unfold load_ptr. rewrite (load_at _ _ _ _ _ _ Hl Hi). cbn [bind]. rewrite Hf. reflexivity. Qed.
Lemma load_num_at h p s f n : lookup h p = Some [s] -> num s f = Some n -> load_num h p 0 f = Ok n.
Proof.
  intros Hl Hn. unfold load_num. rewrite (load_at h p [] s [] 0 Hl eq_refl). cbn [bind].
  unfold num in Hn. destruct (getf s f) as [[z| |]|]; try discriminate. injection Hn as ->. reflexivity.
Qed.

(** ** Copying *)

Section Copying.
Variable malloc : heap -> addr.
Hypothesis Hfresh : fresh malloc.

(** One MEMDUP: destination, source and length, source block *)
Record item := mk_item { it_dst : string; it_src : string; it_n : Z; it_e : addr * block }.

Definition same_but (p : addr) (h0 h : heap) : Prop :=
  forall a, a <> p -> live h0 a -> lookup h a = lookup h0 a.

Lemma memdup_ok h a b n : lookup h a = Some b -> Z.of_nat (List.length b) = n -> 0 < n ->
  memdup malloc h (Some a) n = Ok (malloc h, (malloc h, b) :: h).
Proof.
  intros Hl Hn Hp. unfold memdup, chkmalloc. destruct (Z.ltb_spec 0 n); [|lia].
  cbn [bind deref]. rewrite Hl. destruct (Z.ltb_spec (Z.of_nat (List.length b)) n); [lia|].
  rewrite firstn_all2 by lia. reflexivity.
Qed.

Lemma memdup_field_ok h pIn pOut i dst src n e l1 ri l2 m1 ro m2 :
  lookup h pIn = Some (l1 ++ ri :: l2) -> i = Z.of_nat (List.length l1) ->
  lookup h pOut = Some (m1 ++ ro :: m2) -> i = Z.of_nat (List.length m1) ->
  points h ri src n e -> 0 < n -> getf ro dst <> None ->
  exists h', memdup_field malloc pIn pOut i dst src n h = Ok h'
   /\ lookup h' pOut = Some (m1 ++ setf ro dst (Ptr (Some (malloc h))) :: m2)
   /\ lookup h' (malloc h) = Some (snd e)
   /\ (forall a, a <> pOut -> a <> malloc h -> lookup h' a = lookup h a).
Proof.
  intros Hin Hi Hout Ho (Hf & Hl & Hn) Hp Hd.
  assert (Hq : malloc h <> pOut). { intros E. pose proof (Hfresh h) as F. rewrite E in F. congruence. }
  unfold memdup_field. rewrite (load_ptr_at _ _ _ _ _ _ _ _ Hin Hi Hf). cbn [bind].
  rewrite (memdup_ok _ _ _ _ Hl Hn Hp). cbn [bind fst snd]. unfold store.
  rewrite lookup_cons. destruct (Z.eqb_spec (malloc h) pOut); [contradiction|].
  rewrite Hout, (get_mid _ _ _ _ Ho). cbn [bind].
  destruct (getf ro dst) eqn:E; [|contradiction].
  rewrite (put_at_middle _ _ _ _ _ Ho).
  eexists. split; [reflexivity|]. repeat split.
  - rewrite lookup_replace, Z.eqb_refl. reflexivity.
  - rewrite lookup_replace, lookup_cons, Z.eqb_refl.
    destruct (Z.eqb_spec pOut (malloc h)); [congruence | reflexivity].
  - intros a Ha Hb. rewrite lookup_replace, lookup_cons.
    destruct (Z.eqb_spec pOut a); [congruence|]. destruct (Z.eqb_spec (malloc h) a); [congruence|]. reflexivity.
Qed.

(** The MEMDUP calls for one struct, here [pIn[i]]. *)
Lemma copy_loop {B} (body : B -> heap -> res heap) pIn pOut i h0 l1 ri l2 m1 m2 :
  pIn <> pOut ->
  lookup h0 pIn = Some (l1 ++ ri :: l2) -> i = Z.of_nat (List.length l1) ->
  live h0 pOut -> i = Z.of_nat (List.length m1) ->
  forall (cs : list B) (its : list item) h ro,
    Forall2 (fun c it => forall h, same_but pOut h0 h ->
               body c h = memdup_field malloc pIn pOut i (it_dst it) (it_src it) (it_n it) h) cs its ->
    Forall (fun it => points h0 ri (it_src it) (it_n it) (it_e it) /\ 0 < it_n it
                      /\ fst (it_e it) <> pOut /\ getf ro (it_dst it) <> None) its ->
    same_but pOut h0 h -> lookup h pOut = Some (m1 ++ ro :: m2) ->
    exists h' qs,
      foreach cs body h = Ok h'
      /\ List.length qs = List.length its
      /\ NoDup qs /\ (forall q, In q qs -> ~ live h q)
      /\ lookup h' pOut = Some (m1 ++ sets ro (map it_dst its) qs :: m2)
      /\ Forall2 (fun it q => lookup h' q = Some (snd (it_e it))) its qs
      /\ (forall a, a <> pOut -> ~ In a qs -> lookup h' a = lookup h a).
Proof.
  intros Hne Hin Hi Hout Hm cs its h ro Hb. revert h ro.
  induction Hb as [|c it cs its Hc Hcs IH]; intros h ro Hit Hs Hp.
  - exists h, []. cbn. repeat split; try constructor; try exact Hp; intros; contradiction.
  - destruct (Forall_inv Hit) as (Hpt & Hn & Hd & Hg). pose proof (Forall_inv_tail Hit) as Hit'. clear Hit.
    assert (Hin' : lookup h pIn = Some (l1 ++ ri :: l2)).
    { rewrite Hs; [exact Hin | exact Hne | unfold live; rewrite Hin; discriminate]. }
    assert (Hpt' : points h ri (it_src it) (it_n it) (it_e it)).
    { destruct Hpt as (P1 & P2 & P3). repeat split; [exact P1 | | exact P3].
      rewrite Hs; [exact P2 | exact Hd | unfold live; rewrite P2; discriminate]. }
    destruct (memdup_field_ok h pIn pOut i (it_dst it) (it_src it) (it_n it) (it_e it)
                l1 ri l2 m1 ro m2 Hin' Hi Hp Hm Hpt' Hn Hg) as (h1 & E1 & L1 & L2 & L3).
    assert (Hlive : forall a, live h0 a -> live h a).
    { intros a Ha. destruct (Z.eq_dec a pOut) as [->|Ha'].
      - unfold live. rewrite Hp. discriminate.
      - unfold live. rewrite (Hs a Ha' Ha). exact Ha. }
    assert (Hs1 : same_but pOut h0 h1).
    { intros a Ha Hla. rewrite L3; [apply Hs; assumption | exact Ha|].
      intros ->. apply (Hlive _ Hla). apply Hfresh. }
    destruct (IH h1 (setf ro (it_dst it) (Ptr (Some (malloc h))))) as (h' & qs & F & Fl & Fd & Ff & Fo & Fc & Fa).
    { eapply Forall_impl; [|exact Hit']. intros it' (A & B' & C & D). repeat split; try apply A; try assumption.
      rewrite getf_setf. destruct (str_eqb (it_dst it) (it_dst it')); [|exact D].
      destruct (getf ro (it_dst it')); [discriminate | contradiction]. }
    { exact Hs1. } { exact L1. }
    assert (Hq : malloc h <> pOut).
    { intros E. pose proof (Hfresh h) as Fr. rewrite E in Fr. congruence. }
    assert (Hqn : ~ In (malloc h) qs).
    { intros Hx. apply (Ff _ Hx). unfold live. rewrite L2. discriminate. }
    exists h', (malloc h :: qs). cbn [foreach]. rewrite (Hc h Hs), E1. cbn [bind].
    split; [exact F|]. split; [cbn; lia|]. split; [constructor; assumption|].
    split.
    { intros q [<-|Hx] Hl; [apply Hl, Hfresh|].
      apply (Ff q Hx). unfold live.
      destruct (Z.eq_dec q pOut) as [->|]; [rewrite L1; discriminate|].
      rewrite L3; [exact Hl | assumption | intros ->; contradiction]. }
    split; [exact Fo|]. split.
    { constructor; [|exact Fc]. rewrite Fa; [exact L2 | exact Hq | exact Hqn]. }
    intros a Ha Hx. rewrite Fa; [|exact Ha | intros Hy; apply Hx; right; exact Hy].
    apply L3; [exact Ha | intros ->; apply Hx; left; reflexivity].
Qed.
End Copying.
