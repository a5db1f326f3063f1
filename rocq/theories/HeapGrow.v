(** Lemmas on heaps that gain and lose blocks, and on loops. *)
From Coq Require Import Lia Permutation.
From Verif Require Import HeapSpec HeapFilterSpec BaseLemmas HeapProofs HeapDup HeapTables HeapFree HeapAlloc.
Open Scope Z_scope.

(** ** Loops *)

Lemma for_from_total {S} (P : Z -> S -> Prop) (body : Z -> S -> res S) k : forall i s,
  P i s -> (forall j s, i <= j < i + Z.of_nat k -> P j s -> exists s', body j s = Ok s' /\ P (j + 1) s') ->
  exists s', for_from k i body s = Ok s' /\ P (i + Z.of_nat k) s'.
Proof.
  induction k as [|k IH]; intros i s H0 Hs.
  - exists s. split; [reflexivity|]. rewrite Z.add_0_r. exact H0.
  - destruct (Hs i s) as (s1 & E1 & P1); [lia | exact H0|].
    destruct (IH (i + 1) s1 P1) as (s' & E & P').
    { intros j x Hj. apply Hs. lia. }
    exists s'. cbn [for_from]. rewrite E1. cbn [bind]. split; [exact E|].
    replace (i + Z.of_nat (Datatypes.S k)) with (i + 1 + Z.of_nat k) by lia. exact P'.
Qed.
Lemma for_total {S} (P : Z -> S -> Prop) (body : Z -> S -> res S) n s :
  0 <= n -> P 0 s -> (forall j s, 0 <= j < n -> P j s -> exists s', body j s = Ok s' /\ P (j + 1) s') ->
  exists s', for_ n body s = Ok s' /\ P n s'.
Proof.
  intros Hn H0 Hs. unfold for_. destruct (for_from_total P body (Z.to_nat n) 0 s H0) as (s' & E & H).
  { intros j x Hj. apply Hs. lia. }
  exists s'. split; [exact E|]. replace n with (0 + Z.of_nat (Z.to_nat n)) by lia. exact H.
Qed.
Lemma foreach_total {A S} (P : S -> Prop) (body : A -> S -> res S) l : forall s,
  P s -> (forall a s, In a l -> P s -> exists s', body a s = Ok s' /\ P s') ->
  exists s', foreach l body s = Ok s' /\ P s'.
Proof.
  induction l as [|a l IH]; intros s H0 Hs; [exists s; split; [reflexivity | exact H0]|].
  destruct (Hs a s) as (s1 & E1 & P1); [left; reflexivity | exact H0|].
  destruct (IH s1 P1) as (s' & E & P'); [intros x y Hx; apply Hs; right; exact Hx|].
  exists s'. cbn [foreach]. rewrite E1. split; assumption.
Qed.

(** ** Heaps *)

(** [h'] is [h] with the blocks [l] more *)
Definition grows (h h' : heap) (l : list addr) : Prop :=
  NoDup l /\ (forall a, In a l -> ~ live h a /\ live h' a) /\ (forall a, ~ In a l -> lookup h' a = lookup h a).

Lemma grows_refl h : grows h h [].
Proof. repeat split; [constructor | contradiction | contradiction]. Qed.
Lemma grows_keep h h' l a : grows h h' l -> live h a -> lookup h' a = lookup h a.
Proof. intros (_ & N & O) Hl. apply O. intros Hi. exact (proj1 (N a Hi) Hl). Qed.
Lemma grows_live h h' l a : grows h h' l -> live h a -> live h' a.
Proof. intros G Hl. unfold live. rewrite (grows_keep _ _ _ _ G Hl). exact Hl. Qed.
Lemma grows_new h h' l a : grows h h' l -> (In a l <-> (~ live h a /\ live h' a)).
Proof.
  intros (_ & N & O). split; [apply N|]. intros [A B].
  destruct (in_dec Z.eq_dec a l) as [H|H]; [exact H|]. exfalso. apply A. unfold live. rewrite <- (O a H). exact B.
Qed.
Lemma grows_app h h1 h2 l m : grows h h1 l -> grows h1 h2 m -> grows h h2 (l ++ m).
Proof.
  intros G1 G2. pose proof G1 as (D1 & N1 & O1). pose proof G2 as (D2 & N2 & O2). repeat split.
  - apply NoDup_app_intro; [exact D1 | exact D2|]. intros x Hx Hm. exact (proj1 (N2 x Hm) (proj2 (N1 x Hx))).
  - apply in_app_iff in H. destruct H as [H|H]; [apply N1, H|]. intros Hl. apply (proj1 (N2 a H)).
    exact (grows_live _ _ _ _ G1 Hl).
  - apply in_app_iff in H. destruct H as [H|H]; [|apply N2, H]. apply (grows_live _ _ _ _ G2), N1, H.
  - intros a H. rewrite in_app_iff in H. rewrite O2, O1; tauto.
Qed.
Lemma grows_perm h h' l m : Permutation l m -> grows h h' l -> grows h h' m.
Proof.
  intros P (D & N & O). repeat split.
  - exact (Permutation_NoDup P D).
  - apply N, (Permutation_in _ (Permutation_sym P)), H.
  - apply N, (Permutation_in _ (Permutation_sym P)), H.
  - intros a H. apply O. intros Hi. apply H, (Permutation_in _ P), Hi.
Qed.
Lemma grows_modify h h1 h2 l : grows h h1 l -> (forall a, ~ In a l -> lookup h2 a = lookup h1 a) ->
  (forall a, In a l -> live h2 a) -> grows h h2 l.
Proof.
  intros (D & N & O) Hs Hl. repeat split; [exact D | apply N, H | apply Hl, H|].
  intros a H. rewrite Hs by exact H. apply O, H.
Qed.
(** writing to one of the new blocks *)
Lemma grows_write h h1 h2 l p : grows h h1 l -> In p l -> live h2 p ->
  (forall a, a <> p -> lookup h2 a = lookup h1 a) -> grows h h2 l.
Proof.
  intros G Hp Hl Hs. apply (grows_modify h h1 h2 l G).
  - intros a H. apply Hs. intros ->. contradiction.
  - intros a H. destruct (Z.eq_dec a p) as [->|Hn]; [exact Hl|]. unfold live. rewrite Hs by exact Hn.
    apply (proj1 (proj2 G)), H.
Qed.
Lemma grows_without h h1 h2 l m k : grows h h1 l -> Permutation l (m ++ k) -> without h1 h2 m -> grows h h2 k.
Proof.
  intros G P [W1 W2]. pose proof (grows_perm _ _ _ _ P G) as (D & N & O).
  assert (Hd : forall a, In a k -> ~ In a m).
  { clear - D. induction m as [|x m IH]; intros a Ha [].
    - subst. inversion D; subst. apply H1, in_app_iff. right. exact Ha.
    - inversion D; subst. exact (IH H3 a Ha H). }
  repeat split.
  - clear - D. induction m as [|x m IH]; [exact D|]. apply IH. inversion D; assumption.
  - apply N, in_app_iff. right. exact H.
  - unfold live. rewrite W2 by (apply Hd, H). apply N, in_app_iff. right. exact H.
  - intros a H. destruct (in_dec Z.eq_dec a m) as [Hm|Hm].
    + pose proof (W1 a Hm) as X. unfold live in X. destruct (lookup h2 a); [exfalso; apply X; discriminate|].
      assert (Y : ~ live h a) by (apply N, in_app_iff; left; exact Hm).
      unfold live in Y. destruct (lookup h a); [exfalso; apply Y; discriminate | reflexivity].
    + rewrite W2 by exact Hm. apply O. rewrite in_app_iff. tauto.
Qed.

Lemma grows_none h h' : grows h h' [] -> forall a, lookup h' a = lookup h a.
Proof. intros (_ & _ & O) a. apply O. intros []. Qed.

(** ** One more block *)
Section New.
Variable malloc : heap -> addr.
Hypothesis Hfresh : fresh malloc.

Lemma grows_cons h b : grows h ((malloc h, b) :: h) [malloc h].
Proof.
  repeat split.
  - repeat constructor. intros [].
  - destruct H as [<-|[]]. intros X. exact (X (Hfresh h)).
  - destruct H as [<-|[]]. unfold live. rewrite lookup_cons, Z.eqb_refl. discriminate.
  - intros a Ha. rewrite lookup_cons. destruct (Z.eqb_spec (malloc h) a) as [<-|]; [|reflexivity].
    exfalso. apply Ha. left. reflexivity.
Qed.
Lemma lookup_new h b : lookup ((malloc h, b) :: h) (malloc h) = Some b.
Proof. rewrite lookup_cons, Z.eqb_refl. reflexivity. Qed.
End New.

(** ** Structs *)

Lemma copy_struct_at pIn i bIn s pOut j l1 x l2 h :
  lookup h pIn = Some bIn -> get bIn i = Ok s ->
  lookup h pOut = Some (l1 ++ x :: l2) -> j = Z.of_nat (List.length l1) ->
  exists h', copy_struct pIn i pOut j h = Ok h' /\ lookup h' pOut = Some (l1 ++ s :: l2)
    /\ forall a, a <> pOut -> lookup h' a = lookup h a.
Proof.
  intros Hin Hi Hout Hj. unfold copy_struct, load. rewrite Hin, Hi. cbn [bind]. rewrite Hout, (get_mid _ _ _ _ Hj).
  cbn [bind]. rewrite (put_at_middle _ _ _ _ _ Hj). eexists. split; [reflexivity|]. split.
  - rewrite lookup_replace, Z.eqb_refl. reflexivity.
  - intros a Ha. rewrite lookup_replace. destruct (Z.eqb_spec pOut a); congruence.
Qed.
Lemma store_ok h p l1 r l2 i f v : lookup h p = Some (l1 ++ r :: l2) -> i = Z.of_nat (List.length l1) ->
  getf r f <> None ->
  exists h', store h p i f v = Ok h' /\ lookup h' p = Some (l1 ++ setf r f v :: l2)
    /\ forall a, a <> p -> lookup h' a = lookup h a.
Proof.
  intros Hp Hi Hf. rewrite (store_at _ _ _ _ _ _ _ v Hp Hi Hf). eexists. split; [reflexivity|]. split.
  - rewrite lookup_replace, Z.eqb_refl. reflexivity.
  - intros a Ha. rewrite lookup_replace. destruct (Z.eqb_spec p a); congruence.
Qed.
Lemma get_nth {A} (l : list A) i : 0 <= i < Z.of_nat (List.length l) -> exists x, get l i = Ok x /\ In x l.
Proof.
  intros Hi. unfold get. destruct (Z.ltb_spec i 0); [lia|].
  destruct (nth_error l (Z.to_nat i)) as [x|] eqn:E.
  - exists x. split; [reflexivity | exact (nth_error_In _ _ E)].
  - apply nth_error_None in E. lia.
Qed.

(** ** New vectors, of various lengths *)
Section Vectors.
Variable malloc : heap -> addr.
Hypothesis Hfresh : fresh malloc.
Variable fill : heap -> string -> Z -> struct.

Lemma new_field_ok h p l1 r l2 i f n : lookup h p = Some (l1 ++ r :: l2) -> i = Z.of_nat (List.length l1) ->
  getf r f <> None -> 0 < n ->
  exists h' b, new_field malloc (fill h) p i f n h = Ok h'
    /\ lookup h' p = Some (l1 ++ setf r f (Ptr (Some (malloc h))) :: l2)
    /\ lookup h' (malloc h) = Some b /\ Z.of_nat (List.length b) = n
    /\ malloc h <> p /\ ~ live h (malloc h)
    /\ (forall a, a <> p -> a <> malloc h -> lookup h' a = lookup h a).
Proof.
  intros Hp Hi Hf Hn. pose proof (Hfresh h) as Hq.
  assert (Hqp : malloc h <> p) by (intros E; rewrite E in Hq; congruence).
  unfold new_field, chkmalloc. destruct (Z.ltb_spec 0 n); [|lia]. cbn [bind].
  set (b := map _ _).
  destruct (store_ok ((malloc h, b) :: h) p l1 r l2 i f (Ptr (Some (malloc h)))) as (h' & E & L & O).
  { rewrite lookup_cons. destruct (Z.eqb_spec (malloc h) p); [contradiction | exact Hp]. }
  { exact Hi. } { exact Hf. }
  exists h', b. split; [exact E|]. split; [exact L|]. split.
  { rewrite O by exact Hqp. apply lookup_new. }
  split; [unfold b; rewrite map_length, seq_length; lia|]. split; [exact Hqp|].
  split; [intros X; exact (X Hq)|]. intros a A1 A2. rewrite O by exact A1. rewrite lookup_cons.
  destruct (Z.eqb_spec (malloc h) a); congruence.
Qed.

Lemma new_vectors p l1 l2 i : i = Z.of_nat (List.length l1) ->
  forall vs h r, lookup h p = Some (l1 ++ r :: l2) ->
  (forall f, In f (map fst vs) -> getf r f <> None) -> Forall (fun v => 0 < snd v) vs ->
  exists h' qs,
    foreach vs (fun v h => new_field malloc (fill h) p i (fst v) (snd v) h) h = Ok h'
    /\ List.length qs = List.length vs
    /\ NoDup qs /\ (forall q, In q qs -> ~ live h q)
    /\ lookup h' p = Some (l1 ++ sets r (map fst vs) qs :: l2)
    /\ Forall2 (fun v q => exists b, lookup h' q = Some b /\ Z.of_nat (List.length b) = snd v) vs qs
    /\ (forall a, a <> p -> ~ In a qs -> lookup h' a = lookup h a).
Proof.
  intros Hi vs. induction vs as [|v vs IH]; intros h r Hp Hf Hv.
  - exists h, []. cbn. repeat split; try constructor; try exact Hp; intros; contradiction.
  - destruct (new_field_ok h p l1 r l2 i (fst v) (snd v) Hp Hi (Hf _ (or_introl eq_refl)) (Forall_inv Hv))
      as (h1 & b & E1 & L1 & Lq & Lb & Hqp & Hql & O1).
    set (q := malloc h) in *.
    destruct (IH h1 _ L1) as (h' & qs & F & Fl & Fd & Ff & Fo & Fc & Fa).
    { intros g Hg. apply getf_setf_some, Hf. right. exact Hg. }
    { exact (Forall_inv_tail Hv). }
    assert (Hqn : ~ In q qs) by (intros Hx; apply (Ff _ Hx); unfold live; rewrite Lq; discriminate).
    exists h', (q :: qs). cbn [foreach]. rewrite E1. cbn [bind].
    split; [exact F|]. split; [cbn; lia|]. split; [constructor; assumption|]. split.
    { intros x [<-|Hx] Hl; [exact (Hql Hl)|]. apply (Ff x Hx). unfold live.
      destruct (Z.eq_dec x p) as [->|]; [rewrite L1; discriminate|].
      rewrite O1; [exact Hl | assumption | intros ->; contradiction]. }
    split; [exact Fo|]. split.
    { constructor; [|exact Fc]. exists b. split; [|exact Lb]. rewrite Fa; [exact Lq | exact Hqp | exact Hqn]. }
    intros a Ha Hx. rewrite Fa; [|exact Ha | intros Hy; apply Hx; right; exact Hy].
    apply O1; [exact Ha | intros ->; apply Hx; left; reflexivity].
Qed.

Definition has_vectors (h : heap) (vs : list (string * Z)) (r : struct) (es : list (addr * block)) : Prop :=
  Forall2 (fun v e => points h r (fst v) (snd v) e) vs es.

Lemma has_vectors_frame h h' vs r es : has_vectors h vs r es ->
  (forall a, In a (map fst es) -> lookup h' a = lookup h a) -> has_vectors h' vs r es.
Proof.
  intros H Heq. induction H as [|v e vs es (A & B & C) H IH]; constructor.
  - repeat split; try assumption. rewrite Heq by (left; reflexivity). exact B.
  - apply IH. intros a Ha. apply Heq. right. exact Ha.
Qed.
Lemma has_vectors_live h vs r es : has_vectors h vs r es -> forall a, In a (map fst es) -> live h a.
Proof.
  intros H. induction H as [|v e vs es (A & B & C) H IH]; intros a Ha; [contradiction|].
  destruct Ha as [<-|Ha]; [unfold live; rewrite B; discriminate | apply IH, Ha].
Qed.

(** One new record. *)
Lemma new_record_ok vs nulls rIn i bIn s rOut nrec l1 x l2 h :
  NoDup (map fst vs) -> (forall f, In f (map fst vs) -> ~ In f nulls) -> Forall (fun v => 0 < snd v) vs ->
  lookup h rIn = Some bIn -> get bIn i = Ok s ->
  (forall f, In f (map fst vs ++ nulls) -> getf s f <> None) ->
  lookup h rOut = Some (l1 ++ x :: l2) -> nrec = Z.of_nat (List.length l1) ->
  exists h' r es, new_record malloc fill vs nulls rIn i rOut nrec h = Ok h'
    /\ lookup h' rOut = Some (l1 ++ r :: l2)
    /\ has_vectors h' vs r es
    /\ ~ In rOut (map fst es)
    /\ (forall f, In f nulls -> getf r f = Some (Ptr None))
    /\ (forall f, ~ In f (map fst vs ++ nulls) -> getf r f = getf s f)
    /\ NoDup (map fst es) /\ (forall a, In a (map fst es) -> ~ live h a)
    /\ (forall a, a <> rOut -> ~ In a (map fst es) -> lookup h' a = lookup h a).
Proof.
  intros Hd Hvn Hpos Hin Hi Hm Hout Hj. unfold new_record.
  destruct (copy_struct_at rIn i bIn s rOut nrec l1 x l2 h Hin Hi Hout Hj) as (h1 & E1 & L1 & O1).
  rewrite E1. cbn [bind].
  destruct (new_vectors rOut l1 l2 nrec Hj vs h1 s L1) as (h2 & qs & E2 & Ql & Qd & Qn & L2 & Qv & O2).
  { intros f Hf. apply Hm, in_app_iff. left. exact Hf. }
  { exact Hpos. }
  rewrite E2. cbn [bind].
  destruct (store_loop rOut l1 l2 nrec (Ptr None) nulls Hj h2 _ L2) as (h3 & E3 & L3 & O3).
  { intros f Hf. apply getf_sets_some, Hm, in_app_iff. right. exact Hf. }
  set (r := setv (sets s (map fst vs) qs) nulls (Ptr None)) in *.
  assert (Hqr : forall q, In q qs -> q <> rOut).
  { intros q Hq ->. apply (Qn _ Hq). unfold live. rewrite L1. discriminate. }
  assert (X : exists es, has_vectors h3 vs r es /\ map fst es = qs).
  { assert (G0 := getf_sets (map fst vs) s qs Hd (fun f Hf => Hm f (proj2 (in_app_iff _ _ _) (or_introl Hf)))).
    rewrite map_length in G0. specialize (G0 Ql).
    assert (G : Forall2 (fun f q => getf r f = Some (Ptr (Some q))) (map fst vs) qs).
    { unfold r. revert G0. generalize (sets s (map fst vs) qs) as r1. intros r1 G0. clear - G0 Hvn.
      induction G0 as [|f q fs qs H X0 IH]; constructor; [|apply IH; intros g Hg; apply Hvn; right; exact Hg].
      rewrite getf_setv_other by (apply Hvn; left; reflexivity). exact H. }
    clear - G Qv O3 Hqr. revert G. generalize r as r1. clear r. intros r1 G.
    induction Qv as [|v q vs qs (b & Hb & Hl) Qv IH]; [exists []; split; [constructor | reflexivity]|].
    cbn [map] in G. destruct (Forall2_uncons _ _ _ _ G) as (q1 & qs1 & E1 & G1 & G2). injection E1 as <- <-.
    destruct IH as (es & A & B); [intros y Hy; apply Hqr; right; exact Hy | exact G2|].
    exists ((q, b) :: es). split; [|cbn [map fst]; f_equal; exact B]. constructor; [|exact A].
    repeat split; cbn [fst snd]; [exact G1 | | exact Hl].
    rewrite O3 by (apply Hqr; left; reflexivity). exact Hb. }
  destruct X as (es & Hes & Hfst).
  exists h3, r, es. rewrite Hfst. split; [exact E3|]. split; [exact L3|]. split; [exact Hes|].
  split; [intros H; exact (Hqr _ H eq_refl)|]. split.
  { intros f Hf. unfold r. apply getf_setv; [exact Hf|]. apply getf_sets_some, Hm, in_app_iff. right. exact Hf. }
  split.
  { intros f Hf. rewrite in_app_iff in Hf. unfold r. rewrite getf_setv_other by tauto. apply getf_sets_other. tauto. }
  split; [exact Qd|]. split.
  { intros a Ha Hl. apply (Qn a Ha). unfold live. rewrite O1; [exact Hl | apply Hqr, Ha]. }
  intros a Ha Hx. rewrite O3 by exact Ha. rewrite O2 by assumption. apply O1, Ha.
Qed.
End Vectors.
