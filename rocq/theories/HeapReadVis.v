(** Reading: the storage of one table; the optional columns of OI_VIS. *)
From Coq Require Import Lia Permutation.
From Verif Require Import HeapSpec HeapReadSpec BaseLemmas HeapProofs HeapDup HeapTables HeapFree HeapAlloc HeapMain
  HeapGrow HeapFilterTab.
Open Scope Z_scope.

Lemma NoDup_app_r {A} (l m : list A) : NoDup (l ++ m) -> NoDup m.
Proof. induction l as [|x l IH]; [trivial|]. intros H. inversion H; subst. exact (IH H3). Qed.
Lemma NoDup_app_disjoint {A} (l m : list A) : NoDup (l ++ m) -> forall x, In x l -> ~ In x m.
Proof.
  induction l as [|y l IH]; [contradiction|]. intros H x Hx Hm. cbn [app] in H. inversion H; subst.
  destruct Hx as [->|Hx]; [apply H2, in_app_iff; right; exact Hm | exact (IH H3 x Hx Hm)].
Qed.

(** ** Counting blocks *)
Lemma length_concat {A} (l : list (list A)) k : Forall (fun x => List.length x = k) l ->
  List.length (concat l) = (List.length l * k)%nat.
Proof. induction 1 as [|x l H F IH]; [reflexivity|]. cbn [concat List.length]. rewrite app_length, IH, H. lia. Qed.
Lemma Forall2_len {A B} (P : A -> B -> Prop) l m : Forall2 P l m -> List.length l = List.length m.
Proof. induction 1; cbn; lia. Qed.
Lemma storage_length T h p s n vs arrs vecs : table_at T h p s n vs arrs vecs ->
  Z.of_nat (List.length (storage arrs vecs)) =
    Z.of_nat (List.length (sh_arrays T)) + Z.of_nat (List.length (sh_arrays T)) * n * Z.of_nat (List.length vs).
Proof.
  intros [_ _ _ A V _]. unfold storage. rewrite app_length, !map_length, (length_concat vecs (List.length vs)).
  2:{ clear A. induction V as [|r es l m H V IH]; constructor; [symmetry; exact (Forall2_len _ _ _ H) | exact IH]. }
  rewrite <- (Forall2_len _ _ _ A), <- (Forall2_len _ _ _ V).
  assert (X : Z.of_nat (List.length (flat_map snd arrs)) = Z.of_nat (List.length (sh_arrays T)) * n).
  { clear V. induction A as [|f e fs es (_ & _ & H) A IH]; [reflexivity|]. cbn [flat_map List.length].
    rewrite app_length, Nat2Z.inj_add, Nat2Z.inj_succ. unfold block in *. rewrite IH, H. lia. }
  rewrite Nat2Z.inj_add, Nat2Z.inj_mul, X. reflexivity.
Qed.

(** ** A table of records being read *)
Section Read.
Variable malloc : heap -> addr.
Hypothesis Hfresh : fresh malloc.
Variable fill : heap -> string -> Z -> struct.

Definition has_nulls (r : struct) : Prop := forall f, In f (vectors_null KVis) -> getf r f <> None.

(** everything new since [h0] is the table at [p] *)
Record reading (h0 h : heap) (p : addr) (s : struct) (n w : Z) (rec : addr) (rows : list struct)
  (vs : list (string * Z)) (vecs : list (list (addr * block))) : Prop := mk_reading {
  rd_struct : lookup h p = Some [s];
  rd_record : getf s "record" = Some (Ptr (Some rec));
  rd_numrec : num s "numrec" = Some n;
  rd_nwave : num s "nwave" = Some w;
  rd_rows : lookup h rec = Some rows;
  rd_len : Z.of_nat (List.length rows) = n;
  rd_vectors : Forall2 (has_vectors h vs) rows vecs;
  rd_nulls : Forall has_nulls rows;
  rd_grows : grows h0 h (p :: rec :: map fst (concat vecs)) }.

Lemma vectors_frame h h' vs rows vecs : Forall2 (has_vectors h vs) rows vecs ->
  (forall a, In a (map fst (concat vecs)) -> lookup h' a = lookup h a) -> Forall2 (has_vectors h' vs) rows vecs.
Proof.
  intros F Hw. induction F as [|r0 es0 rows vecs H F IH]; constructor.
  - eapply has_vectors_frame; [exact H|]. intros a Ha. apply Hw. cbn [concat]. rewrite map_app. apply in_app_iff. left. exact Ha.
  - apply IH. intros a Ha. apply Hw. cbn [concat]. rewrite map_app. apply in_app_iff. right. exact Ha.
Qed.

Lemma reading_store h0 h p s n w rec rows vs vecs f v :
  reading h0 h p s n w rec rows vs vecs -> getf s f <> None ->
  f <> "record"%string -> f <> "numrec"%string -> f <> "nwave"%string ->
  exists h', store h p 0 f v = Ok h' /\ reading h0 h' p (setf s f v) n w rec rows vs vecs.
Proof.
  intros [A B C D E F G Hn I] Hf N1 N2 N3.
  destruct (store_ok h p [] s [] 0 f v A eq_refl Hf) as (h' & Es & L & O).
  pose proof (proj1 I) as Nd. apply NoDup_cons_iff in Nd. destruct Nd as [Np _].
  exists h'. split; [exact Es|]. constructor; try assumption.
  - rewrite getf_setf_other by exact N1. exact B.
  - unfold num. rewrite getf_setf_other by exact N2. exact C.
  - unfold num. rewrite getf_setf_other by exact N3. exact D.
  - rewrite O; [exact E | intros ->; apply Np; left; reflexivity].
  - eapply vectors_frame; [exact G|]. intros a Ha. apply O. intros ->. apply Np. right. exact Ha.
  - eapply grows_trans_write; [exact I | left; reflexivity | exact L | exact O].
Qed.

(** one pass of the loop gives a record with vectors [vs] the vectors [vs'], [qs] being new *)
Definition pass (rec : addr) (w : Z) (body : addr -> Z -> Z -> heap -> res heap) (vs vs' : list (string * Z)) : Prop :=
  forall h la r lb es, lookup h rec = Some (la ++ r :: lb) -> has_vectors h vs r es -> has_nulls r ->
    ~ In rec (map fst es) ->
    exists h' r' es' qs, body rec (Z.of_nat (List.length la)) w h = Ok h'
      /\ lookup h' rec = Some (la ++ r' :: lb) /\ has_nulls r' /\ has_vectors h' vs' r' es'
      /\ map fst es' = (map fst es ++ qs)%list
      /\ NoDup qs /\ (forall q, In q qs -> ~ live h q)
      /\ (forall a, a <> rec -> ~ In a qs -> lookup h' a = lookup h a).

Lemma reading_loop h0 h p s n w rec rows vs vs' vecs body : pass rec w body vs vs' ->
  reading h0 h p s n w rec rows vs vecs ->
  exists h' rows' vecs', each_record p body h = Ok h' /\ reading h0 h' p s n w rec rows' vs' vecs'.
Proof.
  intros Hpass [A B C D E F G Hn I]. unfold each_record. rewrite (load_num_at h p s "numrec" n A C). cbn [bind].
  pose (P := fun (i : Z) (hh : heap) => exists ra rb va vb,
          Z.of_nat (List.length ra) = i /\ Z.of_nat (List.length (ra ++ rb)) = n
          /\ lookup hh p = Some [s] /\ lookup hh rec = Some (ra ++ rb)
          /\ Forall2 (has_vectors hh vs') ra va /\ Forall2 (has_vectors hh vs) rb vb
          /\ Forall has_nulls (ra ++ rb)
          /\ grows h0 hh (p :: rec :: map fst (concat va ++ concat vb))).
  match goal with |- context [for_ n ?b h] => set (bd := b) end.
  destruct (for_total P bd n h) as (h' & E' & (ra & rb & va & vb & P1 & P2 & P3 & P4 & P5 & P6 & P7 & P8)).
  { lia. }
  { exists [], rows, [], vecs. cbn [List.length app concat].
    split; [reflexivity|]. split; [exact F|]. split; [exact A|]. split; [exact E|].
    split; [constructor|]. split; [exact G|]. split; [exact Hn | exact I]. }
  { intros i hh Hi (ra & rb & va & vb & P1 & P2 & P3 & P4 & P5 & P6 & P7 & P8). unfold bd.
    rewrite (load_ptr_at hh p [] s [] 0 "record" (Some rec) P3 eq_refl B). cbn [bind deref].
    rewrite (load_num_at hh p s "nwave" w P3 D). cbn [bind].
    destruct rb as [|r rb]; [rewrite app_nil_r in P2; lia|].
    destruct (Forall2_uncons _ _ _ _ P6) as (es & vb1 & -> & V1 & V2). clear P6.
    pose proof (proj1 P8) as Nd. apply NoDup_cons_iff in Nd. destruct Nd as [Np Nd]. apply NoDup_cons_iff in Nd.
    destruct Nd as [Nr Nd]. cbn [concat] in *.
    assert (Nes : ~ In rec (map fst es)).
    { intros X. apply Nr. rewrite !map_app, !in_app_iff. tauto. }
    assert (Qr : has_nulls r).
    { apply (proj1 (Forall_forall _ _) P7). apply in_app_iff. right. left. reflexivity. }
    destruct (Hpass hh ra r rb es P4 V1 Qr Nes) as (h1 & r1 & es1 & qs & E1 & L1 & Q1 & W1 & M1 & D1 & N1 & O1).
    rewrite P1 in E1. rewrite E1. exists h1. split; [reflexivity|].
    assert (Hk : forall a, live hh a -> a <> rec -> lookup h1 a = lookup hh a).
    { intros a La Ha. apply O1; [exact Ha|]. intros X. exact (N1 a X La). }
    assert (Hl : forall a, In a (p :: rec :: map fst (concat va ++ es ++ concat vb1)) -> live hh a).
    { intros a Ha. apply P8, Ha. }
    assert (Hkv : forall a, In a (map fst (concat va ++ es ++ concat vb1)) -> lookup h1 a = lookup hh a).
    { intros a Ha. apply Hk; [apply Hl; right; right; exact Ha|]. intros ->. contradiction. }
    exists (ra ++ [r1])%list, rb, (va ++ [es1])%list, vb1.
    split; [rewrite app_length; cbn [List.length]; lia|].
    split; [rewrite <- P2, !app_length; cbn [List.length]; lia|].
    split.
    { rewrite Hk; [exact P3 | apply Hl; left; reflexivity|]. intros ->. apply Np. left. reflexivity. }
    split; [rewrite <- app_assoc; exact L1|]. split.
    { apply Forall2_app; [|constructor; [exact W1 | constructor]]. eapply vectors_frame; [exact P5|].
      intros a Ha. apply Hkv. rewrite map_app, in_app_iff. left. exact Ha. }
    split.
    { eapply vectors_frame; [exact V2|]. intros a Ha. apply Hkv. rewrite !map_app, !in_app_iff. tauto. }
    split.
    { rewrite <- app_assoc. apply Forall_app in P7. destruct P7 as [Pa Pb]. apply Forall_app. split; [exact Pa|].
      constructor; [exact Q1 | exact (Forall_inv_tail Pb)]. }
    assert (Gq : grows h0 h1 ((p :: rec :: map fst (concat va ++ es ++ concat vb1)) ++ qs)).
    { destruct P8 as (_ & N & Og). set (l := p :: rec :: map fst (concat va ++ es ++ concat vb1)) in *. repeat split.
      - apply NoDup_app_intro; [constructor; [exact Np | constructor; assumption] | exact D1|].
        intros x Hx Hq. exact (N1 x Hq (Hl x Hx)).
      - apply in_app_iff in H. destruct H as [H|H]; [apply N, H|]. intros X. apply (N1 a H). unfold live.
        destruct (in_dec Z.eq_dec a l) as [Y|Y]; [apply Hl, Y|]. rewrite Og by exact Y. exact X.
      - apply in_app_iff in H. destruct H as [H|H].
        + destruct (Z.eq_dec a rec) as [->|Ha]; [unfold live; rewrite L1; discriminate|].
          unfold live. rewrite Hk; [apply Hl, H | apply Hl, H | exact Ha].
        + apply (has_vectors_live _ _ _ _ W1). rewrite M1, in_app_iff. right. exact H.
      - intros a Ha. rewrite in_app_iff in Ha. rewrite O1; [apply Og; tauto | | tauto].
        intros ->. apply Ha. left. right. left. reflexivity. }
    eapply grows_perm; [|exact Gq]. cbn [app]. do 2 apply perm_skip.
    rewrite concat_app. cbn [concat]. rewrite app_nil_r, !map_app, M1, <- !app_assoc.
    apply Permutation_app_head, Permutation_app_head, Permutation_app_comm. }
  exists h', ra, va. split; [exact E'|].
  assert (Hrb : rb = []).
  { rewrite app_length in P2. destruct rb; [reflexivity | cbn [List.length] in P2; lia]. }
  subst rb. inversion P6; subst vb. cbn [concat] in P8. rewrite app_nil_r in *.
  constructor; assumption.
Qed.

Lemma getf_setv_keep fs v r g : getf r g <> None -> getf (setv r fs v) g <> None.
Proof. apply getf_setv_some. Qed.

(** new vectors *)
Lemma pass_new rec w vs vs2 body :
  (forall r i h, body r i w h = foreach vs2 (fun v h => new_field malloc (fill h) r i (fst v) (snd v) h) h) ->
  NoDup (map fst vs2) -> (forall f, In f (map fst vs) -> ~ In f (map fst vs2)) ->
  incl (map fst vs2) (vectors_null KVis) -> Forall (fun v => 0 < snd v) vs2 ->
  pass rec w body vs (vs ++ vs2).
Proof.
  intros Hb Hd Hdis Hin Hpos h la r lb es L V Q Nes. rewrite Hb.
  destruct (new_vectors malloc Hfresh fill rec la lb (Z.of_nat (List.length la)) eq_refl vs2 h r L)
    as (h' & qs & E & Ql & Qd & Qn & L' & Qv & O).
  { intros f Hf. apply Q, Hin, Hf. }
  { exact Hpos. }
  set (r' := sets r (map fst vs2) qs) in *.
  assert (Hqr : forall q, In q qs -> q <> rec).
  { intros q Hq ->. apply (Qn _ Hq). unfold live. rewrite L. discriminate. }
  assert (X : exists es2, has_vectors h' vs2 r' es2 /\ map fst es2 = qs).
  { assert (G := getf_sets (map fst vs2) r qs Hd (fun f Hf => Q f (Hin f Hf))).
    rewrite map_length in G. specialize (G Ql). fold r' in G.
    clear - G Qv. revert G. generalize r' as r1. clear - Qv. intros r1 G.
    induction Qv as [|v q vs qs (b & Hb & Hl) Qv IH]; [exists []; split; [constructor | reflexivity]|].
    cbn [map] in G. destruct (Forall2_uncons _ _ _ _ G) as (q1 & qs1 & E1 & G1 & G2). injection E1 as <- <-.
    destruct IH as (es & A & B); [exact G2|].
    exists ((q, b) :: es). split; [|cbn [map fst]; f_equal; exact B]. constructor; [|exact A].
    repeat split; cbn [fst snd]; [exact G1 | exact Hb | exact Hl]. }
  destruct X as (es2 & V2 & M2).
  exists h', r', (es ++ es2)%list, qs. split; [exact E|]. split; [exact L'|]. split.
  { intros f Hf. apply getf_sets_some, Q, Hf. }
  split.
  { apply Forall2_app; [|exact V2].
    assert (Vf : has_vectors h' vs r es).
    { eapply has_vectors_frame; [exact V|]. intros a Ha. apply O; [intros ->; contradiction|].
      intros X. exact (Qn a X (has_vectors_live _ _ _ _ V a Ha)). }
    clear - Vf Hdis. unfold r'. induction Vf as [|v e vs es (P1 & P2) Vf IH]; constructor.
    - split; [|exact P2]. rewrite getf_sets_other; [exact P1 | apply Hdis; left; reflexivity].
    - apply IH. intros f Hf. apply Hdis. right. exact Hf. }
  split; [rewrite map_app, M2; reflexivity|]. split; [exact Qd|]. split; [exact Qn|]. exact O.
Qed.

(** pointers set to NULL *)
Lemma pass_null rec w vs names body :
  (forall r i h, body r i w h = foreach names (fun f h => store h r i f (Ptr None)) h) ->
  (forall f, In f (map fst vs) -> ~ In f names) -> incl names (vectors_null KVis) ->
  pass rec w body vs vs.
Proof.
  intros Hb Hdis Hin h la r lb es L V Q Nes. rewrite Hb.
  destruct (store_loop rec la lb (Z.of_nat (List.length la)) (Ptr None) names eq_refl h r L) as (h' & E & L' & O).
  { intros f Hf. apply Q, Hin, Hf. }
  exists h', (setv r names (Ptr None)), es, []. split; [exact E|]. split; [exact L'|]. split.
  { intros f Hf. apply getf_setv_some, Q, Hf. }
  split.
  { assert (Vf : has_vectors h' vs r es).
    { eapply has_vectors_frame; [exact V|]. intros a Ha. apply O. intros ->. contradiction. }
    clear - Vf Hdis. induction Vf as [|v e vs es (P1 & P2) Vf IH]; constructor.
    - split; [|exact P2]. rewrite getf_setv_other; [exact P1 | apply Hdis; left; reflexivity].
    - apply IH. intros f Hf. apply Hdis. right. exact Hf. }
  split; [rewrite app_nil_r; reflexivity|]. split; [constructor|]. split; [intros q []|].
  intros a Ha _. apply O, Ha.
Qed.
End Read.
