(** Filtering one table: the new table has storage of its own, or nothing is left of it. *)
From Coq Require Import Lia Permutation.
From Verif Require Import HeapSpec HeapFilterSpec BaseLemmas HeapProofs HeapDup HeapTables HeapFree HeapAlloc HeapGrow.
Open Scope Z_scope.

Lemma getf_setf_same s f v : getf s f <> None -> getf (setf s f v) f = Some v.
Proof. intros H. rewrite getf_setf, str_eqb_refl. destruct (getf s f); [reflexivity | contradiction]. Qed.
Lemma getf_setf_other s f v g : f <> g -> getf (setf s f v) g = getf s g.
Proof.
  intros H. rewrite getf_setf. destruct (str_eqb f g) eqn:E; [|reflexivity]. apply str_eqb_eq in E. contradiction.
Qed.
Lemma num_some s f z : num s f = Some z -> getf s f = Some (Num z).
Proof. unfold num. destruct (getf s f) as [[x| |]|]; try discriminate. intros [= ->]. reflexivity. Qed.
Lemma num_of s f z : getf s f = Some (Num z) -> num s f = Some z.
Proof. unfold num. intros ->. reflexivity. Qed.
Lemma grows_trans_write h h1 h2 l p b : grows h h1 l -> In p l -> lookup h2 p = Some b ->
  (forall a, a <> p -> lookup h2 a = lookup h1 a) -> grows h h2 l.
Proof. intros G Hp Hl Hs. apply (grows_write h h1 h2 l p G Hp); [unfold live; rewrite Hl; discriminate | exact Hs]. Qed.

Lemma used_frame h h' u n : lookup h' u = lookup h u -> used h' u n = used h u n.
Proof.
  intros E. unfold used, for_. apply for_from_ext. intros j k _. unfold load_num, load. rewrite E. reflexivity.
Qed.

Section Filter.
Variable malloc : heap -> addr.
Hypothesis Hfresh : fresh malloc.
Variable fill : heap -> string -> Z -> struct.
Variable ch : choices.

(** ** Shrinking *)
Lemma shrink_some h0 h l k p l1 r l2 i f a b n :
  grows h0 h l -> Permutation l (a :: k) -> In p k ->
  lookup h p = Some (l1 ++ r :: l2) -> i = Z.of_nat (List.length l1) ->
  getf r f = Some (Ptr (Some a)) -> lookup h a = Some b -> 0 < n <= Z.of_nat (List.length b) ->
  exists h' a', shrink_field malloc p i f n h = Ok h'
    /\ grows h0 h' (a' :: k)
    /\ lookup h' p = Some (l1 ++ setf r f (Ptr (Some a')) :: l2)
    /\ lookup h' a' = Some (firstn (Z.to_nat n) b)
    /\ (forall x, In x k -> x <> p -> lookup h' x = lookup h x).
Proof.
  intros G P Hp Lp Hi Hf La Hn. unfold shrink_field.
  rewrite (load_ptr_at _ _ _ _ _ _ _ _ Lp Hi Hf). cbn [bind deref]. rewrite La.
  destruct (Z.ltb_spec (Z.of_nat (List.length b)) n); [lia|]. destruct (Z.ltb_spec n 0); [lia|]. cbn [orb].
  destruct (Z.eqb_spec n 0); [lia|].
  destruct (free_one h a) as (h1 & E1 & W1); [unfold live; rewrite La; discriminate|].
  unfold free in E1. rewrite La in E1. injection E1 as <-.
  assert (G1 : grows h0 (remove h a) k) by exact (grows_without h0 h (remove h a) l [a] k G P W1).
  pose proof (grows_cons malloc Hfresh (remove h a) (firstn (Z.to_nat n) b)) as G2.
  set (a' := malloc (remove h a)) in *. set (h2 := (a', firstn (Z.to_nat n) b) :: remove h a) in *.
  assert (D : NoDup (a :: k)) by (exact (Permutation_NoDup P (proj1 G))).
  assert (Hpa : p <> a) by (intros ->; inversion D; contradiction).
  assert (Lp1 : lookup (remove h a) p = Some (l1 ++ r :: l2)).
  { rewrite lookup_remove. destruct (Z.eqb_spec a p); congruence. }
  assert (Hpa' : a' <> p).
  { intros E. pose proof (Hfresh (remove h a)) as X. fold a' in X. rewrite E in X. congruence. }
  destruct (store_ok h2 p l1 r l2 i f (Ptr (Some a'))) as (h3 & E3 & L3 & O3).
  { unfold h2. rewrite lookup_cons. destruct (Z.eqb_spec a' p); [contradiction | exact Lp1]. }
  { exact Hi. } { rewrite Hf. discriminate. }
  exists h3, a'. split; [exact E3|].
  pose proof (grows_app _ _ _ _ _ G1 G2) as G3.
  assert (P3 : Permutation (k ++ [a']) (a' :: k)) by (symmetry; apply Permutation_cons_append).
  split.
  { eapply grows_trans_write; [exact (grows_perm _ _ _ _ P3 G3) | right; exact Hp | exact L3 | exact O3]. }
  split; [exact L3|]. split; [rewrite O3 by exact Hpa'; apply lookup_new|].
  intros x Hx Hxp. rewrite O3 by exact Hxp.
  assert (Hxa : x <> a) by (intros ->; inversion D; contradiction).
  assert (Hxl : live (remove h a) x) by (apply G1, Hx).
  unfold h2. rewrite lookup_cons. destruct (Z.eqb_spec a' x) as [<-|].
  { exfalso. apply Hxl, Hfresh. }
  rewrite lookup_remove. destruct (Z.eqb_spec a x); congruence.
Qed.

Lemma shrink_none h0 h l k p l1 r l2 i f a b :
  grows h0 h l -> Permutation l (a :: k) -> In p k ->
  lookup h p = Some (l1 ++ r :: l2) -> i = Z.of_nat (List.length l1) ->
  getf r f = Some (Ptr (Some a)) -> lookup h a = Some b ->
  exists h', shrink_field malloc p i f 0 h = Ok h'
    /\ grows h0 h' k
    /\ lookup h' p = Some (l1 ++ setf r f (Ptr None) :: l2)
    /\ (forall x, In x k -> x <> p -> lookup h' x = lookup h x).
Proof.
  intros G P Hp Lp Hi Hf La. unfold shrink_field.
  rewrite (load_ptr_at _ _ _ _ _ _ _ _ Lp Hi Hf). cbn [bind deref]. rewrite La.
  destruct (Z.ltb_spec (Z.of_nat (List.length b)) 0); [lia|]. cbn [orb Z.ltb Z.compare Z.eqb].
  destruct (free_one h a) as (h1 & E1 & W1); [unfold live; rewrite La; discriminate|].
  unfold free in E1. rewrite La in E1. injection E1 as <-.
  assert (G1 : grows h0 (remove h a) k) by exact (grows_without h0 h (remove h a) l [a] k G P W1).
  assert (D : NoDup (a :: k)) by (exact (Permutation_NoDup P (proj1 G))).
  assert (Hpa : p <> a) by (intros ->; inversion D; contradiction).
  assert (Lp1 : lookup (remove h a) p = Some (l1 ++ r :: l2)).
  { rewrite lookup_remove. destruct (Z.eqb_spec a p); congruence. }
  destruct (store_ok (remove h a) p l1 r l2 i f (Ptr None) Lp1 Hi) as (h3 & E3 & L3 & O3); [rewrite Hf; discriminate|].
  exists h3. split; [exact E3|]. split.
  { eapply grows_trans_write; [exact G1 | exact Hp | exact L3 | exact O3]. }
  split; [exact L3|]. intros x Hx Hxp. rewrite O3 by exact Hxp. rewrite lookup_remove.
  destruct (Z.eqb_spec a x) as [<-|]; [inversion D; contradiction | reflexivity].
Qed.

(** ** Tables of records *)

(** a table being built at [q]: the records [rows] are complete *)
Record building (h0 h : heap) (q : addr) (sq : struct) (ro : addr) (vs : list (string * Z))
  (rows rest : list struct) (vecs : list (list (addr * block))) : Prop := mk_building {
  bu_struct : lookup h q = Some [sq];
  bu_record : getf sq "record" = Some (Ptr (Some ro));
  bu_rows : lookup h ro = Some (rows ++ rest);
  bu_vectors : Forall2 (has_vectors h vs) rows vecs;
  bu_grows : grows h0 h (q :: ro :: map fst (concat vecs)) }.

Lemma building_step h0 h q sq ro vs rows x rest vecs nulls rIn i bIn s :
  building h0 h q sq ro vs rows (x :: rest) vecs ->
  NoDup (map fst vs) -> (forall f, In f (map fst vs) -> ~ In f nulls) -> Forall (fun v => 0 < snd v) vs ->
  lookup h rIn = Some bIn -> get bIn i = Ok s ->
  (forall f, In f (map fst vs ++ nulls) -> getf s f <> None) ->
  exists h' r es,
    new_record malloc fill vs nulls rIn i ro (Z.of_nat (List.length rows)) h = Ok h'
    /\ building h0 h' q sq ro vs (rows ++ [r]) rest (vecs ++ [es])
    /\ (forall a, a <> ro -> live h a -> lookup h' a = lookup h a).
Proof.
  intros [Bs Br Bw Bv Bg] Hd Hvn Hpos Hin Hi Hm.
  destruct (new_record_ok malloc Hfresh fill vs nulls rIn i bIn s ro _ rows x rest h Hd Hvn Hpos Hin Hi Hm Bw eq_refl)
    as (h' & r & es & E & L & V & Nr & _ & _ & D & Nl & O).
  assert (Hk : forall a, a <> ro -> live h a -> lookup h' a = lookup h a).
  { intros a Ha Hl. apply O; [exact Ha|]. intros Hx. exact (Nl a Hx Hl). }
  assert (Bnd := proj1 Bg).
  assert (Hqro : q <> ro) by (intros ->; inversion Bnd as [|? ? N _]; apply N; left; reflexivity).
  exists h', r, es. split; [exact E|]. split; [|exact Hk].
  constructor.
  - rewrite Hk; [exact Bs | exact Hqro | unfold live; rewrite Bs; discriminate].
  - exact Br.
  - rewrite L, <- app_assoc. reflexivity.
  - apply Forall2_app; [|constructor; [exact V | constructor]].
    assert (Hw : forall a, In a (map fst (concat vecs)) -> lookup h' a = lookup h a).
    { intros a Ha. apply Hk.
      - intros ->. inversion Bnd as [|? ? _ N]; inversion N as [|? ? N1 _]; contradiction.
      - apply Bg. right. right. exact Ha. }
    clear - Bv Hw. induction Bv as [|r0 es0 rows vecs H Bv IH]; constructor.
    + eapply has_vectors_frame; [exact H|]. intros a Ha. apply Hw. cbn [concat]. rewrite map_app. apply in_app_iff. left. exact Ha.
    + apply IH. intros a Ha. apply Hw. cbn [concat]. rewrite map_app. apply in_app_iff. right. exact Ha.
  - rewrite concat_app, map_app. cbn [concat]. rewrite app_nil_r.
    change (q :: ro :: map fst (concat vecs) ++ map fst es) with ((q :: ro :: map fst (concat vecs)) ++ map fst es).
    destruct Bg as (_ & N & Og). repeat split.
    + apply NoDup_app_intro; [exact Bnd | exact D|]. intros a Ha Hx. apply (Nl a Hx), N, Ha.
    + apply in_app_iff in H. destruct H as [H|H]; [apply N, H|]. intros Hl. apply (Nl a H).
      unfold live in *. destruct (in_dec Z.eq_dec a (q :: ro :: map fst (concat vecs))) as [Hy|Hy]; [apply N, Hy|].
      rewrite Og by exact Hy. exact Hl.
    + apply in_app_iff in H. destruct H as [H|H].
      * destruct (Z.eq_dec a ro) as [->|Ha]; [unfold live; rewrite L; discriminate|].
        unfold live. rewrite Hk; [apply N, H | exact Ha | apply N, H].
      * exact (has_vectors_live _ _ _ _ V a H).
    + intros a Ha. rewrite in_app_iff in Ha. rewrite O; [apply Og; tauto | | tauto].
      intros ->. apply Ha. left. right. left. reflexivity.
Qed.

(** setting another member of the struct *)
Lemma building_store h0 h q sq ro vs rows rest vecs f v :
  building h0 h q sq ro vs rows rest vecs -> getf sq f <> None -> f <> "record"%string ->
  exists h', store h q 0 f v = Ok h' /\ building h0 h' q (setf sq f v) ro vs rows rest vecs
    /\ (forall a, a <> q -> lookup h' a = lookup h a).
Proof.
  intros [Bs Br Bw Bv Bg] Hf Hn.
  destruct (store_ok h q [] sq [] 0 f v Bs eq_refl Hf) as (h' & E & L & O).
  assert (Bnd := proj1 Bg). inversion Bnd as [|? ? Nq Bnd']; subst.
  exists h'. split; [exact E|]. split; [|exact O]. constructor.
  - exact L.
  - rewrite getf_setf_other by exact Hn. exact Br.
  - rewrite O; [exact Bw | intros ->; apply Nq; left; reflexivity].
  - assert (Hw : forall a, In a (map fst (concat vecs)) -> lookup h' a = lookup h a).
    { intros a Ha. apply O. intros ->. apply Nq. right. exact Ha. }
    clear - Bv Hw. induction Bv as [|r0 es0 rows vecs H Bv IH]; constructor.
    + eapply has_vectors_frame; [exact H|]. intros a Ha. apply Hw. cbn [concat]. rewrite map_app. apply in_app_iff. left. exact Ha.
    + apply IH. intros a Ha. apply Hw. cbn [concat]. rewrite map_app. apply in_app_iff. right. exact Ha.
  - eapply grows_trans_write; [exact Bg | left; reflexivity | exact L | exact O].
Qed.

(** The end of the loop: numrec is set, the record array shrunk, and an empty table freed. *)
Definition kept (T : shape) (h : heap) (r : option addr * heap) : Prop :=
  match fst r with
  | Some q => exists bs, owned T (snd r) q bs /\ grows h (snd r) (q :: bs)
  | None => grows h (snd r) []
  end.

Lemma finish V h0 h q sq ro vs rows rest vecs w :
  building h0 h q sq ro vs rows rest vecs ->
  getf sq "numrec" <> None -> getf sq "nwave" = Some (Num w) -> 0 < w ->
  (forall s', (forall f, f <> "numrec"%string -> f <> "record"%string -> getf s' f = getf sq f) -> V s' = Some vs) ->
  exists h1 h2 r, store h q 0 "numrec" (Num (Z.of_nat (List.length rows))) = Ok h1
    /\ shrink_field malloc q 0 "record" (Z.of_nat (List.length rows)) h1 = Ok h2
    /\ (w <- load_num h2 q 0 "nwave" ;; n <- load_num h2 q 0 "numrec" ;;
        if (0 <? w) && (0 <? n) then Ok (Some q, h2) else h <- free h2 (Some q) ;; Ok (None, h)) = Ok r
    /\ kept (records V) h0 r.
Proof.
  intros B Hnr Hw Hwp HV.
  destruct (building_store h0 h q sq ro vs rows rest vecs "numrec" (Num (Z.of_nat (List.length rows))) B Hnr)
    as (h1 & E1 & [Bs Br Bw Bv Bg] & O1); [discriminate|].
  set (s1 := setf sq "numrec" (Num (Z.of_nat (List.length rows)))) in *.
  assert (W1 : getf s1 "nwave" = Some (Num w)) by (unfold s1; rewrite getf_setf_other by discriminate; exact Hw).
  assert (N1 : getf s1 "numrec" = Some (Num (Z.of_nat (List.length rows)))) by (unfold s1; apply getf_setf_same, Hnr).
  assert (Hperm : Permutation (q :: ro :: map fst (concat vecs)) (ro :: q :: map fst (concat vecs))) by apply perm_swap.
  destruct rows as [|r0 rows0].
  - inversion Bv; subst vecs. cbn [List.length concat map] in *. change (Z.of_nat 0) with 0 in *.
    destruct (shrink_none h0 h1 _ _ q [] s1 [] 0 "record" ro rest Bg Hperm (or_introl eq_refl) Bs eq_refl Br Bw)
      as (h2 & E2 & G2 & L2 & _).
    cbn [app] in L2. set (s2 := setf s1 "record" (Ptr None)) in *.
    destruct (free_one h2 q) as (h3 & E3 & W3); [unfold live; rewrite L2; discriminate|].
    exists h1, h2, (None, h3). split; [exact E1|]. split; [exact E2|]. split.
    + rewrite (load_num_at h2 q s2 "nwave" w L2).
      2:{ apply num_of. unfold s2. rewrite getf_setf_other by discriminate. exact W1. }
      rewrite (load_num_at h2 q s2 "numrec" 0 L2).
      2:{ apply num_of. unfold s2. rewrite getf_setf_other by discriminate. exact N1. }
      cbn [bind]. rewrite andb_false_r, E3. reflexivity.
    + unfold kept. cbn [fst snd]. exact (grows_without h0 h2 h3 [q] [q] [] G2 (Permutation_refl _) W3).
  - set (rows := r0 :: rows0) in *. set (n := Z.of_nat (List.length rows)) in *.
    assert (Hn : 0 < n) by (unfold n, rows; cbn [List.length]; lia).
    destruct (shrink_some h0 h1 _ _ q [] s1 [] 0 "record" ro (rows ++ rest) n Bg Hperm (or_introl eq_refl) Bs eq_refl Br Bw)
      as (h2 & ro' & E2 & G2 & L2 & Lr & K2).
    { unfold n. rewrite app_length. lia. }
    cbn [app] in L2. set (s2 := setf s1 "record" (Ptr (Some ro'))) in *.
    assert (Ef : firstn (Z.to_nat n) (rows ++ rest) = rows).
    { unfold n. rewrite Nat2Z.id, firstn_app, Nat.sub_diag, firstn_O, app_nil_r. apply firstn_all. }
    rewrite Ef in Lr.
    assert (Hn2 : getf s2 "numrec" = Some (Num n)) by (unfold s2; rewrite getf_setf_other by discriminate; exact N1).
    exists h1, h2, (Some q, h2). split; [exact E1|]. split; [exact E2|]. split.
    + rewrite (load_num_at h2 q s2 "nwave" w L2).
      2:{ apply num_of. unfold s2. rewrite getf_setf_other by discriminate. exact W1. }
      rewrite (load_num_at h2 q s2 "numrec" n L2) by (apply num_of, Hn2). cbn [bind].
      destruct (Z.ltb_spec 0 w); [|lia]. destruct (Z.ltb_spec 0 n); [|lia]. reflexivity.
    + unfold kept. cbn [fst snd]. exists (ro' :: map fst (concat vecs)).
      assert (Gd := proj1 G2). assert (Hnd : NoDup (q :: ro' :: map fst (concat vecs))).
      { exact (Permutation_NoDup (perm_swap _ _ _) Gd). }
      split; [|exact (grows_perm _ _ _ _ (perm_swap _ _ _) G2)].
      exists s2, n, vs, [(ro', rows)], vecs. split.
      * constructor; cbn [records sh_count sh_arrays sh_vectors flat_map snd].
        -- exact L2.
        -- apply num_of, Hn2.
        -- apply HV. intros f F1 F2. unfold s2, s1. rewrite !getf_setf_other by congruence. reflexivity.
        -- constructor; [|constructor]. repeat split; cbn [fst snd].
           ++ unfold s2. apply getf_setf_same. rewrite Br. discriminate.
           ++ exact Lr.
        -- rewrite app_nil_r.
           assert (Hv : forall a, In a (map fst (concat vecs)) -> lookup h2 a = lookup h1 a).
           { intros a Ha. apply K2; [right; exact Ha|]. intros ->.
             inversion Hnd as [|? ? N _]. apply N. right. exact Ha. }
           clearbody rows. clear - Bv Hv. induction Bv as [|r0 es0 rows vecs H Bv IH]; constructor.
           ++ eapply has_vectors_frame; [exact H|]. intros a Ha. apply Hv. cbn [concat]. rewrite map_app. apply in_app_iff. left. exact Ha.
           ++ apply IH. intros a Ha. apply Hv. cbn [concat]. rewrite map_app. apply in_app_iff. right. exact Ha.
        -- exact Hnd.
      * unfold storage. cbn [map fst app]. reflexivity.
Qed.
End Filter.
