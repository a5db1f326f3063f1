(** Reading one table of any kind; reading all tables of one kind. *)
From Coq Require Import Lia Permutation.
From Verif Require Import HeapSpec HeapReadSpec BaseLemmas HeapProofs HeapDup HeapTables HeapFree HeapAlloc HeapMain
  HeapGrow HeapFilterTab HeapReadVis.
Open Scope Z_scope.

Definition held_by (k : table_kind) (h : heap) (c : content) (p : addr) (bs : list addr) : Prop :=
  exists s arrs vecs, table_at (shape_of k) h p s (c_rows c) (vectors_read k c) arrs vecs /\ bs = storage arrs vecs.
Lemma held_by_holds k h c p bs : held_by k h c p bs -> holds k h c p.
Proof. intros (s & arrs & vecs & T & _). exists s, arrs, vecs. exact T. Qed.
Lemma held_by_owned k h c p bs : held_by k h c p bs -> owned (shape_of k) h p bs.
Proof. intros (s & arrs & vecs & T & ->). exists s, (c_rows c), (vectors_read k c), arrs, vecs. split; [exact T | reflexivity]. Qed.
Lemma held_by_frame k h h' c p bs : held_by k h c p bs -> (forall a, In a (p :: bs) -> lookup h' a = lookup h a) ->
  held_by k h' c p bs.
Proof.
  intros (s & arrs & vecs & T & ->) H. exists s, arrs, vecs. split; [|reflexivity]. eapply table_at_frame; eassumption.
Qed.

Section Read.
Variable malloc : heap -> addr.
Hypothesis Hfresh : fresh malloc.
Variable fill : heap -> string -> Z -> struct.
Hypothesis Hdecl : declared fill.

(** ** Allocation *)
Lemma alloc_flat_w k h p n w : vectors_given k = [] ->
  alloc_of k malloc (fill h) p n w h = alloc_of k malloc (fill h) p n 1 h.
Proof. destruct k; cbn [vectors_given]; try discriminate; reflexivity. Qed.
Lemma alloc_new k h0 h p s n w : grows h0 h [p] -> lookup h p = Some [s] ->
  (forall f, In f (members k) -> getf s f <> None) -> 0 < n -> (vectors_given k <> [] -> 0 < w) ->
  exists h' s' arrs vecs, alloc_of k malloc (fill h) p n w h = Ok h'
    /\ table_at (shape_of k) h' p s' n (map (fun f => (f, w)) (vectors_given k)) arrs vecs
    /\ channels k s' w
    /\ Forall (fun r => forall f, In f (vectors_null k) -> getf r f = Some (Ptr None)) (flat_map snd arrs)
    /\ grows h0 h' (p :: storage arrs vecs).
Proof.
  intros G Lp Hm Hn Hw.
  assert (X : exists h' s' arrs vecs, alloc_of k malloc (fill h) p n w h = Ok h'
    /\ table_at (shape_of k) h' p s' n (map (fun f => (f, w)) (vectors_given k)) arrs vecs
    /\ channels k s' w
    /\ Forall (fun r => forall f, In f (vectors_null k) -> getf r f = Some (Ptr None)) (flat_map snd arrs)
    /\ (forall a, a <> p -> live h a -> lookup h' a = lookup h a)
    /\ (forall a, In a (storage arrs vecs) <-> (~ live h a /\ live h' a))).
  { destruct (vectors_given k) as [|v0 vg] eqn:Ek.
    - rewrite (alloc_flat_w k h p n w Ek).
      destruct (alloc_tables k malloc (fill h) h p s n 1 Hfresh Hn) as (h' & s' & arrs & vecs & E & T & Ch & Fn & _ & O & I);
        [lia | exact Lp | exact Hm | intros i f; apply Hdecl|].
      exists h', s', arrs, vecs. rewrite Ek in T. cbn [map] in *. split; [exact E|]. split; [exact T|]. split.
      { destruct k; cbn [vectors_given] in Ek; try discriminate; exact Logic.I. }
      split; [exact Fn|]. split; assumption.
    - destruct (alloc_tables k malloc (fill h) h p s n w Hfresh Hn) as (h' & s' & arrs & vecs & E & T & Ch & Fn & _ & O & I);
        [apply Hw; discriminate | exact Lp | exact Hm | intros i f; apply Hdecl|].
      rewrite Ek in T. exists h', s', arrs, vecs. split; [exact E|]. split; [exact T|]. split; [exact Ch|].
      split; [exact Fn|]. split; assumption. }
  destruct X as (h' & s' & arrs & vecs & E & T & Ch & Fn & O & I).
  exists h', s', arrs, vecs. split; [exact E|]. split; [exact T|]. split; [exact Ch|]. split; [exact Fn|].
  destruct G as (_ & N & Og). split; [exact (ta_distinct _ _ _ _ _ _ _ _ T)|].
  assert (Lp' : live h' p) by (unfold live; rewrite (ta_struct _ _ _ _ _ _ _ _ T); discriminate).
  split.
  - intros a [<-|Ha]; [split; [apply N; left; reflexivity | exact Lp']|]. pose proof (proj1 (I a) Ha) as [A B]. split; [|exact B].
    intros X. apply A. unfold live. rewrite Og; [exact X|]. intros [<-|[]]. apply A. unfold live. rewrite Lp. discriminate.
  - intros a Ha. cbn [In] in Ha.
    assert (Hap : a <> p) by (intros ->; apply Ha; left; reflexivity).
    rewrite <- Og by (intros [X|[]]; congruence).
    destruct (lookup h a) eqn:Ea; [rewrite O, Ea; [reflexivity | exact Hap | unfold live; rewrite Ea; discriminate]|].
    destruct (lookup h' a) eqn:E'; [|reflexivity]. exfalso. apply Ha. right. apply I. unfold live. rewrite Ea, E'.
    split; [intros X; apply X; reflexivity | discriminate].
Qed.

(** ** OI_VIS *)
Lemma reading_length h0 h p s n w rec rows vs vecs : reading h0 h p s n w rec rows vs vecs ->
  Z.of_nat (List.length (rec :: map fst (concat vecs))) = 1 + n * Z.of_nat (List.length vs).
Proof.
  intros [_ _ _ _ _ F G _ _]. cbn [List.length]. rewrite map_length, (length_concat vecs (List.length vs)).
  2:{ clear - G. induction G as [|r es l m H V IH]; constructor; [symmetry; exact (Forall2_len _ _ _ H) | exact IH]. }
  rewrite <- (Forall2_len _ _ _ G), Nat2Z.inj_succ, Nat2Z.inj_mul, F. lia.
Qed.
Lemma reading_table h0 h p s n w rec rows vs vecs : reading h0 h p s n w rec rows vs vecs ->
  sh_vectors vis_shape s = Some vs -> table_at vis_shape h p s n vs [(rec, rows)] vecs.
Proof.
  intros [A B C D E F G _ I] Hv. constructor; try assumption.
  - constructor; [repeat split; assumption | constructor].
  - cbn [flat_map snd]. rewrite app_nil_r. exact G.
  - exact (proj1 I).
Qed.
Lemma start_reading h0 h p s n w arrs vecs :
  table_at vis_shape h p s n (map (fun f => (f, w)) (vectors_given KVis)) arrs vecs -> num s "nwave" = Some w ->
  Forall (fun r => forall f, In f (vectors_null KVis) -> getf r f = Some (Ptr None)) (flat_map snd arrs) ->
  grows h0 h (p :: storage arrs vecs) ->
  exists rec rows, arrs = [(rec, rows)] /\ reading h0 h p s n w rec rows (map (fun f => (f, w)) (vectors_given KVis)) vecs
    /\ getf s "usevisrefmap" <> None /\ getf s "usecomplex" <> None.
Proof.
  intros [A B C D E F] Hw Hn G. cbn [vis_shape records sh_count sh_arrays sh_vectors] in *.
  inversion D as [|? e ? l He Hl]; subst. inversion Hl; subst. destruct e as [rec rows]. destruct He as (P1 & P2 & P3).
  cbn [fst snd flat_map] in *. rewrite app_nil_r in *. exists rec, rows. split; [reflexivity|]. split.
  - constructor; try assumption. eapply Forall_impl; [|exact Hn]. intros r Hr f Hf. rewrite (Hr f Hf). discriminate.
  - rewrite Hw in C. unfold num in C. split.
    + destruct (getf s "usevisrefmap"); [discriminate | discriminate C].
    + destruct (getf s "usevisrefmap") as [[]|]; try discriminate C.
      destruct (getf s "usecomplex"); [discriminate | discriminate C].
Qed.

Definition given (w : Z) := map (fun f => (f, w)) (vectors_given KVis).
Definition refmap_part (c : content) : list (string * Z) :=
  if c_visrefmap c then [("visrefmap"%string, c_chans c * c_chans c)] else [].
Definition complex_part (c : content) : list (string * Z) :=
  if c_complex c then map (fun f => (f, c_chans c)) ["rvis"; "rviserr"; "ivis"; "iviserr"]%string else [].
Lemma given_names w : map fst (given w) = vectors_given KVis.
Proof. reflexivity. Qed.
Lemma refmap_names c f : In f (map fst (refmap_part c)) -> f = "visrefmap"%string.
Proof. unfold refmap_part. destruct (c_visrefmap c); cbn; intuition. Qed.

Ltac nodup_ := repeat constructor; cbn [In]; intros X; repeat (destruct X as [X|X]; [discriminate X|]); exact X.
Ltac members H := cbn [In] in H; repeat (destruct H as [<-|H]; [cbn [In vectors_null]; tauto|]); contradiction.

Lemma vis_more h0 h p s n rec rows vecs c : 0 < c_chans c ->
  reading h0 h p s n (c_chans c) rec rows (given (c_chans c)) vecs ->
  getf s "usevisrefmap" <> None -> getf s "usecomplex" <> None -> c_columns c = true -> n = c_rows c ->
  exists h' bs, read_oi_vis_opt malloc fill p c h = Ok (c_version1 c || (c_refmap_ok c && c_complex_ok c), h')
    /\ grows h0 h' (p :: bs)
    /\ Z.of_nat (List.length bs) = 1 + c_rows c * vectors_begun KVis c
    /\ (c_version1 c || (c_refmap_ok c && c_complex_ok c) = true -> held_by KVis h' c p bs).
Proof.
  intros Hw R M1 M2 Hc ->. unfold read_oi_vis_opt, vectors_begun. rewrite Hc. cbn [andb].
  destruct (c_version1 c) eqn:V1.
  - cbn [orb negb]. destruct (reading_store _ _ _ _ _ _ _ _ _ _ "usevisrefmap" (Num 0) R M1) as (h1 & E1 & R1); try discriminate.
    rewrite E1. cbn [bind].
    destruct (reading_store _ _ _ _ _ _ _ _ _ _ "usecomplex" (Num 0) R1) as (h2 & E2 & R2); try discriminate.
    { rewrite getf_setf_other by discriminate. exact M2. }
    rewrite E2. cbn [bind]. exists h2, (rec :: map fst (concat vecs)). split; [reflexivity|].
    split; [exact (rd_grows _ _ _ _ _ _ _ _ _ _ R2)|]. split.
    { rewrite (reading_length _ _ _ _ _ _ _ _ _ _ R2), Z.add_0_r. reflexivity. }
    intros _. eexists _, [(rec, rows)], vecs. split; [|reflexivity].
    unfold vectors_read. rewrite V1, app_nil_r. eapply reading_table; [exact R2|].
    cbn [vis_shape records sh_vectors]. rewrite (rd_nwave _ _ _ _ _ _ _ _ _ _ R2).
    assert (X1 : num (setf (setf s "usevisrefmap" (Num 0)) "usecomplex" (Num 0)) "usevisrefmap" = Some 0).
    { unfold num. rewrite getf_setf_other by discriminate. rewrite getf_setf_same by exact M1. reflexivity. }
    assert (X2 : num (setf (setf s "usevisrefmap" (Num 0)) "usecomplex" (Num 0)) "usecomplex" = Some 0).
    { unfold num. rewrite getf_setf_same; [reflexivity|]. rewrite getf_setf_other by discriminate. exact M2. }
    rewrite X1, X2. reflexivity.
  - cbn [orb negb].
    assert (Y : exists h1 rows1 vecs1,
      (if c_visrefmap c then
            h <- store h p 0 "usevisrefmap" (Num 1) ;;
            each_record p (fun r i w h => new_field malloc (fill h) r i "visrefmap" (w * w) h) h
          else
            h <- store h p 0 "usevisrefmap" (Num 0) ;;
            each_record p (fun r i w h => store h r i "visrefmap" (Ptr None)) h) = Ok h1
      /\ reading h0 h1 p (setf s "usevisrefmap" (Num (if c_visrefmap c then 1 else 0))) (c_rows c) (c_chans c) rec rows1
           (given (c_chans c) ++ refmap_part c) vecs1).
    { unfold refmap_part. destruct (c_visrefmap c).
      - destruct (reading_store _ _ _ _ _ _ _ _ _ _ "usevisrefmap" (Num 1) R M1) as (h1 & E1 & R1); try discriminate.
        rewrite E1. cbn [bind].
        assert (P : pass rec (c_chans c) (fun r i w h => new_field malloc (fill h) r i "visrefmap" (w * w) h)
                      (given (c_chans c)) (given (c_chans c) ++ [("visrefmap"%string, c_chans c * c_chans c)])).
        { apply (pass_new malloc Hfresh fill).
        { intros r i h2. cbn [foreach fst snd]. symmetry. apply bind_ok_id. }
        { nodup_. }
        { intros f Hf Hx. cbn in Hx. destruct Hx as [<-|[]]. cbn in Hf. repeat (destruct Hf as [Hf|Hf]; [discriminate Hf|]). exact Hf. }
        { intros f Hf. members Hf. }
        { repeat constructor. cbn [snd]. nia. } }
        destruct (reading_loop fill _ _ _ _ _ _ _ _ _ _ _ _ P R1) as (h2 & rows2 & vecs2 & E2 & R2).
        exists h2, rows2, vecs2. split; [exact E2 | exact R2].
      - destruct (reading_store _ _ _ _ _ _ _ _ _ _ "usevisrefmap" (Num 0) R M1) as (h1 & E1 & R1); try discriminate.
        rewrite E1. cbn [bind]. rewrite app_nil_r.
        assert (P : pass rec (c_chans c) (fun r i w h => store h r i "visrefmap" (Ptr None))
                      (given (c_chans c)) (given (c_chans c))).
        { apply (pass_null _ _ _ ["visrefmap"%string]).
        { intros r i h2. cbn [foreach]. symmetry. apply bind_ok_id. }
        { intros f Hf Hx. cbn in Hx. destruct Hx as [<-|[]]. cbn in Hf. repeat (destruct Hf as [Hf|Hf]; [discriminate Hf|]). exact Hf. }
        { intros f Hf. members Hf. } }
        destruct (reading_loop fill _ _ _ _ _ _ _ _ _ _ _ _ P R1) as (h2 & rows2 & vecs2 & E2 & R2).
        exists h2, rows2, vecs2. split; [exact E2 | exact R2]. }
    destruct Y as (h1 & rows1 & vecs1 & E1 & R1). rewrite E1. cbn [bind]. clear E1.
    set (s1 := setf s "usevisrefmap" (Num (if c_visrefmap c then 1 else 0))) in *.
    assert (M3 : getf s1 "usecomplex" <> None) by (unfold s1; rewrite getf_setf_other by discriminate; exact M2).
    assert (Lr : Z.of_nat (List.length (given (c_chans c) ++ refmap_part c)) = 5 + (if c_visrefmap c then 1 else 0)).
    { unfold refmap_part. destruct (c_visrefmap c); reflexivity. }
    destruct (c_refmap_ok c) eqn:Er.
    2:{ exists h1, (rec :: map fst (concat vecs1)). cbn [andb]. split; [reflexivity|].
        split; [exact (rd_grows _ _ _ _ _ _ _ _ _ _ R1)|]. split; [|discriminate].
        rewrite (reading_length _ _ _ _ _ _ _ _ _ _ R1), Lr, Z.add_0_r. reflexivity. }
    cbn [andb]. unfold read_oi_vis_complex.
    assert (Y : exists h2 rows2 vecs2,
      (if c_complex c then
    h <- store h1 p 0 "usecomplex" (Num 1) ;;
    h <- each_record p (fun r i w h =>
           foreach complex_names (fun f h => new_field malloc (fill h) r i f w h) h) h ;;
    Ok (c_complex_ok c, h)
  else
    h <- store h1 p 0 "usecomplex" (Num 0) ;;
    h <- each_record p (fun r i w h => foreach complex_names (fun f h => store h r i f (Ptr None)) h) h ;;
    Ok (c_complex_ok c, h)) = Ok (c_complex_ok c, h2)
      /\ reading h0 h2 p (setf s1 "usecomplex" (Num (if c_complex c then 1 else 0))) (c_rows c) (c_chans c) rec rows2
           ((given (c_chans c) ++ refmap_part c) ++ complex_part c) vecs2).
    { unfold complex_part.
      assert (Dis : forall f, In f (map fst (given (c_chans c) ++ refmap_part c)) -> ~ In f complex_names).
      { intros f Hf Hx. rewrite map_app, in_app_iff in Hf. destruct Hf as [Hf|Hf].
        - cbn in Hf. repeat (destruct Hf as [<-|Hf]; [cbn in Hx; intuition discriminate|]). exact Hf.
        - apply refmap_names in Hf. subst f. cbn in Hx. intuition discriminate. }
      destruct (c_complex c).
      - destruct (reading_store _ _ _ _ _ _ _ _ _ _ "usecomplex" (Num 1) R1 M3) as (h2 & E2 & R2); try discriminate.
        rewrite E2. cbn [bind].
        assert (P : pass rec (c_chans c) (fun r i w h => foreach complex_names (fun f h => new_field malloc (fill h) r i f w h) h)
                      (given (c_chans c) ++ refmap_part c)
                      ((given (c_chans c) ++ refmap_part c) ++ map (fun f => (f, c_chans c)) complex_names)).
        { apply (pass_new malloc Hfresh fill).
        { intros r i h3. reflexivity. }
        { nodup_. }
        { exact Dis. }
        { intros f Hf. members Hf. }
        { repeat constructor; exact Hw. } }
        destruct (reading_loop fill _ _ _ _ _ _ _ _ _ _ _ _ P R2) as (h3 & rows3 & vecs3 & E3 & R3).
        rewrite E3. cbn [bind]. exists h3, rows3, vecs3. split; [reflexivity | exact R3].
      - destruct (reading_store _ _ _ _ _ _ _ _ _ _ "usecomplex" (Num 0) R1 M3) as (h2 & E2 & R2); try discriminate.
        rewrite E2. cbn [bind]. rewrite app_nil_r.
        assert (P : pass rec (c_chans c) (fun r i w h => foreach complex_names (fun f h => store h r i f (Ptr None)) h)
                      (given (c_chans c) ++ refmap_part c) (given (c_chans c) ++ refmap_part c)).
        { apply (pass_null _ _ _ complex_names).
        { intros r i h3. reflexivity. }
        { exact Dis. }
        { intros f Hf. members Hf. } }
        destruct (reading_loop fill _ _ _ _ _ _ _ _ _ _ _ _ P R2) as (h3 & rows3 & vecs3 & E3 & R3).
        rewrite E3. cbn [bind]. exists h3, rows3, vecs3. split; [reflexivity | exact R3]. }
    destruct Y as (h2 & rows2 & vecs2 & E2 & R2). exists h2, (rec :: map fst (concat vecs2)).
    split; [exact E2|]. split; [exact (rd_grows _ _ _ _ _ _ _ _ _ _ R2)|]. split.
    { rewrite (reading_length _ _ _ _ _ _ _ _ _ _ R2), app_length, Nat2Z.inj_add, Lr. unfold complex_part.
      destruct (c_complex c); cbn [map List.length andb]; change (Z.of_nat (List.length (vectors_given KVis))) with 5; f_equal; f_equal; lia. }
    intros _. eexists _, [(rec, rows2)], vecs2. split; [|reflexivity].
    unfold vectors_read. rewrite V1. fold (given (c_chans c)). fold (refmap_part c). fold (complex_part c).
    rewrite app_assoc. eapply reading_table; [exact R2|].
    cbn [vis_shape records sh_vectors]. rewrite (rd_nwave _ _ _ _ _ _ _ _ _ _ R2).
    assert (X1 : num (setf s1 "usecomplex" (Num (if c_complex c then 1 else 0))) "usevisrefmap" = Some (if c_visrefmap c then 1 else 0)).
    { unfold num, s1. rewrite getf_setf_other by discriminate. rewrite getf_setf_same by exact M1. reflexivity. }
    assert (X2 : num (setf s1 "usecomplex" (Num (if c_complex c then 1 else 0))) "usecomplex" = Some (if c_complex c then 1 else 0)).
    { unfold num. rewrite getf_setf_same by exact M3. reflexivity. }
    rewrite X1, X2. unfold refmap_part, complex_part, given. destruct (c_visrefmap c), (c_complex c); reflexivity.
Qed.

(** ** One table *)
Definition read_of (k : table_kind) : addr -> content -> heap -> res (bool * heap) :=
  match k with
  | KTarget => read_oi_target malloc fill | KArray => read_next_oi_array malloc fill
  | KWavelength => read_next_oi_wavelength malloc fill | KCorr => read_next_oi_corr malloc fill
  | KInspol => read_next_oi_inspol malloc fill | KVis => read_next_oi_vis malloc fill
  | KVis2 => read_next_oi_vis2 malloc fill | KT3 => read_next_oi_t3 malloc fill
  | KFlux => read_next_oi_flux malloc fill
  end.
Definition more_of (k : table_kind) : addr -> content -> heap -> res (bool * heap) :=
  match k with KVis => read_oi_vis_opt malloc fill | _ => no_more end.
Lemma read_of_eq k p c h : read_of k p c h =
  if c_keys c then
    h' <- alloc_of k malloc (fill h) p (c_rows c) (c_chans c) h ;;
    if c_columns c then more_of k p c h' else Ok (false, h')
  else Ok (false, h).
Proof. destruct k; reflexivity. Qed.

Lemma read_one k h0 h p s c : grows h0 h [p] -> lookup h p = Some [s] ->
  (forall f, In f (members k) -> getf s f <> None) ->
  (read_of k p c h = Abort /\ empty_table k c)
  \/ (~ empty_table k c /\ exists h' bs, read_of k p c h = Ok (readable k c, h') /\ grows h0 h' (p :: bs)
        /\ Z.of_nat (List.length bs) = blocks_begun k c
        /\ (c_keys c = true -> k <> KVis -> held_by k h' c p bs)
        /\ (readable k c = true -> held_by k h' c p bs)).
Proof.
  intros G Lp Hm. rewrite read_of_eq. unfold empty_table, readable, blocks_begun.
  destruct (c_keys c) eqn:Ek.
  2:{ right. split; [intros [X _]; discriminate X|]. exists h, []. cbn [andb].
      split; [reflexivity|]. split; [exact G|]. split; [reflexivity|]. split; discriminate. }
  destruct (Z_lt_le_dec 0 (c_rows c)) as [Hn|Hn].
  2:{ left. split; [|split; [reflexivity | left; exact Hn]]. rewrite (alloc_none k malloc (fill h) h p _ _ Hn). reflexivity. }
  assert (Dw : (vectors_given k <> [] /\ c_chans c <= 0) \/ (vectors_given k <> [] -> 0 < c_chans c)).
  { destruct (Z_lt_le_dec 0 (c_chans c)) as [Hw|Hw]; [right; intros _; exact Hw|].
    destruct (vectors_given k) eqn:Eg; [right; intros X; contradiction | left; split; [discriminate | exact Hw]]. }
  destruct Dw as [[Hg Hw]|Hw].
  { left. split; [|split; [reflexivity | right; split; assumption]].
    rewrite (alloc_no_channels k malloc (fill h) h p s _ _ Hfresh Hn Hw Lp); [reflexivity | | exact Hg].
    apply Hm. destruct k; cbn [vectors_given] in Hg; try contradiction; cbn; tauto. }
  right. split.
  { intros (_ & [X|[X Y]]); [lia|]. specialize (Hw X). lia. }
  destruct (alloc_new k h0 h p s (c_rows c) (c_chans c) G Lp Hm Hn Hw) as (h1 & s1 & arrs & vecs & E1 & T1 & C1 & N1 & G1).
  rewrite E1. cbn [bind andb].
  assert (Len : Z.of_nat (List.length (storage arrs vecs)) =
    Z.of_nat (List.length (sh_arrays (shape_of k))) + c_rows c * Z.of_nat (List.length (vectors_given k))).
  { rewrite (storage_length _ _ _ _ _ _ _ _ T1), map_length. destruct k; cbn [shape_of vectors_given sh_arrays target_shape array_shape wavelength_shape corr_shape inspol_shape vis_shape vis2_shape t3_shape flux_shape records List.length]; try ring. }
  assert (Plain : k <> KVis -> vectors_read k c = map (fun f => (f, c_chans c)) (vectors_given k)
            /\ vectors_begun k c = Z.of_nat (List.length (vectors_given k))).
  { intros Hk. unfold vectors_read, vectors_begun. destruct k; try contradiction; rewrite app_nil_r, Z.add_0_r; split; reflexivity. }
  assert (DV : k = KVis \/ k <> KVis) by (destruct k; (left; reflexivity) || (right; discriminate)).
  destruct DV as [->|Hk].
  - cbn [more_of]. destruct (c_columns c) eqn:Ec.
    + cbn [channels] in C1. destruct (start_reading h0 h1 p s1 _ _ arrs vecs T1 C1 N1 G1) as (rec & rows & -> & R & M1 & M2).
      destruct (vis_more h0 h1 p s1 (c_rows c) rec rows vecs c) as (h2 & bs & E2 & G2 & L2 & Hh); try assumption; try reflexivity.
      { apply Hw. discriminate. }
      exists h2, bs. cbn [andb]. split; [exact E2|]. split; [exact G2|]. split; [exact L2|].
      split; [intros _ X; contradiction | exact Hh].
    + exists h1, (storage arrs vecs). cbn [andb]. split; [reflexivity|]. split; [exact G1|]. split.
      { rewrite Len. unfold vectors_begun. rewrite Ec. reflexivity. }
      split; [intros _ X; contradiction | discriminate].
  - destruct (Plain Hk) as [Pv Pb].
    assert (Hh : held_by k h1 c p (storage arrs vecs)).
    { exists s1, arrs, vecs. rewrite Pv. split; [exact T1 | reflexivity]. }
    exists h1, (storage arrs vecs). rewrite Pb.
    assert (Er : c_columns c && match k with KVis => c_version1 c || (c_refmap_ok c && c_complex_ok c) | _ => true end = c_columns c).
    { destruct k; try contradiction; apply andb_true_r. }
    rewrite Er. split.
    { unfold more_of, no_more. destruct (c_columns c); [destruct k; try contradiction; reflexivity | reflexivity]. }
    split; [exact G1|]. split; [exact Len|]. split; intros; exact Hh.
Qed.

(** a new struct *)
Lemma new_struct_grows k h : k <> KTarget -> grows h (snd (new_struct malloc fill h)) [fst (new_struct malloc fill h)]
  /\ exists s, lookup (snd (new_struct malloc fill h)) (fst (new_struct malloc fill h)) = Some [s]
     /\ forall f, In f (members k) -> getf s f <> None.
Proof.
  intros Hk. unfold new_struct. cbn [fst snd]. split; [apply grows_cons, Hfresh|].
  exists (fill h "struct" 0). split; [apply lookup_new|]. intros f Hf. exact (proj1 Hdecl k h f Hk Hf).
Qed.

(** ** All tables of one kind *)
Definition lost_in (k : table_kind) (l : list content) : Z :=
  sum (map (fun c => if readable k c then 0 else blocks_begun k c) l).
(** what the loop has done to the heap: the new tables, their blocks, the blocks lost *)
Definition outcome (k : table_kind) (l : list content) (h h' : heap) (new : list addr) : Prop :=
  exists bss lost,
    Forall2 (fun c e => held_by k h' c (fst e) (snd e)) (filter (readable k) l) (combine new bss)
    /\ List.length new = List.length bss
    /\ grows h h' (new ++ concat bss ++ lost)
    /\ Z.of_nat (List.length lost) = lost_in k l
    /\ forall c, In c l -> ~ empty_table k c.

Lemma outcome_nil k h h' : grows h h' [] -> outcome k [] h h' [].
Proof.
  intros G. exists [], []. split; [constructor|]. split; [reflexivity|]. split; [exact G|]. split; [reflexivity | intros c []].
Qed.
Lemma outcome_good k c l h h1 h' p bs new : readable k c = true -> ~ empty_table k c -> held_by k h1 c p bs ->
  grows h h1 (p :: bs) -> outcome k l h1 h' new -> outcome k (c :: l) h h' (p :: new).
Proof.
  intros Hr He Hh G (bss & lost & F & L & G' & Ll & Hn). exists (bs :: bss), lost.
  cbn [filter]. rewrite Hr. cbn [combine]. split.
  { constructor; [|exact F]. cbn [fst snd]. eapply held_by_frame; [exact Hh|]. intros a Ha.
    apply (grows_keep _ _ _ _ G'), G, Ha. }
  split; [cbn; lia|]. split.
  { eapply grows_perm; [|exact (grows_app _ _ _ _ _ G G')]. cbn [concat app]. apply perm_skip.
    rewrite <- app_assoc, !app_assoc. apply Permutation_app_tail, Permutation_app_tail, Permutation_app_comm. }
  split; [unfold lost_in in *; cbn [map sum fold_right]; rewrite Hr; exact Ll|].
  intros x [<-|Hx]; [exact He | exact (Hn x Hx)].
Qed.
Lemma outcome_bad k c l h h1 h' bs new : readable k c = false -> ~ empty_table k c -> 
  Z.of_nat (List.length bs) = blocks_begun k c -> grows h h1 bs -> outcome k l h1 h' new -> outcome k (c :: l) h h' new.
Proof.
  intros Hr He Lb G (bss & lost & F & L & G' & Ll & Hn). exists bss, (bs ++ lost)%list.
  cbn [filter]. rewrite Hr. split; [exact F|]. split; [exact L|]. split.
  { eapply grows_perm; [|exact (grows_app _ _ _ _ _ G G')]. rewrite !app_assoc.
    apply Permutation_app_tail. rewrite <- app_assoc. apply Permutation_app_comm. }
  split.
  { unfold lost_in in *. cbn [map sum fold_right]. rewrite Hr. rewrite app_length, Nat2Z.inj_add, Ll, Lb. reflexivity. }
  intros x [<-|Hx]; [exact He | exact (Hn x Hx)].
Qed.
Lemma free_struct h h1 p bs : grows h h1 (p :: bs) -> exists h2, free h1 (Some p) = Ok h2 /\ grows h h2 bs.
Proof.
  intros G. destruct (free_one h1 p) as (h2 & E & W); [apply G; left; reflexivity|].
  exists h2. split; [exact E|]. exact (grows_without _ _ _ _ [p] bs G (Permutation_refl _) W).
Qed.

Lemma required_ok k : k <> KTarget -> forall l out h,
  (read_required malloc fill (read_of k) l out h = Abort /\ exists c, In c (until_bad k l) /\ empty_table k c)
  \/ exists h' new, read_required malloc fill (read_of k) l out h = Ok (forallb (readable k) l, (out ++ new)%list, h')
       /\ outcome k (until_bad k l) h h' new.
Proof.
  intros Hk l. induction l as [|c l IH]; intros out h; cbn [read_required until_bad forallb]; cbv zeta;
    destruct (new_struct_grows k h Hk) as (G1 & s & Ls & Hs); revert G1 Ls;
    generalize (fst (new_struct malloc fill h)) as p, (snd (new_struct malloc fill h)) as h1; intros p h1 G1 Ls.
  - right. destruct (free_struct h h1 p [] G1) as (h2 & E2 & G2). rewrite E2. cbn [bind].
    exists h2, []. rewrite app_nil_r. split; [reflexivity | apply outcome_nil, G2].
  - destruct (read_one k h h1 p s c G1 Ls Hs) as [[E He]|(He & h2 & bs & E & G2 & Lb & _ & Hh)].
    { left. rewrite E. split; [reflexivity|]. exists c. split; [|exact He]. destruct (readable k c); left; reflexivity. }
    rewrite E. cbn [bind fst snd]. destruct (readable k c) eqn:Er.
    + cbn [andb]. destruct (IH (out ++ [p])%list h2) as [[Ea (c' & Hc & He')]|(h' & new & E' & O')].
      { left. split; [exact Ea|]. exists c'. split; [right; exact Hc | exact He']. }
      right. exists h', (p :: new). rewrite E', <- app_assoc. split; [reflexivity|].
      eapply outcome_good; [exact Er | exact He | exact (Hh eq_refl) | exact G2 | exact O'].
    + right. destruct (free_struct h h2 p bs G2) as (h3 & E3 & G3). rewrite E3. cbn [bind andb].
      exists h3, []. rewrite app_nil_r. split; [reflexivity|].
      eapply outcome_bad; [exact Er | exact He | exact Lb | exact G3 | apply outcome_nil, grows_refl].
Qed.
Lemma optional_ok k : k <> KTarget -> forall l out h,
  (read_optional malloc fill (read_of k) l out h = Abort /\ exists c, In c l /\ empty_table k c)
  \/ exists h' new, read_optional malloc fill (read_of k) l out h = Ok ((out ++ new)%list, h')
       /\ outcome k l h h' new.
Proof.
  intros Hk l. induction l as [|c l IH]; intros out h; cbn [read_optional]; cbv zeta;
    destruct (new_struct_grows k h Hk) as (G1 & s & Ls & Hs); revert G1 Ls;
    generalize (fst (new_struct malloc fill h)) as p, (snd (new_struct malloc fill h)) as h1; intros p h1 G1 Ls.
  - right. destruct (free_struct h h1 p [] G1) as (h2 & E2 & G2). rewrite E2. cbn [bind].
    exists h2, []. rewrite app_nil_r. split; [reflexivity | apply outcome_nil, G2].
  - destruct (read_one k h h1 p s c G1 Ls Hs) as [[E He]|(He & h2 & bs & E & G2 & Lb & _ & Hh)].
    { left. rewrite E. split; [reflexivity|]. exists c. split; [left; reflexivity | exact He]. }
    rewrite E. cbn [bind fst snd]. destruct (readable k c) eqn:Er.
    + destruct (IH (out ++ [p])%list h2) as [[Ea (c' & Hc & He')]|(h' & new & E' & O')].
      { left. split; [exact Ea|]. exists c'. split; [right; exact Hc | exact He']. }
      right. exists h', (p :: new). rewrite E', <- app_assoc. split; [reflexivity|].
      eapply outcome_good; [exact Er | exact He | exact (Hh eq_refl) | exact G2 | exact O'].
    + destruct (free_struct h h2 p bs G2) as (h3 & E3 & G3). rewrite E3. cbn [bind].
      destruct (IH out h3) as [[Ea (c' & Hc & He')]|(h' & new & E' & O')].
      { left. split; [exact Ea|]. exists c'. split; [right; exact Hc | exact He']. }
      right. exists h', new. rewrite E'. split; [reflexivity|].
      eapply outcome_bad; [exact Er | exact He | exact Lb | exact G3 | exact O'].
Qed.
End Read.
