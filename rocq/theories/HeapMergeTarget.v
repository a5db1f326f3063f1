(** Merging: the target table and the hash table of new numbers. *)
From Coq Require Import Lia Permutation.
From Verif Require Import HeapSpec HeapMergeSpec BaseLemmas HeapProofs HeapDup HeapTables HeapFree HeapAlloc
  HeapGrow HeapFilterTab HeapFilterHeld HeapMergeTab.
Open Scope Z_scope.

Lemma find_ptr_cons k a t x : find_ptr ((k, a) :: t) x = if str_eqb k x then Some a else find_ptr t x.
Proof. reflexivity. Qed.
Lemma find_ptr_in t x a : find_ptr t x = Some a -> In a (map snd t).
Proof.
  induction t as [|[k b] t IH]; [discriminate|]. rewrite find_ptr_cons. destruct (str_eqb k x); intros E.
  - injection E as ->. left. reflexivity.
  - right. exact (IH E).
Qed.
Lemma find_ptr_key t x : find_ptr t x = None -> ~ In x (map fst t).
Proof.
  induction t as [|[k b] t IH]; [intros _ []|]. rewrite find_ptr_cons. destruct (str_eqb k x) eqn:E; [discriminate|].
  intros H [X|X]; [cbn [fst] in X; subst k; rewrite str_eqb_refl in E; discriminate | exact (IH H X)].
Qed.
Lemma known_cons k a t x : known ((k, a) :: t) x <-> k = x \/ known t x.
Proof.
  unfold known. rewrite find_ptr_cons. destruct (str_eqb k x) eqn:E.
  - apply str_eqb_eq in E. split; [intros _; left; exact E | discriminate].
  - split; [intros H; right; exact H|]. intros [->|H]; [rewrite str_eqb_refl in E; discriminate | exact H].
Qed.

(** an input, apart from the struct at [t] *)
Definition input (h : heap) (t : addr) (i : fits_ptrs) : Prop :=
  exists ts bss, output_at h i ts bss /\ mergeable h i /\ ~ In t (fp_targets i :: blocks i ts bss).

Lemma input_targets h t i : input h t i ->
  fp_targets i <> t /\ exists s n, lookup h (fp_targets i) = Some [s] /\ num s "ntarget" = Some n
    /\ (n = 0 \/ exists a rows, a <> t /\ getf s "targ" = Some (Ptr (Some a)) /\ lookup h a = Some rows
                 /\ Z.of_nat (List.length rows) = n).
Proof.
  intros (ts & bss & [Ht _ _] & _ & Nt). split; [intros X; apply Nt; left; exact X|].
  destruct Ht as [(s & n & vs & arrs & vecs & [A B C D E F] & ->)|(-> & s & Ls & Ln & _)].
  - exists s, n. split; [exact A|]. split; [exact B|]. right. cbn [target_shape flat sh_arrays] in D.
    inversion D as [|? e ? l (P1 & P2 & P3) Hl]; subst. inversion Hl; subst. destruct e as [a rows]. cbn [fst snd] in *.
    exists a, rows. split; [|split; [exact P1|]; split; [exact P2 | reflexivity]].
    intros ->. apply Nt. right. unfold blocks, storage. rewrite !in_app_iff. left. left. left. reflexivity.
  - exists s, 0. split; [exact Ls|]. split; [exact Ln|]. left. reflexivity.
Qed.

Section Merge.
Variable malloc : heap -> addr.
Hypothesis Hfresh : fresh malloc.
Variable fill : heap -> string -> Z -> struct.
Variables (h : heap) (t : addr) (names : list string).
(** at least 100 names *)
Definition many := (100 <= List.length names)%nat.

(** the target table being filled; [t] counts as new *)
Definition values (hc : heap) (ids : ptr_hash) : Prop :=
  forall x v, find_ptr ids x = Some v -> exists k, lookup hc v = Some [[("value"%string, Num k)]].
Definition filling (st : ptr_hash * heap) : Prop :=
  exists sc rec rows, lookup (snd st) t = Some [sc]
    /\ getf sc "ntarget" = Some (Num (Z.of_nat (List.length (fst st))))
    /\ getf sc "targ" = Some (Ptr (Some rec)) /\ lookup (snd st) rec = Some rows /\ List.length rows = 100%nat
    /\ grows (remove h t) (snd st) (t :: rec :: map snd (fst st))
    /\ values (snd st) (fst st) /\ NoDup (map fst (fst st)) /\ incl (map fst (fst st)) names
    /\ (List.length (fst st) < 100)%nat.

Lemma filling_sees st a : filling st -> live h a -> a <> t -> lookup (snd st) a = lookup h a.
Proof.
  intros (sc & rec & rows & _ & _ & _ & _ & _ & G & _) Ha Hn.
  assert (X : lookup (remove h t) a = lookup h a) by (rewrite lookup_remove; destruct (Z.eqb_spec t a); congruence).
  rewrite (grows_keep _ _ _ a G); [exact X|]. unfold live. rewrite X. exact Ha.
Qed.

Lemma split_at {A} (l : list A) n : (n < List.length l)%nat -> exists l1 x l2, l = l1 ++ x :: l2 /\ List.length l1 = n.
Proof.
  intros H. destruct (skipn n l) as [|x l2] eqn:E.
  - pose proof (skipn_length n l) as L. rewrite E in L. cbn in L. lia.
  - exists (firstn n l), x, l2. split; [rewrite <- E; symmetry; apply firstn_skipn | apply firstn_length_le; lia].
Qed.

Lemma merge_target_step a rows j st r x : filling st -> a <> t -> lookup h a = Some rows -> get rows j = Ok r -> 0 <= j ->
  bytes r "target" = Some x -> In x names -> num r "target_id" <> None ->
  (merge_target malloc t a j st = Abort /\ many) \/
  exists st', merge_target malloc t a j st = Ok st' /\ filling st' /\ known (fst st') x
    /\ (forall y, known (fst st) y -> known (fst st') y).
Proof.
  intros F Na La Er Hj Hx Hin Hid. pose proof (filling_sees st a F) as Hs.
  rewrite La in Hs. specialize (Hs ltac:(unfold live; rewrite La; discriminate) Na).
  destruct st as [ids hc]. cbn [fst snd] in *. destruct F as (sc & rec & trow & L1 & N1 & P1 & R1 & Len & G & V & D & I & C). cbn [fst snd] in *.
  unfold merge_target, load_bytes, load. rewrite Hs, Er. cbn [bind]. rewrite (bytes_some _ _ _ Hx). cbn [bind].
  destruct (find_ptr ids x) as [v|] eqn:Ef.
  - right. exists (ids, hc). split; [reflexivity|]. split; [exists sc, rec, trow; tauto|]. split; [unfold known; cbn [fst]; rewrite Ef; discriminate|].
    intros y Hy. exact Hy.
  - rewrite (load_num_at hc t sc "ntarget" _ L1 (num_of _ _ _ N1)). cbn [bind].
    set (n := Z.of_nat (List.length ids)) in *. pose proof (Hfresh hc) as Hv. pose proof (grows_cons malloc Hfresh hc [[("value"%string, Num (n + 1))]]) as G1.
    pose proof (lookup_new malloc hc [[("value"%string, Num (n + 1))]]) as Lv.
    set (v := malloc hc) in *. set (h1 := (v, [[("value"%string, Num (n + 1))]]) :: hc) in *.
    assert (Hk1 : forall b, b <> v -> lookup h1 b = lookup hc b).
    { intros b Hb. unfold h1. rewrite lookup_cons. destruct (Z.eqb_spec v b); congruence. }
    assert (Ntv : t <> v) by (intros X; rewrite <- X in Hv; congruence).
    assert (Nrv : rec <> v) by (intros X; rewrite <- X in Hv; congruence).
    assert (Ntr : t <> rec). { pose proof (proj1 G) as Dg. inversion Dg as [|? ? X _]; subst. intros X0. apply X. left. symmetry. exact X0. }
    destruct (store_ok h1 t [] sc [] 0 "ntarget" (Num (n + 1))) as (h2 & E2 & L2 & O2);
      [rewrite Hk1 by exact Ntv; exact L1 | reflexivity | rewrite N1; discriminate|].
    rewrite E2. cbn [bind app] in *.
    assert (Hlen : (List.length (x :: map fst ids) <= List.length names)%nat).
    { apply NoDup_incl_length; [constructor; [exact (find_ptr_key _ _ Ef) | exact D]|]. intros y [<-|Hy]; [exact Hin | exact (I y Hy)]. }
    cbn [List.length] in Hlen. rewrite map_length in Hlen.
    unfold assert_. destruct (Z.ltb_spec (n + 1) 100) as [Hc|Hc]; cbn [bind]; [right | left; split; [reflexivity | unfold many; lia]].
    set (s2 := setf sc "ntarget" (Num (n + 1))) in *.
    assert (P2 : getf s2 "targ" = Some (Ptr (Some rec))) by (unfold s2; rewrite getf_setf_other by discriminate; exact P1).
    rewrite (load_ptr_at h2 t [] s2 [] 0 "targ" (Some rec) L2 eq_refl P2). cbn [bind deref].
    destruct (split_at trow (List.length ids)) as (l1 & y & l2 & El & Ll); [lia|].
    assert (La2 : lookup h2 a = Some rows).
    { rewrite O2 by exact Na. rewrite Hk1; [exact Hs|]. intros X. rewrite <- X in Hv. congruence. }
    assert (Lr2 : lookup h2 rec = Some (l1 ++ y :: l2)).
    { rewrite O2 by (intros X; apply Ntr; symmetry; exact X). rewrite Hk1 by exact Nrv. rewrite R1, El. reflexivity. }
    destruct (copy_struct_at a j rows r rec n l1 y l2 h2 La2 Er Lr2) as (h3 & E3 & L3 & O3); [unfold n; rewrite Ll; reflexivity|].
    rewrite E3. cbn [bind].
    destruct (store_ok h3 rec l1 r l2 n "target_id" (Num (n + 1)) L3) as (h4 & E4 & L4 & O4);
      [unfold n; rewrite Ll; reflexivity | intros X; apply Hid; unfold num; rewrite X; reflexivity|].
    rewrite E4. cbn [bind]. exists ((x, v) :: ids, h4). split; [reflexivity|]. cbn [fst snd].
    assert (Hk : forall b, b <> t -> b <> rec -> lookup h4 b = lookup h1 b).
    { intros b B1 B2. rewrite O4, O3, O2 by assumption. reflexivity. }
    split; [|split; [apply known_cons; left; reflexivity | intros z Hz; apply known_cons; right; exact Hz]].
    exists s2, rec, (l1 ++ setf r "target_id" (Num (n + 1)) :: l2). cbn [fst snd].
    split; [rewrite O4, O3 by exact Ntr; exact L2|]. split.
    { unfold s2. cbn [List.length]. rewrite getf_setf_same by (rewrite N1; discriminate). do 2 f_equal. lia. }
    split; [exact P2|]. split; [exact L4|]. split; [rewrite <- Len, El, !app_length; reflexivity|].
    assert (Gv : grows (remove h t) h1 (t :: rec :: v :: map snd ids)).
    { eapply grows_perm; [|exact (grows_app _ _ _ _ _ G G1)]. cbn [app]. do 2 apply perm_skip. symmetry. apply Permutation_cons_append. }
    split; [|split; [|split; [|split; [|cbn [List.length]; lia]]]].
    + cbn [map snd]. apply (grows_modify _ h1 _ _ Gv).
      * intros b Hb. apply Hk; intros ->; apply Hb; [left | right; left]; reflexivity.
      * intros b Hb. destruct (Z.eq_dec b t) as [->|Nb]; [unfold live; rewrite O4, O3 by exact Ntr; rewrite L2; discriminate|].
        destruct (Z.eq_dec b rec) as [->|Nb2]; [unfold live; rewrite L4; discriminate|].
        unfold live. rewrite Hk by assumption. apply Gv, Hb.
    + intros z w Hw. rewrite find_ptr_cons in Hw. destruct (str_eqb x z).
      * injection Hw as <-. exists (n + 1). rewrite Hk by congruence. exact Lv.
      * destruct (V z w Hw) as (k & Lk). exists k. pose proof (find_ptr_in _ _ _ Hw) as Hi.
        pose proof (proj1 G) as Dg. inversion Dg as [|? ? X Dg']; subst. inversion Dg' as [|? ? X' _]; subst.
        rewrite Hk, Hk1; [exact Lk | | |].
        -- intros X0. rewrite X0 in Lk. congruence.
        -- intros X0. apply X. right. rewrite <- X0. exact Hi.
        -- intros X0. apply X'. rewrite <- X0. exact Hi.
    + cbn [map fst]. constructor; [exact (find_ptr_key _ _ Ef) | exact D].
    + cbn [map fst]. intros z [<-|Hz]; [exact Hin | exact (I z Hz)].
Qed.

Lemma for_or {S} (Q : Prop) (P : Z -> S -> Prop) (body : Z -> S -> res S) n s : 0 <= n -> P 0 s ->
  (forall j s, 0 <= j < n -> P j s -> (body j s = Abort /\ Q) \/ exists s', body j s = Ok s' /\ P (j + 1) s') ->
  (for_ n body s = Abort /\ Q) \/ exists s', for_ n body s = Ok s' /\ P n s'.
Proof.
  intros Hn H0 Hstep. unfold for_.
  assert (X : forall m k s, Z.of_nat m + k = n -> 0 <= k -> P k s ->
    (for_from m k body s = Abort /\ Q) \/ exists s', for_from m k body s = Ok s' /\ P n s').
  { induction m as [|m IH]; intros k s1 Hm Hk Hp; cbn [for_from].
    - right. exists s1. split; [reflexivity|]. replace n with k by lia. exact Hp.
    - destruct (Hstep k s1) as [[A B]|(s2 & E & P2)]; [lia | exact Hp | |].
      + left. rewrite A. split; [reflexivity | exact B].
      + rewrite E. cbn [bind]. apply IH; [lia | lia | exact P2]. }
  apply X; [lia | lia | exact H0].
Qed.

Definition row_names (i : fits_ptrs) (x : string) : Prop :=
  exists rows r, rows_at h (fp_targets i) "targ" rows /\ In r rows /\ bytes r "target" = Some x.

Lemma merge_one_target i st : input h t i -> (forall x, row_names i x -> In x names) -> filling st ->
  let run := (n <- load_num (snd st) (fp_targets i) 0 "ntarget" ;;
       for_ n (fun j st =>
         q <- load_ptr (snd st) (fp_targets i) 0 "targ" ;; tIn <- deref q ;;
         merge_target malloc t tIn j st) st) in
  (run = Abort /\ many) \/ exists st', run = Ok st'
    /\ filling st' /\ (forall y, known (fst st) y -> known (fst st') y) /\ (forall x, row_names i x -> known (fst st') x).
Proof.
  intros Hi Hn F. cbv zeta. destruct (input_targets h t i Hi) as (Np & s & n & Ls & Ln & Hr).
  assert (Lf : forall st, filling st -> lookup (snd st) (fp_targets i) = Some [s]).
  { intros st' F'. rewrite (filling_sees st' _ F'); [exact Ls | unfold live; rewrite Ls; discriminate | exact Np]. }
  rewrite (load_num_at _ _ s "ntarget" n (Lf st F) Ln). cbn [bind].
  destruct Hr as [->|(a & rows & Na & Pa & La & Len)].
  - destruct Hi as (ts & bss & [Ht _ _] & Hm & Nt).
    right. exists st. split; [reflexivity|]. split; [exact F|]. split; [intros y Hy; exact Hy|].
    intros x (rows & r & (s0 & a & A1 & A2 & A3) & Hr & _). exfalso. rewrite Ls in A1. injection A1 as <-.
    destruct Ht as [(s1 & n1 & vs & arrs & vecs & [B1 B2 B3 B4 B5 B6] & _)|(_ & s1 & B1 & B2 & B3)].
    + rewrite Ls in B1. injection B1 as <-. cbn [target_shape flat sh_count sh_arrays] in *. rewrite Ln in B2. injection B2 as <-.
      inversion B4 as [|? e ? l (Q1 & Q2 & Q3) _]; subst. rewrite A2 in Q1. injection Q1 as ->. rewrite A3 in Q2. injection Q2 as ->.
      destruct (snd e); [contradiction | cbn in Q3; lia].
    + rewrite Ls in B1. injection B1 as <-. rewrite A2 in B3. discriminate.
  - assert (Hrows : rows_at h (fp_targets i) "targ" rows) by (exists s, a; tauto).
    assert (Hrow : forall r, In r rows -> exists x, bytes r "target" = Some x /\ num r "target_id" <> None).
    { intros r Hr. destruct Hi as (_ & _ & _ & Hm & _). destruct (mg_targets _ _ Hm rows r Hrows Hr) as [A B].
      destruct (bytes r "target") as [x|] eqn:E; [|contradiction]. exists x. split; [reflexivity | exact B]. }
    match goal with |- context [for_ n ?b _] => set (body := b) end.
    destruct (for_or many (fun j st' => filling st' /\ (forall y, known (fst st) y -> known (fst st') y)
        /\ forall r x, In r (firstn (Z.to_nat j) rows) -> bytes r "target" = Some x -> known (fst st') x) body n st)
      as [X|(st' & E' & F' & K' & R')].
    + lia.
    + split; [exact F|]. split; [intros y Hy; exact Hy|]. intros r x [].
    + intros j st1 Hj (F1 & K1 & R1). destruct (get_nth rows j) as (r & Er & Hr); [lia|].
      destruct (Hrow r Hr) as (x & Hx & Hid).
      assert (Eb : body j st1 = merge_target malloc t a j st1).
      { unfold body. rewrite (load_ptr_at _ _ [] s [] 0 "targ" (Some a) (Lf st1 F1) eq_refl Pa). reflexivity. }
      rewrite Eb.
      destruct (merge_target_step a rows j st1 r x F1 Na La Er (proj1 Hj) Hx) as [X|(st2 & E2 & F2 & N2 & K2)].
      { apply Hn. exists rows, r. tauto. } { exact Hid. } { left. exact X. }
      right. exists st2. split; [exact E2|].
      split; [exact F2|]. split; [intros y Hy; apply K2, K1, Hy|].
      intros r' x' Hr' Hx'. rewrite (firstn_next rows j r Er (proj1 Hj)) in Hr'. apply in_app_iff in Hr'.
      destruct Hr' as [Hr'|[<-|[]]]; [apply K2, (R1 r' x' Hr' Hx')|]. rewrite Hx in Hx'. injection Hx' as <-. exact N2.
    + left. exact X.
    + right. exists st'. split; [exact E'|]. split; [exact F'|]. split; [exact K'|].
      intros x (rows' & r & (s0 & a0 & A1 & A2 & A3) & Hr & Hx). rewrite Ls in A1. injection A1 as <-.
      rewrite Pa in A2. injection A2 as <-. rewrite La in A3. injection A3 as <-.
      apply (R' r x); [|exact Hx]. rewrite firstn_all2 by lia. exact Hr.
Qed.

Lemma merge_targets_loop is : forall st, (forall i, In i is -> input h t i) ->
  (forall i x, In i is -> row_names i x -> In x names) -> filling st ->
  let run := foreach is (fun i st =>
       n <- load_num (snd st) (fp_targets i) 0 "ntarget" ;;
       for_ n (fun j st =>
         q <- load_ptr (snd st) (fp_targets i) 0 "targ" ;; tIn <- deref q ;;
         merge_target malloc t tIn j st) st) st in
  (run = Abort /\ many) \/ exists st', run = Ok st'
    /\ filling st' /\ (forall y, known (fst st) y -> known (fst st') y)
    /\ (forall i x, In i is -> row_names i x -> known (fst st') x).
Proof.
  induction is as [|i is IH]; intros st Hi Hn F; cbv zeta.
  - right. exists st. split; [reflexivity|]. split; [exact F|]. split; [intros y Hy; exact Hy | intros i x []].
  - destruct (merge_one_target i st (Hi i (or_introl eq_refl)) (fun x Hx => Hn i x (or_introl eq_refl) Hx) F) as [[X1 X2]|(st1 & E1 & F1 & K1 & N1)].
    { left. cbn [foreach]. rewrite X1. split; [reflexivity | exact X2]. }
    destruct (IH st1) as [[X1 X2]|(st2 & E2 & F2 & K2 & N2)].
    { intros j Hj. apply Hi. right. exact Hj. } { intros j x Hj. apply Hn. right. exact Hj. } { exact F1. }
    { left. cbn [foreach]. rewrite E1. cbn [bind]. split; [exact X1 | exact X2]. }
    right. exists st2. cbn [foreach]. rewrite E1. cbn [bind]. split; [exact E2|]. split; [exact F2|].
    split; [intros y Hy; apply K2, K1, Hy|]. intros j x [<-|Hj] Hx; [apply K2, N1, Hx | exact (N2 j x Hj Hx)].
Qed.

Lemma no_vectors h' rows : Forall2 (fun (r : struct) es => Forall2 (fun (v : string * Z) e => points h' r (fst v) (snd v) e) [] es)
  rows (map (fun _ => []) rows).
Proof. induction rows as [|r rows IH]; cbn [map]; constructor; [constructor | exact IH]. Qed.
Lemma no_blocks (rows : list struct) : concat (map (fun _ => @nil (addr * block)) rows) = [].
Proof. induction rows as [|r rows IH]; [reflexivity | exact IH]. Qed.
Lemma grows_split h' l b : grows (remove h t) h' (t :: l) -> lookup h' t = Some b -> grows (replace h t b) h' l.
Proof.
  intros (D & N & O) Lt. inversion D as [|? ? Nt D']; subst. repeat split.
  - exact D'.
  - unfold live. rewrite lookup_replace. destruct (Z.eqb_spec t a) as [<-|Ne]; [contradiction|].
    pose proof (proj1 (N a (or_intror H))) as X. unfold live in X. rewrite lookup_remove in X.
    destruct (Z.eqb_spec t a); [contradiction | exact X].
  - apply N. right. exact H.
  - intros a Ha. rewrite lookup_replace. destruct (Z.eqb_spec t a) as [<-|Ne]; [exact Lt|].
    rewrite O; [|intros [X|X]; contradiction]. rewrite lookup_remove. destruct (Z.eqb_spec t a); [contradiction | reflexivity].
Qed.

Lemma merge_targets_ok is st : (forall i, In i is -> input h t i) -> (forall i x, In i is -> row_names i x -> In x names) ->
  lookup h t = Some [st] -> getf st "ntarget" <> None -> getf st "targ" <> None ->
  (merge_oi_target malloc fill is t h = Abort /\ many) \/
  exists ids h' hz ts, merge_oi_target malloc fill is t h = Ok (ids, h')
    /\ (forall a, a <> t -> lookup hz a = lookup h a) /\ live hz t
    /\ grows hz h' (ts ++ map snd ids) /\ targets_at h' t ts
    /\ values h' ids /\ (forall i x, In i is -> row_names i x -> known ids x)
    /\ (List.length ids < 100)%nat.
Proof.
  intros Hi Hn Lt M1 M2. unfold merge_oi_target.
  destruct (store_ok h t [] st [] 0 "ntarget" (Num 0) Lt eq_refl M1) as (h1 & E1 & L1 & O1). rewrite E1. cbn [bind app] in *.
  destruct (new_field_ok malloc Hfresh fill h1 t [] _ [] 0 "targ" 100 L1 eq_refl) as (h2 & b & E2 & L2 & Lb & Lenb & Nbt & Nb & O2).
  { rewrite getf_setf_other by discriminate. exact M2. } { lia. }
  rewrite E2. cbn [bind app] in *. set (s2 := setf (setf st "ntarget" (Num 0)) "targ" (Ptr (Some (malloc h1)))) in *.
  set (rec := malloc h1) in *.
  assert (Nr : lookup h rec = None).
  { rewrite <- O1 by exact Nbt. exact (Hfresh h1). }
  assert (F : filling ([], h2)).
  { exists s2, rec, b. cbn [fst snd List.length map]. split; [exact L2|]. split.
    { unfold s2. rewrite getf_setf_other by discriminate. apply getf_setf_same, M1. }
    split. { unfold s2. apply getf_setf_same. rewrite getf_setf_other by discriminate. exact M2. }
    split; [exact Lb|]. split; [lia|]. split; [|split; [intros x v X; discriminate | split; [constructor | split; [intros x [] | lia]]]].
    split; [constructor; [intros [X|[]]; exact (Nbt X) | repeat constructor; intros []]|]. split.
    - intros a [<-|[<-|[]]].
      + split; [unfold live; rewrite lookup_remove, Z.eqb_refl; intros X; apply X; reflexivity | unfold live; rewrite L2; discriminate].
      + split; [|unfold live; rewrite Lb; discriminate]. unfold live. rewrite lookup_remove.
        destruct (t =? rec); [intros X; apply X; reflexivity|]. rewrite Nr. intros X. apply X. reflexivity.
    - intros a Ha. assert (a <> t /\ a <> rec) as [A1 A2] by (split; intros ->; apply Ha; cbn; tauto).
      rewrite O2, O1 by assumption. rewrite lookup_remove. destruct (Z.eqb_spec t a); congruence. }
  destruct (merge_targets_loop is ([], h2) Hi Hn F) as [[X1 X2]|(st3 & E3 & F3 & _ & K3)].
  { left. rewrite X1. split; [reflexivity | exact X2]. }
  right. rewrite E3. cbn [bind].
  destruct st3 as [ids h3]. destruct F3 as (sc & rec' & rows & L3 & N3 & P3 & R3 & Len & G & V & D & I & Hlen). cbn [fst snd] in *.
  rewrite (load_num_at h3 t sc "ntarget" _ L3 (num_of _ _ _ N3)). cbn [bind].
  assert (P : Permutation (t :: rec' :: map snd ids) (rec' :: t :: map snd ids)) by apply perm_swap.
  pose proof (Permutation_NoDup P (proj1 G)) as Dg. inversion Dg as [|? ? _ Dg']; subst. inversion Dg' as [|? ? Nti _]; subst.
  assert (Hval : forall h4, (forall x, In x (t :: map snd ids) -> x <> t -> lookup h4 x = lookup h3 x) -> values h4 ids).
  { intros h4 O4 x v Hv. destruct (V x v Hv) as (k & Lk). exists k. pose proof (find_ptr_in _ _ _ Hv) as Hin.
    rewrite O4; [exact Lk | right; exact Hin|]. intros ->. contradiction. }
  destruct (Z.eq_dec (Z.of_nat (List.length ids)) 0) as [E0|E0].
  - rewrite E0.
    destruct (shrink_none malloc (remove h t) h3 _ (t :: map snd ids) t [] sc [] 0 "targ" rec' rows G P (or_introl eq_refl) L3 eq_refl P3 R3)
      as (h4 & E4 & G4 & L4 & O4).
    rewrite E4. cbn [bind app] in *. exists ids, h4, (replace h t [setf sc "targ" (Ptr None)]), [].
    split; [reflexivity|]. split.
    { intros a Ha. rewrite lookup_replace. destruct (Z.eqb_spec t a); congruence. }
    split; [unfold live; rewrite lookup_replace, Z.eqb_refl; discriminate|].
    split; [exact (grows_split h4 _ _ G4 L4)|]. split.
    { right. split; [reflexivity|]. exists (setf sc "targ" (Ptr None)). split; [exact L4|]. split.
      - rewrite num_setf_other by discriminate. rewrite <- E0. apply num_of, N3.
      - apply getf_setf_same. rewrite P3. discriminate. }
    split; [exact (Hval h4 O4) | split; [exact K3 | exact Hlen]].
  - destruct (shrink_some malloc Hfresh (remove h t) h3 _ (t :: map snd ids) t [] sc [] 0 "targ" rec' rows
                (Z.of_nat (List.length ids)) G P (or_introl eq_refl) L3 eq_refl P3 R3) as (h4 & a' & E4 & G4 & L4 & La & O4); [lia|].
    rewrite E4. cbn [bind app] in *. exists ids, h4, (replace h t [setf sc "targ" (Ptr (Some a'))]), [a'].
    split; [reflexivity|]. split.
    { intros a Ha. rewrite lookup_replace. destruct (Z.eqb_spec t a); congruence. }
    split; [unfold live; rewrite lookup_replace, Z.eqb_refl; discriminate|].
    assert (G5 : grows (remove h t) h4 (t :: a' :: map snd ids)) by (eapply grows_perm; [apply perm_swap | exact G4]).
    split; [exact (grows_split h4 _ _ G5 L4)|]. split.
    { left. exists (setf sc "targ" (Ptr (Some a'))), (Z.of_nat (List.length ids)), [],
        [(a', firstn (Z.to_nat (Z.of_nat (List.length ids))) rows)], (map (fun _ => []) (firstn (Z.to_nat (Z.of_nat (List.length ids))) rows)).
      split.
      - constructor.
        + exact L4.
        + cbn [target_shape flat sh_count]. rewrite num_setf_other by discriminate. apply num_of, N3.
        + reflexivity.
        + cbn [target_shape flat sh_arrays]. constructor; [|constructor]. split; [|split; [exact La|]].
          * apply getf_setf_same. rewrite P3. discriminate.
          * cbn [snd]. rewrite firstn_length_le; lia.
        + cbn [flat_map snd]. rewrite app_nil_r. apply no_vectors.
        + pose proof (proj1 G5) as X. unfold storage. cbn [map fst app].
          assert (Hc : concat (map (fun _ : struct => @nil (addr * block)) (firstn (Z.to_nat (Z.of_nat (List.length ids))) rows)) = []).
          { apply no_blocks. }
          rewrite Hc. cbn [map]. inversion X as [|? ? Y _]; subst. constructor; [|repeat constructor; intros []].
          intros [Z|[]]. apply Y. left. exact Z.
      - unfold storage. cbn [map fst app].
        assert (Hc : concat (map (fun _ : struct => @nil (addr * block)) (firstn (Z.to_nat (Z.of_nat (List.length ids))) rows)) = []).
        { apply no_blocks. }
        rewrite Hc. reflexivity. }
    split; [exact (Hval h4 O4) | split; [exact K3 | exact Hlen]].
Qed.
End Merge.
