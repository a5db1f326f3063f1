(** Filtering one table of each kind. *)
From Coq Require Import Lia Permutation.
From Verif Require Import HeapSpec HeapFilterSpec BaseLemmas HeapProofs HeapDup HeapTables HeapFree HeapAlloc
  HeapGrow HeapFilterTab.
Open Scope Z_scope.

Section Filter.
Variable malloc : heap -> addr.
Hypothesis Hfresh : fresh malloc.
Variable fill : heap -> string -> Z -> struct.
Variable ch : choices.

Lemma start h p s : lookup h p = Some [s] ->
  let q := fst (new_struct malloc fill h) in
  exists h', copy_struct p 0 q 0 (snd (new_struct malloc fill h)) = Ok h'
    /\ lookup h' q = Some [s] /\ grows h h' [q].
Proof.
  intros Hp q. unfold new_struct in *. cbn [fst snd] in *.
  pose proof (grows_cons malloc Hfresh h [fill h "struct" 0]) as G. fold q in G. fold q. set (h1 := (q, [fill h "struct" 0]) :: h) in *.
  assert (Hpq : p <> q). { intros ->. pose proof (Hfresh h). unfold q in *. congruence. }
  assert (Lp : lookup h1 p = Some [s]).
  { rewrite (grows_keep _ _ _ _ G); [exact Hp | unfold live; rewrite Hp; discriminate]. }
  destruct (copy_struct_at p 0 [s] s q 0 [] (fill h "struct" 0) [] h1 Lp eq_refl) as (h' & E & L & O); [|reflexivity|].
  { unfold h1. rewrite lookup_cons, Z.eqb_refl. reflexivity. }
  exists h'. split; [exact E|]. split; [exact L|].
  eapply grows_trans_write; [exact G | left; reflexivity | exact L | exact O].
Qed.

Lemma begin_records h0 h q s n vs :
  grows h0 h [q] -> lookup h q = Some [s] -> getf s "record" <> None -> 0 < n ->
  exists h' ro rest, new_field malloc (fill h) q 0 "record" n h = Ok h'
    /\ building h0 h' q (setf s "record" (Ptr (Some ro))) ro vs [] rest []
    /\ Z.of_nat (List.length rest) = n.
Proof.
  intros G Lq Hr Hn.
  destruct (new_field_ok malloc Hfresh fill h q [] s [] 0 "record" n Lq eq_refl Hr Hn)
    as (h' & b & E & L & Lb & Hb & Hne & Hnl & O).
  set (ro := malloc h) in *. exists h', ro, b. split; [exact E|]. split; [|exact Hb].
  constructor.
  - exact L.
  - apply getf_setf_same, Hr.
  - exact Lb.
  - constructor.
  - cbn [concat map]. destruct G as (_ & N & Og). destruct (N q (or_introl eq_refl)) as [Nq _]. repeat split.
    + constructor; [intros [X|[]]; congruence|]. repeat constructor. intros [].
    + destruct H as [<-|[<-|[]]]; [exact Nq|]. intros Hl. apply Hnl. unfold live.
      rewrite Og; [exact Hl|]. intros [X|[]]. congruence.
    + destruct H as [<-|[<-|[]]]; unfold live; [rewrite L | rewrite Lb]; discriminate.
    + intros a Ha. cbn [In] in Ha. rewrite O; [apply Og; cbn [In] | |]; intros X; apply Ha; intuition congruence.
Qed.

(** a table of records in the input *)
Record input_table (h : heap) (p : addr) (s : struct) (n nIn : Z) (rec : addr) (rows : list struct) : Prop := mk_input {
  in_struct : lookup h p = Some [s];
  in_numrec : getf s "numrec" = Some (Num n);
  in_nwave : getf s "nwave" = Some (Num nIn);
  in_record : getf s "record" = Some (Ptr (Some rec));
  in_rows : lookup h rec = Some rows;
  in_len : Z.of_nat (List.length rows) = n;
  in_pos : 0 < n }.

Lemma input_grows h h' l p s n nIn rec rows : input_table h p s n nIn rec rows -> grows h h' l ->
  input_table h' p s n nIn rec rows.
Proof.
  intros [A B C D E F G] Gr. constructor; try assumption.
  - rewrite (grows_keep _ _ _ _ Gr); [exact A | unfold live; rewrite A; discriminate].
  - rewrite (grows_keep _ _ _ _ Gr); [exact E | unfold live; rewrite E; discriminate].
Qed.

Lemma filter_table_ok V (vectors : heap -> addr -> Z -> res (list (string * Z) * list string))
  p u h s n nIn rec rows w vs nulls :
  input_table h p s n nIn rec rows -> live h u -> used h u nIn = Ok w -> 0 < w ->
  (forall h', lookup h' p = Some [s] -> vectors h' p w = Ok (vs, nulls)) ->
  NoDup (map fst vs) -> (forall f, In f (map fst vs) -> ~ In f nulls) -> Forall (fun v => 0 < snd v) vs ->
  (forall r f, In r rows -> In f (map fst vs ++ nulls) -> getf r f <> None) ->
  (forall s', getf s' "nwave" = Some (Num w) ->
     (forall f, ~ In f ["nwave"; "numrec"; "record"]%string -> getf s' f = getf s f) -> V s' = Some vs) ->
  exists r, filter_or_free malloc fill (fun p q h => filter_table malloc fill ch vectors p u q h) p h = Ok r
    /\ kept (records V) h r.
Proof.
  intros Hin Hu Hused Hw Hvec Hd Hvn Hpos Hm HV. pose proof Hin as [A B C D E F G].
  unfold filter_or_free. destruct (start h p s A) as (h2 & E2 & L2 & G2). revert E2 L2 G2.
  cbv zeta. generalize (fst (new_struct malloc fill h)) as q, (snd (new_struct malloc fill h)) as h1.
  intros q h1 E2 L2 G2. unfold filter_table. rewrite E2. cbn [bind].
  assert (In2 := input_grows _ _ _ _ _ _ _ _ _ Hin G2).
  rewrite (load_num_at h2 p s "nwave" nIn (in_struct _ _ _ _ _ _ _ In2) (num_of _ _ _ C)). cbn [bind].
  rewrite (used_frame h h2 u nIn) by exact (grows_keep _ _ _ _ G2 Hu). rewrite Hused. cbn [bind].
  destruct (store_ok h2 q [] s [] 0 "nwave" (Num w) L2 eq_refl) as (h3 & E3 & L3 & O3); [rewrite C; discriminate|].
  rewrite E3. cbn [bind]. cbn [app] in L3. set (s3 := setf s "nwave" (Num w)) in *.
  assert (G3 : grows h h3 [q]) by (eapply grows_trans_write; [exact G2 | left; reflexivity | exact L3 | exact O3]).
  assert (In3 := input_grows _ _ _ _ _ _ _ _ _ Hin G3).
  rewrite (load_num_at h3 p s "numrec" n (in_struct _ _ _ _ _ _ _ In3) (num_of _ _ _ B)). cbn [bind].
  destruct (begin_records h h3 q s3 n vs G3 L3) as (h4 & ro & rest0 & E4 & B4 & Hrest); [|exact G|].
  { unfold s3. rewrite getf_setf_other by discriminate. rewrite D. discriminate. }
  rewrite E4. cbn [bind]. set (sq := setf s3 "record" (Ptr (Some ro))) in *.
  pose (P := fun (i : Z) (st : Z * heap) => exists rs rest vecs,
          building h (snd st) q sq ro vs rs rest vecs /\ fst st = Z.of_nat (List.length rs)
          /\ fst st <= i /\ Z.of_nat (List.length rs + List.length rest) = n).
  match goal with |- context [for_ n ?b (0, h4)] => set (body := b) end.
  destruct (for_total P body n (0, h4)) as ([nrec h5] & E5 & (rs & rest & vecs & B5 & N5 & _ & _)).
  { lia. }
  { exists [], rest0, []. cbn [fst snd List.length].
    split; [exact B4|]. split; [reflexivity|]. split; [lia | exact Hrest]. }
  { intros i [nr hh] Hi (rs & rest & vecs & Bu & Hnr & Hle & Hlen). cbn [fst snd] in *. unfold body.
    destruct (ch_record ch hh p i).
    2:{ exists (nr, hh). split; [reflexivity|]. exists rs, rest, vecs. cbn [fst snd].
        split; [exact Bu|]. split; [exact Hnr|]. split; [lia | exact Hlen]. }
    assert (InH := input_grows _ _ _ _ _ _ _ _ _ Hin (bu_grows _ _ _ _ _ _ _ _ _ Bu)).
    rewrite (load_ptr_at hh p [] s [] 0 "record" (Some rec) (in_struct _ _ _ _ _ _ _ InH) eq_refl D). cbn [bind deref].
    rewrite (load_ptr_at hh q [] sq [] 0 "record" (Some ro) (bu_struct _ _ _ _ _ _ _ _ _ Bu) eq_refl
               (bu_record _ _ _ _ _ _ _ _ _ Bu)). cbn [bind deref].
    rewrite (Hvec hh (in_struct _ _ _ _ _ _ _ InH)). cbn [bind fst snd].
    destruct rest as [|x rest]; [cbn [List.length] in Hlen; lia|].
    destruct (get_nth rows i) as (r & Hr & Hrin); [lia|].
    destruct (building_step malloc Hfresh fill h hh q sq ro vs rs x rest vecs nulls rec i rows r Bu Hd Hvn Hpos
                (in_rows _ _ _ _ _ _ _ InH) Hr (fun f => Hm r f Hrin)) as (h' & r' & es & Es & Bs & _).
    rewrite Hnr, Es. cbn [bind]. eexists. split; [reflexivity|].
    exists (rs ++ [r']), rest, (vecs ++ [es]). cbn [fst snd]. rewrite app_length. cbn [List.length] in *.
    split; [exact Bs|]. lia. }
  fold body. rewrite E5. cbn [bind fst snd] in *. rewrite N5.
  destruct (finish malloc Hfresh V h h5 q sq ro vs rs rest vecs w B5) as (h6 & h7 & r & E6 & E7 & E8 & K).
  - unfold sq, s3. rewrite !getf_setf_other by discriminate. rewrite B. discriminate.
  - unfold sq, s3. rewrite getf_setf_other by discriminate. apply getf_setf_same. rewrite C. discriminate.
  - exact Hw.
  - intros s' Hs'. apply HV.
    + rewrite Hs' by discriminate. unfold sq, s3. rewrite getf_setf_other by discriminate. apply getf_setf_same.
      rewrite C. discriminate.
    + intros f Hf. cbn [In] in Hf. rewrite Hs' by intuition congruence. unfold sq, s3.
      rewrite !getf_setf_other by intuition congruence. reflexivity.
  - rewrite E6. cbn [bind]. rewrite E7. cbn [bind]. exists r. split; [exact E8 | exact K].
Qed.

(** ** Shrinking several vectors of one struct *)

Lemma shrink_vectors h0 ro rest k w : 0 < k <= w -> forall fs es r h K,
  has_vectors h (map (fun f => (f, w)) fs) r es -> NoDup fs -> In ro K ->
  grows h0 h (K ++ map fst es) -> lookup h ro = Some (r :: rest) ->
  exists h' r' es', foreach fs (fun f h => shrink_field malloc ro 0 f k h) h = Ok h'
    /\ lookup h' ro = Some (r' :: rest)
    /\ has_vectors h' (map (fun f => (f, k)) fs) r' es'
    /\ grows h0 h' (K ++ map fst es')
    /\ (forall f, ~ In f fs -> getf r' f = getf r f)
    /\ (forall x, In x K -> x <> ro -> lookup h' x = lookup h x).
Proof.
  intros Hk fs. induction fs as [|f fs IH]; intros es r h K Hv Hd Hro G Lr.
  - inversion Hv; subst. exists h, r, []. cbn [foreach]. split; [reflexivity|]. split; [exact Lr|].
    split; [constructor|]. split; [exact G|]. split; reflexivity.
  - cbn [map] in Hv. destruct (Forall2_uncons _ _ _ _ Hv) as (e & es1 & -> & (P1 & P2 & P3) & Hv1). clear Hv.
    cbn [fst snd] in P1, P2, P3. apply NoDup_cons_iff in Hd. destruct Hd as [Nf Hd1].
    assert (Pm : Permutation (K ++ map fst (e :: es1)) (fst e :: K ++ map fst es1)).
    { cbn [map]. symmetry. apply Permutation_middle. }
    destruct (shrink_some malloc Hfresh h0 h _ _ ro [] r rest 0 f (fst e) (snd e) k G Pm)
      as (h1 & a' & E1 & G1 & L1 & La & K1).
    { apply in_app_iff. left. exact Hro. } { exact Lr. } { reflexivity. } { exact P1. } { exact P2. } { lia. }
    cbn [app] in L1. set (r1 := setf r f (Ptr (Some a'))) in *.
    assert (D1 := proj1 G1).
    assert (Dk : forall a, In a K -> ~ In a (map fst es1)).
    { intros a Ha Hx. change (a' :: K ++ map fst es1) with ((a' :: K) ++ map fst es1) in D1.
      clear - D1 Ha Hx. assert (Ha' : In a (a' :: K)) by (right; exact Ha). revert D1 Ha'. generalize (a' :: K) as m.
      intros m. induction m as [|y m IH]; intros D Ha'; [contradiction|]. cbn [app] in D. inversion D; subst.
      destruct Ha' as [->|Ha']; [|apply IH; assumption]. apply H1, in_app_iff. right. exact Hx. }
    assert (Hv1' : has_vectors h1 (map (fun f => (f, w)) fs) r1 es1).
    { assert (X : forall a, In a (map fst es1) -> lookup h1 a = lookup h a).
      { intros a Ha. apply K1; [apply in_app_iff; right; exact Ha|]. intros ->. exact (Dk ro Hro Ha). }
      clear - Hv1 X Nf. unfold r1. induction fs as [|g fs IH] in es1, Hv1, X, Nf |- *; cbn [map] in *.
      - inversion Hv1; subst. constructor.
      - destruct (Forall2_uncons _ _ _ _ Hv1) as (e1 & es2 & -> & (P1 & P2 & P3) & Hv2). cbn [fst snd] in *.
        constructor.
        + repeat split; cbn [fst snd]; [| rewrite X by (left; reflexivity); exact P2 | exact P3].
          rewrite getf_setf_other; [exact P1 | intros ->; apply Nf; left; reflexivity].
        + apply IH; [intros Y; apply Nf; right; exact Y | exact Hv2 | intros a Ha; apply X; right; exact Ha]. }
    destruct (IH es1 r1 h1 (a' :: K) Hv1' Hd1) as (h' & r' & es' & E & L & V & Gr & Of & Ok').
    { right. exact Hro. } { exact G1. } { exact L1. }
    assert (Ha' : a' <> ro).
    { intros ->. inversion D1 as [|? ? N _]. apply N, in_app_iff. left. exact Hro. }
    exists h', r', ((a', firstn (Z.to_nat k) (snd e)) :: es'). cbn [foreach]. rewrite E1. cbn [bind].
    split; [exact E|]. split; [exact L|]. split.
    { cbn [map]. constructor; [|exact V]. repeat split; cbn [fst snd].
      - rewrite Of by exact Nf. unfold r1. apply getf_setf_same. rewrite P1. discriminate.
      - rewrite Ok'; [exact La | left; reflexivity | exact Ha'].
      - rewrite firstn_length. lia. }
    split.
    { cbn [map fst]. eapply grows_perm; [|exact Gr]. apply Permutation_middle. }
    split.
    { intros g Hg. rewrite Of by (intros X; apply Hg; right; exact X). unfold r1.
      apply getf_setf_other. intros ->. apply Hg. left. reflexivity. }
    intros x Hx Hn. rewrite Ok'; [|right; exact Hx | exact Hn]. apply K1; [apply in_app_iff; left; exact Hx | exact Hn].
Qed.

(** shrinking to nothing frees the vectors *)
Lemma shrink_away h0 ro rest w : forall fs es r h K,
  has_vectors h (map (fun f => (f, w)) fs) r es -> NoDup fs -> In ro K ->
  grows h0 h (K ++ map fst es) -> lookup h ro = Some (r :: rest) ->
  exists h' r', foreach fs (fun f h => shrink_field malloc ro 0 f 0 h) h = Ok h'
    /\ lookup h' ro = Some (r' :: rest)
    /\ grows h0 h' K
    /\ (forall f, ~ In f fs -> getf r' f = getf r f)
    /\ (forall x, In x K -> x <> ro -> lookup h' x = lookup h x).
Proof.
  intros fs. induction fs as [|f fs IH]; intros es r h K Hv Hd Hro G Lr.
  - inversion Hv; subst. exists h, r. cbn [foreach map] in *. rewrite app_nil_r in G.
    split; [reflexivity|]. split; [exact Lr|]. split; [exact G|]. split; reflexivity.
  - cbn [map] in Hv. destruct (Forall2_uncons _ _ _ _ Hv) as (e & es1 & -> & (P1 & P2 & P3) & Hv1). clear Hv.
    cbn [fst snd] in P1, P2, P3. apply NoDup_cons_iff in Hd. destruct Hd as [Nf Hd1].
    assert (Pm : Permutation (K ++ map fst (e :: es1)) (fst e :: K ++ map fst es1)).
    { cbn [map]. symmetry. apply Permutation_middle. }
    destruct (shrink_none malloc h0 h _ _ ro [] r rest 0 f (fst e) (snd e) G Pm) as (h1 & E1 & G1 & L1 & K1).
    { apply in_app_iff. left. exact Hro. } { exact Lr. } { reflexivity. } { exact P1. } { exact P2. }
    cbn [app] in L1. set (r1 := setf r f (Ptr None)) in *.
    assert (D1 := proj1 G1).
    assert (Dk : ~ In ro (map fst es1)).
    { intros Hx. clear - D1 Hro Hx. induction K as [|y K IH]; [contradiction|]. cbn [app] in D1. inversion D1; subst.
      destruct Hro as [->|Ha']; [|apply IH; assumption]. apply H1, in_app_iff. right. exact Hx. }
    assert (Hv1' : has_vectors h1 (map (fun f => (f, w)) fs) r1 es1).
    { assert (X : forall a, In a (map fst es1) -> lookup h1 a = lookup h a).
      { intros a Ha. apply K1; [apply in_app_iff; right; exact Ha|]. intros ->. exact (Dk Ha). }
      clear - Hv1 X Nf. unfold r1. induction fs as [|g fs IH] in es1, Hv1, X, Nf |- *; cbn [map] in *.
      - inversion Hv1; subst. constructor.
      - destruct (Forall2_uncons _ _ _ _ Hv1) as (e1 & es2 & -> & (P1 & P2 & P3) & Hv2). cbn [fst snd] in *.
        constructor.
        + repeat split; cbn [fst snd]; [| rewrite X by (left; reflexivity); exact P2 | exact P3].
          rewrite getf_setf_other; [exact P1 | intros ->; apply Nf; left; reflexivity].
        + apply IH; [intros Y; apply Nf; right; exact Y | exact Hv2 | intros a Ha; apply X; right; exact Ha]. }
    destruct (IH es1 r1 h1 K Hv1' Hd1 Hro G1 L1) as (h' & r' & E & L & Gr & Of & Ok').
    exists h', r'. cbn [foreach]. rewrite E1. cbn [bind].
    split; [exact E|]. split; [exact L|]. split; [exact Gr|]. split.
    { intros g Hg. rewrite Of by (intros X; apply Hg; right; exact X). unfold r1.
      apply getf_setf_other. intros ->. apply Hg. left. reflexivity. }
    intros x Hx Hn. rewrite Ok' by assumption. apply K1; [apply in_app_iff; left; exact Hx | exact Hn].
Qed.

(** ** OI_WAVELENGTH *)

Definition wave_vectors := ["eff_wave"; "eff_band"]%string.

Lemma filter_wavelength_ok h p s n u k :
  lookup h p = Some [s] -> getf s "nwave" = Some (Num n) -> 0 < n ->
  (forall f, In f wave_vectors -> getf s f <> None) ->
  live h u -> used h u n = Ok k -> 0 <= k <= n ->
  let r := new_struct malloc fill h in
  exists h', filter_oi_wavelength malloc fill p u (fst r) (snd r) = Ok h'
    /\ load_num h' (fst r) 0 "nwave" = Ok k
    /\ (if 0 <? k then exists bs, owned wavelength_shape h' (fst r) bs /\ grows h h' (fst r :: bs)
        else grows h h' [fst r]).
Proof.
  intros Hp Hn Hpos Hm Hu Hused Hk r. destruct (start h p s Hp) as (h2 & E2 & L2 & G2). revert E2 L2 G2.
  unfold r. cbv zeta. generalize (fst (new_struct malloc fill h)) as q, (snd (new_struct malloc fill h)) as h1.
  intros q h1 E2 L2 G2. unfold filter_oi_wavelength. rewrite E2. cbn [bind].
  destruct (store_ok h2 q [] s [] 0 "nwave" (Num 0) L2 eq_refl) as (h3 & E3 & L3 & O3); [rewrite Hn; discriminate|].
  rewrite E3. cbn [bind]. cbn [app] in L3. set (s3 := setf s "nwave" (Num 0)) in *.
  assert (G3 : grows h h3 [q]) by (eapply grows_trans_write; [exact G2 | left; reflexivity | exact L3 | exact O3]).
  assert (Hpl : live h p) by (unfold live; rewrite Hp; discriminate).
  assert (Hp3 : lookup h3 p = Some [s]) by (rewrite (grows_keep _ _ _ _ G3 Hpl); exact Hp).
  rewrite (load_num_at h3 p s "nwave" n Hp3 (num_of _ _ _ Hn)). cbn [bind].
  set (vs := map (fun f => (f, n)) wave_vectors).
  destruct (new_vectors malloc Hfresh fill q [] [] 0 eq_refl vs h3 s3 L3) as (h4 & qs & E4 & Ql & Qd & Qn & L4 & Qv & O4).
  { intros f Hf. unfold s3. apply getf_setf_some. apply Hm. unfold vs in Hf. rewrite map_map in Hf. cbn [fst] in Hf.
    rewrite map_id in Hf. exact Hf. }
  { unfold vs. apply Forall_forall. intros v Hv. apply in_map_iff in Hv. destruct Hv as (f & <- & _). exact Hpos. }
  assert (Ef : foreach wave_vectors (fun f h => new_field malloc (fill h) q 0 f n h) h3 = Ok h4).
  { rewrite <- E4. unfold vs. clear. generalize wave_vectors as l, h3. induction l as [|f l IH]; intros hh; [reflexivity|].
    cbn [map foreach fst snd]. destruct (new_field malloc (fill hh) q 0 f n hh); cbn [bind]; [apply IH | reflexivity | reflexivity]. }
  unfold wave_vectors in Ef. rewrite Ef. cbn [bind]. cbn [app] in L4.
  set (s4 := sets s3 (map fst vs) qs) in *.
  assert (Hqq : ~ In q qs) by (intros X; apply (Qn _ X); unfold live; rewrite L3; discriminate).
  assert (X : exists es, has_vectors h4 vs s4 es /\ map fst es = qs).
  { assert (Hd : NoDup (map fst vs)).
    { unfold vs. cbn. repeat constructor; cbn; intuition discriminate. }
    assert (G0 := getf_sets (map fst vs) s3 qs Hd). rewrite map_length in G0.
    assert (G : Forall2 (fun f q => getf s4 f = Some (Ptr (Some q))) (map fst vs) qs).
    { apply G0; [|exact Ql]. intros f Hf. unfold s3. apply getf_setf_some, Hm. unfold vs in Hf.
      rewrite map_map in Hf. cbn [fst] in Hf. rewrite map_id in Hf. exact Hf. }
    clear - G Qv. revert G. generalize s4 as r1. clear s4. intros r1 G.
    induction Qv as [|v q vs qs (b & Hb & Hl) Qv IH]; [exists []; split; [constructor | reflexivity]|].
    cbn [map] in G. destruct (Forall2_uncons _ _ _ _ G) as (q1 & qs1 & E1 & G1 & G2). injection E1 as <- <-.
    destruct (IH G2) as (es & A & B).
    exists ((q, b) :: es). split; [|cbn [map fst]; f_equal; exact B]. constructor; [|exact A].
    repeat split; cbn [fst snd]; [exact G1 | exact Hb | exact Hl]. }
  destruct X as (es & Hes & Hfst).
  assert (G4 : grows h h4 ([q] ++ map fst es)).
  { rewrite Hfst. destruct G3 as (_ & N3 & Og). repeat split.
    - constructor; assumption.
    - destruct H as [<-|H]; [apply N3; left; reflexivity|]. intros Hl. apply (Qn a H). unfold live.
      rewrite Og; [exact Hl|]. intros [<-|[]]. contradiction.
    - destruct H as [<-|H]; [unfold live; rewrite L4; discriminate|].
      rewrite <- Hfst in H. exact (has_vectors_live _ _ _ _ Hes a H).
    - intros a Ha. cbn [In app] in Ha. rewrite O4; [apply Og; cbn [In]; tauto | intros ->; tauto | tauto]. }
  rewrite (used_frame h h4 u n) by exact (grows_keep _ _ _ _ G4 Hu). rewrite Hused. cbn [bind].
  assert (Hnw : getf s4 "nwave" = Some (Num 0)).
  { unfold s4. rewrite getf_sets_other by (cbn; intuition discriminate). unfold s3. apply getf_setf_same. rewrite Hn. discriminate. }
  destruct (store_ok h4 q [] s4 [] 0 "nwave" (Num k) L4 eq_refl) as (h5 & E5 & L5 & O5); [rewrite Hnw; discriminate|].
  rewrite E5. cbn [bind]. cbn [app] in L5. set (s5 := setf s4 "nwave" (Num k)) in *.
  assert (G5 : grows h h5 ([q] ++ map fst es)) by (eapply grows_trans_write; [exact G4 | left; reflexivity | exact L5 | exact O5]).
  assert (V5 : has_vectors h5 vs s5 es).
  { rewrite <- Hfst in Hqq.
    assert (V' : has_vectors h5 vs s4 es).
    { eapply has_vectors_frame; [exact Hes|]. intros a Ha. apply O5. intros ->. contradiction. }
    clear - V'. unfold vs, wave_vectors in *. cbn [map] in *. unfold s5.
    destruct (Forall2_uncons _ _ _ _ V') as (e1 & es1 & -> & P1 & V1).
    destruct (Forall2_uncons _ _ _ _ V1) as (e2 & es2 & -> & P2 & V2). inversion V2; subst.
    unfold points in *. cbn [fst snd] in *.
    repeat constructor; cbn [fst snd]; try apply P1; try apply P2; rewrite getf_setf_other by discriminate; [apply P1 | apply P2]. }
  assert (Hn5 : getf s5 "nwave" = Some (Num k)) by (unfold s5; apply getf_setf_same; rewrite Hnw; discriminate).
  assert (Hd2 : NoDup wave_vectors) by (repeat constructor; cbn; intuition discriminate).
  assert (Own : forall hh ss es', lookup hh q = Some [ss] -> getf ss "nwave" = Some (Num k) ->
            has_vectors hh (map (fun f => (f, k)) wave_vectors) ss es' -> NoDup (q :: map fst es') ->
            owned wavelength_shape hh q (map fst es')).
  { intros hh ss es' A B C D. pose (vecs := map (fun _ : struct => @nil (addr * block)) (flat_map snd es')).
    assert (Hz : concat vecs = []).
    { unfold vecs. clear. induction (flat_map snd es') as [|x l IH]; [reflexivity | exact IH]. }
    exists ss, k, [], es', vecs. split; [|unfold storage; rewrite Hz, app_nil_r; reflexivity].
    constructor; cbn [wavelength_shape flat sh_count sh_arrays sh_vectors].
    - exact A.
    - apply num_of, B.
    - reflexivity.
    - clear - C. unfold wave_vectors in *. cbn [map] in C.
      destruct (Forall2_uncons _ _ _ _ C) as (e1 & es1 & -> & P1 & V1).
      destruct (Forall2_uncons _ _ _ _ V1) as (e2 & es2 & -> & P2 & V2). inversion V2; subst.
      repeat (apply Forall2_cons; [assumption|]). constructor.
    - unfold vecs. clear. induction (flat_map snd es') as [|x l IH]; constructor; [constructor | exact IH].
    - unfold storage. rewrite Hz, app_nil_r. exact D. }
  destruct (Z.ltb_spec k n) as [Hlt|Hge].
  - destruct (Z.ltb_spec 0 k) as [Hk0|Hk0].
    + destruct (shrink_vectors h q [] k n ltac:(lia) wave_vectors es s5 h5 [q] V5 Hd2 (or_introl eq_refl) G5 L5)
        as (h6 & s6 & es' & E6 & L6 & V6 & G6 & O6 & _).
      unfold wave_vectors in E6. exists h6. split; [exact E6|].
      assert (H6 : getf s6 "nwave" = Some (Num k)) by (rewrite O6 by (cbn; intuition discriminate); exact Hn5).
      split; [exact (load_num_at h6 q s6 "nwave" k L6 (num_of _ _ _ H6))|].
      exists (map fst es'). split; [|exact G6]. apply (Own h6 s6 es' L6 H6 V6). exact (proj1 G6).
    + assert (k = 0) by lia. subst k.
      destruct (shrink_away h q [] n wave_vectors es s5 h5 [q] V5 Hd2 (or_introl eq_refl) G5 L5)
        as (h6 & s6 & E6 & L6 & G6 & O6 & _).
      unfold wave_vectors in E6. exists h6. split; [exact E6|].
      assert (H6 : getf s6 "nwave" = Some (Num 0)) by (rewrite O6 by (cbn; intuition discriminate); exact Hn5).
      split; [exact (load_num_at h6 q s6 "nwave" 0 L6 (num_of _ _ _ H6)) | exact G6].
  - assert (k = n) by lia. subst k. exists h5. split; [reflexivity|].
    split; [exact (load_num_at h5 q s5 "nwave" n L5 (num_of _ _ _ Hn5))|].
    destruct (Z.ltb_spec 0 n); [|lia]. exists (map fst es). split; [|exact G5].
    apply (Own h5 s5 es L5 Hn5 V5). exact (proj1 G5).
Qed.
End Filter.
