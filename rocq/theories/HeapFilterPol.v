(** Filtering an OI_INSPOL table, whose vectors are shrunk after the first record. *)
From Coq Require Import Lia Permutation.
From Verif Require Import HeapSpec HeapFilterSpec BaseLemmas HeapProofs HeapDup HeapTables HeapFree HeapAlloc
  HeapGrow HeapFilterTab HeapFilterOne.
Open Scope Z_scope.

Section Filter.
Variable malloc : heap -> addr.
Hypothesis Hfresh : fresh malloc.
Variable fill : heap -> string -> Z -> struct.
Variable ch : choices.

Definition jones := ["jxx"; "jyy"; "jxy"; "jyx"]%string.
Definition of_len (w : Z) : list (string * Z) := map (fun f => (f, w)) jones.

(** what the hash table of accepted channels says of a table with [nIn] channels *)
Definition flags_ok (h : heap) (v : option addr) (nIn : Z) : Prop :=
  forall u, v = Some u -> live h u /\ exists k, used h u nIn = Ok k /\ 1 <= k <= nIn.

Lemma filter_inspol_ok t p h s n nIn rec rows :
  input_table h p s n nIn rec rows -> 0 < nIn ->
  (forall r f, In r rows -> In f jones -> getf r f <> None) ->
  (forall r, In r rows -> exists x, named_by r x /\ flags_ok h (hash_lookup t x) nIn) ->
  exists r, filter_or_free malloc fill (filter_oi_inspol malloc fill ch t) p h = Ok r
    /\ kept inspol_shape h r.
Proof.
  intros Hin HnIn Hm Hx. pose proof Hin as [A B C D E F G].
  assert (Hdj : NoDup jones) by (repeat constructor; cbn; intuition discriminate).
  assert (Hfl : forall w, map fst (of_len w) = jones) by reflexivity.
  assert (Hpos : forall w, 0 < w -> Forall (fun v : string * Z => 0 < snd v) (of_len w)).
  { intros w Hw. repeat constructor; exact Hw. }
  unfold filter_or_free. destruct (start malloc Hfresh fill h p s A) as (h2 & E2 & L2 & G2). revert E2 L2 G2.
  cbv zeta. generalize (fst (new_struct malloc fill h)) as q, (snd (new_struct malloc fill h)) as h1.
  intros q h1 E2 L2 G2. unfold filter_oi_inspol. rewrite E2. cbn [bind].
  assert (In2 := input_grows _ _ _ _ _ _ _ _ _ Hin G2).
  rewrite (load_num_at h2 p s "numrec" n (in_struct _ _ _ _ _ _ _ In2) (num_of _ _ _ B)). cbn [bind].
  destruct (begin_records malloc Hfresh fill h h2 q s n (of_len nIn) G2 L2) as (h3 & ro & rest0 & E3 & B3 & Hrest).
  { rewrite D. discriminate. } { exact G. }
  rewrite E3. cbn [bind]. set (s3 := setf s "record" (Ptr (Some ro))) in *.
  assert (In3 := input_grows _ _ _ _ _ _ _ _ _ Hin (bu_grows _ _ _ _ _ _ _ _ _ B3)).
  rewrite (load_num_at h3 p s "nwave" nIn (in_struct _ _ _ _ _ _ _ In3) (num_of _ _ _ C)). cbn [bind].
  assert (Hw3 : getf s3 "nwave" = Some (Num nIn)) by (unfold s3; rewrite getf_setf_other by discriminate; exact C).
  destruct (building_store h h3 q s3 ro (of_len nIn) [] rest0 [] "nwave" (Num nIn) B3) as (h4 & E4 & B4 & _).
  { rewrite Hw3. discriminate. } { discriminate. }
  rewrite E4. cbn [bind]. set (s4 := setf s3 "nwave" (Num nIn)) in *.
  pose (P := fun (i : Z) (st : Z * heap) => exists w sq rs rest vecs,
          building h (snd st) q sq ro (of_len w) rs rest vecs
          /\ (getf sq "nwave" = Some (Num w) /\ 0 < w /\ getf sq "numrec" <> None /\ (rs = [] -> w = nIn))
          /\ fst st = Z.of_nat (List.length rs)
          /\ fst st <= i /\ Z.of_nat (List.length rs + List.length rest) = n).
  match goal with |- context [for_ n ?b (0, h4)] => set (body := b) end.
  destruct (for_total P body n (0, h4)) as ([nrec h5] & E5 & (w & sq & rs & rest & vecs & B5 & (W1 & W2 & W3 & _) & N5 & _)).
  { lia. }
  { exists nIn, s4, [], rest0, []. cbn [fst snd List.length]. split; [exact B4|]. split.
    - split; [unfold s4; apply getf_setf_same; rewrite Hw3; discriminate|]. split; [exact HnIn|].
      split; [|reflexivity]. unfold s4, s3. rewrite !getf_setf_other by discriminate. rewrite B. discriminate.
    - split; [reflexivity|]. split; [lia | exact Hrest]. }
  { intros i [nr hh] Hi (w & sq & rs & rest & vecs & Bu & (W1 & W2 & W3 & W4) & Hnr & Hle & Hlen). cbn [fst snd] in *.
    assert (Hsame : P (i + 1) (nr, hh)).
    { exists w, sq, rs, rest, vecs. cbn [fst snd]. split; [exact Bu|]. split; [tauto|]. split; [exact Hnr|]. split; [lia | exact Hlen]. }
    unfold body. destruct (ch_record ch hh p i); [|exists (nr, hh); split; [reflexivity | exact Hsame]].
    assert (Gh := bu_grows _ _ _ _ _ _ _ _ _ Bu).
    assert (InH := input_grows _ _ _ _ _ _ _ _ _ Hin Gh).
    rewrite (load_ptr_at hh p [] s [] 0 "record" (Some rec) (in_struct _ _ _ _ _ _ _ InH) eq_refl D). cbn [bind deref].
    destruct (get_nth rows i) as (r & Hr & Hrin); [lia|].
    destruct (Hx r Hrin) as (x & Hname & Hflags).
    assert (Eb : load_bytes hh rec i "insname" = Ok x).
    { unfold load_bytes, load. rewrite (in_rows _ _ _ _ _ _ _ InH), Hr. cbn [bind]. rewrite Hname. reflexivity. }
    rewrite Eb. cbn [bind].
    destruct (hash_lookup t x) as [u|] eqn:Eh; [|exists (nr, hh); split; [reflexivity | exact Hsame]].
    destruct (Hflags u eq_refl) as (Hul & k & Hused & Hk).
    rewrite (load_ptr_at hh q [] sq [] 0 "record" (Some ro) (bu_struct _ _ _ _ _ _ _ _ _ Bu) eq_refl
               (bu_record _ _ _ _ _ _ _ _ _ Bu)). cbn [bind deref].
    rewrite (load_num_at hh q sq "nwave" w (bu_struct _ _ _ _ _ _ _ _ _ Bu) (num_of _ _ _ W1)). cbn [bind].
    destruct rest as [|y rest]; [cbn [List.length] in Hlen; lia|].
    destruct (building_step malloc Hfresh fill h hh q sq ro (of_len w) rs y rest vecs [] rec i rows r Bu Hdj
                ltac:(intros f _ []) (Hpos w W2) (in_rows _ _ _ _ _ _ _ InH) Hr) as (h' & r' & es & Es & Bs & _).
    { intros f Hf. rewrite app_nil_r in Hf. exact (Hm r f Hrin Hf). }
    unfold of_len, jones in Es. rewrite Hnr, Es. cbn [bind].
    assert (Gs := bu_grows _ _ _ _ _ _ _ _ _ Bs).
    rewrite (used_frame h h' u nIn) by exact (grows_keep _ _ _ _ Gs Hul). rewrite Hused. cbn [bind].
    destruct ((Z.of_nat (List.length rs) =? 0) && (k <? w)) eqn:Ec.
    - apply andb_prop in Ec. destruct Ec as [Ec1 Ec2]. apply Z.eqb_eq in Ec1. apply Z.ltb_lt in Ec2.
      assert (rs = []) by (destruct rs; [reflexivity | cbn [List.length] in Ec1; lia]). subst rs.
      assert (vecs = []) by (pose proof (bu_vectors _ _ _ _ _ _ _ _ _ Bu) as Bv; inversion Bv; reflexivity). subst vecs.
      cbn [app] in Bs.
      destruct (building_store h h' q sq ro (of_len w) [r'] rest [es] "nwave" (Num k) Bs) as (h6 & E6 & B6 & _).
      { rewrite W1. discriminate. } { discriminate. }
      rewrite E6. cbn [bind]. set (sq' := setf sq "nwave" (Num k)) in *. destruct B6 as [Q1 Q2 Q3 Q4 Q5].
      cbn [concat app map] in Q5. rewrite app_nil_r in Q5.
      destruct (Forall2_uncons _ _ _ _ Q4) as (e0 & l0 & E0 & Q4' & _). injection E0 as <- <-.
      destruct (shrink_vectors malloc Hfresh h ro rest k w ltac:(lia) jones es r' h6 [q; ro] Q4' Hdj
                  (or_intror (or_introl eq_refl)) Q5 Q3) as (h7 & r7 & es7 & E7 & L7 & V7 & G7 & _ & K7).
      unfold jones in E7. cbn [List.length Z.of_nat]. rewrite E7. cbn [bind].
      eexists. split; [reflexivity|]. exists k, sq', [r7], rest, [es7]. cbn [fst snd List.length] in *.
      split.
      { constructor.
        - rewrite K7; [exact Q1 | left; reflexivity|]. intros ->. apply proj1 in Q5. inversion Q5 as [|? ? N _].
          apply N. left. reflexivity.
        - exact Q2.
        - exact L7.
        - constructor; [exact V7 | constructor].
        - cbn [concat]. rewrite app_nil_r. exact G7. }
      split.
      { split; [unfold sq'; apply getf_setf_same; rewrite W1; discriminate|]. split; [lia|].
        split; [|discriminate]. unfold sq'. rewrite getf_setf_other by discriminate. exact W3. }
      lia.
    - cbn [bind]. eexists. split; [reflexivity|]. exists w, sq, (rs ++ [r']), rest, (vecs ++ [es]). cbn [fst snd].
      split; [exact Bs|]. split.
      { split; [exact W1|]. split; [exact W2|]. split; [exact W3|]. intros X. destruct rs; discriminate. }
      rewrite app_length. cbn [List.length] in *. lia. }
  fold body. rewrite E5. cbn [bind fst snd] in *. rewrite N5.
  destruct (finish malloc Hfresh (of_nwave jones) h h5 q sq ro (of_len w) rs rest vecs w B5 W3 W1 W2)
    as (h6 & h7 & r & E6 & E7 & E8 & K).
  - intros s' Hs'. unfold of_nwave. rewrite (num_of s' "nwave" w); [reflexivity|].
    rewrite Hs' by discriminate. exact W1.
  - rewrite E6. cbn [bind]. rewrite E7. cbn [bind]. exists r. split; [exact E8 | exact K].
Qed.
End Filter.
