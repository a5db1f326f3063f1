(** Merging: the whole of merge_oi_fits_list. *)
From Coq Require Import Lia Permutation.
From Verif Require Import HeapSpec HeapMergeSpec BaseLemmas HeapProofs HeapDup HeapTables HeapFree HeapAlloc
  HeapMain HeapGrow HeapFilterTab HeapFilterAll HeapFilterHeld HeapFilterApply HeapFilterMain HeapMergeTab HeapMergeTarget HeapMergeAll.
Open Scope Z_scope.

Lemma destroy_ids_ok h0 ids : forall h L M, grows h0 h L -> Permutation L (map snd ids ++ M) ->
  exists h', destroy_ids ids h = Ok h' /\ grows h0 h' M /\ forall a, In a M -> lookup h' a = lookup h a.
Proof.
  induction ids as [|[k v] ids IH]; intros h L M G P.
  - exists h. split; [reflexivity|]. split; [exact (grows_perm _ _ _ _ P G) | reflexivity].
  - destruct (free_opt h0 h (Some v) (map snd ids ++ M) L G P) as (h1 & E1 & G1 & S1).
    destruct (IH h1 _ M G1 (Permutation_refl _)) as (h' & E & G' & S).
    exists h'. unfold destroy_ids in *. cbn [foreach snd]. rewrite E1. cbn [bind]. split; [exact E|]. split; [exact G'|].
    intros a Ha. rewrite S by exact Ha. apply S1, in_app_iff. right. exact Ha.
Qed.

Lemma combine_hashes {A B} (P Q R : A -> B -> Prop) is : forall la lb lc, Forall2 P is la -> Forall2 Q is lb -> Forall2 R is lc ->
  let ds := combine is (combine (combine la lb) lc) in
  map fst ds = is /\ forall d, In d ds -> P (fst d) (fst (fst (snd d))) /\ Q (fst d) (snd (fst (snd d))) /\ R (fst d) (snd (snd d)).
Proof.
  induction is as [|i is IH]; intros la lb lc H1 H2 H3; inversion H1; inversion H2; inversion H3; subst; cbn zeta; cbn [combine map fst].
  - split; [reflexivity | intros d []].
  - match goal with A : Forall2 P is ?l1, B : Forall2 Q is ?l2, C : Forall2 R is ?l3 |- _ => destruct (IH l1 l2 l3 A B C) as [I1 I2] end.
    split; [rewrite I1; reflexivity|]. intros d [<-|Hd]; [cbn [fst snd]; auto | exact (I2 d Hd)].
Qed.

Lemma made_names_ok h T f tables h0 hc out i tb : made T f h0 hc out -> names_of h f tables out i tb -> names_ok hc f tb.
Proof. intros (bss & _ & _ & N) (I & _) x d Hd. destruct (N d (I x d Hd)) as (y & s & L & B). exists s, y. tauto. Qed.
Lemma names_ok_grows f tb hb hc l : names_ok hb f tb -> grows hb hc l -> names_ok hc f tb.
Proof.
  intros Hn G x d Hd. destruct (Hn x d Hd) as (s & y & Ls & Hy). exists s, y. split; [|exact Hy].
  rewrite (grows_keep _ _ _ _ G); [exact Ls | unfold live; rewrite Ls; discriminate].
Qed.
Lemma values_grows hb hc l ids : values hb ids -> grows hb hc l -> values hc ids.
Proof.
  intros V G x v Hv. destruct (V x v Hv) as (k & Lk). exists k. rewrite (grows_keep _ _ _ _ G); [exact Lk|].
  unfold live. rewrite Lk. discriminate.
Qed.

Section Whole.
Variable malloc : heap -> addr.
Hypothesis Hfresh : fresh malloc.
Variable fill : heap -> string -> Z -> struct.
Variables same_array same_wave : heap -> addr -> addr -> bool.
Variable rename : string -> Z -> string.
Variables (h : heap) (t : addr).

Lemma plain_names : plain (shape_of KArray) "arrname" /\ plain (shape_of KWavelength) "insname" /\ plain (shape_of KCorr) "corrname".
Proof.
  assert (X : forall c l f, c <> f -> ~ In f l -> plain (flat c l) f).
  { intros c l f Hc Hl. unfold plain, flat. cbn [sh_count sh_arrays sh_vectors].
    repeat split; try (intros; reflexivity); try assumption; try (intros Y; apply Hc; exact Y); try (intros Y; apply Hc; symmetry; exact Y). }
  split; [|split]; apply X; try discriminate; cbn; intuition discriminate.
Qed.

Lemma renamings ids : (rename_inspol ids = renaming KInspol ids) /\ (rename_data ids = renaming KVis ids)
  /\ (rename_data ids = renaming KVis2 ids) /\ (rename_data ids = renaming KT3 ids) /\ (rename_data ids = renaming KFlux ids).
Proof. repeat split. Qed.

Theorem merge_storage is st : (forall i, In i is -> input h t i) -> few_targets h is ->
  lookup h t = Some [st] -> getf st "ntarget" <> None -> getf st "targ" <> None ->
  exists o h' ts bss, merge_oi_fits_list malloc fill same_array same_wave rename is t h = Ok (o, h')
    /\ fp_targets o = t /\ output_at h' o ts bss
    /\ (forall a, a <> t -> live h a -> lookup h' a = lookup h a)
    /\ (forall a, In a (blocks o ts bss) <-> (~ live h a /\ live h' a))
    /\ (forall g, In g [fp_inspol; fp_vis; fp_vis2; fp_t3; fp_flux] -> List.length (g o) = List.length (flat_map g is)).
Proof.
  intros Hi (names & Hfew & Hnames) Lt M1 M2. unfold merge_oi_fits_list.
  destruct (merge_targets_ok malloc Hfresh fill h t names is st Hi) as [[_ X]|(ids & h1 & hz & ts & E1 & Z1 & Z2 & Z3 & Z4 & Z5 & Z6 & _)]; try assumption.
  { intros i x Hin (rows & r & R1 & R2 & R3). exact (Hnames i rows r x Hin R1 R2 R3). }
  { exfalso. unfold many in X. lia. }
  rewrite E1. cbn [bind fst snd]. clear E1 Hnames.
  assert (S1 : sees h t h1).
  { intros a La Na. rewrite (grows_keep _ _ _ _ Z3); [apply Z1, Na|]. unfold live. rewrite Z1 by exact Na. exact La. }
  destruct plain_names as (PA & PW & PC).
  assert (Hmg : forall i, In i is -> mergeable h i) by (intros i Hin; destruct (Hi i Hin) as (? & ? & _ & X & _); exact X).
  (* tables with names *)
  destruct (merge_all_named_ok malloc Hfresh rename h t KArray same_array "arrname" fp_array is h1 PA Hi S1) as (ha & oa & h2 & E2 & M2a & Na).
  { intros i p Hin Hp. split; [apply listed_in; tauto | exact (mg_array _ _ (Hmg i Hin) p Hp)]. }
  unfold merge_all_oi_array. cbn [dup_of] in E2. rewrite E2. cbn [bind fst snd].
  pose proof M2a as (ba & Oa & Ga & _). pose proof (sees_grows _ _ _ _ _ S1 Ga) as S2.
  destruct (merge_all_named_ok malloc Hfresh rename h t KWavelength same_wave "insname" fp_wavelength is h2 PW Hi S2) as (hw & ow & h3 & E3 & M3a & Nw).
  { intros i p Hin Hp. split; [apply listed_in; tauto | exact (mg_wavelength _ _ (Hmg i Hin) p Hp)]. }
  unfold merge_all_oi_wavelength. cbn [dup_of] in E3. rewrite E3. cbn [bind fst snd].
  pose proof M3a as (bw & Ow & Gw & _). pose proof (sees_grows _ _ _ _ _ S2 Gw) as S3.
  destruct (merge_all_named_ok malloc Hfresh rename h t KCorr (fun _ _ _ => false) "corrname" fp_corr is h3 PC Hi S3) as (hc & oc & h4 & E4 & M4a & Nc).
  { intros i p Hin Hp. split; [apply listed_in; tauto | exact (mg_corr _ _ (Hmg i Hin) p Hp)]. }
  unfold merge_all_oi_corr. cbn [dup_of] in E4. rewrite E4. cbn [bind fst snd].
  pose proof M4a as (bc & Oc & Gc & _). pose proof (sees_grows _ _ _ _ _ S3 Gc) as S4.
  clear E2 E3 E4.
  set (ds := combine is (combine (combine ha hw) hc)).
  destruct (combine_hashes _ _ _ is ha hw hc Na Nw Nc) as [Hds Hdi]. fold ds in Hds, Hdi.
  assert (T4 : forall d, In d ds -> input h t (fst d) /\ tables_ok h h4 ids (fst d) (snd d)).
  { intros d Hd. assert (Hin : In (fst d) is) by (rewrite <- Hds; apply in_map, Hd). split; [exact (Hi _ Hin)|].
    destruct (Hdi d Hd) as (A & B & C). constructor.
    - eapply names_ok_grows; [|exact Gc]. eapply names_ok_grows; [|exact Gw]. exact (made_names_ok _ _ _ _ _ _ _ _ _ M2a A).
    - eapply names_ok_grows; [|exact Gc]. exact (made_names_ok _ _ _ _ _ _ _ _ _ M3a B).
    - exact (made_names_ok _ _ _ _ _ _ _ _ _ M4a C).
    - exact (proj2 A). - exact (proj2 B). - exact (proj2 C).
    - eapply values_grows; [|exact Gc]. eapply values_grows; [|exact Gw]. eapply values_grows; [exact Z5 | exact Ga].
    - intros x. apply Z6, Hin. }
  assert (Lens : forall g : fits_ptrs -> list addr, List.length (flat_map (fun d : fits_ptrs * name_hashes => g (fst d)) ds) = List.length (flat_map g is)).
  { intros g. rewrite <- Hds. clear. induction ds as [|d ds IH]; [reflexivity|]. cbn [flat_map map]. rewrite !app_length, IH. reflexivity. }
  clearbody ds. clear Hds Hdi Na Nw Nc M2a M3a M4a ha hw hc.
  (* tables with data *)
  destruct (merge_all_data_ok malloc Hfresh rename h t KInspol ids ds h4) as (op & h5 & bp & E5 & Op & Gp & Lp); [cbn; tauto | exact S4 | exact T4|].
  cbn [dup_of renaming tables] in E5. rewrite E5. cbn [bind fst snd].
  pose proof (sees_grows _ _ _ _ _ S4 Gp) as S5.
  assert (T5 : forall d, In d ds -> input h t (fst d) /\ tables_ok h h5 ids (fst d) (snd d)).
  { intros d Hd. split; [apply T4, Hd | exact (tables_ok_grows _ _ _ _ _ _ _ (proj2 (T4 d Hd)) Gp)]. }
  destruct (merge_all_data_ok malloc Hfresh rename h t KVis ids ds h5) as (ov & h6 & bv & E6 & Ov & Gv & Lv); [cbn; tauto | exact S5 | exact T5|].
  cbn [dup_of renaming tables] in E6. rewrite E6. cbn [bind fst snd].
  pose proof (sees_grows _ _ _ _ _ S5 Gv) as S6.
  assert (T6 : forall d, In d ds -> input h t (fst d) /\ tables_ok h h6 ids (fst d) (snd d)).
  { intros d Hd. split; [apply T4, Hd | exact (tables_ok_grows _ _ _ _ _ _ _ (proj2 (T5 d Hd)) Gv)]. }
  destruct (merge_all_data_ok malloc Hfresh rename h t KVis2 ids ds h6) as (ov2 & h7 & bv2 & E7 & Ov2 & Gv2 & Lv2); [cbn; tauto | exact S6 | exact T6|].
  cbn [dup_of renaming tables] in E7. rewrite E7. cbn [bind fst snd].
  pose proof (sees_grows _ _ _ _ _ S6 Gv2) as S7.
  assert (T7 : forall d, In d ds -> input h t (fst d) /\ tables_ok h h7 ids (fst d) (snd d)).
  { intros d Hd. split; [apply T4, Hd | exact (tables_ok_grows _ _ _ _ _ _ _ (proj2 (T6 d Hd)) Gv2)]. }
  destruct (merge_all_data_ok malloc Hfresh rename h t KT3 ids ds h7) as (ot3 & h8 & bt3 & E8 & Ot3 & Gt3 & Lt3); [cbn; tauto | exact S7 | exact T7|].
  cbn [dup_of renaming tables] in E8. rewrite E8. cbn [bind fst snd].
  pose proof (sees_grows _ _ _ _ _ S7 Gt3) as S8.
  assert (T8 : forall d, In d ds -> input h t (fst d) /\ tables_ok h h8 ids (fst d) (snd d)).
  { intros d Hd. split; [apply T4, Hd | exact (tables_ok_grows _ _ _ _ _ _ _ (proj2 (T7 d Hd)) Gt3)]. }
  destruct (merge_all_data_ok malloc Hfresh rename h t KFlux ids ds h8) as (ofx & h9 & bfx & E9 & Ofx & Gfx & Lfx); [cbn; tauto | exact S8 | exact T8|].
  cbn [dup_of renaming tables] in E9. rewrite E9. cbn [bind fst snd].
  cbn [tables] in *. rewrite Lens in Lp, Lv, Lv2, Lt3, Lfx.
  clear E5 E6 E7 E8 E9 T4 T5 T6 T7 T8 S2 S3 S4 S5 S6 S7 S8.
  (* all of them *)
  cbn [shape_of] in *.
  set (gs := [(flux_shape, ofx, bfx); (t3_shape, ot3, bt3); (vis2_shape, ov2, bv2); (vis_shape, ov, bv); (inspol_shape, op, bp);
              (corr_shape, oc, bc); (wavelength_shape, ow, bw); (array_shape, oa, ba)] : list group).
  assert (H9 : held h1 h9 gs []).
  { unfold gs.
    apply (held_add h1 h8 h9 _ [] [] (flux_shape, ofx, bfx)); [|exact Ofx | exact Gfx].
    apply (held_add h1 h7 h8 _ [] [] (t3_shape, ot3, bt3)); [|exact Ot3 | exact Gt3].
    apply (held_add h1 h6 h7 _ [] [] (vis2_shape, ov2, bv2)); [|exact Ov2 | exact Gv2].
    apply (held_add h1 h5 h6 _ [] [] (vis_shape, ov, bv)); [|exact Ov | exact Gv].
    apply (held_add h1 h4 h5 _ [] [] (inspol_shape, op, bp)); [|exact Op | exact Gp].
    apply (held_add h1 h3 h4 _ [] [] (corr_shape, oc, bc)); [|exact Oc | exact Gc].
    apply (held_add h1 h2 h3 _ [] [] (wavelength_shape, ow, bw)); [|exact Ow | exact Gw].
    apply (held_add h1 h1 h2 _ [] [] (array_shape, oa, ba)); [apply held_nil | exact Oa | exact Ga]. }
  apply (held_perm _ _ _ _ _ (Permutation_rev gs)) in H9. cbn [rev gs app] in H9. subst gs. cbn [rev app] in H9.
  match type of H9 with held _ _ ?l _ => set (gs := l : list group) in * end.
  destruct H9 as [F G]. rewrite app_nil_r in G.
  pose proof (grows_app _ _ _ _ _ Z3 G) as GG.
  destruct (destroy_ids_ok hz ids h9 _ (ts ++ flat_map g_blocks gs) GG) as (h' & E' & G' & K').
  { rewrite <- app_assoc, !app_assoc. apply Permutation_app_tail, Permutation_app_comm. }
  rewrite E'. cbn [bind].
  assert (F' : Forall (g_owned h') gs).
  { eapply held_frame; [exact F|]. intros a Ha. apply K', in_app_iff. right. exact Ha. }
  assert (Tt : targets_at h' t ts).
  { assert (Hk : forall a, In a (t :: ts) -> lookup h' a = lookup h1 a).
    { intros a [<-|Ha].
      - rewrite (grows_keep _ _ _ _ G' Z2), (grows_keep _ _ _ _ Z3 Z2). reflexivity.
      - rewrite K' by (apply in_app_iff; left; exact Ha). apply (grows_keep _ _ _ _ G), Z3, in_app_iff. left. exact Ha. }
    destruct Z4 as [Z4|(-> & s0 & A & B & C)]; [left; eapply owned_frame; eassumption | right].
    split; [reflexivity|]. exists s0. split; [rewrite Hk by (left; reflexivity); exact A | split; assumption]. }
  clear - F' G' Tt Z1 Z2 Lt Lp Lv Lv2 Lt3 Lfx. set (o := mk_ptrs t oa ow oc op ov ov2 ot3 ofx).
  exists o, h', ts, (flat_map snd gs). split; [reflexivity|]. split; [reflexivity|].
  assert (Hm : map snd (listed o) = flat_map (fun g : group => snd (fst g)) gs).
  { unfold listed, o, gs. cbn [fp_array fp_wavelength fp_corr fp_inspol fp_vis fp_vis2 fp_t3 fp_flux flat_map fst snd].
    rewrite !map_app, !map_map. cbn [snd]. rewrite !map_id, app_nil_r. reflexivity. }
  assert (Hl : listed o = flat_map (fun g : group => map (pair (fst (fst g))) (snd (fst g))) gs).
  { unfold listed, o, gs. cbn [fp_array fp_wavelength fp_corr fp_inspol fp_vis fp_vis2 fp_t3 fp_flux flat_map fst snd].
    rewrite app_nil_r. reflexivity. }
  assert (GG : grows hz h' (blocks o ts (flat_map snd gs))).
  { eapply grows_perm; [|exact G']. unfold blocks. apply Permutation_app_head. rewrite Hm. apply blocks_perm. }
  assert (Nt : ~ In t (blocks o ts (flat_map snd gs))) by (intros X; exact (proj1 (proj1 (proj2 GG) t X) Z2)).
  split; [|split; [|split]].
  - constructor.
    + exact Tt.
    + rewrite Hl. clear - F'. induction F' as [|g gs Hg F IH]; [constructor|]. cbn [flat_map]. apply Forall2_app; [|exact IH].
      clear - Hg. unfold g_owned in Hg. destruct g as [[T l] b]. cbn [fst snd] in *.
      induction Hg as [|p bs l b H Hg IH]; constructor; assumption.
    + change (fp_targets o) with t. constructor; [exact Nt | exact (proj1 GG)].
  - intros a Ha Hn. rewrite (grows_keep _ _ _ _ GG); [apply Z1, Ha|]. unfold live. rewrite Z1 by exact Ha. exact Hn.
  - intros a. rewrite (grows_new _ _ _ a GG). destruct (Z.eq_dec a t) as [->|Ha]; [|unfold live; rewrite Z1 by exact Ha; reflexivity].
    assert (L' : live h' t) by (apply (grows_live _ _ _ _ GG Z2)).
    split; [intros [X _]; contradiction|]. intros [X _]. exfalso. apply X. unfold live. rewrite Lt. discriminate.
  - intros g Hg. cbn in Hg. repeat (destruct Hg as [<-|Hg]; [assumption|]). contradiction.
Qed.
(** ** Too many targets *)
Definition names_at (i : fits_ptrs) : list string :=
  match lookup h (fp_targets i) with
  | Some [s] =>
      match getf s "targ" with
      | Some (Ptr (Some a)) =>
          match lookup h a with
          | Some rows => flat_map (fun r => match bytes r "target" with Some x => [x] | None => [] end) rows
          | None => []
          end
      | _ => []
      end
  | _ => []
  end.
Lemma names_at_all i x : row_names h i x -> In x (names_at i).
Proof.
  intros (rows & r & (s & a & A & B & C) & Hr & Hx). unfold names_at. rewrite A, B, C. apply in_flat_map.
  exists r. rewrite Hx. split; [exact Hr | left; reflexivity].
Qed.

Theorem merge_many is st : (forall i, In i is -> input h t i) -> ~ few_targets h is ->
  lookup h t = Some [st] -> getf st "ntarget" <> None -> getf st "targ" <> None ->
  merge_oi_fits_list malloc fill same_array same_wave rename is t h = Abort.
Proof.
  intros Hi Hmany Lt M1 M2. unfold merge_oi_fits_list.
  destruct (merge_targets_ok malloc Hfresh fill h t (flat_map names_at is) is st Hi) as [[X _]|(ids & h1 & hz & ts & _ & _ & _ & _ & _ & _ & Z6 & Z7)]; try assumption.
  { intros i x Hin Hx. apply in_flat_map. exists i. split; [exact Hin | exact (names_at_all i x Hx)]. }
  { rewrite X. reflexivity. }
  exfalso. apply Hmany. exists (map fst ids). split; [rewrite map_length; exact Z7|].
  intros i rows r x Hin R1 R2 R3. pose proof (Z6 i x Hin (ex_intro _ rows (ex_intro _ r (conj R1 (conj R2 R3))))) as K.
  unfold known in K. clear - K. induction ids as [|[k v] ids IH]; [exfalso; apply K; reflexivity|]. cbn [find_ptr] in K.
  cbn [map fst]. destruct (str_eqb k x) eqn:E; [left; apply str_eqb_eq, E | right; exact (IH K)].
Qed.
End Whole.
