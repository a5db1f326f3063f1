(** Copying and freeing for each kind of table; concrete cases. *)
From Coq Require Import Lia.
From Verif Require Import HeapSpec BaseLemmas HeapProofs HeapDup HeapTables HeapFree HeapAlloc.
Open Scope Z_scope.

Lemma of_nwave_record names s q : of_nwave names (setf s "record" (Ptr q)) = of_nwave names s.
Proof. unfold of_nwave. rewrite num_setf. reflexivity. Qed.
Lemma map_fst_pair (l : list string) (w : Z) : map fst (map (fun f => (f, w)) l) = l.
Proof. rewrite map_map. apply map_id. Qed.

Lemma simple_records names : NoDup names ->
  copies (records (of_nwave names)) []
    (fun malloc => dup_records malloc (fun _ _ => Ok (map same names))).
Proof.
  intros Hd. apply dup_records_copies; [apply of_nwave_record|].
  intros s vs Hk. unfold of_nwave in Hk. destruct (num s "nwave") as [w|] eqn:Ew; [|discriminate].
  injection Hk as <-. rewrite map_fst_pair. split; [exact Hd|].
  exists (map same names), w. split; [reflexivity|]. split; [|reflexivity].
  assert (H : forall l, incl l names ->
            Forall2 (call_for [] w (map (fun f => (f, w)) names)) (map same l) (map (fun f => (f, w)) l)).
  { induction l as [|f l IH]; intros Hi; cbn [map]; constructor.
    - unfold call_for, same. cbn [fst snd]. split; [reflexivity|]. split.
      + apply in_map_iff. exists f. split; [reflexivity | apply Hi; left; reflexivity].
      + split; [reflexivity | left; reflexivity].
    - apply IH. intros x Hx. apply Hi. right. exact Hx. }
  apply H, incl_refl.
Qed.
Lemma simple_free names : frees (records (of_nwave names)) (free_records (fun _ _ => Ok names)).
Proof.
  apply free_records_frees. intros s vs Hk h p _. unfold of_nwave in Hk.
  destruct (num s "nwave"); [|discriminate]. injection Hk as <-. rewrite map_fst_pair. reflexivity.
Qed.

Lemma dup_vis_copies : copies vis_shape ["iviserr"%string] dup_oi_vis.
Proof.
  unfold vis_shape, dup_oi_vis. apply dup_records_copies.
  - intros s q. rewrite !num_setf. reflexivity.
  - intros s vs Hk. cbv beta in Hk.
    destruct (num s "nwave") as [w|] eqn:Ew; [|discriminate].
    destruct (num s "usevisrefmap") as [m|] eqn:Em; [|discriminate].
    destruct (num s "usecomplex") as [c|] eqn:Ec; [|discriminate].
    injection Hk as <-. split; [destruct (m =? 0), (c =? 0); nodup|].
    eexists. exists w. split; [reflexivity|]. split; cycle 1.
    + intros h p Hp. rewrite (load_num_at h p s _ m Hp Em). cbn [bind].
      rewrite (load_num_at h p s _ c Hp Ec). cbn [bind]. reflexivity.
    + destruct (m =? 0), (c =? 0); cbn [map app];
        repeat (apply Forall2_cons; [unfold call_for, same; cbn; repeat split; tauto|]); apply Forall2_nil.
Qed.
Lemma free_vis_frees : frees vis_shape free_oi_vis.
Proof.
  unfold vis_shape, free_oi_vis. apply free_records_frees. intros s vs Hk h p Hp. cbv beta in Hk.
  destruct (num s "nwave") as [w|] eqn:Ew; [|discriminate].
  destruct (num s "usevisrefmap") as [m|] eqn:Em; [|discriminate].
  destruct (num s "usecomplex") as [c|] eqn:Ec; [|discriminate]. injection Hk as <-.
  rewrite (load_num_at h p s _ m Hp Em). cbn [bind]. rewrite (load_num_at h p s _ c Hp Ec). cbn [bind].
  destruct (m =? 0), (c =? 0); reflexivity.
Qed.

Theorem dup_copies k : copies (shape_of k) (not_copied k) (dup_of k).
Proof.
  destruct k; cbn [shape_of not_copied dup_of].
  - apply (dup_flat_copies "ntarget" ["targ"%string]); [nodup | cbn; intros [H|[]]; discriminate].
  - apply (dup_flat_copies "nelement" ["elem"%string]); [nodup | cbn; intros [H|[]]; discriminate].
  - apply (dup_flat_copies "nwave" ["eff_wave"; "eff_band"]%string); [nodup | cbn; intros [H|[H|[]]]; discriminate].
  - apply (dup_flat_copies "ncorr" ["iindx"; "jindx"; "corr"]%string); [nodup | cbn; intros [H|[H|[H|[]]]]; discriminate].
  - apply simple_records. nodup.
  - exact dup_vis_copies.
  - apply simple_records. nodup.
  - apply simple_records. nodup.
  - apply simple_records. nodup.
Qed.
Theorem free_frees k : frees (shape_of k) (free_of k).
Proof.
  destruct k; cbn [shape_of free_of]; try apply free_flat_frees; try apply simple_free. exact free_vis_frees.
Qed.

(** ** Independence *)

Lemma table_live T h p s n vs arrs vecs : table_at T h p s n vs arrs vecs ->
  forall a, In a (p :: storage arrs vecs) -> live h a.
Proof.
  intros Ht a [<-|Ha]; [unfold live; rewrite (ta_struct _ _ _ _ _ _ _ _ Ht); discriminate|].
  apply in_app_iff in Ha. destruct Ha as [Ha|Ha]; apply in_map_iff in Ha; destruct Ha as (e & <- & He).
  - pose proof (ta_arrays _ _ _ _ _ _ _ _ Ht) as X. clear - X He.
    induction X as [|f e0 fs l H X IH]; [contradiction|]. destruct He as [->|He]; [eapply points_live, H | apply IH, He].
  - apply in_concat in He. destruct He as (es & Hes & He).
    pose proof (ta_vectors _ _ _ _ _ _ _ _ Ht) as X. clear - X Hes He.
    induction X as [|r es0 rs l H X IH]; [contradiction|]. destruct Hes as [->|Hes]; [|apply IH, Hes].
    clear - H He. induction H as [|v e0 vs es H _ IH]; [contradiction|].
    destruct He as [->|He]; [eapply points_live, H | apply IH, He].
Qed.

Lemma discard_ok k h p s n vs arrs vecs : table_at (shape_of k) h p s n vs arrs vecs ->
  exists h', discard k p h = Ok h' /\ without h h' (p :: storage arrs vecs).
Proof.
  intros Ht. destruct (free_frees k h p s n vs arrs vecs Ht) as (h1 & E1 & W1).
  assert (Np : ~ In p (storage arrs vecs)).
  { pose proof (ta_distinct _ _ _ _ _ _ _ _ Ht) as X. inversion X; assumption. }
  destruct (free_one h1 p) as (h2 & E2 & V).
  { unfold live. rewrite (proj2 W1) by exact Np. rewrite (ta_struct _ _ _ _ _ _ _ _ Ht). discriminate. }
  exists h2. unfold discard. rewrite E1. cbn [bind]. split; [exact E2|].
  eapply without_perm; [|eapply without_app; [exact W1 | exact V]].
  intros a. rewrite in_app_iff. cbn. tauto.
Qed.

Theorem dup_discard k malloc h p s n vs arrs vecs :
  fresh malloc -> table_at (shape_of k) h p s n vs arrs vecs -> 0 < n -> Forall (fun v => 0 < snd v) vs ->
  exists p' h1 h2, dup_of k malloc p h = Ok (p', h1) /\ discard k p' h1 = Ok h2
    /\ forall a, lookup h2 a = lookup h a.
Proof.
  intros Hf Ht Hn Hv.
  destruct (dup_copies k malloc h p s n vs arrs vecs Hf Ht Hn Hv) as (p' & h1 & s' & arrs' & vecs' & E & Ht' & _ & Ho & Hi).
  destruct (discard_ok k h1 p' s' n vs arrs' vecs' Ht') as (h2 & E2 & W1 & W2).
  exists p', h1, h2. split; [exact E|]. split; [exact E2|]. intros a.
  destruct (in_dec Z.eq_dec a (p' :: storage arrs' vecs')) as [Ha|Ha].
  - pose proof (W1 a Ha) as X. apply Hi in Ha. destruct Ha as [Y _]. unfold live in X, Y.
    destruct (lookup h2 a), (lookup h a); try reflexivity; exfalso; [apply X | apply X | apply Y]; discriminate.
  - rewrite W2 by exact Ha. destruct (lookup h a) eqn:Ea.
    + rewrite Ho, Ea; [reflexivity | unfold live; rewrite Ea; discriminate].
    + destruct (lookup h1 a) eqn:E1; [|reflexivity]. exfalso. apply Ha, Hi. unfold live. rewrite Ea, E1.
      split; [intros X; apply X; reflexivity | discriminate].
Qed.

Theorem discard_original k malloc h p s n vs arrs vecs :
  fresh malloc -> table_at (shape_of k) h p s n vs arrs vecs -> 0 < n -> Forall (fun v => 0 < snd v) vs ->
  exists p' h1 h2 s' arrs' vecs',
    dup_of k malloc p h = Ok (p', h1) /\ discard k p h1 = Ok h2
    /\ table_at (shape_of k) h2 p' s' n vs arrs' vecs'
    /\ same_contents (shape_of k) (not_copied k) vs s s' arrs arrs' vecs vecs'.
Proof.
  intros Hf Ht Hn Hv.
  destruct (dup_copies k malloc h p s n vs arrs vecs Hf Ht Hn Hv) as (p' & h1 & s' & arrs' & vecs' & E & Ht' & Hc & Ho & Hi).
  pose proof (table_live _ _ _ _ _ _ _ _ Ht) as Hlive.
  assert (Ht1 : table_at (shape_of k) h1 p s n vs arrs vecs).
  { eapply table_at_frame; [exact Ht|]. intros a Ha. apply Ho, Hlive, Ha. }
  destruct (discard_ok k h1 p s n vs arrs vecs Ht1) as (h2 & E2 & W1 & W2).
  exists p', h1, h2, s', arrs', vecs'. split; [exact E|]. split; [exact E2|]. split; [|exact Hc].
  eapply table_at_frame; [exact Ht'|]. intros a Ha. apply W2. intros Hb.
  apply Hi in Ha. apply (proj1 Ha), Hlive, Hb.
Qed.

Theorem ops_elsewhere T malloc ops : forall h h' p s n vs arrs vecs,
  fresh malloc -> table_at T h p s n vs arrs vecs ->
  (forall o a, In o ops -> In a (p :: storage arrs vecs) -> ~ touches o a) ->
  foreach ops (run_op malloc) h = Ok h' -> table_at T h' p s n vs arrs vecs.
Proof.
  induction ops as [|o ops IH]; intros h h' p s n vs arrs vecs Hf Ht Hno E.
  - cbn in E. injection E as <-. exact Ht.
  - cbn [foreach] in E. destruct (run_op malloc o h) as [h1| |] eqn:E1; cbn [bind] in E; try discriminate.
    eapply IH; [exact Hf | | intros o' a Ho Ha; apply Hno; [right; exact Ho | exact Ha] | exact E].
    pose proof (table_live _ _ _ _ _ _ _ _ Ht) as Hl.
    eapply table_at_frame; [exact Ht|]. intros a Ha.
    pose proof (Hno o a (or_introl eq_refl) Ha) as Hn. specialize (Hl a Ha).
    destruct o as [x b|x|b]; cbn [run_op touches] in *.
    + destruct (lookup h x); [|discriminate]. injection E1 as <-. rewrite lookup_replace.
      destruct (Z.eqb_spec x a); [contradiction | reflexivity].
    + unfold free in E1. destruct (lookup h x); [|discriminate]. injection E1 as <-. rewrite lookup_remove.
      destruct (Z.eqb_spec x a); [contradiction | reflexivity].
    + injection E1 as <-. rewrite lookup_cons. destruct (Z.eqb_spec (malloc h) a); [|reflexivity].
      subst a. exfalso. apply Hl, Hf.
Qed.

(** ** Datasets *)

Lemma free_groups (gs : list (shape * (addr -> heap -> res heap) * list addr)) :
  Forall (fun g => frees (fst (fst g)) (snd (fst g))) gs ->
  forall h bss,
    let l := flat_map (fun g => map (pair (fst (fst g))) (snd g)) gs in
    Forall2 (fun t bs => owned (fst t) h (snd t) bs) l bss -> NoDup (map snd l ++ concat bss) ->
    exists h', foreach gs (fun g h => free_list (snd (fst g)) (snd g) h) h = Ok h'
      /\ without h h' (map snd l ++ concat bss).
Proof.
  intros Hg. induction Hg as [|[[T fr] l] gs H Hg IH]; intros h bss; cbn [flat_map fst snd].
  - intros Ho _. inversion Ho; subst. exists h. split; [reflexivity | apply without_nil].
  - intros Ho Hnd. apply Forall2_app_inv_l in Ho. destruct Ho as (b1 & b2 & O1 & O2 & ->).
    rewrite map_app, map_map, concat_app in Hnd. cbn [snd] in Hnd. rewrite map_id in Hnd.
    set (l2 := flat_map (fun g => map (pair (fst (fst g))) (snd g)) gs) in *.
    assert (Hpm : Permutation.Permutation ((l ++ map snd l2) ++ concat b1 ++ concat b2)
                    ((l ++ concat b1) ++ map snd l2 ++ concat b2)).
    { rewrite <- !app_assoc. apply Permutation.Permutation_app_head. rewrite !app_assoc.
      apply Permutation.Permutation_app_tail, Permutation.Permutation_app_comm. }
    pose proof (Permutation.Permutation_NoDup Hpm Hnd) as Hnd'.
    destruct (free_list_ok T fr H l b1 h) as (h1 & E1 & W1).
    { clear - O1. remember (map (pair T) l) as m eqn:Em. revert l Em.
      induction O1 as [|t bs m b1 H O1 IH]; intros [|p l] Em; try discriminate; constructor.
      - injection Em as -> _. exact H.
      - apply IH. injection Em as _ ->. reflexivity. }
    { clear - Hnd'. induction (l ++ concat b1) as [|x m IH]; [constructor|].
      inversion Hnd' as [|? ? N1 N2]; subst. constructor; [intros X; apply N1, in_app_iff; left; exact X | apply IH, N2]. }
    assert (Hdis : forall a, In a (map snd l2 ++ concat b2) -> ~ In a (l ++ concat b1)).
    { intros a Ha Hx. clear - Hnd' Ha Hx. induction (l ++ concat b1) as [|x m IH]; [contradiction|].
      inversion Hnd' as [|? ? N1 N2]; subst. destruct Hx as [->|Hx]; [|apply IH; assumption].
      apply N1, in_app_iff. right. exact Ha. }
    destruct (IH h1 b2) as (h' & E2 & W2).
    { fold l2. assert (Hfr : forall t bs, In t l2 -> In bs b2 -> owned (fst t) h (snd t) bs -> owned (fst t) h1 (snd t) bs).
      { intros t bs Ht Hbs Hot. eapply owned_frame; [exact Hot|]. intros a Ha. apply W1, Hdis, in_app_iff.
        destruct Ha as [<-|Ha]; [left; apply in_map, Ht | right; apply in_concat; exists bs; tauto]. }
      clear - O2 Hfr. induction O2 as [|t bs l b H O IH]; constructor.
      - apply Hfr; [left; reflexivity | left; reflexivity | exact H].
      - apply IH. intros t' bs' Ht Hbs. apply Hfr; right; assumption. }
    { fold l2. clear - Hnd'. induction (l ++ concat b1) as [|x m IH]; [exact Hnd'|]. apply IH. inversion Hnd'; assumption. }
    fold l2 in W2.
    exists h'. cbn [foreach fst snd]. rewrite E1. cbn [bind]. split; [exact E2|].
    eapply without_perm; [|eapply without_app; [exact W1 | exact W2]].
    intros a. rewrite map_app, map_map, concat_app. cbn [snd]. rewrite map_id, !in_app_iff. tauto.
Qed.

Lemma bind_ok_id {A} (x : res A) : bind x (fun a => Ok a) = x.
Proof. destruct x; reflexivity. Qed.

Theorem free_dataset h o ts bss : dataset_at h o ts bss ->
  exists h', free_oi_fits o h = Ok h'
    /\ (forall a, In a (ts ++ map snd (listed o) ++ concat bss) -> ~ live h' a)
    /\ (forall a, ~ In a (ts ++ map snd (listed o) ++ concat bss) -> lookup h' a = lookup h a).
Proof.
  intros [(s & n & vs & arrs & vecs & Ht & ->) Hl Hnd].
  destruct (free_frees KTarget h _ s n vs arrs vecs Ht) as (h1 & E1 & W1).
  set (gs := [(array_shape, free_oi_array, fp_array o); (wavelength_shape, free_oi_wavelength, fp_wavelength o);
              (corr_shape, free_oi_corr, fp_corr o); (inspol_shape, free_oi_inspol, fp_inspol o);
              (vis_shape, free_oi_vis, fp_vis o); (vis2_shape, free_oi_vis2, fp_vis2 o);
              (t3_shape, free_oi_t3, fp_t3 o); (flux_shape, free_oi_flux, fp_flux o)]).
  assert (Hgs : flat_map (fun g : shape * (addr -> heap -> res heap) * list addr =>
                  map (pair (fst (fst g))) (snd g)) gs = listed o).
  { unfold gs, listed. cbn [flat_map fst snd]. rewrite app_nil_r. reflexivity. }
  destruct (free_groups gs) with (h := h1) (bss := bss) as (h' & E2 & W2).
  { unfold gs. repeat apply Forall_cons; try apply Forall_nil; cbn [fst snd].
    - exact (free_frees KArray). - exact (free_frees KWavelength). - exact (free_frees KCorr).
    - exact (free_frees KInspol). - exact (free_frees KVis). - exact (free_frees KVis2).
    - exact (free_frees KT3). - exact (free_frees KFlux). }
  { rewrite Hgs. inversion Hnd as [|? ? _ Hnd1]; subst x l.
    assert (Hfr : forall t bs, In t (listed o) -> In bs bss -> owned (fst t) h (snd t) bs -> owned (fst t) h1 (snd t) bs).
    { intros t bs Hti Hbs Hot. eapply owned_frame; [exact Hot|]. intros a Ha. apply W1. intros Hx.
      assert (Ha' : In a (map snd (listed o) ++ concat bss)).
      { apply in_app_iff. destruct Ha as [<-|Ha]; [left; apply in_map, Hti | right; apply in_concat; exists bs; tauto]. }
      clear - Hnd1 Hx Ha'. induction (storage arrs vecs) as [|y m IH]; [contradiction|].
      inversion Hnd1 as [|? ? N1 N2]; subst. destruct Hx as [->|Hx]; [|apply IH; assumption].
      apply N1, in_app_iff. right. exact Ha'. }
    clear - Hl Hfr. induction Hl as [|t bs l b H O IH]; constructor.
    - apply Hfr; [left; reflexivity | left; reflexivity | exact H].
    - apply IH. intros t' bs' Ht Hbs. apply Hfr; right; assumption. }
  { rewrite Hgs. inversion Hnd as [|? ? _ Hnd1]; subst x l. clear - Hnd1.
    induction (storage arrs vecs) as [|y m IH]; [exact Hnd1|]. apply IH. inversion Hnd1; assumption. }
  rewrite Hgs in W2. exists h'. split.
  - unfold free_oi_fits. cbn [free_of] in E1. rewrite E1. cbn [bind].
    rewrite <- E2. unfold gs. cbn [foreach fst snd].
    repeat (match goal with |- bind ?x _ = bind ?x _ => destruct x; cbn [bind]; try reflexivity end).
    symmetry. apply bind_ok_id.
  - eapply without_app; eassumption.
Qed.

Theorem use_one_keep_other k malloc h p s n vs arrs vecs :
  fresh malloc -> table_at (shape_of k) h p s n vs arrs vecs -> 0 < n -> Forall (fun v => 0 < snd v) vs ->
  exists p' h1 s' arrs' vecs',
    dup_of k malloc p h = Ok (p', h1)
    /\ (forall ops h2, (forall o a, In o ops -> touches o a -> live h a) ->
          foreach ops (run_op malloc) h1 = Ok h2 -> table_at (shape_of k) h2 p' s' n vs arrs' vecs')
    /\ (forall ops h2, (forall o a, In o ops -> touches o a -> ~ live h a) ->
          foreach ops (run_op malloc) h1 = Ok h2 -> table_at (shape_of k) h2 p s n vs arrs vecs).
Proof.
  intros Hf Ht Hn Hv.
  destruct (dup_copies k malloc h p s n vs arrs vecs Hf Ht Hn Hv) as (p' & h1 & s' & arrs' & vecs' & E & Ht' & _ & Ho & Hi).
  exists p', h1, s', arrs', vecs'. split; [exact E|]. split; intros ops h2 Hops; apply ops_elsewhere; try exact Hf.
  - exact Ht'.
  - intros o a Hin Ha Htc. apply Hi in Ha. apply (proj1 Ha), (Hops o a Hin Htc).
  - eapply table_at_frame; [exact Ht|]. intros a Ha. apply Ho, (table_live _ _ _ _ _ _ _ _ Ht a Ha).
  - intros o a Hin Ha Htc. apply (Hops o a Hin Htc), (table_live _ _ _ _ _ _ _ _ Ht a Ha).
Qed.

(** ** Concrete cases *)

Definition next_address (h : heap) : addr := 1 + fold_right Z.max 0 (map fst h).
Lemma next_address_fresh : fresh next_address.
Proof.
  intros h. assert (H : forall a, fold_right Z.max 0 (map fst h) < a -> lookup h a = None).
  { induction h as [|[x b] h IH]; intros a Ha; [reflexivity|]. cbn [map fold_right fst lookup] in *.
    destruct (Z.eqb_spec x a); [lia|]. apply IH. lia. }
  apply H. unfold next_address. lia.
Qed.
(** one that reuses the lowest address *)
Fixpoint first_free (fuel : nat) (a : addr) (h : heap) : addr :=
  match fuel with
  | O => next_address h
  | S f => match lookup h a with None => a | Some _ => first_free f (a + 1) h end
  end.
Lemma first_free_fresh : fresh (fun h => first_free (List.length h) 1 h).
Proof.
  intros h. generalize (List.length h), 1. intros f. induction f as [|f IH]; intros a; cbn [first_free].
  - apply next_address_fresh.
  - destruct (lookup h a) eqn:E; [apply IH | exact E].
Qed.

Definition cells (l : list string) : block := map (fun x => [("value"%string, Bytes x)]) l.
(** an OI_VIS table of two records, one channel, with complex visibilities and VISREFMAP *)
Definition vis_struct : struct :=
  [("arrname"%string, Bytes "A"%string); ("numrec"%string, Num 2); ("nwave"%string, Num 1);
   ("usevisrefmap"%string, Num 1); ("usecomplex"%string, Num 1); ("record"%string, Ptr (Some 2))].
Definition vis_names : list string :=
  ["visamp"; "visamperr"; "visphi"; "visphierr"; "flag"; "visrefmap"; "rvis"; "rviserr"; "ivis"; "iviserr"]%string.
Definition vis_row (id : Z) (base : Z) : struct :=
  ("target_id"%string, Num id) ::
  combine vis_names (map (fun i => Ptr (Some (base + Z.of_nat i))) (seq 0 10)).
Definition vis_vectors (tag : string) (base : Z) : list (addr * block) :=
  combine (map (fun i => base + Z.of_nat i) (seq 0 10)) (map (fun f => cells [(f ++ tag)%string]) vis_names).
Definition vis_rows : block := [vis_row 1 10; vis_row 2 20].
Definition vis_heap : heap :=
  (1, [vis_struct]) :: (2, vis_rows) :: vis_vectors "1" 10 ++ vis_vectors "2" 20.

Example vis_heap_table :
  table_at vis_shape vis_heap 1 vis_struct 2 (map (fun f => (f, 1)) vis_names)
    [(2, vis_rows)] [vis_vectors "1" 10; vis_vectors "2" 20].
Proof.
  constructor.
  - reflexivity.
  - reflexivity.
  - reflexivity.
  - repeat constructor.
  - repeat constructor.
  - repeat (apply NoDup_cons; [cbn; intros H; repeat (destruct H as [H|H]; [discriminate H|]); exact H|]). apply NoDup_nil.
Qed.
Example vis_lengths : Forall (fun v : string * Z => 0 < snd v) (map (fun f => (f, 1)) vis_names).
Proof. repeat constructor. Qed.

(** The contents of record [i]'s vector [f] of the table at [p] *)
Definition vector_of (h : heap) (p : addr) (i : Z) (f : string) : res (option block) :=
  q <- load_ptr h p 0 "record" ;; r <- deref q ;;
  q' <- load_ptr h r i f ;; a <- deref q' ;; Ok (lookup h a).
Example vis_copied :
  exists p' h', dup_oi_vis next_address 1 vis_heap = Ok (p', h') /\ p' = 30
    /\ vector_of h' 1 1 "ivis" = Ok (Some (cells ["ivis2"%string]))
    /\ vector_of h' p' 1 "ivis" = Ok (Some (cells ["ivis2"%string]))
    /\ load_ptr h' 31 1 "ivis" = Ok (Some 50) /\ load_ptr h' 2 1 "ivis" = Ok (Some 28).
Proof. eexists. eexists. split; [vm_compute; reflexivity|]. repeat split. Qed.
(** the one vector whose contents differ (C03) *)
Example vis_iviserr_differs :
  exists p' h', dup_oi_vis next_address 1 vis_heap = Ok (p', h')
    /\ vector_of h' 1 1 "iviserr" = Ok (Some (cells ["iviserr2"%string]))
    /\ vector_of h' p' 1 "iviserr" = Ok (Some (cells ["rviserr2"%string])).
Proof. eexists. eexists. split; [vm_compute; reflexivity|]. split; reflexivity. Qed.
(** freeing twice is undefined *)
Example vis_twice : exists h', free_oi_vis 1 vis_heap = Ok h' /\ free_oi_vis 1 h' = UB
  /\ map fst h' = [1].
Proof. eexists. split; [vm_compute; reflexivity|]. split; reflexivity. Qed.

(** a dataset of targets, one wavelength table and that OI_VIS table, and a block of another *)
Definition set_heap : heap :=
  [(100, [[("ntarget"%string, Num 1); ("targ"%string, Ptr (Some 101))]]); (101, [[("target_id"%string, Num 1)]]);
   (110, [[("nwave"%string, Num 1); ("eff_wave"%string, Ptr (Some 111)); ("eff_band"%string, Ptr (Some 112))]]);
   (111, cells ["2e-6"%string]); (112, cells ["1e-8"%string]); (200, cells ["other"%string])] ++ vis_heap.
Definition set_ptrs : fits_ptrs := mk_ptrs 100 [] [110] [] [] [1] [] [] [].
Example set_heap_dataset : exists ts bss, dataset_at set_heap set_ptrs ts bss /\ ts = [101]
  /\ bss = [[111; 112]; 2 :: map fst (vis_vectors "1" 10 ++ vis_vectors "2" 20)].
Proof.
  eexists. eexists. split; [|split; reflexivity]. constructor.
  - exists [("ntarget"%string, Num 1); ("targ"%string, Ptr (Some 101))], 1, [], [(101, [[("target_id"%string, Num 1)]])], [[]].
    split; [|reflexivity]. constructor; try reflexivity; repeat constructor; cbn; intros H;
      repeat (destruct H as [H|H]; [discriminate H|]); exact H.
  - constructor; [|constructor; [|constructor]]; cbn [fst snd].
    + exists [("nwave"%string, Num 1); ("eff_wave"%string, Ptr (Some 111)); ("eff_band"%string, Ptr (Some 112))],
        1, [], [(111, cells ["2e-6"%string]); (112, cells ["1e-8"%string])], [[]; []].
      split; [|reflexivity]. constructor; try reflexivity; repeat constructor; cbn; intros H;
        repeat (destruct H as [H|H]; [discriminate H|]); exact H.
    + exists vis_struct, 2, (map (fun f => (f, 1)) vis_names), [(2, vis_rows)], [vis_vectors "1" 10; vis_vectors "2" 20].
      split; [|reflexivity]. eapply table_at_frame; [apply vis_heap_table|].
      intros a Ha. cbn in Ha. repeat (destruct Ha as [<-|Ha]; [reflexivity|]). contradiction.
  - repeat (apply NoDup_cons; [cbn; intros H; repeat (destruct H as [H|H]; [discriminate H|]); exact H|]). apply NoDup_nil.
Qed.
Example set_heap_freed : exists h', free_oi_fits set_ptrs set_heap = Ok h' /\ map fst h' = [100; 200].
Proof. eexists. split; [vm_compute; reflexivity | reflexivity]. Qed.

Theorem alloc_then_free k malloc uninit h p s n w :
  fresh malloc -> 0 < n -> 0 < w -> lookup h p = Some [s] ->
  (forall f, In f (members k) -> getf s f <> None) ->
  (forall i f, In f (vectors_given k ++ vectors_null k) -> getf (uninit "record"%string i) f <> None) ->
  exists h1 h2, alloc_of k malloc uninit p n w h = Ok h1 /\ free_of k p h1 = Ok h2
    /\ forall a, a <> p -> lookup h2 a = lookup h a.
Proof.
  intros Hf Hn Hw Hp Hm Hu.
  destruct (alloc_tables k malloc uninit h p s n w Hf Hn Hw Hp Hm Hu) as (h1 & s' & arrs & vecs & E & T & _ & _ & _ & O & I).
  destruct (free_frees k h1 p s' n _ arrs vecs T) as (h2 & E2 & W1 & W2).
  exists h1, h2. split; [exact E|]. split; [exact E2|]. intros a Ha.
  destruct (in_dec Z.eq_dec a (storage arrs vecs)) as [Hi|Hi].
  - pose proof (W1 a Hi) as X. apply I in Hi. destruct Hi as [Y _]. unfold live in X, Y.
    destruct (lookup h2 a), (lookup h a); try reflexivity; exfalso; [apply X | apply X | apply Y]; discriminate.
  - rewrite W2 by exact Hi. destruct (lookup h a) eqn:Ea.
    + rewrite O, Ea; [reflexivity | exact Ha | unfold live; rewrite Ea; discriminate].
    + destruct (lookup h1 a) eqn:E1; [|reflexivity]. exfalso. apply Hi, I. unfold live. rewrite Ea, E1.
      split; [intros X; apply X; reflexivity | discriminate].
Qed.

(** an OI_VIS struct before allocation, with stale members, next to another block *)
Definition stale : struct :=
  [("arrname"%string, Bytes "A"%string); ("numrec"%string, Num (-7)); ("nwave"%string, Num 99);
   ("usevisrefmap"%string, Num 1); ("usecomplex"%string, Num 5); ("record"%string, Ptr (Some 77))].
Definition stale_heap : heap := [(1, [stale]); (5, cells ["other"%string])].
Definition any_bytes (f : string) (i : Z) : struct :=
  if str_eqb f "record" then map (fun g => (g, Ptr (Some (1000 + i)))) vis_names else [("value"%string, Bytes "?"%string)].
Example stale_members : forall f, In f (members KVis) -> getf stale f <> None.
Proof. intros f H. cbn in H. repeat (destruct H as [<-|H]; [discriminate|]). contradiction. Qed.
Example any_bytes_members : forall i f, In f (vectors_given KVis ++ vectors_null KVis) ->
  getf (any_bytes "record"%string i) f <> None.
Proof. intros i f H. cbn in H. repeat (destruct H as [<-|H]; [discriminate|]). contradiction. Qed.
