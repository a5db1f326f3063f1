(** Reading a whole file. *)
From Coq Require Import Lia Permutation.
From Verif Require Import HeapSpec HeapReadSpec BaseLemmas HeapProofs HeapDup HeapTables HeapFree HeapAlloc HeapMain
  HeapGrow HeapFilterTab HeapFilterAll HeapFilterHeld HeapFilterMain HeapReadVis HeapReadAll.
Open Scope Z_scope.

(** the tables of one kind: those reached, those made, their blocks *)
Record entry := mk_entry { e_kind : table_kind; e_from : list content; e_new : list addr; e_bss : list (list addr) }.
Definition e_group (e : entry) : group := (shape_of (e_kind e), e_new e, e_bss e).
Definition e_ok (h : heap) (e : entry) : Prop :=
  Forall2 (fun c x => held_by (e_kind e) h c (fst x) (snd x)) (filter (readable (e_kind e)) (e_from e)) (combine (e_new e) (e_bss e))
  /\ List.length (e_new e) = List.length (e_bss e)
  /\ forall c, In c (e_from e) -> ~ empty_table (e_kind e) c.
(** everything new since [h1] *)
Definition made_so_far (h1 h : heap) (es : list entry) (lost : list addr) : Prop :=
  Forall (e_ok h) es /\ grows h1 h (flat_map g_blocks (map e_group es) ++ lost)
  /\ Z.of_nat (List.length lost) = sum (map (fun e => lost_in (e_kind e) (e_from e)) es).

Lemma in_combine_blocks e x : In x (combine (e_new e) (e_bss e)) -> forall a, In a (fst x :: snd x) -> In a (g_blocks (e_group e)).
Proof.
  unfold g_blocks, e_group. cbn [fst snd]. intros H a [<-|Ha].
  - apply in_app_iff. left. destruct x as [p bs]. exact (in_combine_l _ _ _ _ H).
  - apply in_app_iff. right. destruct x as [p bs]. apply in_concat. exists bs. split; [exact (in_combine_r _ _ _ _ H) | exact Ha].
Qed.
Lemma e_ok_frame h h' e : e_ok h e -> (forall a, In a (g_blocks (e_group e)) -> lookup h' a = lookup h a) -> e_ok h' e.
Proof.
  intros (F & L & N) H. split; [|split; assumption].
  assert (X : forall x, In x (combine (e_new e) (e_bss e)) -> forall a, In a (fst x :: snd x) -> lookup h' a = lookup h a).
  { intros x Hx a Ha. apply H. exact (in_combine_blocks e x Hx a Ha). }
  clear - F X. induction F as [|c x l m Hc F IH]; constructor.
  - eapply held_by_frame; [exact Hc|]. apply X. left. reflexivity.
  - apply IH. intros y Hy. apply X. right. exact Hy.
Qed.
Lemma made_add h1 h h' es lost k l new : made_so_far h1 h es lost -> outcome k l h h' new ->
  exists bss lost', made_so_far h1 h' (es ++ [mk_entry k l new bss]) lost'.
Proof.
  intros (F & G & L) (bss & more & Fn & Ln & Gn & Lm & N). exists bss, (lost ++ more)%list. split; [|split].
  - apply Forall_app. split.
    + apply Forall_forall. intros e He. eapply e_ok_frame; [exact (proj1 (Forall_forall _ _) F e He)|].
      intros a Ha. apply (grows_keep _ _ _ _ Gn), G, in_app_iff. left. apply in_flat_map. exists (e_group e).
      split; [apply in_map, He | exact Ha].
    + constructor; [|constructor]. split; [exact Fn|]. split; [exact Ln | exact N].
  - eapply grows_perm; [|exact (grows_app _ _ _ _ _ G Gn)].
    rewrite map_app, flat_map_app. cbn [map flat_map]. unfold e_group at 3, g_blocks at 3. cbn [e_kind e_new e_bss fst snd].
    rewrite app_nil_r, <- !app_assoc. apply Permutation_app_head.
    transitivity ((new ++ concat bss ++ more) ++ lost)%list; [apply Permutation_app_comm|].
    rewrite <- !app_assoc. do 2 apply Permutation_app_head. apply Permutation_app_comm.
  - rewrite app_length, Nat2Z.inj_add, L, Lm, map_app. cbn [map e_kind e_from]. clear.
    induction es as [|e es IH]; cbn [app map sum fold_right] in *; unfold sum in *; cbn [fold_right] in *; lia.
Qed.

Lemma NoDup_app_l {A} (l m : list A) : NoDup (l ++ m) -> NoDup l.
Proof.
  induction l as [|y l IH]; [constructor|]. cbn [app]. intros D. inversion D as [|? ? N E]; subst.
  constructor; [intros X; apply N, in_app_iff; left; exact X | apply IH, E].
Qed.

Section Read.
Variable malloc : heap -> addr.
Hypothesis Hfresh : fresh malloc.
Variable fill : heap -> string -> Z -> struct.
Hypothesis Hdecl : declared fill.

(** what is to be shown of the storage after reading *)
Definition result (f : file) (o : fits_ptrs) (h : heap) (o' : fits_ptrs) (h' : heap) : Prop :=
  exists ts bss lost, fp_targets o' = fp_targets o
    /\ dataset_at h' o' ts bss
    /\ holds KTarget h' (f_target f) (fp_targets o)
    /\ (forall k, k <> KTarget -> Forall2 (holds k h') (filter (readable k) (reached f k)) (tables_of o' k))
    /\ (forall a, a <> fp_targets o -> live h a -> lookup h' a = lookup h a)
    /\ NoDup (blocks o' ts bss ++ lost)
    /\ (forall a, In a (blocks o' ts bss ++ lost) <-> (~ live h a /\ live h' a))
    /\ Z.of_nat (List.length lost) = lost_blocks f.
Definition no_empty (f : file) : Prop := forall k c, In c (reached f k) -> ~ empty_table k c.

Lemma holds_list h k l new bss : Forall2 (fun c x => held_by k h c (fst x) (snd x)) l (combine new bss) ->
  List.length new = List.length bss -> Forall2 (holds k h) l new.
Proof.
  revert l bss. induction new as [|p new IH]; intros l bss H L; cbn [combine] in H; [inversion H; constructor|].
  destruct bss as [|bs bss]; [discriminate L|]. cbn [combine] in H. inversion H; subst. constructor.
  - eapply held_by_holds. eassumption.
  - eapply IH; [eassumption | cbn in L; lia].
Qed.
Lemma owned_list h k l new bss : Forall2 (fun c x => held_by k h c (fst x) (snd x)) l (combine new bss) ->
  List.length new = List.length bss -> Forall2 (owned (shape_of k) h) new bss.
Proof.
  revert l bss. induction new as [|p new IH]; intros l bss H L; destruct bss as [|bs bss]; try discriminate L; [constructor|].
  cbn [combine] in H. inversion H; subst. constructor.
  - eapply held_by_owned. eassumption.
  - eapply IH; [eassumption | cbn in L; lia].
Qed.

Lemma finish f o h st h0 h1 h' ts a w c p v v2 t3 x ba bw bc bp bv bv2 bt3 bx lost :
  lookup h (fp_targets o) = Some [st] ->
  (forall a, a <> fp_targets o -> lookup h0 a = lookup h a) ->
  grows h0 h1 (fp_targets o :: ts) -> held_by KTarget h1 (f_target f) (fp_targets o) ts ->
  ~ empty_table KTarget (f_target f) ->
  made_so_far h1 h' [mk_entry KArray (reached f KArray) a ba; mk_entry KWavelength (reached f KWavelength) w bw;
    mk_entry KCorr (reached f KCorr) c bc; mk_entry KInspol (reached f KInspol) p bp; mk_entry KVis (reached f KVis) v bv;
    mk_entry KVis2 (reached f KVis2) v2 bv2; mk_entry KT3 (reached f KT3) t3 bt3; mk_entry KFlux (reached f KFlux) x bx] lost ->
  no_empty f /\ result f o h (mk_ptrs (fp_targets o) a w c p v v2 t3 x) h'.
Proof.
  intros Lt Oz Gt Ht Et (F & G & L). set (t := fp_targets o) in *.
  match type of F with Forall _ ?l => set (es := l) in * end.
  set (o' := mk_ptrs t a w c p v v2 t3 x).
  assert (Fk : forall e, In e es -> e_ok h' e) by (apply Forall_forall; exact F).
  split.
  { intros k y Hy. destruct k.
    - cbn [reached tables_in] in Hy. destruct Hy as [<-|[]]. exact Et.
    - apply (proj2 (proj2 (Fk (mk_entry KArray (reached f KArray) a ba) ltac:(cbn; tauto)))). exact Hy.
    - apply (proj2 (proj2 (Fk (mk_entry KWavelength (reached f KWavelength) w bw) ltac:(cbn; tauto)))). exact Hy.
    - apply (proj2 (proj2 (Fk (mk_entry KCorr (reached f KCorr) c bc) ltac:(cbn; tauto)))). exact Hy.
    - apply (proj2 (proj2 (Fk (mk_entry KInspol (reached f KInspol) p bp) ltac:(cbn; tauto)))). exact Hy.
    - apply (proj2 (proj2 (Fk (mk_entry KVis (reached f KVis) v bv) ltac:(cbn; tauto)))). exact Hy.
    - apply (proj2 (proj2 (Fk (mk_entry KVis2 (reached f KVis2) v2 bv2) ltac:(cbn; tauto)))). exact Hy.
    - apply (proj2 (proj2 (Fk (mk_entry KT3 (reached f KT3) t3 bt3) ltac:(cbn; tauto)))). exact Hy.
    - apply (proj2 (proj2 (Fk (mk_entry KFlux (reached f KFlux) x bx) ltac:(cbn; tauto)))). exact Hy. }
  set (gs := map e_group es) in *.
  assert (Hm : map snd (listed o') = flat_map (fun g : group => snd (fst g)) gs).
  { unfold listed, o', gs, es, e_group. cbn [map e_kind e_new e_bss shape_of fp_array fp_wavelength fp_corr fp_inspol fp_vis fp_vis2 fp_t3 fp_flux flat_map fst snd].
    rewrite !map_app, !map_map. cbn [snd]. rewrite !map_id, app_nil_r. reflexivity. }
  assert (Hl : listed o' = flat_map (fun g : group => map (pair (fst (fst g))) (snd (fst g))) gs).
  { unfold listed, o', gs, es, e_group. cbn [map e_kind e_new e_bss shape_of fp_array fp_wavelength fp_corr fp_inspol fp_vis fp_vis2 fp_t3 fp_flux flat_map fst snd].
    rewrite app_nil_r. reflexivity. }
  assert (GG : grows h0 h' (t :: blocks o' ts (flat_map snd gs) ++ lost)).
  { eapply grows_perm; [|exact (grows_app _ _ _ _ _ Gt G)]. cbn [app]. apply perm_skip. unfold blocks.
    rewrite Hm, <- !app_assoc. apply Permutation_app_head. rewrite (app_assoc _ _ lost). apply Permutation_app_tail, blocks_perm. }
  assert (Keep : forall b, In b (t :: ts) -> lookup h' b = lookup h1 b).
  { intros b Hb. apply (grows_keep _ _ _ _ G), Gt, Hb. }
  pose proof (held_by_frame _ _ _ _ _ _ Ht Keep) as Ht'.
  exists ts, (flat_map snd gs), lost. split; [reflexivity|].
  pose proof (proj1 (NoDup_cons_iff _ _) (proj1 GG)) as [Nt D'].
  split; [|split; [|split; [|split; [|split; [exact D'|split]]]]].
  - constructor.
    + exact (held_by_owned _ _ _ _ _ Ht').
    + rewrite Hl. unfold gs. clear - Fk. induction es as [|e es IH]; [constructor|]. cbn [map flat_map]. apply Forall2_app.
      * destruct (Fk e (or_introl eq_refl)) as (H & Ln & _). pose proof (owned_list _ _ _ _ _ H Ln) as X.
        unfold e_group. cbn [fst snd]. clear - X. induction X as [|q bs l m H X IH]; constructor; assumption.
      * apply IH. intros e' He. apply Fk. right. exact He.
    + change (fp_targets o') with t. constructor.
      * intros X. apply Nt, in_app_iff. left. exact X.
      * exact (NoDup_app_l _ _ D').
  - exact (held_by_holds _ _ _ _ _ Ht').
  - assert (Pick : forall e, In e es -> Forall2 (holds (e_kind e) h') (filter (readable (e_kind e)) (e_from e)) (e_new e)).
    { intros e He. destruct (Fk e He) as (H & Ln & _). exact (holds_list _ _ _ _ _ H Ln). }
    intros k Hk. destruct k; [contradiction | | | | | | | |]; cbn [tables_of o' fp_array fp_wavelength fp_corr fp_inspol fp_vis fp_vis2 fp_t3 fp_flux].
    + exact (Pick (mk_entry KArray (reached f KArray) a ba) ltac:(cbn; tauto)).
    + exact (Pick (mk_entry KWavelength (reached f KWavelength) w bw) ltac:(cbn; tauto)).
    + exact (Pick (mk_entry KCorr (reached f KCorr) c bc) ltac:(cbn; tauto)).
    + exact (Pick (mk_entry KInspol (reached f KInspol) p bp) ltac:(cbn; tauto)).
    + exact (Pick (mk_entry KVis (reached f KVis) v bv) ltac:(cbn; tauto)).
    + exact (Pick (mk_entry KVis2 (reached f KVis2) v2 bv2) ltac:(cbn; tauto)).
    + exact (Pick (mk_entry KT3 (reached f KT3) t3 bt3) ltac:(cbn; tauto)).
    + exact (Pick (mk_entry KFlux (reached f KFlux) x bx) ltac:(cbn; tauto)).
  - intros b Hb Lb. rewrite <- (Oz b Hb). apply (grows_keep _ _ _ _ GG). unfold live. rewrite Oz by exact Hb. exact Lb.
  - intros b. pose proof (grows_new _ _ _ b GG) as X. cbn [In] in X. split.
    + intros Hb. destruct (proj1 X (or_intror Hb)) as [A B]. split; [|exact B]. unfold live in *. rewrite <- Oz; [exact A|].
      intros ->. exact (Nt Hb).
    + intros [A B]. assert (Hb : b <> t) by (intros ->; apply A; unfold live; rewrite Lt; discriminate).
      destruct (proj2 X) as [Y|Y]; [|exfalso; apply Hb; symmetry; exact Y | exact Y].
      split; [|exact B]. unfold live in *. rewrite Oz by exact Hb. exact A.
  - rewrite L. reflexivity.
Qed.

Lemma made_none h1 h es lost k : made_so_far h1 h es lost ->
  exists bss lost', made_so_far h1 h (es ++ [mk_entry k [] [] bss]) lost'.
Proof. intros H. exact (made_add _ _ _ _ _ k [] [] H (outcome_nil k h h (grows_refl h))). Qed.

Theorem read_whole f o h st :
  lookup h (fp_targets o) = Some [st] -> (forall m, In m (members KTarget) -> getf st m <> None) ->
  f_opens f = true -> f_header f = true -> c_keys (f_target f) = true ->
  (read_oi_fits malloc fill f o h = Abort /\ exists k c, In c (reached f k) /\ empty_table k c)
  \/ (exists o' h', read_oi_fits malloc fill f o h = Ok (read_succeeds f, o', h') /\ no_empty f /\ result f o h o' h').
Proof.
  intros Lt Mt Ho Hh Hk. unfold read_oi_fits. rewrite Ho, Hh. cbn [negb]. set (t := fp_targets o) in *.
  destruct (free_one h t) as (h0 & _ & W1 & W2); [unfold live; rewrite Lt; discriminate|].
  assert (Oz : forall b, b <> t -> lookup h0 b = lookup h b) by (intros b Hb; apply W2; intros [X|[]]; congruence).
  assert (G0 : grows h0 h [t]).
  { split; [constructor; [intros [] | constructor]|]. split.
    - intros b [<-|[]]. split; [apply W1; left; reflexivity | unfold live; rewrite Lt; discriminate].
    - intros b Hb. symmetry. apply Oz. intros ->. apply Hb. left. reflexivity. }
  destruct (read_one malloc Hfresh fill Hdecl KTarget h0 h t st (f_target f) G0 Lt Mt) as [[E He]|(He & h1 & ts & E1 & G1 & _ & H1 & _)].
  { left. cbn [read_of] in E. rewrite E. split; [reflexivity|]. exists KTarget, (f_target f). split; [left; reflexivity | exact He]. }
  specialize (H1 Hk ltac:(discriminate)). cbn [read_of] in E1. rewrite E1. cbn [bind fst snd]. clear E1.
  assert (M0 : made_so_far h1 h1 [] []) by (split; [constructor|]; split; [apply grows_refl | reflexivity]).
  pose proof (finish f o h st h0 h1) as Fin.
  assert (At : all_readable f KTarget = readable KTarget (f_target f)).
  { unfold all_readable. cbn [tables_in forallb]. apply andb_true_r. }
  unfold read_succeeds.
  destruct (readable KTarget (f_target f)) eqn:Et; cbn [negb].
  2:{ right. exists (mk_ptrs t [] [] [] [] [] [] [] []), h1. rewrite At. cbn [andb]. split; [reflexivity|].
      destruct (made_none _ _ _ _ KArray M0) as (b1 & l1 & M1).
      destruct (made_none _ _ _ _ KWavelength M1) as (b2 & l2 & M2).
      destruct (made_none _ _ _ _ KCorr M2) as (b3 & l3 & M3).
      destruct (made_none _ _ _ _ KInspol M3) as (b4 & l4 & M4).
      destruct (made_none _ _ _ _ KVis M4) as (b5 & l5 & M5).
      destruct (made_none _ _ _ _ KVis2 M5) as (b6 & l6 & M6).
      destruct (made_none _ _ _ _ KT3 M6) as (b7 & l7 & M7).
      destruct (made_none _ _ _ _ KFlux M7) as (b8 & l8 & M8). cbn [app] in M8.
      eapply Fin; try eassumption. cbn [reached]. rewrite At. cbn [andb]. exact M8. }
  (* OI_ARRAY *)
  destruct (required_ok malloc Hfresh fill Hdecl KArray ltac:(discriminate) (f_array f) [] h1) as [[E (y & Hy & Ey)]|(h2 & na & E2 & O2)].
  { left. cbn [read_of] in E. rewrite E. split; [reflexivity|]. exists KArray, y. split; [|exact Ey].
    cbn [reached]. rewrite At. exact Hy. }
  cbn [read_of app] in E2. rewrite E2. cbn [bind fst snd]. clear E2.
  destruct (made_add _ _ _ _ _ _ _ _ M0 O2) as (ba & l1 & M1). cbn [app] in M1.
  change (forallb (readable KArray) (f_array f)) with (all_readable f KArray).
  assert (Ra : reached f KArray = until_bad KArray (f_array f)) by (cbn [reached]; rewrite At; reflexivity). rewrite <- Ra in M1.
  destruct (all_readable f KArray) eqn:Ea; cbn [negb].
  2:{ right. exists (mk_ptrs t na [] [] [] [] [] [] []), h2. rewrite At. cbn [andb]. split; [reflexivity|].
      destruct (made_none _ _ _ _ KWavelength M1) as (b2 & l2 & M2).
      destruct (made_none _ _ _ _ KCorr M2) as (b3 & l3 & M3).
      destruct (made_none _ _ _ _ KInspol M3) as (b4 & l4 & M4).
      destruct (made_none _ _ _ _ KVis M4) as (b5 & l5 & M5).
      destruct (made_none _ _ _ _ KVis2 M5) as (b6 & l6 & M6).
      destruct (made_none _ _ _ _ KT3 M6) as (b7 & l7 & M7).
      destruct (made_none _ _ _ _ KFlux M7) as (b8 & l8 & M8). cbn [app] in M8.
      eapply Fin; try eassumption. clear - M8 At Ea Ra. rewrite Ra in *. cbn [reached]. rewrite At, Ea. cbn [andb]. exact M8. }
  (* OI_WAVELENGTH *)
  destruct (required_ok malloc Hfresh fill Hdecl KWavelength ltac:(discriminate) (f_wavelength f) [] h2) as [[E (y & Hy & Ey)]|(h3 & nw & E3 & O3)].
  { left. cbn [read_of] in E. rewrite E. split; [reflexivity|]. exists KWavelength, y. split; [|exact Ey].
    cbn [reached]. rewrite At, Ea. exact Hy. }
  cbn [read_of app] in E3. rewrite E3. cbn [bind fst snd]. clear E3.
  destruct (made_add _ _ _ _ _ _ _ _ M1 O3) as (bw & l2 & M2). cbn [app] in M2.
  change (forallb (readable KWavelength) (f_wavelength f)) with (all_readable f KWavelength).
  assert (Rw : reached f KWavelength = until_bad KWavelength (f_wavelength f)) by (cbn [reached]; rewrite At, Ea; reflexivity).
  rewrite <- Rw in M2.
  destruct (all_readable f KWavelength) eqn:Ew; cbn [negb].
  2:{ right. exists (mk_ptrs t na nw [] [] [] [] [] []), h3. rewrite At. cbn [andb]. split; [reflexivity|].
      destruct (made_none _ _ _ _ KCorr M2) as (b3 & l3 & M3).
      destruct (made_none _ _ _ _ KInspol M3) as (b4 & l4 & M4).
      destruct (made_none _ _ _ _ KVis M4) as (b5 & l5 & M5).
      destruct (made_none _ _ _ _ KVis2 M5) as (b6 & l6 & M6).
      destruct (made_none _ _ _ _ KT3 M6) as (b7 & l7 & M7).
      destruct (made_none _ _ _ _ KFlux M7) as (b8 & l8 & M8). cbn [app] in M8.
      eapply Fin; try eassumption. clear - M8 At Ea Ew Ra Rw. rewrite Ra, Rw in *. cbn [reached]. rewrite At, Ea, Ew. cbn [andb]. exact M8. }
  rewrite At. cbn [andb].
  assert (Rest : forall k, ~ In k [KTarget; KArray; KWavelength] -> reached f k = tables_in f k).
  { intros k Hn. destruct k; cbn [reached]; rewrite ?At, ?Ea, ?Ew; try reflexivity; exfalso; apply Hn; cbn; tauto. }
  destruct (optional_ok malloc Hfresh fill Hdecl KCorr ltac:(discriminate) (f_corr f) [] h3) as [[E (y & Hy & Ey)]|(h4 & nc & E & O)].
  { left. cbn [read_of] in E. rewrite E. split; [reflexivity|]. exists KCorr, y. split; [|exact Ey].
    rewrite Rest by (cbn; intuition discriminate). exact Hy. }
  cbn [read_of app] in E. rewrite E. cbn [bind fst snd]. clear E.
  destruct (made_add _ _ _ _ _ _ _ _ M2 O) as (bc & l3 & M3). cbn [app] in M3. clear O.
  change (f_corr f) with (tables_in f KCorr) in M3. rewrite <- Rest in M3 by (cbn; intuition discriminate).
  destruct (optional_ok malloc Hfresh fill Hdecl KInspol ltac:(discriminate) (f_inspol f) [] h4) as [[E (y & Hy & Ey)]|(h5 & np & E & O)].
  { left. cbn [read_of] in E. rewrite E. split; [reflexivity|]. exists KInspol, y. split; [|exact Ey].
    rewrite Rest by (cbn; intuition discriminate). exact Hy. }
  cbn [read_of app] in E. rewrite E. cbn [bind fst snd]. clear E.
  destruct (made_add _ _ _ _ _ _ _ _ M3 O) as (bp & l4 & M4). cbn [app] in M4. clear O.
  change (f_inspol f) with (tables_in f KInspol) in M4. rewrite <- Rest in M4 by (cbn; intuition discriminate).
  destruct (optional_ok malloc Hfresh fill Hdecl KVis ltac:(discriminate) (f_vis f) [] h5) as [[E (y & Hy & Ey)]|(h6 & nv & E & O)].
  { left. cbn [read_of] in E. rewrite E. split; [reflexivity|]. exists KVis, y. split; [|exact Ey].
    rewrite Rest by (cbn; intuition discriminate). exact Hy. }
  cbn [read_of app] in E. rewrite E. cbn [bind fst snd]. clear E.
  destruct (made_add _ _ _ _ _ _ _ _ M4 O) as (bv & l5 & M5). cbn [app] in M5. clear O.
  change (f_vis f) with (tables_in f KVis) in M5. rewrite <- Rest in M5 by (cbn; intuition discriminate).
  destruct (optional_ok malloc Hfresh fill Hdecl KVis2 ltac:(discriminate) (f_vis2 f) [] h6) as [[E (y & Hy & Ey)]|(h7 & nu & E & O)].
  { left. cbn [read_of] in E. rewrite E. split; [reflexivity|]. exists KVis2, y. split; [|exact Ey].
    rewrite Rest by (cbn; intuition discriminate). exact Hy. }
  cbn [read_of app] in E. rewrite E. cbn [bind fst snd]. clear E.
  destruct (made_add _ _ _ _ _ _ _ _ M5 O) as (bu & l6 & M6). cbn [app] in M6. clear O.
  change (f_vis2 f) with (tables_in f KVis2) in M6. rewrite <- Rest in M6 by (cbn; intuition discriminate).
  destruct (optional_ok malloc Hfresh fill Hdecl KT3 ltac:(discriminate) (f_t3 f) [] h7) as [[E (y & Hy & Ey)]|(h8 & nr & E & O)].
  { left. cbn [read_of] in E. rewrite E. split; [reflexivity|]. exists KT3, y. split; [|exact Ey].
    rewrite Rest by (cbn; intuition discriminate). exact Hy. }
  cbn [read_of app] in E. rewrite E. cbn [bind fst snd]. clear E.
  destruct (made_add _ _ _ _ _ _ _ _ M6 O) as (br & l7 & M7). cbn [app] in M7. clear O.
  change (f_t3 f) with (tables_in f KT3) in M7. rewrite <- Rest in M7 by (cbn; intuition discriminate).
  destruct (optional_ok malloc Hfresh fill Hdecl KFlux ltac:(discriminate) (f_flux f) [] h8) as [[E (y & Hy & Ey)]|(h9 & nx & E & O)].
  { left. cbn [read_of] in E. rewrite E. split; [reflexivity|]. exists KFlux, y. split; [|exact Ey].
    rewrite Rest by (cbn; intuition discriminate). exact Hy. }
  cbn [read_of app] in E. rewrite E. cbn [bind fst snd]. clear E.
  destruct (made_add _ _ _ _ _ _ _ _ M7 O) as (bx & l8 & M8). cbn [app] in M8. clear O.
  change (f_flux f) with (tables_in f KFlux) in M8. rewrite <- Rest in M8 by (cbn; intuition discriminate).
  right. eexists _, h9. split; [reflexivity|]. eapply Fin; eassumption.
Qed.
End Read.
