(** Merging and freeing; concrete cases. *)
From Coq Require Import Lia Permutation.
From Verif Require Import HeapSpec HeapMergeSpec BaseLemmas HeapProofs HeapDup HeapTables HeapFree HeapAlloc
  HeapMain HeapGrow HeapFilterTab HeapFilterAll HeapFilterHeld HeapFilterApply HeapFilterMain
  HeapMergeTab HeapMergeTarget HeapMergeAll HeapMergeWhole.
Open Scope Z_scope.

Lemma output_live h o ts bss : output_at h o ts bss -> forall a, In a (fp_targets o :: blocks o ts bss) -> live h a.
Proof.
  intros [Ht Hl _] a Ha.
  assert (Hta : forall a, In a (fp_targets o :: ts) -> live h a).
  { destruct Ht as [Ht|(-> & s & L & _)]; [exact (owned_blocks_live _ _ _ _ Ht)|].
    intros b [<-|[]]. unfold live. rewrite L. discriminate. }
  destruct Ha as [<-|Ha]; [apply Hta; left; reflexivity|]. unfold blocks in Ha.
  rewrite !in_app_iff in Ha. destruct Ha as [Ha|Ha]; [apply Hta; right; exact Ha|].
  clear Ht Hta. induction Hl as [|t bs l b H Hl IH]; [destruct Ha; contradiction|]. cbn [map concat] in Ha.
  destruct Ha as [[<-|Ha]|Ha]; [exact (owned_live _ _ _ _ H) | apply IH; left; exact Ha|].
  apply in_app_iff in Ha. destruct Ha as [Ha|Ha]; [|apply IH; right; exact Ha].
  apply (owned_blocks_live _ _ _ _ H). right. exact Ha.
Qed.

(** datasets that share no storage *)
Lemma free_inputs ds : forall h, separate h ds ->
  exists h', foreach (inputs ds) free_oi_fits h = Ok h' /\ without h h' (input_blocks ds).
Proof.
  induction ds as [|[[i ts] bss] ds IH]; intros h [Ho Hd Ht].
  - exists h. split; [reflexivity|]. split; [intros a [] | reflexivity].
  - inversion Ho as [|? ? O1 Or]; subst. cbn [fst snd] in O1.
    destruct (free_output h i ts bss O1) as (h1 & E1 & W1 & W2).
    change (input_blocks ((i, ts, bss) :: ds)) with (blocks i ts bss ++ input_blocks ds)%list in *.
    assert (Hdis : forall a, In a (input_blocks ds) -> ~ In a (blocks i ts bss)).
    { clear - Hd. intros a Ha Hb. induction (blocks i ts bss) as [|b l IHl]; [contradiction|]. cbn [app] in Hd.
      apply NoDup_cons_iff in Hd. destruct Hd as [N D]. destruct Hb as [<-|Hb]; [apply N, in_app_iff; right; exact Ha | exact (IHl D Hb)]. }
    destruct (IH h1) as (h2 & E2 & V1 & V2).
    { constructor.
      - apply Forall_forall. intros d Hin. eapply output_frame; [exact (proj1 (Forall_forall _ _) Or d Hin)|].
        intros a [<-|Ha]; apply W2.
        + intros X. apply (Ht d); [right; exact Hin | apply in_app_iff; left; exact X].
        + apply Hdis. apply in_flat_map. exists d. split; [exact Hin | exact Ha].
      - clear - Hd. induction (blocks i ts bss) as [|b l IHl]; [exact Hd|]. apply IHl. inversion Hd; assumption.
      - intros d Hin X. apply (Ht d); [right; exact Hin | apply in_app_iff; right; exact X]. }
    exists h2. split; [|split].
    + unfold inputs in *. cbn [map foreach fst]. rewrite E1. exact E2.
    + intros a Ha. apply in_app_iff in Ha. destruct (in_dec Z.eq_dec a (input_blocks ds)) as [Hi|Hi]; [exact (V1 a Hi)|].
      destruct Ha as [Ha|Ha]; [|contradiction]. unfold live. rewrite V2 by exact Hi. exact (W1 a Ha).
    + intros a Ha. rewrite V2, W2; [reflexivity | |]; intros X; apply Ha, in_app_iff; tauto.
Qed.

Section Merge.
Variable malloc : heap -> addr.
Variable fill : heap -> string -> Z -> struct.
Variables same_array same_wave : heap -> addr -> addr -> bool.
Variable rename : string -> Z -> string.

Theorem merge_then_free h is t st : fresh malloc ->
  (forall i, In i is -> exists ts bss, output_at h i ts bss /\ mergeable h i /\ ~ In t (fp_targets i :: blocks i ts bss)) ->
  few_targets h is -> lookup h t = Some [st] -> getf st "ntarget" <> None -> getf st "targ" <> None ->
  exists o h1 h2, merge_oi_fits_list malloc fill same_array same_wave rename is t h = Ok (o, h1)
    /\ free_oi_fits o h1 = Ok h2 /\ forall a, a <> t -> lookup h2 a = lookup h a.
Proof.
  intros Hf Hi Hfew Lt M1 M2.
  destruct (merge_storage malloc Hf fill same_array same_wave rename h t is st Hi Hfew Lt M1 M2) as (o & h1 & ts' & bss' & E & Eo & Ho & Hk & Hn & _).
  destruct (free_output h1 o ts' bss' Ho) as (h2 & E2 & W1 & W2).
  exists o, h1, h2. split; [exact E|]. split; [exact E2|]. intros a Ha.
  destruct (in_dec Z.eq_dec a (blocks o ts' bss')) as [Hx|Hx].
  - pose proof (W1 a Hx) as X. apply Hn in Hx. destruct Hx as [Y _]. unfold live in X, Y.
    destruct (lookup h2 a), (lookup h a); try reflexivity; exfalso; [apply X | apply X | apply Y]; discriminate.
  - rewrite W2 by exact Hx. destruct (lookup h a) eqn:Ea.
    + rewrite Hk, Ea; [reflexivity | exact Ha | unfold live; rewrite Ea; discriminate].
    + destruct (lookup h1 a) eqn:E1; [|reflexivity]. exfalso. apply Hx, Hn. unfold live. rewrite Ea, E1.
      split; [intros X; apply X; reflexivity | discriminate].
Qed.

Theorem merge_free_inputs h ds t st : fresh malloc -> separate h ds ->
  (forall i, In i (inputs ds) -> mergeable h i) -> few_targets h (inputs ds) ->
  lookup h t = Some [st] -> getf st "ntarget" <> None -> getf st "targ" <> None ->
  ~ In t (map fp_targets (inputs ds) ++ input_blocks ds) ->
  exists o h1 h2 h3 ts' bss', merge_oi_fits_list malloc fill same_array same_wave rename (inputs ds) t h = Ok (o, h1)
    /\ foreach (inputs ds) free_oi_fits h1 = Ok h2
    /\ output_at h2 o ts' bss'
    /\ (forall a, In a (t :: blocks o ts' bss') -> lookup h2 a = lookup h1 a)
    /\ free_oi_fits o h2 = Ok h3
    /\ (forall a, In a (input_blocks ds) -> ~ live h3 a)
    /\ (forall a, a <> t -> ~ In a (input_blocks ds) -> lookup h3 a = lookup h a).
Proof.
  intros Hf Hs Hm Hfew Lt M1 M2 Nt.
  assert (Hd : forall d, In d ds -> output_at h (fst (fst d)) (snd (fst d)) (snd d)
    /\ incl (blocks (fst (fst d)) (snd (fst d)) (snd d)) (input_blocks ds) /\ fp_targets (fst (fst d)) <> t).
  { intros d Hd. split; [exact (proj1 (Forall_forall _ _) (sp_at _ _ Hs) d Hd)|]. split.
    - intros a Ha. apply in_flat_map. exists d. split; assumption.
    - intros X. apply Nt, in_app_iff. left. rewrite <- X. apply in_map, in_map_iff. exists d. split; [reflexivity | exact Hd]. }
  assert (Hin : forall i, In i (inputs ds) -> exists ts bss, output_at h i ts bss /\ mergeable h i /\ ~ In t (fp_targets i :: blocks i ts bss)).
  { intros i Hi. pose proof (Hm i Hi) as Hmi. apply in_map_iff in Hi. destruct Hi as (d & <- & Hi). destruct (Hd d Hi) as (A & B & C).
    exists (snd (fst d)), (snd d). split; [exact A|]. split; [exact Hmi|].
    intros [X|X]; [exact (C X)|]. apply Nt, in_app_iff. right. exact (B t X). }
  destruct (merge_storage malloc Hf fill same_array same_wave rename h t _ st Hin Hfew Lt M1 M2) as (o & h1 & ts' & bss' & E & Eo & Ho & Hk & Hn & _).
  assert (Hlive : forall a, In a (input_blocks ds) -> live h a).
  { intros a Ha. apply in_flat_map in Ha. destruct Ha as (d & Hi & Ha). apply (output_live _ _ _ _ (proj1 (Hd d Hi))). right. exact Ha. }
  assert (Hs1 : separate h1 ds).
  { destruct Hs as [A B C]. constructor; [|exact B | exact C]. apply Forall_forall. intros d Hi. destruct (Hd d Hi) as (D1 & D2 & D3).
    eapply output_frame; [exact D1|]. intros a Ha. apply Hk; [|exact (output_live _ _ _ _ D1 a Ha)].
    intros ->. destruct Ha as [Ha|Ha]; [exact (D3 Ha)|]. apply Nt, in_app_iff. right. exact (D2 t Ha). }
  destruct (free_inputs ds h1 Hs1) as (h2 & E2 & W1 & W2).
  assert (Hsame : forall a, In a (t :: blocks o ts' bss') -> lookup h2 a = lookup h1 a).
  { intros a Ha. apply W2. intros Hx. destruct Ha as [<-|Ha]; [apply Nt, in_app_iff; right; exact Hx|].
    apply Hn in Ha. apply (proj1 Ha), Hlive. exact Hx. }
  assert (Ho2 : output_at h2 o ts' bss').
  { eapply output_frame; [exact Ho|]. rewrite Eo. exact Hsame. }
  destruct (free_output h2 o ts' bss' Ho2) as (h3 & E3 & V1 & V2).
  exists o, h1, h2, h3, ts', bss'. split; [exact E|]. split; [exact E2|]. split; [exact Ho2|]. split; [exact Hsame|].
  split; [exact E3|]. split.
  - intros a Ha. unfold live. rewrite V2.
    + exact (W1 a Ha).
    + intros X. apply Hn in X. apply (proj1 X), Hlive. exact Ha.
  - intros a Ha Hni. destruct (in_dec Z.eq_dec a (blocks o ts' bss')) as [Hi|Hi].
    + pose proof (V1 a Hi) as X. apply Hn in Hi. destruct Hi as [Y _]. unfold live in X, Y.
      destruct (lookup h3 a), (lookup h a); try reflexivity; exfalso; [apply X | apply X | apply Y]; discriminate.
    + rewrite V2 by exact Hi. rewrite W2 by exact Hni. destruct (lookup h a) eqn:Ea.
      * rewrite Hk, Ea; [reflexivity | exact Ha | unfold live; rewrite Ea; discriminate].
      * destruct (lookup h1 a) eqn:E1; [|reflexivity]. exfalso. apply Hi, Hn. unfold live. rewrite Ea, E1.
        split; [intros X; apply X; reflexivity | discriminate].
Qed.
End Merge.

(** ** Concrete cases *)

(** The first input has targets "A" and "B", arrays, wavelengths, OI_VIS2 and OI_INSPOL; the
    second has target "B", an array of the same name, the same wavelengths, OI_CORR and OI_VIS2.
    Its addresses are greater by 100.  The struct for the output is at 3, a block of another
    part of the program at 99. *)
Definition m_vecs (base : Z) (names : list string) : list (addr * block) := f_vecs base names.
Definition m_row (base : Z) (names : list string) (id : Z) : struct := f_row base names ("target_id"%string, Num id).
Definition m_pol (base : Z) (names : list string) (id : Z) : struct := ("insname"%string, Bytes "I"%string) :: m_row base names id.
Definition m_targets (b n : Z) : struct := [("ntarget"%string, Num n); ("targ"%string, Ptr (Some (b + 2)))].
Definition m_target (x : string) (id : Z) : struct := [("target_id"%string, Num id); ("target"%string, Bytes x)].
Definition m_array (b : Z) : struct := [("arrname"%string, Bytes "VLTI"%string); ("nelement"%string, Num 1); ("elem"%string, Ptr (Some (b + 11)))].
Definition m_wave (b : Z) : struct := [("insname"%string, Bytes "I"%string); ("nwave"%string, Num 3);
  ("eff_wave"%string, Ptr (Some (b + 21))); ("eff_band"%string, Ptr (Some (b + 22)))].
Definition m_vis2 (b : Z) (c : string) (n : Z) : struct := [("arrname"%string, Bytes "VLTI"%string); ("insname"%string, Bytes "I"%string);
  ("corrname"%string, Bytes c); ("numrec"%string, Num n); ("nwave"%string, Num 3); ("record"%string, Ptr (Some (b + 41)))].
Definition m_inspol (b : Z) : struct := [("arrname"%string, Bytes ""%string); ("numrec"%string, Num 1); ("nwave"%string, Num 3);
  ("record"%string, Ptr (Some (b + 51)))].
Definition m_corr (b : Z) : struct := [("corrname"%string, Bytes "C"%string); ("ncorr"%string, Num 1); ("iindx"%string, Ptr (Some (b + 61)));
  ("jindx"%string, Ptr (Some (b + 62))); ("corr"%string, Ptr (Some (b + 63)))].
Definition rt1 : block := [m_target "A" 1; m_target "B" 2].
Definition rt2 : block := [m_target "B" 7].
Definition rv1 : block := [m_row 42 v2_names 1; m_row 45 v2_names 2].
Definition rv2 : block := [m_row 142 v2_names 7].
Definition rp1 : block := [m_pol 52 j_names 2].
Definition m_heap : heap :=
  ([(1, [m_targets 0 2]); (2, rt1); (3, [s_out]); (10, [m_array 0]); (11, cells ["S1"%string]);
    (20, [m_wave 0]); (21, three "w"); (22, three "b"); (40, [m_vis2 0 "" 2]); (41, rv1); (50, [m_inspol 0]); (51, rp1)]
   ++ m_vecs 42 v2_names ++ m_vecs 45 v2_names ++ m_vecs 52 j_names
   ++ [(99, cells ["other"%string]); (101, [m_targets 100 1]); (102, rt2); (110, [m_array 100]); (111, cells ["S9"%string]);
       (120, [m_wave 100]); (121, three "w"); (122, three "b"); (140, [m_vis2 100 "C" 1]); (141, rv2);
       (160, [m_corr 100]); (161, cells ["1"%string]); (162, cells ["2"%string]); (163, cells ["0.5"%string])]
   ++ m_vecs 142 v2_names)%list.
Definition m_in1 : fits_ptrs := mk_ptrs 1 [10] [20] [] [50] [] [40] [] [].
Definition m_in2 : fits_ptrs := mk_ptrs 101 [110] [120] [160] [] [] [140] [] [].
Definition m_bss1 : list (list addr) := [[11]; [21; 22]; [51; 52; 53; 54; 55]; [41; 42; 43; 44; 45; 46; 47]].
Definition m_bss2 : list (list addr) := [[111]; [121; 122]; [161; 162; 163]; [141; 142; 143; 144]].
Definition m_ds := [(m_in1, [2], m_bss1); (m_in2, [102], m_bss2)].

Example m_output1 : output_at m_heap m_in1 [2] m_bss1.
Proof.
  constructor.
  - left. table (m_targets 0 2) 2 (@nil (string * Z)) [(2, rt1)] [@nil (addr * block); []].
  - apply Forall2_cons; [|apply Forall2_cons; [|apply Forall2_cons; [|apply Forall2_cons; [|apply Forall2_nil]]]]; cbn [fst snd].
    + table (m_array 0) 1 (@nil (string * Z)) [(11, cells ["S1"%string])] [@nil (addr * block)].
    + table (m_wave 0) 3 (@nil (string * Z)) [(21, three "w"); (22, three "b")] (repeat (@nil (addr * block)) 6).
    + table (m_inspol 0) 1 (map (fun f => (f, 3)) j_names) [(51, rp1)] [f_vecs 52 j_names].
    + table (m_vis2 0 "" 2) 2 (map (fun f => (f, 3)) v2_names) [(41, rv1)] [f_vecs 42 v2_names; f_vecs 45 v2_names].
  - cbn. apart.
Qed.
Example m_output2 : output_at m_heap m_in2 [102] m_bss2.
Proof.
  constructor.
  - left. table (m_targets 100 1) 1 (@nil (string * Z)) [(102, rt2)] [@nil (addr * block)].
  - apply Forall2_cons; [|apply Forall2_cons; [|apply Forall2_cons; [|apply Forall2_cons; [|apply Forall2_nil]]]]; cbn [fst snd].
    + table (m_array 100) 1 (@nil (string * Z)) [(111, cells ["S9"%string])] [@nil (addr * block)].
    + table (m_wave 100) 3 (@nil (string * Z)) [(121, three "w"); (122, three "b")] (repeat (@nil (addr * block)) 6).
    + table (m_corr 100) 1 (@nil (string * Z)) [(161, cells ["1"%string]); (162, cells ["2"%string]); (163, cells ["0.5"%string])] (repeat (@nil (addr * block)) 3).
    + table (m_vis2 100 "C" 1) 1 (map (fun f => (f, 3)) v2_names) [(141, rv2)] [f_vecs 142 v2_names].
  - cbn. apart.
Qed.

Lemma rows_are h p f rows s a rows' : lookup h p = Some [s] -> getf s f = Some (Ptr (Some a)) -> lookup h a = Some rows' ->
  rows_at h p f rows -> rows = rows'.
Proof. intros A B C (s0 & a0 & A' & B' & C'). rewrite A in A'. injection A' as <-. rewrite B in B'. injection B' as <-. congruence. Qed.
Ltac each H := cbn in H; repeat (destruct H as [H|H]; [subst|]); [..|contradiction].
Ltac rows_of R s a rs := match type of R with rows_at _ _ _ ?x =>
  assert (x = rs) by (refine (rows_are _ _ _ _ s a rs _ _ _ R); reflexivity); subst x end.
Ltac names := intros ? Hp; each Hp; eexists; eexists; split; reflexivity.
Ltac refers q := intros ? Hp; each Hp; eexists; (split; [eexists; split; reflexivity|]);
  first [left; reflexivity | right; exists q; split; [cbn; tauto | eexists; split; reflexivity]
         | exists q; split; [cbn; tauto | eexists; split; reflexivity]].

Example m_mergeable1 : mergeable m_heap m_in1.
Proof.
  constructor.
  - intros T p s n vs arrs vecs Hin [A B C _ _ _].
    cbn in Hin. repeat (destruct Hin as [[= <- <-]|Hin];
      [cbn in A; injection A as <-; cbn in B; injection B as <-; cbn in C; injection C as <-; split; [lia|]; repeat constructor|]).
    contradiction.
  - intros rows r R Hr. rows_of R (m_targets 0 2) 2 rt1. each Hr; split; discriminate.
  - names.
  - names.
  - intros p [].
  - refers 10.
  - refers 20.
  - refers 160.
  - intros p rows r Hp R Hr. each Hp.
    + rows_of R (m_inspol 0) 51 rp1. each Hr. exists 2, rt1, (m_target "B" 2). split; [reflexivity|].
      split; [exists (m_targets 0 2), 2; repeat split|]. split; [right; left; reflexivity | reflexivity].
    + rows_of R (m_vis2 0 "" 2) 41 rv1. each Hr.
      * exists 1, rt1, (m_target "A" 1). split; [reflexivity|].
        split; [exists (m_targets 0 2), 2; repeat split|]. split; [left; reflexivity | reflexivity].
      * exists 2, rt1, (m_target "B" 2). split; [reflexivity|].
        split; [exists (m_targets 0 2), 2; repeat split|]. split; [right; left; reflexivity | reflexivity].
  - intros p rows r Hp R Hr. each Hp. rows_of R (m_inspol 0) 51 rp1. each Hr. exists "I"%string. split; [reflexivity|].
    exists 20. split; [left; reflexivity | eexists; split; reflexivity].
Qed.
Example m_mergeable2 : mergeable m_heap m_in2.
Proof.
  constructor.
  - intros T p s n vs arrs vecs Hin [A B C _ _ _].
    cbn in Hin. repeat (destruct Hin as [[= <- <-]|Hin];
      [cbn in A; injection A as <-; cbn in B; injection B as <-; cbn in C; injection C as <-; split; [lia|]; repeat constructor|]).
    contradiction.
  - intros rows r R Hr. rows_of R (m_targets 100 1) 102 rt2. each Hr; split; discriminate.
  - names.
  - names.
  - names.
  - refers 110.
  - refers 120.
  - refers 160.
  - intros p rows r Hp R Hr. each Hp. rows_of R (m_vis2 100 "C" 1) 141 rv2. each Hr. exists 7, rt2, (m_target "B" 7). split; [reflexivity|].
    split; [exists (m_targets 100 1), 102; repeat split|]. split; [left; reflexivity | reflexivity].
  - intros p rows r [].
Qed.
Example m_few : few_targets m_heap [m_in1; m_in2].
Proof.
  exists ["A"; "B"]%string. split; [cbn; lia|]. intros i rows r x Hi R Hr Hx. each Hi.
  - rows_of R (m_targets 0 2) 2 rt1. each Hr; cbn in Hx; injection Hx as <-; cbn; tauto.
  - rows_of R (m_targets 100 1) 102 rt2. each Hr; cbn in Hx; injection Hx as <-; cbn; tauto.
Qed.
Example m_separate : separate m_heap m_ds.
Proof.
  constructor.
  - constructor; [exact m_output1|]. constructor; [exact m_output2 | constructor].
  - cbn. apart.
  - intros d Hd. each Hd; cbn; intros H; repeat (destruct H as [H|H]; [discriminate H|]); exact H.
Qed.
Definition m_same_array (h : heap) (p q : addr) : bool := false.
Definition m_same_wave (h : heap) (p q : addr) : bool := true.
Definition m_rename (x : string) (n : Z) : string := (x ++ "_2")%string.
(** the output has two targets, two arrays of different names, one OI_WAVELENGTH table, and the
    record of the second input refers to row 2 *)
Example m_merged : exists o h1, merge_oi_fits_list f_malloc f_fill m_same_array m_same_wave m_rename [m_in1; m_in2] 3 m_heap = Ok (o, h1)
  /\ List.length (fp_array o) = 2%nat /\ List.length (fp_wavelength o) = 1%nat /\ List.length (fp_corr o) = 1%nat
  /\ List.length (fp_inspol o) = 1%nat /\ List.length (fp_vis2 o) = 2%nat
  /\ load_num h1 3 0 "ntarget" = Ok 2
  /\ (p <- get (fp_vis2 o) 1 ;; load_bytes h1 p 0 "arrname") = Ok "VLTI_2"%string
  /\ (p <- get (fp_vis2 o) 1 ;; q <- load_ptr h1 p 0 "record" ;; r <- deref q ;; load_num h1 r 0 "target_id") = Ok 2
  /\ exists h2 h3, foreach [m_in1; m_in2] free_oi_fits h1 = Ok h2 /\ free_oi_fits o h2 = Ok h3 /\ map fst h3 = [3; 1; 99; 101].
Proof.
  eexists. eexists. split; [vm_compute; reflexivity|]. do 8 (split; [vm_compute; reflexivity|]).
  eexists. eexists. split; [vm_compute; reflexivity|]. split; vm_compute; reflexivity.
Qed.

(** 100 targets *)
Definition many_rows : block := map (fun i => m_target (String (Ascii.ascii_of_nat (i + 1)) EmptyString) (Z.of_nat i)) (seq 0 100).
Definition many_heap : heap := [(1, [m_targets 0 100]); (2, many_rows); (3, [s_out])].
Example many_output : output_at many_heap two_ptrs [2] [].
Proof.
  constructor.
  - left. exists (m_targets 0 100), 100, (@nil (string * Z)), [(2, many_rows)], (map (fun _ => @nil (addr * block)) many_rows).
    split; [|reflexivity]. constructor; [reflexivity | reflexivity | reflexivity | | | cbn; apart].
    + constructor; [|constructor]. split; [reflexivity|]. split; reflexivity.
    + cbn [flat_map snd]. rewrite app_nil_r. apply no_vectors.
  - constructor.
  - cbn. apart.
Qed.
Example many_mergeable : mergeable many_heap two_ptrs.
Proof.
  constructor; [intros T p s n vs arrs vecs [] | | intros p [] | intros p [] | intros p [] | intros p [] | intros p []
    | intros p [] | intros p rows r [] | intros p rows r []].
  - intros rows r R Hr. rows_of R (m_targets 0 100) 2 many_rows.
    apply in_map_iff in Hr. destruct Hr as (i & <- & _). split; discriminate.
Qed.
Example many_many : ~ few_targets many_heap [two_ptrs].
Proof.
  intros (names & Hlen & Hn).
  assert (X : (List.length (map (fun i => String (Ascii.ascii_of_nat (i + 1)) EmptyString) (seq 0 100)) <= List.length names)%nat).
  { apply NoDup_incl_length.
    - apply (NoDup_map_inv (fun x => match x with String c _ => Ascii.nat_of_ascii c | EmptyString => 0%nat end)).
      change (NoDup (seq 1 100)). apply seq_NoDup.
    - intros x Hx. apply in_map_iff in Hx. destruct Hx as (i & <- & Hi).
      apply (Hn two_ptrs many_rows (m_target (String (Ascii.ascii_of_nat (i + 1)) EmptyString) (Z.of_nat i)) _ (or_introl eq_refl)).
      + exists (m_targets 0 100), 2. repeat split.
      + apply in_map_iff. exists i. split; [reflexivity | exact Hi].
      + reflexivity. }
  rewrite map_length, seq_length in X. lia.
Qed.
