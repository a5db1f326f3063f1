(** Filtering and freeing; a case where storage is lost; concrete cases. *)
From Coq Require Import Lia Permutation.
From Verif Require Import HeapSpec HeapFilterSpec BaseLemmas HeapProofs HeapDup HeapTables HeapFree HeapAlloc
  HeapMain HeapGrow HeapFilterTab HeapFilterAll HeapFilterHeld HeapFilterApply.
Open Scope Z_scope.

Lemma dataset_output h o ts bss : dataset_at h o ts bss -> output_at h o ts bss.
Proof. intros [A B C]. constructor; [left; exact A | exact B | exact C]. Qed.

Theorem free_output h o ts bss : output_at h o ts bss ->
  exists h', free_oi_fits o h = Ok h' /\ without h h' (blocks o ts bss).
Proof.
  intros [Ht Hl Hnd]. destruct Ht as [Ht|(-> & s & Ls & Ln & Lt)].
  - destruct (free_dataset h o ts bss) as (h' & E & W); [constructor; assumption|].
    exists h'. split; [exact E | exact W].
  - set (gs := [(array_shape, free_oi_array, fp_array o); (wavelength_shape, free_oi_wavelength, fp_wavelength o);
                (corr_shape, free_oi_corr, fp_corr o); (inspol_shape, free_oi_inspol, fp_inspol o);
                (vis_shape, free_oi_vis, fp_vis o); (vis2_shape, free_oi_vis2, fp_vis2 o);
                (t3_shape, free_oi_t3, fp_t3 o); (flux_shape, free_oi_flux, fp_flux o)]).
    assert (Hgs : flat_map (fun g : shape * (addr -> heap -> res heap) * list addr =>
                    map (pair (fst (fst g))) (snd g)) gs = listed o).
    { unfold gs, listed. cbn [flat_map fst snd]. rewrite app_nil_r. reflexivity. }
    destruct (free_groups gs) with (h := h) (bss := bss) as (h' & E2 & W2).
    { unfold gs. repeat apply Forall_cons; try apply Forall_nil; cbn [fst snd].
      - exact (free_frees KArray). - exact (free_frees KWavelength). - exact (free_frees KCorr).
      - exact (free_frees KInspol). - exact (free_frees KVis). - exact (free_frees KVis2).
      - exact (free_frees KT3). - exact (free_frees KFlux). }
    { rewrite Hgs. exact Hl. }
    { rewrite Hgs. cbn [app] in Hnd. inversion Hnd; assumption. }
    rewrite Hgs in W2. exists h'. split; [|exact W2].
    assert (E1 : free_oi_target (fp_targets o) h = Ok h).
    { unfold free_oi_target, free_arrays. cbn [foreach]. unfold free_field.
      rewrite (load_ptr_at h (fp_targets o) [] s [] 0 "targ" None Ls eq_refl Lt). reflexivity. }
    unfold free_oi_fits. rewrite E1. cbn [bind]. rewrite <- E2. unfold gs. cbn [foreach fst snd].
    repeat (match goal with |- bind ?x _ = bind ?x _ => destruct x; cbn [bind]; try reflexivity end).
    symmetry. apply bind_ok_id.
Qed.

Lemma output_frame h h' o ts bss : output_at h o ts bss ->
  (forall a, In a (fp_targets o :: blocks o ts bss) -> lookup h' a = lookup h a) -> output_at h' o ts bss.
Proof.
  intros [Ht Hl Hnd] Heq. constructor; [| |exact Hnd].
  - destruct Ht as [Ht|(-> & s & Ls & R)]; [left | right].
    + eapply owned_frame; [exact Ht|]. intros a Ha. apply Heq. destruct Ha as [->|Ha]; [left; reflexivity|].
      right. apply in_app_iff. left. exact Ha.
    + split; [reflexivity|]. exists s. split; [rewrite Heq by (left; reflexivity); exact Ls | exact R].
  - assert (Heq' : forall t bs a, In t (listed o) -> In bs bss -> In a (snd t :: bs) -> lookup h' a = lookup h a).
    { intros t bs a Hin Hbs Ha. apply Heq. right. unfold blocks. rewrite !in_app_iff. right.
      destruct Ha as [<-|Ha]; [left; apply in_map, Hin | right; apply in_concat; exists bs; tauto]. }
    clear - Hl Heq'. induction Hl as [|t bs l b H Hl IH]; constructor.
    + eapply owned_frame; [exact H|]. intros a Ha. apply (Heq' t bs); [left; reflexivity | left; reflexivity | exact Ha].
    + apply IH. intros t' bs' a Hin Hbs. apply Heq'; right; assumption.
Qed.
Lemma owned_blocks_live T h p bs : owned T h p bs -> forall a, In a (p :: bs) -> live h a.
Proof. intros (s & n & vs & arrs & vecs & H & ->). exact (table_live _ _ _ _ _ _ _ _ H). Qed.
Lemma dataset_live h o ts bss : dataset_at h o ts bss -> forall a, In a (fp_targets o :: blocks o ts bss) -> live h a.
Proof.
  intros [Ht Hl _] a Ha. destruct Ha as [<-|Ha]; [exact (owned_live _ _ _ _ Ht)|]. unfold blocks in Ha.
  rewrite !in_app_iff in Ha. destruct Ha as [Ha|Ha]; [apply (owned_blocks_live _ _ _ _ Ht); right; exact Ha|].
  clear Ht. induction Hl as [|t bs l b H Hl IH]; [destruct Ha; contradiction|]. cbn [map concat] in Ha.
  destruct Ha as [[<-|Ha]|Ha]; [exact (owned_live _ _ _ _ H) | apply IH; left; exact Ha|].
  apply in_app_iff in Ha. destruct Ha as [Ha|Ha]; [|apply IH; right; exact Ha].
  apply (owned_blocks_live _ _ _ _ H). right. exact Ha.
Qed.

Section Filter.
Variable malloc : heap -> addr.
Variable fill : heap -> string -> Z -> struct.
Variable ch : choices.

(** ** Freeing the output *)
Theorem filter_then_free h i ts bss t st :
  fresh malloc -> dataset_at h i ts bss -> filterable h i -> one_target ch h i ->
  lookup h t = Some [st] -> getf st "ntarget" <> None -> getf st "targ" <> None ->
  ~ In t (fp_targets i :: blocks i ts bss) ->
  exists o h1 h2, apply_oi_filter malloc fill ch i t h = Ok (o, h1) /\ free_oi_fits o h1 = Ok h2
    /\ forall a, a <> t -> lookup h2 a = lookup h a.
Proof.
  intros Hf Hd Hfl Hone Lt M1 M2 Nt.
  destruct (apply_storage malloc Hf fill ch h i ts bss t Hd Hfl Nt st Hone Lt M1 M2) as (o & h1 & ts' & bss' & E & Eo & Ho & Hk & Hn).
  destruct (free_output h1 o ts' bss' Ho) as (h2 & E2 & W1 & W2).
  exists o, h1, h2. split; [exact E|]. split; [exact E2|]. intros a Ha.
  destruct (in_dec Z.eq_dec a (blocks o ts' bss')) as [Hi|Hi].
  - pose proof (W1 a Hi) as X. apply Hn in Hi. destruct Hi as [Y _]. unfold live in X, Y.
    destruct (lookup h2 a), (lookup h a); try reflexivity; exfalso; [apply X | apply X | apply Y]; discriminate.
  - rewrite W2 by exact Hi. destruct (lookup h a) eqn:Ea.
    + rewrite Hk, Ea; [reflexivity | exact Ha | unfold live; rewrite Ea; discriminate].
    + destruct (lookup h1 a) eqn:E1; [|reflexivity]. exfalso. apply Hi, Hn. unfold live. rewrite Ea, E1.
      split; [intros X; apply X; reflexivity | discriminate].
Qed.

(** ** Freeing the input first *)
Theorem filter_free_input h i ts bss t st :
  fresh malloc -> dataset_at h i ts bss -> filterable h i -> one_target ch h i ->
  lookup h t = Some [st] -> getf st "ntarget" <> None -> getf st "targ" <> None ->
  ~ In t (fp_targets i :: blocks i ts bss) ->
  exists o h1 h2 h3 ts' bss', apply_oi_filter malloc fill ch i t h = Ok (o, h1)
    /\ free_oi_fits i h1 = Ok h2
    /\ output_at h2 o ts' bss'
    /\ (forall a, In a (t :: blocks o ts' bss') -> lookup h2 a = lookup h1 a)
    /\ free_oi_fits o h2 = Ok h3
    /\ (forall a, In a (blocks i ts bss) -> ~ live h3 a)
    /\ (forall a, a <> t -> ~ In a (blocks i ts bss) -> lookup h3 a = lookup h a).
Proof.
  intros Hf Hd Hfl Hone Lt M1 M2 Nt.
  destruct (apply_storage malloc Hf fill ch h i ts bss t Hd Hfl Nt st Hone Lt M1 M2) as (o & h1 & ts' & bss' & E & Eo & Ho & Hk & Hn).
  pose proof (dataset_live _ _ _ _ Hd) as Hlive.
  assert (Hi1 : output_at h1 i ts bss).
  { eapply output_frame; [exact (dataset_output _ _ _ _ Hd)|]. intros a Ha. apply Hk; [|exact (Hlive a Ha)].
    intros ->. contradiction. }
  destruct (free_output h1 i ts bss Hi1) as (h2 & E2 & W1 & W2).
  assert (Hsame : forall a, In a (t :: blocks o ts' bss') -> lookup h2 a = lookup h1 a).
  { intros a Ha. apply W2. intros Hx. destruct Ha as [<-|Ha]; [apply Nt; right; exact Hx|].
    apply Hn in Ha. apply (proj1 Ha), Hlive. right. exact Hx. }
  assert (Ho2 : output_at h2 o ts' bss').
  { eapply output_frame; [exact Ho|]. rewrite Eo. exact Hsame. }
  destruct (free_output h2 o ts' bss' Ho2) as (h3 & E3 & V1 & V2).
  exists o, h1, h2, h3, ts', bss'. split; [exact E|]. split; [exact E2|]. split; [exact Ho2|]. split; [exact Hsame|].
  split; [exact E3|]. split.
  - intros a Ha. unfold live. rewrite V2.
    + exact (W1 a Ha).
    + intros X. apply Hn in X. apply (proj1 X), Hlive. right. exact Ha.
  - intros a Ha Hni. destruct (in_dec Z.eq_dec a (blocks o ts' bss')) as [Hi|Hi].
    + pose proof (V1 a Hi) as X. apply Hn in Hi. destruct Hi as [Y _]. unfold live in X, Y.
      destruct (lookup h3 a), (lookup h a); try reflexivity; exfalso; [apply X | apply X | apply Y]; discriminate.
    + rewrite V2 by exact Hi. rewrite W2 by exact Hni. destruct (lookup h a) eqn:Ea.
      * rewrite Hk, Ea; [reflexivity | exact Ha | unfold live; rewrite Ea; discriminate].
      * destruct (lookup h1 a) eqn:E1; [|reflexivity]. exfalso. apply Hi, Hn. unfold live. rewrite Ea, E1.
        split; [intros X; apply X; reflexivity | discriminate].
Qed.
End Filter.

(** ** Concrete cases *)

(** Two targets; two OI_WAVELENGTH tables, "I" with three channels and "J" with one; an array
    that nothing refers to; OI_VIS2 with two records and OI_INSPOL with one; the struct for
    the output at 3; a block of another part of the program at 99. *)
Definition f_row (base : Z) (names : list string) (x : string * field) : struct :=
  x :: combine names (map (fun i => Ptr (Some (base + Z.of_nat i))) (seq 0 (List.length names))).
Definition three (x : string) : block := cells [(x ++ "1")%string; (x ++ "2")%string; (x ++ "3")%string].
Definition f_vecs (base : Z) (names : list string) : list (addr * block) :=
  combine (map (fun i => base + Z.of_nat i) (seq 0 (List.length names))) (map three names).
Definition v2_names := ["vis2data"; "vis2err"; "flag"]%string.
Definition j_names := ["jxx"; "jyy"; "jxy"; "jyx"]%string.
Definition s_targets : struct := [("ntarget"%string, Num 2); ("targ"%string, Ptr (Some 2))].
Definition s_out : struct := [("ntarget"%string, Num 99); ("targ"%string, Ptr (Some 77))].
Definition s_array : struct := [("nelement"%string, Num 1); ("elem"%string, Ptr (Some 11))].
Definition s_wave_i : struct := [("insname"%string, Bytes "I"%string); ("nwave"%string, Num 3);
  ("eff_wave"%string, Ptr (Some 21)); ("eff_band"%string, Ptr (Some 22))].
Definition s_wave_j : struct := [("insname"%string, Bytes "J"%string); ("nwave"%string, Num 1);
  ("eff_wave"%string, Ptr (Some 31)); ("eff_band"%string, Ptr (Some 32))].
Definition s_vis2 : struct := [("insname"%string, Bytes "I"%string); ("numrec"%string, Num 2); ("nwave"%string, Num 3);
  ("record"%string, Ptr (Some 41))].
Definition s_inspol : struct := [("numrec"%string, Num 1); ("nwave"%string, Num 3); ("record"%string, Ptr (Some 51))].
Definition r_targets : block := [[("target_id"%string, Num 1)]; [("target_id"%string, Num 2)]].
Definition r_vis2 : block := [f_row 42 v2_names ("target_id"%string, Num 1); f_row 45 v2_names ("target_id"%string, Num 2)].
Definition r_inspol : block := [f_row 52 j_names ("insname"%string, Bytes "I"%string)].
Definition f_heap : heap :=
  ([(1, [s_targets]); (2, r_targets); (3, [s_out]); (10, [s_array]); (11, cells ["S1"%string]);
    (20, [s_wave_i]); (21, three "w"); (22, three "b"); (30, [s_wave_j]); (31, cells ["w"%string]); (32, cells ["b"%string]);
    (40, [s_vis2]); (41, r_vis2); (50, [s_inspol]); (51, r_inspol); (99, cells ["other"%string])]
   ++ f_vecs 42 v2_names ++ f_vecs 45 v2_names ++ f_vecs 52 j_names)%list.
Definition f_ptrs : fits_ptrs := mk_ptrs 1 [10] [20; 30] [] [50] [] [40] [] [].
Definition f_ts : list addr := [2].
Definition f_bss : list (list addr) := [[11]; [21; 22]; [31; 32]; [51; 52; 53; 54; 55]; [41; 42; 43; 44; 45; 46; 47]].

Ltac apart := repeat (apply NoDup_cons; [cbn; intros H; repeat (destruct H as [H|H]; [discriminate H|]); exact H|]); apply NoDup_nil.
Ltac table s n vs arrs vecs := exists s, n, vs, arrs, vecs; split; [constructor; [reflexivity | reflexivity | reflexivity
  | repeat constructor | repeat constructor | cbn; apart] | reflexivity].
Example f_dataset : dataset_at f_heap f_ptrs f_ts f_bss.
Proof.
  constructor.
  - table s_targets 2 (@nil (string * Z)) [(2, r_targets)] [@nil (addr * block); []].
  - apply Forall2_cons; [|apply Forall2_cons; [|apply Forall2_cons; [|apply Forall2_cons; [|apply Forall2_cons; [|apply Forall2_nil]]]]]; cbn [fst snd].
    + table s_array 1 (@nil (string * Z)) [(11, cells ["S1"%string])] [@nil (addr * block)].
    + table s_wave_i 3 (@nil (string * Z)) [(21, three "w"); (22, three "b")] (repeat (@nil (addr * block)) 6).
    + table s_wave_j 1 (@nil (string * Z)) [(31, cells ["w"%string]); (32, cells ["b"%string])] (repeat (@nil (addr * block)) 2).
    + table s_inspol 1 (map (fun f => (f, 3)) j_names) [(51, r_inspol)] [f_vecs 52 j_names].
    + table s_vis2 2 (map (fun f => (f, 3)) v2_names) [(41, r_vis2)] [f_vecs 42 v2_names; f_vecs 45 v2_names].
  - cbn. apart.
Qed.
Lemma struct_is h p s x : lookup h p = Some [s] -> lookup h p = Some [x] -> s = x.
Proof. congruence. Qed.
Example f_filterable : filterable f_heap f_ptrs.
Proof.
  constructor.
  - intros s n vs arrs vecs [A B _ _ _ _]. cbn in A. injection A as <-. cbn in B. injection B as <-. lia.
  - intros T p s n vs arrs vecs Hin [A B C _ _ _].
    cbn in Hin. repeat (destruct Hin as [[= <- <-]|Hin];
      [cbn in A; injection A as <-; cbn in B; injection B as <-; cbn in C; injection C as <-; split; [lia|]; repeat constructor|]).
    contradiction.
  - intros p s Hp L. cbn in Hp. destruct Hp as [<-|[<-|[]]]; cbn in L; injection L as <-; eexists; reflexivity.
  - intros p s Hp L. cbn in Hp. destruct Hp as [<-|[]]. cbn in L. injection L as <-. exists "I"%string. split; [reflexivity|].
    intros q x Hq Lq Nq. cbn in Hq. destruct Hq as [<-|[<-|[]]]; cbn in Lq; injection Lq as <-; [reflexivity | discriminate Nq].
  - intros p s e r Hp L R Le Hr. cbn in Hp. destruct Hp as [<-|[]]. cbn in L. injection L as <-. cbn in R. injection R as R.
    rewrite <- R in Le. cbn in Le. injection Le as Le. rewrite <- Le in Hr. destruct Hr as [<-|[]].
    exists "I"%string. split; [reflexivity|].
    intros q x Hq Lq Nq. cbn in Hq. destruct Hq as [<-|[<-|[]]]; cbn in Lq; injection Lq as <-; [reflexivity | discriminate Nq].
  - intros p s e r [].
Qed.
(** the second target; the second record of OI_VIS2; channels 2 and 3 of "I" and none of "J" *)
Definition f_choice : choices := mk_choices (fun _ => true) (fun _ p i => (p =? 50) || (i =? 1))
  (fun _ p j => (p =? 20) && (1 <=? j))
  (Some (fun r => match getf r "target_id" with Some (Num 2) => true | _ => false end))
  (fun s => match getf s "elem" with None => true | Some _ => false end).
Definition f_fill (h : heap) (f : string) (i : Z) : struct := [(f, Num i); ("revision"%string, Num 7)].
(** gives freed addresses again *)
Definition f_malloc (h : heap) : addr := first_free (List.length h) 1 h.
Example f_one_target : one_target f_choice f_heap f_ptrs.
Proof.
  intros sel s e Hs L Ht Le. cbn in Hs. injection Hs as <-. cbn in L. injection L as <-. cbn in Ht. injection Ht as Ht.
  rewrite <- Ht in Le. cbn in Le. injection Le as Le. rewrite <- Le. cbn. lia.
Qed.
Example f_out : lookup f_heap 3 = Some [s_out] /\ getf s_out "ntarget" <> None /\ getf s_out "targ" <> None
  /\ ~ In 3 (fp_targets f_ptrs :: blocks f_ptrs f_ts f_bss).
Proof.
  split; [reflexivity|]. split; [discriminate|]. split; [discriminate|]. cbn. intros H.
  repeat (destruct H as [H|H]; [discriminate H|]). exact H.
Qed.
(** the output has one target, the table "I" with two channels, one record of OI_VIS2, one of
    OI_INSPOL and no array *)
Example f_filtered : exists o h1, apply_oi_filter f_malloc f_fill f_choice f_ptrs 3 f_heap = Ok (o, h1)
  /\ fp_array o = [] /\ List.length (fp_wavelength o) = 1%nat /\ List.length (fp_inspol o) = 1%nat /\ List.length (fp_vis2 o) = 1%nat
  /\ List.length h1 = (List.length f_heap + 15)%nat
  /\ load_num h1 3 0 "ntarget" = Ok 1 /\ (p <- get (fp_vis2 o) 0 ;; load_num h1 p 0 "numrec") = Ok 1
  /\ (p <- get (fp_wavelength o) 0 ;; load_num h1 p 0 "nwave") = Ok 2
  /\ exists h2 h3, free_oi_fits f_ptrs h1 = Ok h2 /\ free_oi_fits o h2 = Ok h3 /\ map fst h3 = [3; 1; 99].
Proof.
  eexists. eexists. split; [vm_compute; reflexivity|]. do 8 (split; [vm_compute; reflexivity|]).
  eexists. eexists. split; [vm_compute; reflexivity|]. split; vm_compute; reflexivity.
Qed.

(** ** Two rows with the TARGET_ID that is selected: the first block for targets is lost. *)
Definition two_heap : heap :=
  [(1, [s_targets]); (2, [[("target_id"%string, Num 2)]; [("target_id"%string, Num 2)]]); (3, [s_out])].
Definition two_ptrs : fits_ptrs := mk_ptrs 1 [] [] [] [] [] [] [] [].
Theorem two_targets_leak : exists malloc fill ch h i ts bss t st o h' a,
  fresh malloc /\ dataset_at h i ts bss /\ filterable h i
  /\ lookup h t = Some [st] /\ getf st "ntarget" <> None /\ getf st "targ" <> None
  /\ ~ In t (fp_targets i :: blocks i ts bss)
  /\ apply_oi_filter malloc fill ch i t h = Ok (o, h')
  /\ ~ live h a /\ live h' a /\ a <> fp_targets o
  /\ forall ts' bss', output_at h' o ts' bss' -> ~ In a (blocks o ts' bss').
Proof.
  exists f_malloc, f_fill, f_choice, two_heap, two_ptrs, [2], [], 3, s_out. eexists. eexists. exists 4.
  split; [exact first_free_fresh|]. split; [|split; [|split; [reflexivity|split; [discriminate|split; [discriminate|split]]]]].
  - constructor.
    + table s_targets 2 (@nil (string * Z)) [(2, [[("target_id"%string, Num 2)]; [("target_id"%string, Num 2)]])] [@nil (addr * block); []].
    + constructor.
    + cbn. apart.
  - constructor.
    + intros s n vs arrs vecs [A B _ _ _ _]. cbn in A. injection A as <-. cbn in B. injection B as <-. lia.
    + intros T p s n vs arrs vecs [].
    + intros p s [].
    + intros p s [].
    + intros p s e r [].
    + intros p s e r [].
  - cbn. intros H. repeat (destruct H as [H|H]; [discriminate H|]). exact H.
  - split; [vm_compute; reflexivity|]. split; [intros X; apply X; reflexivity|]. split; [discriminate|]. split; [discriminate|].
    intros ts' bss' [Ht Hl _] Ha. cbn in Hl. inversion Hl; subst. unfold blocks in Ha. cbn in Ha. rewrite !app_nil_r in Ha.
    cbn [fp_targets] in Ht. destruct Ht as [(s & n & vs & arrs & vecs & [A _ C D E _] & ->)|(-> & _)]; [|contradiction].
    cbn in A. injection A as <-. inversion D as [|? e ? l (D1 & D2 & _) Dl]; subst. inversion Dl; subst.
    cbn in D1. injection D1 as D1. rewrite <- D1 in *. cbn in D2. injection D2 as D2.
    unfold storage in Ha. apply in_app_iff in Ha. destruct Ha as [[Ha|[]]|Ha]; [rewrite <- D1 in Ha; discriminate|].
    cbn in C. injection C as <-.
    assert (Hvn : concat vecs = []).
    { clear - E. induction E as [|r es rs vecs H E IH]; [reflexivity|]. inversion H; subst. exact IH. }
    rewrite Hvn in Ha. contradiction.
Qed.
