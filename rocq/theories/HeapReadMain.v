(** Reading, then freeing; concrete cases. *)
From Coq Require Import Lia Permutation.
From Verif Require Import HeapSpec HeapReadSpec BaseLemmas HeapProofs HeapDup HeapTables HeapFree HeapAlloc HeapMain
  HeapGrow HeapFilterTab HeapFilterMain HeapReadVis HeapReadAll HeapReadWhole.
Open Scope Z_scope.

Section Read.
Variable malloc : heap -> addr.
Variable fill : heap -> string -> Z -> struct.

Theorem read_storage f o h st : fresh malloc -> declared fill ->
  lookup h (fp_targets o) = Some [st] -> (forall m, In m (members KTarget) -> getf st m <> None) ->
  f_opens f = true -> f_header f = true -> c_keys (f_target f) = true ->
  (forall k c, In c (reached f k) -> ~ empty_table k c) ->
  exists o' h' ts bss lost, read_oi_fits malloc fill f o h = Ok (read_succeeds f, o', h')
    /\ fp_targets o' = fp_targets o
    /\ dataset_at h' o' ts bss
    /\ holds KTarget h' (f_target f) (fp_targets o)
    /\ (forall k, k <> KTarget -> Forall2 (holds k h') (filter (readable k) (reached f k)) (tables_of o' k))
    /\ (forall a, a <> fp_targets o -> live h a -> lookup h' a = lookup h a)
    /\ NoDup (blocks o' ts bss ++ lost)
    /\ (forall a, In a (blocks o' ts bss ++ lost) <-> (~ live h a /\ live h' a))
    /\ Z.of_nat (List.length lost) = lost_blocks f.
Proof.
  intros Hf Hd Lt Mt Ho Hh Hk He.
  destruct (read_whole malloc Hf fill Hd f o h st Lt Mt Ho Hh Hk) as [[_ (k & c & Hc & Ec)]|(o' & h' & E & _ & R)].
  { exfalso. exact (He k c Hc Ec). }
  destruct R as (ts & bss & lost & R). exists o', h', ts, bss, lost. split; [exact E | exact R].
Qed.

Theorem read_empty f o h st : fresh malloc -> declared fill ->
  lookup h (fp_targets o) = Some [st] -> (forall m, In m (members KTarget) -> getf st m <> None) ->
  f_opens f = true -> f_header f = true -> c_keys (f_target f) = true ->
  (exists k c, In c (reached f k) /\ empty_table k c) ->
  read_oi_fits malloc fill f o h = Abort.
Proof.
  intros Hf Hd Lt Mt Ho Hh Hk (k & c & Hc & Ec).
  destruct (read_whole malloc Hf fill Hd f o h st Lt Mt Ho Hh Hk) as [[E _]|(o' & h' & _ & N & _)]; [exact E|].
  exfalso. exact (N k c Hc Ec).
Qed.

Theorem read_nothing f o h : f_opens f && f_header f && c_keys (f_target f) = false ->
  exists o', read_oi_fits malloc fill f o h = Ok (false, o', h) /\ fp_targets o' = fp_targets o.
Proof.
  unfold read_oi_fits. destruct (f_opens f); cbn [andb negb]; [|intros _; exists o; split; reflexivity].
  destruct (f_header f); cbn [andb negb]; [|intros _; eexists; split; reflexivity].
  intros H. unfold read_oi_target, read_table. rewrite H. cbn [bind fst snd negb]. eexists. split; reflexivity.
Qed.

Theorem read_then_free f o h st : fresh malloc -> declared fill ->
  lookup h (fp_targets o) = Some [st] -> (forall m, In m (members KTarget) -> getf st m <> None) ->
  f_opens f = true -> f_header f = true -> c_keys (f_target f) = true ->
  (forall k c, In c (reached f k) -> ~ empty_table k c) ->
  exists o' h1 h2 lost, read_oi_fits malloc fill f o h = Ok (read_succeeds f, o', h1)
    /\ free_oi_fits o' h1 = Ok h2
    /\ NoDup lost /\ Z.of_nat (List.length lost) = lost_blocks f
    /\ (forall a, In a lost -> ~ live h a /\ live h2 a)
    /\ (forall a, a <> fp_targets o -> ~ In a lost -> lookup h2 a = lookup h a).
Proof.
  intros Hf Hd Lt Mt Ho Hh Hk He.
  destruct (read_storage f o h st Hf Hd Lt Mt Ho Hh Hk He) as (o' & h1 & ts & bss & lost & E & Eo & D & _ & _ & Kp & Nd & Nw & Ll).
  destruct (free_output h1 o' ts bss (dataset_output _ _ _ _ D)) as (h2 & E2 & W1 & W2).
  assert (Dis : forall a, In a lost -> ~ In a (blocks o' ts bss)).
  { intros a Ha Hb. exact (NoDup_app_disjoint _ _ Nd a Hb Ha). }
  exists o', h1, h2, lost. split; [exact E|]. split; [exact E2|]. split; [exact (NoDup_app_r _ _ Nd)|]. split; [exact Ll|]. split.
  - intros a Ha. destruct (proj1 (Nw a)) as [A B]; [apply in_app_iff; right; exact Ha|]. split; [exact A|].
    unfold live. rewrite W2; [exact B | exact (Dis a Ha)].
  - intros a Ha Nl. destruct (in_dec Z.eq_dec a (blocks o' ts bss)) as [Hx|Hx].
    + pose proof (W1 a Hx) as X. destruct (proj1 (Nw a)) as [Y _]; [apply in_app_iff; left; exact Hx|]. unfold live in X, Y.
      destruct (lookup h2 a), (lookup h a); try reflexivity; exfalso; [apply X | apply X | apply Y]; discriminate.
    + rewrite W2 by exact Hx. destruct (lookup h a) eqn:Ea.
      * rewrite Kp, Ea; [reflexivity | exact Ha | unfold live; rewrite Ea; discriminate].
      * destruct (lookup h1 a) eqn:E1; [|reflexivity]. exfalso.
        assert (X : In a (blocks o' ts bss ++ lost)).
        { apply Nw. unfold live. rewrite Ea, E1. split; [intros X; apply X; reflexivity | discriminate]. }
        apply in_app_iff in X. tauto.
Qed.

Lemma sum_zero (l : list Z) : Forall (eq 0) l -> sum l = 0.
Proof. induction 1 as [|x l <- F IH]; [reflexivity|]. unfold sum in *. cbn [fold_right]. rewrite IH. reflexivity. Qed.
Theorem read_all_returned f o h st : fresh malloc -> declared fill ->
  lookup h (fp_targets o) = Some [st] -> (forall m, In m (members KTarget) -> getf st m <> None) ->
  f_opens f = true -> f_header f = true -> c_keys (f_target f) = true ->
  (forall k c, In c (reached f k) -> ~ empty_table k c) ->
  (forall k c, k <> KTarget -> In c (reached f k) -> c_keys c = true -> readable k c = true) ->
  exists o' h1 h2, read_oi_fits malloc fill f o h = Ok (read_succeeds f, o', h1)
    /\ free_oi_fits o' h1 = Ok h2 /\ forall a, a <> fp_targets o -> lookup h2 a = lookup h a.
Proof.
  intros Hf Hd Lt Mt Ho Hh Hk He Hr.
  destruct (read_then_free f o h st Hf Hd Lt Mt Ho Hh Hk He) as (o' & h1 & h2 & lost & E & E2 & _ & Ll & _ & Kp).
  exists o', h1, h2. split; [exact E|]. split; [exact E2|]. intros a Ha. apply Kp; [exact Ha|].
  assert (Z0 : lost_blocks f = 0).
  { unfold lost_blocks. apply sum_zero. apply Forall_forall. intros x Hx. apply in_map_iff in Hx. destruct Hx as (k & <- & Hk').
    symmetry. unfold lost_kind. apply sum_zero. apply Forall_forall. intros y Hy. apply in_map_iff in Hy. destruct Hy as (c & <- & Hc).
    destruct (readable k c) eqn:Er; [reflexivity|]. unfold blocks_begun. destruct (c_keys c) eqn:Ek; [|reflexivity].
    rewrite Hr in Er; [discriminate | | exact Hc | exact Ek]. intros ->. cbn in Hk'. repeat (destruct Hk' as [Hk'|Hk']; [discriminate Hk'|]). exact Hk'. }
  rewrite Z0 in Ll. destruct lost; [intros [] | discriminate Ll].
Qed.
End Read.

(** ** A concrete file *)
Definition all_kinds : list table_kind := [KTarget; KArray; KWavelength; KCorr; KInspol; KVis; KVis2; KT3; KFlux].
(** what malloc gives: members with any values *)
Definition r_fill (h : heap) (f : string) (i : Z) : struct :=
  if str_eqb f "struct" then map (fun m => (m, Num 5)) (flat_map members all_kinds)
  else if str_eqb f "record" then map (fun m => (m, Num i)) (flat_map (fun k => vectors_given k ++ vectors_null k) all_kinds)
  else [].
Lemma in_all_kinds k : In k all_kinds.
Proof. destruct k; cbn; tauto. Qed.
Lemma getf_made (v : field) l f : In f l -> getf (map (fun m => (m, v)) l) f <> None.
Proof.
  induction l as [|g l IH]; [intros []|]. cbn [map getf fst snd]. intros [->|H].
  - rewrite str_eqb_refl. discriminate.
  - destruct (str_eqb g f); [discriminate | exact (IH H)].
Qed.
Example r_declared : declared r_fill.
Proof.
  split.
  - intros k h f _ Hf. unfold r_fill. cbn [str_eqb String.eqb Ascii.eqb Bool.eqb]. apply getf_made, in_flat_map. exists k. split; [apply in_all_kinds | exact Hf].
  - intros k h i f Hf. unfold r_fill. cbn [str_eqb String.eqb Ascii.eqb Bool.eqb]. apply getf_made, in_flat_map. exists k. split; [apply in_all_kinds | exact Hf].
Qed.
(** a table that can be read *)
Definition good (n w : Z) : content := mk_content true n w true false true true true true.
(** two targets; an OI_CORR of which a column is missing; an OI_VIS with all options, and one
    that fails after VISREFMAP; an OI_VIS2 without INSNAME *)
Definition r_file : file := mk_file true true true (good 2 0) [good 1 0] [good 3 0]
  [mk_content true 2 0 false false false false false false] []
  [good 2 3; mk_content true 1 2 true false true false false false]
  [mk_content false 0 0 false false false false false false] [good 1 3] [].
Definition r_ptrs : fits_ptrs := mk_ptrs 1 [7] [] [] [] [] [] [] [].
Definition r_heap : heap := [(1, [s_out]); (9, cells ["other"%string])].
Example r_no_empty : forall k c, In c (reached r_file k) -> ~ empty_table k c.
Proof.
  intros k c Hc (K & [N|[V W]]); destruct k; cbn in Hc;
    repeat (destruct Hc as [<-|Hc]; [cbn in *; try discriminate; try lia; contradiction|]); exact Hc.
Qed.
(** ten blocks stay: three arrays of OI_CORR, and seven of OI_VIS *)
Example r_read : exists o' h1 h2, read_oi_fits f_malloc r_fill r_file r_ptrs r_heap = Ok (true, o', h1)
  /\ List.length (fp_array o') = 1%nat /\ fp_corr o' = [] /\ List.length (fp_vis o') = 1%nat /\ fp_vis2 o' = []
  /\ List.length (fp_t3 o') = 1%nat
  /\ free_oi_fits o' h1 = Ok h2 /\ List.length h2 = 12%nat /\ lost_blocks r_file = 10.
Proof.
  destruct (read_oi_fits f_malloc r_fill r_file r_ptrs r_heap) as [[[b o'] h1]| |] eqn:E; vm_compute in E; try discriminate E.
  injection E as <- <- <-. do 3 eexists. repeat split; vm_compute; reflexivity.
Qed.
Theorem read_leaks : exists malloc fill f o h o' h1 h2 a, fresh malloc /\ declared fill
  /\ read_oi_fits malloc fill f o h = Ok (true, o', h1) /\ free_oi_fits o' h1 = Ok h2 /\ ~ live h a /\ live h2 a.
Proof.
  destruct (read_then_free f_malloc r_fill r_file r_ptrs r_heap s_out) as (o' & h1 & h2 & lost & E & E2 & _ & Ll & Lv & _);
    try reflexivity; [exact first_free_fresh | exact r_declared | | exact r_no_empty |].
  { intros m Hm. cbn in Hm. repeat (destruct Hm as [<-|Hm]; [discriminate|]). contradiction. }
  destruct lost as [|a lost]; [discriminate Ll|]. exists f_malloc, r_fill, r_file, r_ptrs, r_heap, o', h1, h2, a.
  split; [exact first_free_fresh|]. split; [exact r_declared|]. split; [exact E|]. split; [exact E2|]. apply Lv. left. reflexivity.
Qed.
(** the file has no OI_TARGET table *)
Definition r_no_targets : file := mk_file true true true (mk_content false 0 0 false false false false false false)
  [good 1 0] [good 3 0] [] [] [] [good 1 3] [] [].
Theorem free_after_failure : exists malloc fill f o h st o' h1, fresh malloc /\ declared fill
  /\ lookup h (fp_targets o) = Some [st] /\ (forall m, In m (members KTarget) -> getf st m <> None)
  /\ read_oi_fits malloc fill f o h = Ok (false, o', h1) /\ free_oi_fits o' h1 = UB.
Proof.
  exists f_malloc, r_fill, r_no_targets, r_ptrs, r_heap, s_out. eexists. eexists.
  split; [exact first_free_fresh|]. split; [exact r_declared|]. split; [reflexivity|]. split.
  { intros m Hm. cbn in Hm. repeat (destruct Hm as [<-|Hm]; [discriminate|]). contradiction. }
  split; reflexivity.
Qed.
(** an OI_WAVELENGTH table without rows *)
Definition r_no_rows : file := mk_file true true true (good 1 0) [] [good 3 0; good 0 0] [] [] [] [] [] [].
(** nothing is skipped but a table without keywords *)
Definition r_clean : file := mk_file true true true (good 2 0) [good 1 0] [good 3 0] [good 2 0] [good 1 2]
  [good 2 3] [mk_content false 0 0 false false false false false false; good 1 3] [] [good 4 1].
Example r_clean_ok : (forall k c, In c (reached r_clean k) -> ~ empty_table k c)
  /\ (forall k c, k <> KTarget -> In c (reached r_clean k) -> c_keys c = true -> readable k c = true).
Proof.
  split.
  - intros k c Hc (K & [N|[V W]]); destruct k; cbn in Hc;
      repeat (destruct Hc as [<-|Hc]; [cbn in *; try discriminate; try lia; contradiction|]); exact Hc.
  - intros k c _ Hc K; destruct k; cbn in Hc;
      repeat (destruct Hc as [<-|Hc]; [cbn in *; try discriminate; reflexivity|]); contradiction.
Qed.
