(** C57: the filter makes a dataset with storage of its own, loses no storage, and leaves the
    input as it is. *)
From Verif Require Import HeapSpec HeapFilterSpec HeapMain HeapFilterApply HeapFilterMain.
Open Scope Z_scope.

(** Whatever the filter accepts, the output is a whole dataset whose blocks are exactly those
    that were not in use before: the arrays of accepted channels and the tables that are
    removed again leave nothing behind.  No other block changes but the target struct of the
    output. *)
Theorem C57_apply : forall malloc, fresh malloc -> forall fill ch h i ts bss t,
  dataset_at h i ts bss -> filterable h i -> ~ In t (fp_targets i :: blocks i ts bss) ->
  forall st, one_target ch h i ->
  lookup h t = Some [st] -> getf st "ntarget" <> None -> getf st "targ" <> None ->
  exists o h' ts' bss', apply_oi_filter malloc fill ch i t h = Ok (o, h')
    /\ fp_targets o = t /\ output_at h' o ts' bss'
    /\ (forall a, a <> t -> live h a -> lookup h' a = lookup h a)
    /\ (forall a, In a (blocks o ts' bss') <-> (~ live h a /\ live h' a)).
Proof. exact apply_storage. Qed.
Print Assumptions C57_apply.
Example C57_apply_case : fresh f_malloc /\ dataset_at f_heap f_ptrs f_ts f_bss /\ filterable f_heap f_ptrs
  /\ ~ In 3 (fp_targets f_ptrs :: blocks f_ptrs f_ts f_bss) /\ one_target f_choice f_heap f_ptrs
  /\ lookup f_heap 3 = Some [s_out]
  /\ exists o h1, apply_oi_filter f_malloc f_fill f_choice f_ptrs 3 f_heap = Ok (o, h1)
     /\ List.length h1 = (List.length f_heap + 15)%nat.
Proof.
  split; [exact first_free_fresh|]. split; [exact f_dataset|]. split; [exact f_filterable|].
  split; [apply f_out|]. split; [exact f_one_target|]. split; [reflexivity|].
  destruct f_filtered as (o & h1 & E & _ & _ & _ & _ & L & _). exists o, h1. split; [exact E | exact L].
Qed.

(** Freeing the output gives the storage before the filter back. *)
Theorem C57_free_output : forall malloc fill ch h i ts bss t st,
  fresh malloc -> dataset_at h i ts bss -> filterable h i -> one_target ch h i ->
  lookup h t = Some [st] -> getf st "ntarget" <> None -> getf st "targ" <> None ->
  ~ In t (fp_targets i :: blocks i ts bss) ->
  exists o h1 h2, apply_oi_filter malloc fill ch i t h = Ok (o, h1) /\ free_oi_fits o h1 = Ok h2
    /\ forall a, a <> t -> lookup h2 a = lookup h a.
Proof. exact filter_then_free. Qed.
Print Assumptions C57_free_output.
Example C57_free_output_case : getf s_out "ntarget" <> None /\ getf s_out "targ" <> None
  /\ exists o h1, apply_oi_filter f_malloc f_fill f_choice f_ptrs 3 f_heap = Ok (o, h1)
     /\ fp_array o = [] /\ load_num h1 3 0 "ntarget" = Ok 1.
Proof.
  split; [discriminate|]. split; [discriminate|].
  destruct f_filtered as (o & h1 & E & A & _ & _ & _ & _ & N & _). exists o, h1. split; [exact E|]. split; [exact A | exact N].
Qed.

(** Freeing the input leaves the whole output; freeing that too leaves no block of either. *)
Theorem C57_free_input : forall malloc fill ch h i ts bss t st,
  fresh malloc -> dataset_at h i ts bss -> filterable h i -> one_target ch h i ->
  lookup h t = Some [st] -> getf st "ntarget" <> None -> getf st "targ" <> None ->
  ~ In t (fp_targets i :: blocks i ts bss) ->
  exists o h1 h2 h3 ts' bss', apply_oi_filter malloc fill ch i t h = Ok (o, h1)
    /\ free_oi_fits i h1 = Ok h2
    /\ output_at h2 o ts' bss'
    /\ (forall a, In a (t :: blocks o ts' bss') -> lookup h2 a = lookup h1 a)
    /\ free_oi_fits o h2 = Ok h3
    /\ (forall a, In a (blocks i ts bss) -> ~ live h3 a)
    /\ (forall a, a <> t -> ~ In a (blocks i ts bss) -> lookup h3 a = lookup h a).
Proof. exact filter_free_input. Qed.
Print Assumptions C57_free_input.
Example C57_free_input_case : exists o h1 h2 h3, apply_oi_filter f_malloc f_fill f_choice f_ptrs 3 f_heap = Ok (o, h1)
  /\ free_oi_fits f_ptrs h1 = Ok h2 /\ free_oi_fits o h2 = Ok h3 /\ map fst h3 = [3; 1; 99].
Proof.
  destruct f_filtered as (o & h1 & E & _ & _ & _ & _ & _ & _ & _ & _ & h2 & h3 & R). exists o, h1, h2, h3.
  split; [exact E | exact R].
Qed.

(** Any output, also one without targets, can be freed, and freeing it frees each of its
    blocks and changes no other. *)
Theorem C57_freeable : forall h o ts bss, output_at h o ts bss ->
  exists h', free_oi_fits o h = Ok h'
    /\ (forall a, In a (blocks o ts bss) -> ~ live h' a)
    /\ (forall a, ~ In a (blocks o ts bss) -> lookup h' a = lookup h a).
Proof. exact free_output. Qed.
Print Assumptions C57_freeable.
Example C57_freeable_case : output_at [(1, [[("ntarget"%string, Num 0); ("targ"%string, Ptr None)]])] two_ptrs [] []
  /\ output_at f_heap f_ptrs f_ts f_bss.
Proof.
  split; [|exact (dataset_output _ _ _ _ f_dataset)]. constructor.
  - right. split; [reflexivity|]. eexists. repeat split.
  - constructor.
  - repeat constructor. intros [].
Qed.

(** If two rows of OI_TARGET have the TARGET_ID that is selected, a block is lost. *)
Theorem C57_two_targets_refuted : exists malloc fill ch h i ts bss t st o h' a,
  fresh malloc /\ dataset_at h i ts bss /\ filterable h i
  /\ lookup h t = Some [st] /\ getf st "ntarget" <> None /\ getf st "targ" <> None
  /\ ~ In t (fp_targets i :: blocks i ts bss)
  /\ apply_oi_filter malloc fill ch i t h = Ok (o, h')
  /\ ~ live h a /\ live h' a /\ a <> fp_targets o
  /\ forall ts' bss', output_at h' o ts' bss' -> ~ In a (blocks o ts' bss').
Proof. exact two_targets_leak. Qed.
Print Assumptions C57_two_targets_refuted.
