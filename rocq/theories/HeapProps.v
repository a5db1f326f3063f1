(** C41: copies of tables are separate, and storage is freed exactly once.
    C45: allocation gives a table storage of its own. *)
From Verif Require Import HeapSpec HeapAlloc HeapMain.
Open Scope Z_scope.

(** Copying any table: the new table has the same contents, uses exactly the blocks that were
    not in use before, and changes no block that was. *)
Theorem C41_dup : forall k, copies (shape_of k) (not_copied k) (dup_of k).
Proof. exact dup_copies. Qed.
Print Assumptions C41_dup.
Example C41_dup_case : fresh next_address
  /\ table_at (shape_of KVis) vis_heap 1 vis_struct 2 (map (fun f => (f, 1)) vis_names)
       [(2, vis_rows)] [vis_vectors "1" 10; vis_vectors "2" 20]
  /\ Forall (fun v : string * Z => 0 < snd v) (map (fun f => (f, 1)) vis_names).
Proof. exact (conj next_address_fresh (conj vis_heap_table vis_lengths)). Qed.

(** Freeing any table releases all its blocks, none twice, and changes no other. *)
Theorem C41_free : forall k, frees (shape_of k) (free_of k).
Proof. exact free_frees. Qed.
Print Assumptions C41_free.
Example C41_free_case : exists h', free_of KVis 1 vis_heap = Ok h' /\ free_of KVis 1 h' = UB /\ map fst h' = [1].
Proof. exact vis_twice. Qed.

(** Discarding the copy gives the storage before the copy back. *)
Theorem C41_discard_copy : forall k malloc h p s n vs arrs vecs,
  fresh malloc -> table_at (shape_of k) h p s n vs arrs vecs -> 0 < n -> Forall (fun v => 0 < snd v) vs ->
  exists p' h1 h2, dup_of k malloc p h = Ok (p', h1) /\ discard k p' h1 = Ok h2
    /\ forall a, lookup h2 a = lookup h a.
Proof. exact dup_discard. Qed.
Print Assumptions C41_discard_copy.
Example C41_discard_copy_case : exists h1 h2, dup_of KVis next_address 1 vis_heap = Ok (30, h1)
  /\ List.length h1 = 44%nat /\ discard KVis 30 h1 = Ok h2 /\ List.length h2 = 22%nat.
Proof.
  eexists. eexists. split; [vm_compute; reflexivity|]. split; [reflexivity|].
  split; [vm_compute; reflexivity | reflexivity].
Qed.

(** Discarding the original leaves the whole copy. *)
Theorem C41_discard_original : forall k malloc h p s n vs arrs vecs,
  fresh malloc -> table_at (shape_of k) h p s n vs arrs vecs -> 0 < n -> Forall (fun v => 0 < snd v) vs ->
  exists p' h1 h2 s' arrs' vecs',
    dup_of k malloc p h = Ok (p', h1) /\ discard k p h1 = Ok h2
    /\ table_at (shape_of k) h2 p' s' n vs arrs' vecs'
    /\ same_contents (shape_of k) (not_copied k) vs s s' arrs arrs' vecs vecs'.
Proof. exact discard_original. Qed.
Print Assumptions C41_discard_original.
Example C41_discard_original_case : exists h1 h2, dup_of KVis next_address 1 vis_heap = Ok (30, h1)
  /\ discard KVis 1 h1 = Ok h2 /\ vector_of h2 30 1 "ivis" = Ok (Some (cells ["ivis2"%string]))
  /\ lookup h2 1 = None.
Proof.
  eexists. eexists. split; [vm_compute; reflexivity|]. split; [vm_compute; reflexivity|]. split; reflexivity.
Qed.

(** After copying, writing to, freeing and allocating blocks in any order leaves the copy as
    it is, if no block of its own is written or freed; likewise for the original. *)
Theorem C41_use_one : forall k malloc h p s n vs arrs vecs,
  fresh malloc -> table_at (shape_of k) h p s n vs arrs vecs -> 0 < n -> Forall (fun v => 0 < snd v) vs ->
  exists p' h1 s' arrs' vecs',
    dup_of k malloc p h = Ok (p', h1)
    /\ (forall ops h2, (forall o a, In o ops -> touches o a -> live h a) ->
          foreach ops (run_op malloc) h1 = Ok h2 -> table_at (shape_of k) h2 p' s' n vs arrs' vecs')
    /\ (forall ops h2, (forall o a, In o ops -> touches o a -> ~ live h a) ->
          foreach ops (run_op malloc) h1 = Ok h2 -> table_at (shape_of k) h2 p s n vs arrs vecs).
Proof. exact use_one_keep_other. Qed.
Print Assumptions C41_use_one.
(** overwriting a vector of the original, freeing another, and reusing its address *)
Definition lowest (h : heap) : addr := first_free (List.length h) 1 h.
Example C41_use_one_case : fresh lowest /\ exists h1 h2, dup_of KVis lowest 1 vis_heap = Ok (3, h1)
  /\ foreach [OWrite 28 (cells ["new"%string]); OFree 10; ONew (cells ["more"%string])] (run_op lowest) h1 = Ok h2
  /\ lookup h2 10 = Some (cells ["more"%string])
  /\ vector_of h2 1 1 "ivis" = Ok (Some (cells ["new"%string]))
  /\ vector_of h2 3 1 "ivis" = Ok (Some (cells ["ivis2"%string])).
Proof.
  split; [exact first_free_fresh|]. eexists. eexists. split; [vm_compute; reflexivity|].
  split; [vm_compute; reflexivity|]. repeat split.
Qed.

(** Freeing a dataset releases the blocks of all its tables, none twice, and changes no other. *)
Theorem C41_free_dataset : forall h o ts bss, dataset_at h o ts bss ->
  exists h', free_oi_fits o h = Ok h'
    /\ (forall a, In a (ts ++ map snd (listed o) ++ concat bss) -> ~ live h' a)
    /\ (forall a, ~ In a (ts ++ map snd (listed o) ++ concat bss) -> lookup h' a = lookup h a).
Proof. exact free_dataset. Qed.
Print Assumptions C41_free_dataset.
Example C41_free_dataset_case : (exists ts bss, dataset_at set_heap set_ptrs ts bss /\ ts = [101]
     /\ bss = [[111; 112]; 2 :: map fst (vis_vectors "1" 10 ++ vis_vectors "2" 20)])
  /\ exists h', free_oi_fits set_ptrs set_heap = Ok h' /\ map fst h' = [100; 200].
Proof. exact (conj set_heap_dataset set_heap_freed). Qed.

(** ** C45 *)

(** After allocation the struct is a table of the given size, whose blocks are exactly those
    that were not in use before.  Records of OI_VIS have no complex visibilities, and the
    table says so.  No other block changes, and no other member of the struct. *)
Theorem C45_alloc : forall k malloc uninit h p s n w,
  fresh malloc -> 0 < n -> 0 < w -> lookup h p = Some [s] ->
  (forall f, In f (members k) -> getf s f <> None) ->
  (forall i f, In f (vectors_given k ++ vectors_null k) -> getf (uninit "record"%string i) f <> None) ->
  exists h' s' arrs vecs,
    alloc_of k malloc uninit p n w h = Ok h'
    /\ table_at (shape_of k) h' p s' n (map (fun f => (f, w)) (vectors_given k)) arrs vecs
    /\ channels k s' w
    /\ Forall (fun r => forall f, In f (vectors_null k) -> getf r f = Some (Ptr None)) (flat_map snd arrs)
    /\ erase (members k) s' = erase (members k) s
    /\ (forall a, a <> p -> live h a -> lookup h' a = lookup h a)
    /\ (forall a, In a (storage arrs vecs) <-> (~ live h a /\ live h' a)).
Proof. exact alloc_tables. Qed.
Print Assumptions C45_alloc.
Example C45_alloc_case : fresh next_address
  /\ (forall f, In f (members KVis) -> getf stale f <> None)
  /\ (forall i f, In f (vectors_given KVis ++ vectors_null KVis) -> getf (any_bytes "record"%string i) f <> None)
  /\ exists h', alloc_of KVis next_address any_bytes 1 2 3 stale_heap = Ok h'
     /\ load_num h' 1 0 "numrec" = Ok 2 /\ load_num h' 1 0 "nwave" = Ok 3 /\ load_num h' 1 0 "usecomplex" = Ok 0
     /\ List.length h' = 13%nat /\ load_ptr h' 6 1 "flag" = Ok (Some 16) /\ load_ptr h' 6 1 "rvis" = Ok None.
Proof.
  split; [exact next_address_fresh|]. split; [exact stale_members|]. split; [exact any_bytes_members|].
  eexists. split; [vm_compute; reflexivity|]. repeat split.
Qed.

(** A size of zero or less ends the program. *)
Theorem C45_no_rows : forall k malloc uninit h p n w,
  n <= 0 -> alloc_of k malloc uninit p n w h = Abort.
Proof. exact alloc_none. Qed.
Print Assumptions C45_no_rows.
Example C45_no_rows_case : alloc_of KTarget next_address any_bytes 1 0 1 stale_heap = Abort.
Proof. reflexivity. Qed.
Theorem C45_no_channels : forall k malloc uninit h p s n w,
  fresh malloc -> 0 < n -> w <= 0 -> lookup h p = Some [s] -> getf s "record"%string <> None -> vectors_given k <> [] ->
  alloc_of k malloc uninit p n w h = Abort.
Proof. exact alloc_no_channels. Qed.
Print Assumptions C45_no_channels.
Example C45_no_channels_case : lookup stale_heap 1 = Some [stale] /\ getf stale "record"%string <> None
  /\ vectors_given KVis <> [].
Proof. repeat split; discriminate. Qed.

(** Freeing what was allocated leaves the storage as it was. *)
Theorem C45_alloc_free : forall k malloc uninit h p s n w,
  fresh malloc -> 0 < n -> 0 < w -> lookup h p = Some [s] ->
  (forall f, In f (members k) -> getf s f <> None) ->
  (forall i f, In f (vectors_given k ++ vectors_null k) -> getf (uninit "record"%string i) f <> None) ->
  exists h1 h2, alloc_of k malloc uninit p n w h = Ok h1 /\ free_of k p h1 = Ok h2
    /\ forall a, a <> p -> lookup h2 a = lookup h a.
Proof. exact alloc_then_free. Qed.
Print Assumptions C45_alloc_free.
Example C45_alloc_free_case : exists h1 h2, alloc_of KVis next_address any_bytes 1 2 3 stale_heap = Ok h1
  /\ free_of KVis 1 h1 = Ok h2 /\ map fst h2 = [1; 5].
Proof. eexists. eexists. split; [vm_compute; reflexivity|]. split; [vm_compute; reflexivity | reflexivity]. Qed.
