(** C59: the storage that reading a file uses. *)
From Verif Require Import HeapSpec HeapReadSpec HeapMain HeapFilterMain HeapReadMain.
Open Scope Z_scope.

(** When no table that reading comes to is empty, reading ends.  The result is a whole dataset:
    one table for each that could be read, in order and with the sizes in the file, and no two
    blocks are shared.  No block in use changes but the target struct.  The new blocks are those
    of the dataset and [lost], the arrays and vectors begun for tables that could not be read.
    This holds also when reading fails after storage was allocated for targets. *)
Theorem C59_read : forall malloc fill f o h st, fresh malloc -> declared fill ->
  lookup h (fp_targets o) = Some [st] -> (forall m, In m (members KTarget) -> getf st m <> None) ->
  f_opens f = true -> f_header f = true -> c_keys (f_target f) = true ->
  (forall k c, In c (reached f k) -> ~ empty_table k c) ->
  exists o' h' ts bss lost, read_oi_fits malloc fill f o h = Ok (read_succeeds f, o', h')
    /\ fp_targets o' = fp_targets o
    /\ dataset_at h' o' ts bss
    /\ holds KTarget h' (f_target f) (fp_targets o)
    /\ (forall k, k <> KTarget -> Forall2 (holds k h') (filter (readable k) (reached f k)) (tables_of o' k))
    /\ (forall a, a <> fp_targets o -> live h a -> lookup h' a = lookup h a)
    /\ NoDup (blocks o' ts bss ++ lost)
    /\ (forall a, In a (blocks o' ts bss ++ lost) <-> (~ live h a /\ live h' a))
    /\ Z.of_nat (List.length lost) = lost_blocks f.
Proof. exact read_storage. Qed.
Print Assumptions C59_read.
Example C59_read_case : fresh f_malloc /\ declared r_fill
  /\ lookup r_heap (fp_targets r_ptrs) = Some [s_out]
  /\ (forall k c, In c (reached r_file k) -> ~ empty_table k c)
  /\ exists o' h1 h2, read_oi_fits f_malloc r_fill r_file r_ptrs r_heap = Ok (true, o', h1)
  /\ List.length (fp_array o') = 1%nat /\ fp_corr o' = [] /\ List.length (fp_vis o') = 1%nat /\ fp_vis2 o' = []
  /\ List.length (fp_t3 o') = 1%nat
  /\ free_oi_fits o' h1 = Ok h2 /\ List.length h2 = 12%nat /\ lost_blocks r_file = 10.
Proof.
  split; [exact first_free_fresh|]. split; [exact r_declared|]. split; [reflexivity|]. split; [exact r_no_empty | exact r_read].
Qed.

(** Freeing the dataset gives back all but [lost], which nothing points to. *)
Theorem C59_free : forall malloc fill f o h st, fresh malloc -> declared fill ->
  lookup h (fp_targets o) = Some [st] -> (forall m, In m (members KTarget) -> getf st m <> None) ->
  f_opens f = true -> f_header f = true -> c_keys (f_target f) = true ->
  (forall k c, In c (reached f k) -> ~ empty_table k c) ->
  exists o' h1 h2 lost, read_oi_fits malloc fill f o h = Ok (read_succeeds f, o', h1)
    /\ free_oi_fits o' h1 = Ok h2
    /\ NoDup lost /\ Z.of_nat (List.length lost) = lost_blocks f
    /\ (forall a, In a lost -> ~ live h a /\ live h2 a)
    /\ (forall a, a <> fp_targets o -> ~ In a lost -> lookup h2 a = lookup h a).
Proof. exact read_then_free. Qed.
Print Assumptions C59_free.
Example C59_free_case : c_keys (f_target r_file) = true /\ readable KVis (good 2 3) = true
  /\ map (lost_kind r_file) [KArray; KWavelength; KCorr; KInspol; KVis; KVis2; KT3; KFlux] = [0; 0; 3; 0; 7; 0; 0; 0].
Proof. repeat split. Qed.

(** If a table that cannot be read always fails before its storage is allocated, all storage
    comes back. *)
Theorem C59_all_returned : forall malloc fill f o h st, fresh malloc -> declared fill ->
  lookup h (fp_targets o) = Some [st] -> (forall m, In m (members KTarget) -> getf st m <> None) ->
  f_opens f = true -> f_header f = true -> c_keys (f_target f) = true ->
  (forall k c, In c (reached f k) -> ~ empty_table k c) ->
  (forall k c, k <> KTarget -> In c (reached f k) -> c_keys c = true -> readable k c = true) ->
  exists o' h1 h2, read_oi_fits malloc fill f o h = Ok (read_succeeds f, o', h1)
    /\ free_oi_fits o' h1 = Ok h2 /\ forall a, a <> fp_targets o -> lookup h2 a = lookup h a.
Proof. exact read_all_returned. Qed.
Print Assumptions C59_all_returned.
Example C59_all_returned_case : (forall k c, In c (reached r_clean k) -> ~ empty_table k c)
  /\ (forall k c, k <> KTarget -> In c (reached r_clean k) -> c_keys c = true -> readable k c = true)
  /\ List.length (reached r_clean KVis2) = 2%nat.
Proof. destruct r_clean_ok as [A B]. split; [exact A|]. split; [exact B | reflexivity]. Qed.

(** Otherwise reading loses storage, even when it succeeds. *)
Theorem C59_lost_refuted : exists malloc fill f o h o' h1 h2 a, fresh malloc /\ declared fill
  /\ read_oi_fits malloc fill f o h = Ok (true, o', h1) /\ free_oi_fits o' h1 = Ok h2 /\ ~ live h a /\ live h2 a.
Proof. exact read_leaks. Qed.
Print Assumptions C59_lost_refuted.
Example C59_lost_refuted_case : read_succeeds r_file = true /\ readable KCorr (nth 0 (f_corr r_file) (good 0 0)) = false
  /\ blocks_begun KCorr (nth 0 (f_corr r_file) (good 0 0)) = 3.
Proof. repeat split. Qed.

(** A file that cannot be opened, or fails before storage for targets is allocated, leaves the
    storage as it is. *)
Theorem C59_nothing : forall malloc fill f o h, f_opens f && f_header f && c_keys (f_target f) = false ->
  exists o', read_oi_fits malloc fill f o h = Ok (false, o', h) /\ fp_targets o' = fp_targets o.
Proof. exact read_nothing. Qed.
Print Assumptions C59_nothing.
Example C59_nothing_case : f_opens r_no_targets && f_header r_no_targets && c_keys (f_target r_no_targets) = false
  /\ f_opens r_no_targets = true /\ tables_in r_no_targets KVis2 = [good 1 3].
Proof. repeat split. Qed.

(** Freeing the dataset after that is undefined: the pointer to the targets was never set. *)
Theorem C59_free_after_failure_refuted : exists malloc fill f o h st o' h1, fresh malloc /\ declared fill
  /\ lookup h (fp_targets o) = Some [st] /\ (forall m, In m (members KTarget) -> getf st m <> None)
  /\ read_oi_fits malloc fill f o h = Ok (false, o', h1) /\ free_oi_fits o' h1 = UB.
Proof. exact free_after_failure. Qed.
Print Assumptions C59_free_after_failure_refuted.
Example C59_free_after_failure_refuted_case : getf s_out "targ" = Some (Ptr (Some 77)) /\ lookup r_heap 77 = None.
Proof. split; reflexivity. Qed.

(** A table without rows, or with rows without elements, ends the program. *)
Theorem C59_empty : forall malloc fill f o h st, fresh malloc -> declared fill ->
  lookup h (fp_targets o) = Some [st] -> (forall m, In m (members KTarget) -> getf st m <> None) ->
  f_opens f = true -> f_header f = true -> c_keys (f_target f) = true ->
  (exists k c, In c (reached f k) /\ empty_table k c) ->
  read_oi_fits malloc fill f o h = Abort.
Proof. exact read_empty. Qed.
Print Assumptions C59_empty.
Example C59_empty_case : In (good 0 0) (reached r_no_rows KWavelength) /\ empty_table KWavelength (good 0 0).
Proof. split; [cbn; tauto|]. split; [reflexivity | left; cbn; discriminate]. Qed.
