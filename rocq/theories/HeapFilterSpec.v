(** What the filter does with storage: the input it is given, and what the output is. *)
From Verif Require Export HeapSpec HeapFilterModel.
Open Scope Z_scope.

Definition named_by (s : struct) (x : string) : Prop := getf s "insname" = Some (Bytes x).
(** every OI_WAVELENGTH table called [x] has [w] channels *)
Definition agrees (h : heap) (o : fits_ptrs) (x : string) (w : option Z) : Prop :=
  forall p s, In p (fp_wavelength o) -> lookup h p = Some [s] -> named_by s x -> num s "nwave" = w.

(** A dataset without empty tables whose tables have as many channels as the OI_WAVELENGTH
    tables they name. *)
Record filterable (h : heap) (o : fits_ptrs) : Prop := mk_filterable {
  fl_targets : forall s n vs arrs vecs, table_at target_shape h (fp_targets o) s n vs arrs vecs -> 0 < n;
  fl_sizes : forall T p s n vs arrs vecs, In (T, p) (listed o) -> table_at T h p s n vs arrs vecs ->
    0 < n /\ Forall (fun v => 0 < snd v) vs;
  fl_waves : forall p s, In p (fp_wavelength o) -> lookup h p = Some [s] -> exists x, named_by s x;
  fl_data : forall p s, In p (fp_vis o ++ fp_vis2 o ++ fp_t3 o ++ fp_flux o) -> lookup h p = Some [s] ->
    exists x, named_by s x /\ agrees h o x (num s "nwave");
  fl_inspol : forall p s e r, In p (fp_inspol o) -> lookup h p = Some [s] ->
    getf s "record" = Some (Ptr (Some (fst e))) -> lookup h (fst e) = Some (snd e) -> In r (snd e) ->
    exists x, named_by r x /\ agrees h o x (num s "nwave");
  (** all members of the records of OI_VIS, used or not *)
  fl_vis : forall p s e r, In p (fp_vis o) -> lookup h p = Some [s] ->
    getf s "record" = Some (Ptr (Some (fst e))) -> lookup h (fst e) = Some (snd e) -> In r (snd e) ->
    forall f, In f (vectors_null KVis) -> getf r f <> None }.

(** at most one row of the target table is selected *)
Definition one_target (ch : choices) (h : heap) (o : fits_ptrs) : Prop :=
  forall sel s e, ch_target ch = Some sel -> lookup h (fp_targets o) = Some [s] ->
    getf s "targ" = Some (Ptr (Some (fst e))) -> lookup h (fst e) = Some (snd e) ->
    (List.length (filter sel (snd e)) <= 1)%nat.

(** the target table of the output: possibly without rows *)
Definition targets_at (h : heap) (p : addr) (ts : list addr) : Prop :=
  owned target_shape h p ts
  \/ (ts = [] /\ exists s, lookup h p = Some [s] /\ num s "ntarget" = Some 0
                           /\ getf s "targ" = Some (Ptr None)).
(** the output: as [dataset_at] *)
Record output_at (h : heap) (o : fits_ptrs) (ts : list addr) (bss : list (list addr)) : Prop := mk_output_at {
  oa_targets : targets_at h (fp_targets o) ts;
  oa_tables : Forall2 (fun t bs => owned (fst t) h (snd t) bs) (listed o) bss;
  oa_distinct : NoDup (fp_targets o :: ts ++ map snd (listed o) ++ concat bss) }.
(** the blocks that belong to a dataset, apart from the struct itself *)
Definition blocks (o : fits_ptrs) (ts : list addr) (bss : list (list addr)) : list addr :=
  ts ++ map snd (listed o) ++ concat bss.
