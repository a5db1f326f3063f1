(** What merging does with storage: the inputs it is given. *)
From Verif Require Export HeapFilterSpec HeapMergeModel.
Open Scope Z_scope.

Definition bytes (s : struct) (f : string) : option string :=
  match getf s f with Some (Bytes x) => Some x | _ => None end.

(** the rows of the array that member [f] of the struct at [p] points to *)
Definition rows_at (h : heap) (p : addr) (f : string) (rows : list struct) : Prop :=
  exists s a, lookup h p = Some [s] /\ getf s f = Some (Ptr (Some a)) /\ lookup h a = Some rows.

(** the table at [p] is called [x] *)
Definition called (h : heap) (f : string) (p : addr) (x : string) : Prop :=
  exists s, lookup h p = Some [s] /\ bytes s f = Some x.
(** one of the tables is called [x] *)
Definition resolves (h : heap) (f : string) (l : list addr) (x : string) : Prop :=
  exists p, In p l /\ called h f p x.
(** a record names a row of the target table *)
Definition has_target (h : heap) (i : fits_ptrs) (r : struct) : Prop :=
  exists id rows row, num r "target_id" = Some id /\ rows_at h (fp_targets i) "targ" rows
    /\ In row rows /\ num row "target_id" = Some id.

(** A dataset without empty tables in which every reference resolves. *)
Record mergeable (h : heap) (i : fits_ptrs) : Prop := mk_mergeable {
  mg_sizes : forall T p s n vs arrs vecs, In (T, p) (listed i) -> table_at T h p s n vs arrs vecs ->
    0 < n /\ Forall (fun v => 0 < snd v) vs;
  mg_targets : forall rows r, rows_at h (fp_targets i) "targ" rows -> In r rows ->
    bytes r "target" <> None /\ num r "target_id" <> None;
  mg_array : forall p, In p (fp_array i) -> exists x, called h "arrname" p x;
  mg_wavelength : forall p, In p (fp_wavelength i) -> exists x, called h "insname" p x;
  mg_corr : forall p, In p (fp_corr i) -> exists x, called h "corrname" p x;
  mg_arrname : forall p, In p (fp_inspol i ++ fp_vis i ++ fp_vis2 i ++ fp_t3 i ++ fp_flux i) ->
    exists x, called h "arrname" p x /\ (x = EmptyString \/ resolves h "arrname" (fp_array i) x);
  mg_insname : forall p, In p (fp_vis i ++ fp_vis2 i ++ fp_t3 i ++ fp_flux i) ->
    exists x, called h "insname" p x /\ resolves h "insname" (fp_wavelength i) x;
  mg_corrname : forall p, In p (fp_vis i ++ fp_vis2 i ++ fp_t3 i ++ fp_flux i) ->
    exists x, called h "corrname" p x /\ (x = EmptyString \/ resolves h "corrname" (fp_corr i) x);
  mg_records : forall p rows r, In p (fp_inspol i ++ fp_vis i ++ fp_vis2 i ++ fp_t3 i ++ fp_flux i) ->
    rows_at h p "record" rows -> In r rows -> has_target h i r;
  mg_inspol : forall p rows r, In p (fp_inspol i) -> rows_at h p "record" rows -> In r rows ->
    exists x, bytes r "insname" = Some x /\ resolves h "insname" (fp_wavelength i) x }.

(** fewer than 100 names of targets in the inputs *)
Definition few_targets (h : heap) (is : list fits_ptrs) : Prop :=
  exists names, (List.length names < 100)%nat
    /\ forall i rows r x, In i is -> rows_at h (fp_targets i) "targ" rows -> In r rows ->
       bytes r "target" = Some x -> In x names.

(** the storage of all the inputs *)
Definition input_blocks (ds : list (fits_ptrs * list addr * list (list addr))) : list addr :=
  flat_map (fun d => blocks (fst (fst d)) (snd (fst d)) (snd d)) ds.
(** the datasets of that list *)
Definition inputs (ds : list (fits_ptrs * list addr * list (list addr))) : list fits_ptrs := map (fun d => fst (fst d)) ds.
(** whole datasets, none of which has storage of another *)
Record separate (h : heap) (ds : list (fits_ptrs * list addr * list (list addr))) : Prop := mk_separate {
  sp_at : Forall (fun d => output_at h (fst (fst d)) (snd (fst d)) (snd d)) ds;
  sp_distinct : NoDup (input_blocks ds);
  sp_targets : forall d, In d ds -> ~ In (fp_targets (fst (fst d))) (input_blocks ds) }.
