(** What reading does with storage: which tables of a file are read, and the storage they need. *)
From Verif Require Export HeapFilterSpec HeapReadModel.
Open Scope Z_scope.

(** the table can be read *)
Definition readable (k : table_kind) (c : content) : bool :=
  c_keys c && c_columns c
  && match k with KVis => c_version1 c || (c_refmap_ok c && c_complex_ok c) | _ => true end.

Definition tables_in (f : file) (k : table_kind) : list content :=
  match k with
  | KTarget => [f_target f] | KArray => f_array f | KWavelength => f_wavelength f
  | KCorr => f_corr f | KInspol => f_inspol f | KVis => f_vis f | KVis2 => f_vis2 f
  | KT3 => f_t3 f | KFlux => f_flux f
  end.
Definition tables_of (o : fits_ptrs) (k : table_kind) : list addr :=
  match k with
  | KTarget => [fp_targets o] | KArray => fp_array o | KWavelength => fp_wavelength o
  | KCorr => fp_corr o | KInspol => fp_inspol o | KVis => fp_vis o | KVis2 => fp_vis2 o
  | KT3 => fp_t3 o | KFlux => fp_flux o
  end.

(** The tables that reading comes to: it ends at the first OI_TARGET, OI_ARRAY or OI_WAVELENGTH
    table that cannot be read. *)
Definition all_readable (f : file) (k : table_kind) : bool := forallb (readable k) (tables_in f k).
Fixpoint until_bad (k : table_kind) (l : list content) : list content :=
  match l with
  | [] => []
  | c :: l' => if readable k c then c :: until_bad k l' else [c]
  end.
Definition reached (f : file) (k : table_kind) : list content :=
  match k with
  | KTarget => tables_in f k
  | KArray => if all_readable f KTarget then until_bad k (tables_in f k) else []
  | KWavelength => if all_readable f KTarget && all_readable f KArray then until_bad k (tables_in f k) else []
  | _ => if all_readable f KTarget && all_readable f KArray && all_readable f KWavelength then tables_in f k else []
  end.
(** status is 0 at the end *)
Definition read_succeeds (f : file) : bool :=
  all_readable f KTarget && all_readable f KArray && all_readable f KWavelength && f_closes f.

(** storage is to be allocated for no rows, or for rows without elements *)
Definition empty_table (k : table_kind) (c : content) : Prop :=
  c_keys c = true /\ (c_rows c <= 0 \/ (vectors_given k <> [] /\ c_chans c <= 0)).

(** the vectors of a record, from the columns *)
Definition vectors_read (k : table_kind) (c : content) : list (string * Z) :=
  map (fun f => (f, c_chans c)) (vectors_given k)
  ++ match k with
     | KVis =>
         if c_version1 c then []
         else (if c_visrefmap c then [("visrefmap"%string, c_chans c * c_chans c)] else [])
              ++ (if c_complex c then map (fun f => (f, c_chans c)) ["rvis"; "rviserr"; "ivis"; "iviserr"]%string else [])
     | _ => []
     end.
(** the table at [p] has the size of the one in the file *)
Definition holds (k : table_kind) (h : heap) (c : content) (p : addr) : Prop :=
  exists s arrs vecs, table_at (shape_of k) h p s (c_rows c) (vectors_read k c) arrs vecs.

(** how many blocks are allocated for a table that cannot be read, apart from the struct *)
Definition vectors_begun (k : table_kind) (c : content) : Z :=
  Z.of_nat (List.length (vectors_given k))
  + match k with
    | KVis =>
        if c_columns c && negb (c_version1 c)
        then (if c_visrefmap c then 1 else 0) + (if c_refmap_ok c && c_complex c then 4 else 0)
        else 0
    | _ => 0
    end.
Definition blocks_begun (k : table_kind) (c : content) : Z :=
  if c_keys c then Z.of_nat (List.length (sh_arrays (shape_of k))) + c_rows c * vectors_begun k c else 0.
Definition sum (l : list Z) : Z := fold_right Z.add 0 l.
(** ... and for all of those in the file *)
Definition lost_kind (f : file) (k : table_kind) : Z :=
  sum (map (fun c => if readable k c then 0 else blocks_begun k c) (reached f k)).
Definition lost_blocks (f : file) : Z :=
  sum (map (lost_kind f) [KArray; KWavelength; KCorr; KInspol; KVis; KVis2; KT3; KFlux]).

(** new blocks have the members that the declarations in exchange.h give *)
Definition declared (fill : heap -> string -> Z -> struct) : Prop :=
  (forall k h f, k <> KTarget -> In f (members k) -> getf (fill h "struct"%string 0) f <> None)
  /\ (forall k h i f, In f (vectors_given k ++ vectors_null k) -> getf (fill h "record"%string i) f <> None).
