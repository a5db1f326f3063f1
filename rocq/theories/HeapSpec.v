(** What storage a table uses, from the struct definitions in exchange.h; for the theorems
    on copying and freeing tables. *)
From Verif Require Export HeapModel.
Open Scope Z_scope.

(** malloc returns an address not in use; it may return one that was freed *)
Definition fresh (malloc : heap -> addr) : Prop := forall h, lookup h (malloc h) = None.
Definition live (h : heap) (a : addr) : Prop := lookup h a <> None.

Definition num (s : struct) (f : string) : option Z :=
  match getf s f with Some (Num z) => Some z | _ => None end.

(** The arrays a table struct points to, all of [sh_count] elements, and the vectors that
    every element of them points to, with their lengths ([None]: not such a struct). *)
Record shape := mk_shape {
  sh_count : string;
  sh_arrays : list string;
  sh_vectors : struct -> option (list (string * Z)) }.

Definition flat (count : string) (arrays : list string) : shape :=
  mk_shape count arrays (fun _ => Some []).
Definition of_nwave (names : list string) (s : struct) : option (list (string * Z)) :=
  match num s "nwave" with Some w => Some (map (fun f => (f, w)) names) | None => None end.
Definition records (vectors : struct -> option (list (string * Z))) : shape :=
  mk_shape "numrec" ["record"%string] vectors.

Definition target_shape := flat "ntarget" ["targ"%string].
Definition array_shape := flat "nelement" ["elem"%string].
Definition wavelength_shape := flat "nwave" ["eff_wave"; "eff_band"]%string.
Definition corr_shape := flat "ncorr" ["iindx"; "jindx"; "corr"]%string.
Definition inspol_shape := records (of_nwave ["jxx"; "jyy"; "jxy"; "jyx"]%string).
Definition vis2_shape := records (of_nwave ["vis2data"; "vis2err"; "flag"]%string).
Definition t3_shape := records (of_nwave ["t3amp"; "t3amperr"; "t3phi"; "t3phierr"; "flag"]%string).
Definition flux_shape := records (of_nwave ["fluxdata"; "fluxerr"; "flag"]%string).
(** visrefmap and the four complex vectors only when the flags say they are used *)
Definition vis_shape := records (fun s =>
  match num s "nwave", num s "usevisrefmap", num s "usecomplex" with
  | Some w, Some m, Some c =>
      Some (map (fun f => (f, w)) ["visamp"; "visamperr"; "visphi"; "visphierr"; "flag"]%string
            ++ (if m =? 0 then [] else [("visrefmap"%string, w * w)])
            ++ (if c =? 0 then []
                else map (fun f => (f, w)) ["rvis"; "rviserr"; "ivis"; "iviserr"]%string))
  | _, _, _ => None
  end).

(** field [f] of [s] points to a live block of [n] elements *)
Definition points (h : heap) (s : struct) (f : string) (n : Z) (e : addr * block) : Prop :=
  getf s f = Some (Ptr (Some (fst e))) /\ lookup h (fst e) = Some (snd e)
  /\ Z.of_nat (List.length (snd e)) = n.

(** [arrs]: the arrays; [vecs]: the vectors of each element of them *)
Definition storage (arrs : list (addr * block)) (vecs : list (list (addr * block))) : list addr :=
  map fst arrs ++ map fst (concat vecs).
Record table_at (T : shape) (h : heap) (p : addr) (s : struct) (n : Z) (vs : list (string * Z))
  (arrs : list (addr * block)) (vecs : list (list (addr * block))) : Prop := mk_table_at {
  ta_struct : lookup h p = Some [s];
  ta_count : num s (sh_count T) = Some n;
  ta_kinds : sh_vectors T s = Some vs;
  ta_arrays : Forall2 (fun f e => points h s f n e) (sh_arrays T) arrs;
  ta_vectors : Forall2 (fun r es => Forall2 (fun v e => points h r (fst v) (snd v) e) vs es)
                 (flat_map snd arrs) vecs;
  ta_distinct : NoDup (p :: storage arrs vecs) }.

(** everything but the named pointers *)
Definition erase (names : list string) (s : struct) : struct :=
  filter (fun e => negb (existsb (str_eqb (fst e)) names)) s.
(** the named vectors of a record, leaving some out *)
Definition named (except : list string) (vs : list (string * Z)) (es : list (addr * block))
  : list (string * block) :=
  filter (fun e => negb (existsb (str_eqb (fst e)) except)) (combine (map fst vs) (map snd es)).
(** equal contents, apart from addresses *)
Definition same_contents (T : shape) (except : list string) (vs : list (string * Z))
  (s s' : struct) (arrs arrs' : list (addr * block)) (vecs vecs' : list (list (addr * block))) : Prop :=
  erase (sh_arrays T) s' = erase (sh_arrays T) s
  /\ map (fun e => map (erase (map fst vs)) (snd e)) arrs' = map (fun e => map (erase (map fst vs)) (snd e)) arrs
  /\ map (named except vs) vecs' = map (named except vs) vecs.

(** The copy uses exactly the blocks that were not in use before, and nothing else changes. *)
Definition copies (T : shape) (except : list string)
  (dup : (heap -> addr) -> addr -> heap -> res (addr * heap)) : Prop :=
  forall malloc h p s n vs arrs vecs,
    fresh malloc -> table_at T h p s n vs arrs vecs -> 0 < n -> Forall (fun v => 0 < snd v) vs ->
    exists p' h' s' arrs' vecs',
      dup malloc p h = Ok (p', h')
      /\ table_at T h' p' s' n vs arrs' vecs'
      /\ same_contents T except vs s s' arrs arrs' vecs vecs'
      /\ (forall a, live h a -> lookup h' a = lookup h a)
      /\ (forall a, In a (p' :: storage arrs' vecs') <-> (~ live h a /\ live h' a)).

(** Freeing succeeds (a second free of a block would be undefined), releases all the blocks
    that the table points to, and changes nothing else. *)
Definition frees (T : shape) (fr : addr -> heap -> res heap) : Prop :=
  forall h p s n vs arrs vecs,
    table_at T h p s n vs arrs vecs ->
    exists h', fr p h = Ok h'
      /\ (forall a, In a (storage arrs vecs) -> ~ live h' a)
      /\ (forall a, ~ In a (storage arrs vecs) -> lookup h' a = lookup h a).

(** any further use of storage: writing to, freeing, or allocating blocks *)
Inductive op := OWrite (a : addr) (b : block) | OFree (a : addr) | ONew (b : block).
Definition run_op (malloc : heap -> addr) (o : op) (h : heap) : res heap :=
  match o with
  | OWrite a b => match lookup h a with Some _ => Ok (replace h a b) | None => UB end
  | OFree a => free h (Some a)
  | ONew b => Ok ((malloc h, b) :: h)
  end.
Definition touches (o : op) (a : addr) : Prop :=
  match o with OWrite a' _ | OFree a' => a' = a | ONew _ => False end.

(** A table of shape [T] at [p], pointing to the blocks [bs]. *)
Definition owned (T : shape) (h : heap) (p : addr) (bs : list addr) : Prop :=
  exists s n vs arrs vecs, table_at T h p s n vs arrs vecs /\ bs = storage arrs vecs.

(** the tables in the lists of a dataset *)
Definition listed (o : fits_ptrs) : list (shape * addr) :=
  map (pair array_shape) (fp_array o) ++ map (pair wavelength_shape) (fp_wavelength o)
  ++ map (pair corr_shape) (fp_corr o) ++ map (pair inspol_shape) (fp_inspol o)
  ++ map (pair vis_shape) (fp_vis o) ++ map (pair vis2_shape) (fp_vis2 o)
  ++ map (pair t3_shape) (fp_t3 o) ++ map (pair flux_shape) (fp_flux o).
(** Each table has storage of its own: [bss] for those in the lists, [ts] for the targets. *)
Record dataset_at (h : heap) (o : fits_ptrs) (ts : list addr) (bss : list (list addr)) : Prop := mk_dataset_at {
  da_targets : owned target_shape h (fp_targets o) ts;
  da_tables : Forall2 (fun t bs => owned (fst t) h (snd t) bs) (listed o) bss;
  da_distinct : NoDup (fp_targets o :: ts ++ map snd (listed o) ++ concat bss) }.

(** ** The nine kinds of table *)
Inductive table_kind := KTarget | KArray | KWavelength | KCorr | KInspol | KVis | KVis2 | KT3 | KFlux.
Definition shape_of (k : table_kind) : shape :=
  match k with
  | KTarget => target_shape | KArray => array_shape | KWavelength => wavelength_shape
  | KCorr => corr_shape | KInspol => inspol_shape | KVis => vis_shape | KVis2 => vis2_shape
  | KT3 => t3_shape | KFlux => flux_shape
  end.
Definition dup_of (k : table_kind) : (heap -> addr) -> addr -> heap -> res (addr * heap) :=
  match k with
  | KTarget => dup_oi_target | KArray => dup_oi_array | KWavelength => dup_oi_wavelength
  | KCorr => dup_oi_corr | KInspol => dup_oi_inspol | KVis => dup_oi_vis | KVis2 => dup_oi_vis2
  | KT3 => dup_oi_t3 | KFlux => dup_oi_flux
  end.
Definition free_of (k : table_kind) : addr -> heap -> res heap :=
  match k with
  | KTarget => free_oi_target | KArray => free_oi_array | KWavelength => free_oi_wavelength
  | KCorr => free_oi_corr | KInspol => free_oi_inspol | KVis => free_oi_vis | KVis2 => free_oi_vis2
  | KT3 => free_oi_t3 | KFlux => free_oi_flux
  end.
(** free_oi_x(p); free(p); *)
Definition discard (k : table_kind) (p : addr) (h : heap) : res heap :=
  h' <- free_of k p h ;; free h' (Some p).
(** vectors whose contents are not those of the original (C03) *)
Definition not_copied (k : table_kind) : list string :=
  match k with KVis => ["iviserr"%string] | _ => [] end.

(** ** Allocation *)

Definition alloc_of (k : table_kind) (malloc : heap -> addr) (uninit : string -> Z -> struct)
  (p : addr) (n w : Z) : heap -> res heap :=
  match k with
  | KTarget => alloc_oi_target malloc uninit p n | KArray => alloc_oi_array malloc uninit p n
  | KWavelength => alloc_oi_wavelength malloc uninit p n | KCorr => alloc_oi_corr malloc uninit p n
  | KInspol => alloc_oi_inspol malloc uninit p n w | KVis => alloc_oi_vis malloc uninit p n w
  | KVis2 => alloc_oi_vis2 malloc uninit p n w | KT3 => alloc_oi_t3 malloc uninit p n w
  | KFlux => alloc_oi_flux malloc uninit p n w
  end.
(** the members of the structs that the declarations in exchange.h give and allocation sets *)
Definition members (k : table_kind) : list string :=
  sh_count (shape_of k) :: sh_arrays (shape_of k)
  ++ match k with
     | KTarget | KArray | KWavelength | KCorr => []
     | KVis => ["nwave"; "usevisrefmap"; "usecomplex"]%string
     | _ => ["nwave"%string]
     end.
(** pointers of a record, with storage of [w] elements after allocation, and without *)
Definition vectors_given (k : table_kind) : list string :=
  match k with
  | KTarget | KArray | KWavelength | KCorr => []
  | KInspol => ["jxx"; "jyy"; "jxy"; "jyx"]%string
  | KVis => ["visamp"; "visamperr"; "visphi"; "visphierr"; "flag"]%string
  | KVis2 => ["vis2data"; "vis2err"; "flag"]%string
  | KT3 => ["t3amp"; "t3amperr"; "t3phi"; "t3phierr"; "flag"]%string
  | KFlux => ["fluxdata"; "fluxerr"; "flag"]%string
  end.
Definition vectors_null (k : table_kind) : list string :=
  match k with KVis => ["visrefmap"; "rvis"; "rviserr"; "ivis"; "iviserr"]%string | _ => [] end.
(** a table with [nwave] has the number of channels given *)
Definition channels (k : table_kind) (s : struct) (w : Z) : Prop :=
  match k with KTarget | KArray | KWavelength | KCorr => True | _ => num s "nwave" = Some w end.
