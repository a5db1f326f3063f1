(** Storage used by merging: oimerge.c on the heap of HeapModel.v.

    What merging allocates, copies, shrinks and frees, through which pointers it reads the
    names and numbers it puts into the copies, and in which order.  Whether two OI_ARRAY or
    OI_WAVELENGTH tables match, and the text of a new name, are given by any functions (what
    the code computes is modelled in MergeModel.v).  The primary header, the revision numbers
    and TIME are left out.  Keys of hash tables are the strings that the stored pointers lead
    to; those strings do not change while the tables exist. *)
From Verif Require Export HeapFilterModel.
Open Scope Z_scope.

(** A hash table from names to pointers: to an int on the heap (targetIdHash), or to the name
    inside the struct of an output table, given here by the address of the struct. *)
Definition ptr_hash := list (string * addr).
(** g_hash_table_lookup *)
Fixpoint find_ptr (t : ptr_hash) (k : string) : option addr :=
  match t with
  | [] => None
  | (k', a) :: t' => if str_eqb k' k then Some a else find_ptr t' k
  end.

Section Merging.
Variable malloc : heap -> addr.
Variable fill : heap -> string -> Z -> struct.
(** whether the input table matches the output table *)
Variable same_array same_wave : heap -> addr -> addr -> bool.
(** the new name, from the name in use and the number of the table *)
Variable rename : string -> Z -> string.

(** One row of an input target table, oimerge.c 250-261 *)
Definition merge_target (pOut tIn : addr) (j : Z) (st : ptr_hash * heap) : res (ptr_hash * heap) :=
  let '(t, h) := st in
  name <- load_bytes h tIn j "target" ;;
  match find_ptr t name with
  | Some _ => Ok st
  | None =>
      n <- load_num h pOut 0 "ntarget" ;;
      let v := malloc h in
      h <- store ((v, [[("value"%string, Num (n + 1))]]) :: h) pOut 0 "ntarget" (Num (n + 1)) ;;
      do assert_ (n + 1 <? 100) ;;
      q <- load_ptr h pOut 0 "targ" ;; tOut <- deref q ;;
      h <- copy_struct tIn j tOut n h ;;
      h <- store h tOut n "target_id" (Num (n + 1)) ;;
      Ok ((name, v) :: t, h)
  end.
(** oimerge.c 230-266 *)
Definition merge_oi_target (is : list fits_ptrs) (pOut : addr) (h : heap) : res (ptr_hash * heap) :=
  h <- store h pOut 0 "ntarget" (Num 0) ;;
  h <- new_field malloc (fill h) pOut 0 "targ" 100 h ;;
  r <- foreach is (fun i st =>
         n <- load_num (snd st) (fp_targets i) 0 "ntarget" ;;
         for_ n (fun j st =>
           q <- load_ptr (snd st) (fp_targets i) 0 "targ" ;; tIn <- deref q ;;
           merge_target pOut tIn j st) st) ([], h) ;;
  n <- load_num (snd r) pOut 0 "ntarget" ;;
  h <- shrink_field malloc pOut 0 "targ" n (snd r) ;;
  Ok (fst r, h).

(** match_oi_array (oimerge.c 65-102), match_oi_wavelength (108-133): the first that matches *)
Definition match_table (same : heap -> addr -> addr -> bool) (p : addr) (out : list addr) (h : heap)
  : option addr := List.find (same h p) out.
(** g_hash_table_lookup(pOutput->arrayHash etc., x) != NULL: the names of the output tables *)
Fixpoint name_taken (f : string) (out : list addr) (x : string) (h : heap) : res bool :=
  match out with
  | [] => Ok false
  | q :: out' =>
      y <- load_bytes h q 0 f ;;
      if str_eqb y x then Ok true else name_taken f out' x h
  end.
(** a copy of the table at [p], renamed if an output table has its name *)
Definition add_copy (dup : addr -> heap -> res (addr * heap)) (f : string) (p : addr) (out : list addr)
  (h : heap) : res (addr * heap) :=
  r <- dup p h ;;
  let q := fst r in
  x <- load_bytes (snd r) q 0 f ;;
  b <- name_taken f out x (snd r) ;;
  h <- (if (b : bool) then store (snd r) q 0 f (Bytes (rename x (Z.of_nat (List.length out) + 1)))
        else Ok (snd r)) ;;
  Ok (q, h).
(** the loop over the tables of one dataset: the hash table for that dataset, the output *)
Definition merge_named (dup : addr -> heap -> res (addr * heap)) (same : heap -> addr -> addr -> bool)
  (f : string) (l : list addr) (out : list addr) (h : heap) : res (ptr_hash * list addr * heap) :=
  foreach l (fun p st =>
    let '(t, out, h) := st in
    r <- match match_table same p out h with
         | Some q => Ok (q, out, h)
         | None => r <- add_copy dup f p out h ;; Ok (fst r, (out ++ [fst r])%list, snd r)
         end ;;
    x <- load_bytes (snd r) p 0 f ;;
    Ok ((x, fst (fst r)) :: t, snd (fst r), snd r)) ([], out, h).
(** the loop over the datasets *)
Definition merge_all_named (dup : addr -> heap -> res (addr * heap)) (same : heap -> addr -> addr -> bool)
  (f : string) (tables : fits_ptrs -> list addr) (is : list fits_ptrs) (h : heap)
  : res (list ptr_hash * list addr * heap) :=
  foreach is (fun i st =>
    let '(hs, out, h) := st in
    r <- merge_named dup same f (tables i) out h ;;
    Ok ((hs ++ [fst (fst r)])%list, snd (fst r), snd r)) ([], [], h).
(** oimerge.c 277-327 *)
Definition merge_all_oi_array := merge_all_named (dup_oi_array malloc) same_array "arrname" fp_array.
(** oimerge.c 338-391 *)
Definition merge_all_oi_wavelength := merge_all_named (dup_oi_wavelength malloc) same_wave "insname" fp_wavelength.
(** oimerge.c 402-449: every table is copied *)
Definition merge_all_oi_corr := merge_all_named (dup_oi_corr malloc) (fun _ _ _ => false) "corrname" fp_corr.

(** g_strlcpy(p[j].f, g_hash_table_lookup(t, p[j].f), FLEN_VALUE): reads through the pointer
    that the hash table holds *)
Definition replace_name (f : string) (t : ptr_hash) (p : addr) (j : Z) (h : heap) : res heap :=
  x <- load_bytes h p j f ;;
  d <- deref (find_ptr t x) ;;
  y <- load_bytes h d 0 f ;;
  store h p j f (Bytes y).
(** REPLACE_ARRNAME, REPLACE_CORRNAME (oimerge.c 452-461, 469-478): unless empty *)
Definition replace_optional (f : string) (t : ptr_hash) (q : addr) (h : heap) : res heap :=
  x <- load_bytes h q 0 f ;;
  if str_eqb x "" then Ok h else replace_name f t q 0 h.

(** oi_fits_lookup_target(pInOi, id)->target, oifile.c 1087-1098 *)
Definition target_name (pT : addr) (id : Z) (h : heap) : res string :=
  n <- load_num h pT 0 "ntarget" ;;
  r <- for_ n (fun j found =>
         match found with
         | Some _ => Ok found
         | None =>
             q <- load_ptr h pT 0 "targ" ;; a <- deref q ;;
             k <- load_num h a j "target_id" ;;
             Ok (if k =? id then Some (a, j) else None)
         end) None ;;
  match r with
  | Some (a, j) => load_bytes h a j "target"
  | None => UB
  end.
(** REPLACE_TARGET_ID, oimerge.c 481-494 *)
Definition replace_target_id (ids : ptr_hash) (pT : addr) (q : addr) (h : heap) : res heap :=
  n <- load_num h q 0 "numrec" ;;
  for_ n (fun j h =>
    x <- load_ptr h q 0 "record" ;; r <- deref x ;;
    id <- load_num h r j "target_id" ;;
    name <- target_name pT id h ;;
    v <- deref (find_ptr ids name) ;;
    k <- load_num h v 0 "value" ;;
    store h r j "target_id" (Num k)) h.

(** the hash tables of one dataset: ARRNAME, INSNAME, CORRNAME *)
Definition name_hashes := (ptr_hash * ptr_hash * ptr_hash)%type.

(** oimerge.c 594-599, 653-658, 711-716, 769-773; REPLACE_INSNAME is 464-466 *)
Definition rename_data (ids : ptr_hash) (i : fits_ptrs) (hs : name_hashes) (q : addr) (h : heap) : res heap :=
  let '(ha, hw, hc) := hs in
  h <- replace_optional "arrname" ha q h ;;
  h <- replace_name "insname" hw q 0 h ;;
  h <- replace_optional "corrname" hc q h ;;
  replace_target_id ids (fp_targets i) q h.
(** oimerge.c 534-541 *)
Definition rename_inspol (ids : ptr_hash) (i : fits_ptrs) (hs : name_hashes) (q : addr) (h : heap) : res heap :=
  let '(ha, hw, _) := hs in
  h <- replace_optional "arrname" ha q h ;;
  h <- replace_target_id ids (fp_targets i) q h ;;
  n <- load_num h q 0 "numrec" ;;
  for_ n (fun j h =>
    x <- load_ptr h q 0 "record" ;; r <- deref x ;;
    replace_name "insname" hw r j h) h.

(** The loops over datasets and tables of one kind.  The lists of hash tables have one entry
    for each dataset. *)
Definition merge_all_data (dup : addr -> heap -> res (addr * heap))
  (renaming : fits_ptrs -> name_hashes -> addr -> heap -> res heap) (tables : fits_ptrs -> list addr)
  (ds : list (fits_ptrs * name_hashes)) (h : heap) : res (list addr * heap) :=
  foreach ds (fun d st =>
    foreach (tables (fst d)) (fun p st =>
      r <- dup p (snd st) ;;
      h <- renaming (fst d) (snd d) (fst r) (snd r) ;;
      Ok ((fst st ++ [fst r])%list, h)) st) ([], h).

(** g_hash_table_destroy(targetIdHash), whose values are passed to free (oimerge.c 242) *)
Definition destroy_ids (t : ptr_hash) (h : heap) : res heap :=
  foreach t (fun e h => free h (Some (snd e))) h.

(** oimerge.c 793-837, with 509-783; [pOut] is the targets member of the caller's struct.  The
    other hash tables own neither keys nor values. *)
Definition merge_oi_fits_list (is : list fits_ptrs) (pOut : addr) (h : heap) : res (fits_ptrs * heap) :=
  r <- merge_oi_target is pOut h ;;
  let ids := fst r in
  a <- merge_all_oi_array is (snd r) ;;
  w <- merge_all_oi_wavelength is (snd a) ;;
  c <- merge_all_oi_corr is (snd w) ;;
  let ds := combine is (combine (combine (fst (fst a)) (fst (fst w))) (fst (fst c))) in
  p <- merge_all_data (dup_oi_inspol malloc) (rename_inspol ids) fp_inspol ds (snd c) ;;
  v <- merge_all_data (dup_oi_vis malloc) (rename_data ids) fp_vis ds (snd p) ;;
  v2 <- merge_all_data (dup_oi_vis2 malloc) (rename_data ids) fp_vis2 ds (snd v) ;;
  t3 <- merge_all_data (dup_oi_t3 malloc) (rename_data ids) fp_t3 ds (snd v2) ;;
  f <- merge_all_data (dup_oi_flux malloc) (rename_data ids) fp_flux ds (snd t3) ;;
  h <- destroy_ids ids (snd f) ;;
  Ok (mk_ptrs pOut (snd (fst a)) (snd (fst w)) (snd (fst c)) (fst p) (fst v) (fst v2) (fst t3) (fst f), h).
End Merging.
