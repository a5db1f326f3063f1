(** Storage used by the filter: oifilter.c on the heap of HeapModel.v.

    What the filter allocates, copies, shrinks and frees, and in which order.  Which tables,
    records and channels it accepts are given by [choices], any functions of the data (what
    the code computes for them is modelled in FilterModel.v); the numbers it writes into new
    arrays are given by [fill], any function (again see FilterModel.v).  Plain members that
    are set after a struct was copied (TARGET_ID) keep the copied value.  The pattern
    specifications, the keys of the hash tables and the list nodes belong to GLib, which
    allocates and frees them. *)
From Verif Require Export HeapModel.
Open Scope Z_scope.

Definition load_bytes (h : heap) (p : addr) (i : Z) (f : string) : res string :=
  s <- load h p i ;; match getf s f with Some (Bytes b) => Ok b | _ => UB end.

(** memcpy of one struct, [pOut[j] = pIn[i]] *)
Definition copy_struct (pIn : addr) (i : Z) (pOut : addr) (j : Z) (h : heap) : res heap :=
  s <- load h pIn i ;;
  match lookup h pOut with
  | Some b => do get b j ;; Ok (replace h pOut (put_at b j s))
  | None => UB
  end.

(** What the filter decides from the data. *)
Record choices := mk_choices {
  (** the pattern tests and accept_vis etc. on a table *)
  ch_table : struct -> bool;
  (** TARGET_ID and the other tests on record [i] of the table at an address *)
  ch_record : heap -> addr -> Z -> bool;
  (** whether a channel of the OI_WAVELENGTH table at an address is in the wavelength range *)
  ch_channel : heap -> addr -> Z -> bool;
  (** [None]: target_id < 0; otherwise whether a row has that TARGET_ID *)
  ch_target : option (struct -> bool);
  (** whether the name of an OI_ARRAY, OI_INSPOL, OI_WAVELENGTH or OI_CORR table is in the
      list of those referenced *)
  ch_listed : struct -> bool }.

Section Filtering.
Variable malloc : heap -> addr.
Variable fill : heap -> string -> Z -> struct.
Variable ch : choices.

(** q = chkmalloc(sizeof( *q)) *)
Definition new_struct (h : heap) : addr * heap :=
  let q := malloc h in (q, (q, [fill h "struct" 0]) :: h).

(** p[i].f = realloc(p[i].f, n * sizeof) for a block that does not grow.  The block may move;
    for size 0 it is freed and the result is NULL, as in glibc. *)
Definition shrink_field (p : addr) (i : Z) (f : string) (n : Z) (h : heap) : res heap :=
  q <- load_ptr h p i f ;;
  a <- deref q ;;
  match lookup h a with
  | None => UB
  | Some b =>
      if (Z.of_nat (List.length b) <? n) || (n <? 0) then UB
      else
        let h1 := remove h a in
        if n =? 0 then store h1 p i f (Ptr None)
        else
          let a' := malloc h1 in
          store ((a', firstn (Z.to_nat n) b) :: h1) p i f (Ptr (Some a'))
  end.

(** oifilter.c 619-646, with init_oi_fits (oifile.c 355-358) on the output *)
Definition filter_oi_target (pIn pOut : addr) (h : heap) : res heap :=
  h <- store h pOut 0 "ntarget" (Num 0) ;;
  h <- store h pOut 0 "targ" (Ptr None) ;;
  match ch_target ch with
  | Some sel =>
      n <- load_num h pIn 0 "ntarget" ;;
      for_ n (fun i h =>
        q <- load_ptr h pIn 0 "targ" ;; tIn <- deref q ;;
        s <- load h tIn i ;;
        if sel s then
          h <- alloc_oi_target malloc (fill h) pOut 1 h ;;
          q <- load_ptr h pOut 0 "targ" ;; tOut <- deref q ;;
          copy_struct tIn i tOut 0 h
        else Ok h) h
  | None =>
      h <- copy_struct pIn 0 pOut 0 h ;;
      n <- load_num h pIn 0 "ntarget" ;;
      memdup_field malloc pIn pOut 0 "targ" "targ" n h
  end.

(** The loops over the tables of one kind; [one] gives NULL for a table that is left out. *)
Definition filter_all (one : addr -> heap -> res (option addr * heap)) (l : list addr) (h : heap)
  : res (list addr * heap) :=
  foreach l (fun p st =>
    s <- load (snd st) p 0 ;;
    if ch_table ch s then
      r <- one p (snd st) ;;
      match fst r with
      | Some q => Ok ((fst st ++ [q])%list, snd r)
      | None => Ok (fst st, snd r)
      end
    else Ok st) ([], h).

(** oifilter.c 657-679 *)
Definition filter_all_oi_array := filter_all (fun p h =>
  r <- dup_oi_array malloc p h ;; Ok (Some (fst r), snd r)).
(** oifilter.c 786-808 *)
Definition filter_all_oi_corr := filter_all (fun p h =>
  r <- dup_oi_corr malloc p h ;; Ok (Some (fst r), snd r)).

(** useWaveHash: keys and values; [None] is a stored NULL *)
Definition wave_hash := list (string * option addr).
Fixpoint hash_lookup (t : wave_hash) (k : string) : option addr :=
  match t with
  | [] => None
  | (k', v) :: t' => if str_eqb k' k then v else hash_lookup t' k
  end.
(** g_hash_table_insert: a value that is replaced is passed to free *)
Definition hash_insert (t : wave_hash) (k : string) (v : option addr) (h : heap)
  : res (wave_hash * heap) :=
  h <- free h (hash_lookup t k) ;;
  Ok ((k, v) :: filter (fun e => negb (str_eqb (fst e) k)) t, h).
(** g_hash_table_destroy *)
Definition hash_destroy (t : wave_hash) (h : heap) : res heap :=
  foreach t (fun e h => free h (snd e)) h.

(** the number of [j < n] with useWave[j] *)
Definition used (h : heap) (u : addr) (n : Z) : res Z :=
  for_ n (fun j k => x <- load_num h u j "use" ;; Ok (if x =? 0 then k else k + 1)) 0.

(** oifilter.c 741-775; the members that are set one by one are copied as a struct *)
Definition filter_oi_wavelength (p u q : addr) (h : heap) : res heap :=
  h <- copy_struct p 0 q 0 h ;;
  h <- store h q 0 "nwave" (Num 0) ;;
  n <- load_num h p 0 "nwave" ;;
  h <- foreach ["eff_wave"; "eff_band"]%string (fun f h => new_field malloc (fill h) q 0 f n h) h ;;
  k <- used h u n ;;
  h <- store h q 0 "nwave" (Num k) ;;
  if k <? n then
    foreach ["eff_wave"; "eff_band"]%string (fun f h => shrink_field q 0 f k h) h
  else Ok h.
(** oifilter.c 692-729; useWave is allocated with the contents that 755-767 give it *)
Definition filter_all_oi_wavelength (l : list addr) (h : heap) : res (list addr * wave_hash * heap) :=
  foreach l (fun p st =>
    let '(out, t, h) := st in
    s <- load h p 0 ;;
    if ch_table ch s then
      n <- load_num h p 0 "nwave" ;;
      do chkmalloc n ;;
      let u := malloc h in
      let flags := map (fun j => [("use"%string, Num (if ch_channel ch h p (Z.of_nat j) then 1 else 0))])
                     (seq 0 (Z.to_nat n)) in
      let r := new_struct ((u, flags) :: h) in
      let q := fst r in
      h <- filter_oi_wavelength p u q (snd r) ;;
      k <- load_num h q 0 "nwave" ;;
      name <- load_bytes h p 0 "insname" ;;
      if 0 <? k then
        x <- hash_insert t name (Some u) h ;;
        Ok ((out ++ [q])%list, fst x, snd x)
      else
        x <- hash_insert t name None h ;;
        h <- free (snd x) (Some u) ;;
        h <- free h (Some q) ;;
        Ok (out, fst x, h)
    else Ok st) ([], [], h).

(** the record loop of filter_oi_x: [vectors] are the arrays that a new record gets, with
    their lengths; [nulls] its pointers that are set to NULL *)
Definition new_record (vectors : list (string * Z)) (nulls : list string) (rIn : addr) (i : Z)
  (rOut : addr) (nrec : Z) (h : heap) : res heap :=
  h <- copy_struct rIn i rOut nrec h ;;
  h <- foreach vectors (fun v h => new_field malloc (fill h) rOut nrec (fst v) (snd v) h) h ;;
  foreach nulls (fun f h => store h rOut nrec f (Ptr None)) h.

Definition filter_table (vectors : heap -> addr -> Z -> res (list (string * Z) * list string))
  (p u q : addr) (h : heap) : res heap :=
  h <- copy_struct p 0 q 0 h ;;
  nIn <- load_num h p 0 "nwave" ;;
  w <- used h u nIn ;;
  h <- store h q 0 "nwave" (Num w) ;;
  n <- load_num h p 0 "numrec" ;;
  h <- new_field malloc (fill h) q 0 "record" n h ;;
  r <- for_ n (fun i st =>
         let '(nrec, h) := st in
         if ch_record ch h p i then
           x <- load_ptr h p 0 "record" ;; rIn <- deref x ;;
           y <- load_ptr h q 0 "record" ;; rOut <- deref y ;;
           vs <- vectors h p w ;;
           h <- new_record (fst vs) (snd vs) rIn i rOut nrec h ;;
           Ok (nrec + 1, h)
         else Ok st) (0, h) ;;
  h <- store (snd r) q 0 "numrec" (Num (fst r)) ;;
  shrink_field q 0 "record" (fst r) h.

(** oifilter.c 1035-1062 and 1127-1170 *)
Definition filter_oi_vis := filter_table (fun h p w =>
  m <- load_num h p 0 "usevisrefmap" ;;
  c <- load_num h p 0 "usecomplex" ;;
  Ok (map (fun f => (f, w)) ["visamp"; "visamperr"; "visphi"; "visphierr"; "flag"]%string
      ++ (if m =? 0 then [] else [("visrefmap"%string, w * w)])
      ++ (if c =? 0 then [] else map (fun f => (f, w)) ["rvis"; "rviserr"; "ivis"; "iviserr"]%string),
      (if m =? 0 then ["visrefmap"%string] else [])
      ++ (if c =? 0 then ["rvis"; "rviserr"; "ivis"; "iviserr"]%string else []))%list).
(** oifilter.c 1263-1362 *)
Definition filter_oi_vis2 := filter_table (fun _ _ w =>
  Ok (map (fun f => (f, w)) ["vis2data"; "vis2err"; "flag"]%string, [])).
(** oifilter.c 1475-1622 *)
Definition filter_oi_t3 := filter_table (fun _ _ w =>
  Ok (map (fun f => (f, w)) ["t3amp"; "t3amperr"; "t3phi"; "t3phierr"; "flag"]%string, [])).
(** oifilter.c 1678-1756 *)
Definition filter_oi_flux := filter_table (fun _ _ w =>
  Ok (map (fun f => (f, w)) ["fluxdata"; "fluxerr"; "flag"]%string, [])).

(** oifilter.c 859-931; the vectors of the first record are shrunk once their length is known *)
Definition filter_oi_inspol (t : wave_hash) (p q : addr) (h : heap) : res heap :=
  h <- copy_struct p 0 q 0 h ;;
  n <- load_num h p 0 "numrec" ;;
  h <- new_field malloc (fill h) q 0 "record" n h ;;
  nIn <- load_num h p 0 "nwave" ;;
  h <- store h q 0 "nwave" (Num nIn) ;;
  r <- for_ n (fun i st =>
         let '(nrec, h) := st in
         if ch_record ch h p i then
           x <- load_ptr h p 0 "record" ;; rIn <- deref x ;;
           name <- load_bytes h rIn i "insname" ;;
           match hash_lookup t name with
           | None => Ok st
           | Some u =>
               y <- load_ptr h q 0 "record" ;; rOut <- deref y ;;
               w <- load_num h q 0 "nwave" ;;
               h <- new_record (map (fun f => (f, w)) ["jxx"; "jyy"; "jxy"; "jyx"]%string) []
                      rIn i rOut nrec h ;;
               k <- used h u nIn ;;
               h <- (if (nrec =? 0) && (k <? w) then
                       h <- store h q 0 "nwave" (Num k) ;;
                       foreach ["jxx"; "jyy"; "jxy"; "jyx"]%string
                         (fun f h => shrink_field rOut nrec f k h) h
                     else Ok h) ;;
               Ok (nrec + 1, h)
           end
         else Ok st) (0, h) ;;
  h <- store (snd r) q 0 "numrec" (Num (fst r)) ;;
  shrink_field q 0 "record" (fst r) h.

(** pOutTab = chkmalloc(sizeof); filter; a table without channels or records is freed *)
Definition filter_or_free (one : addr -> addr -> heap -> res heap) (p : addr) (h : heap)
  : res (option addr * heap) :=
  let r := new_struct h in
  let q := fst r in
  h <- one p q (snd r) ;;
  w <- load_num h q 0 "nwave" ;;
  n <- load_num h q 0 "numrec" ;;
  if (0 <? w) && (0 <? n) then Ok (Some q, h)
  else h <- free h (Some q) ;; Ok (None, h).

(** oifilter.c 819-848 *)
Definition filter_all_oi_inspol (t : wave_hash) := filter_all (filter_or_free (filter_oi_inspol t)).
(** oifilter.c 942-984, 1181-1227, 1373-1417, 1633-1673 *)
Definition filter_all_data (one : addr -> addr -> addr -> heap -> res heap) (t : wave_hash) :=
  filter_all (fun p h =>
    name <- load_bytes h p 0 "insname" ;;
    match hash_lookup t name with
    | None => Ok (None, h)
    | Some u => filter_or_free (fun p q h => one p u q h) p h
    end).

(** oifilter.c 314-336, 346-368, 378-400, 410-431: free the first table that is not
    referenced; [None] when there is none *)
Fixpoint prune (discard : addr -> heap -> res heap) (l : list addr) (h : heap)
  : res (option (list addr) * heap) :=
  match l with
  | [] => Ok (None, h)
  | p :: l' =>
      s <- load h p 0 ;;
      if ch_listed ch s then
        r <- prune discard l' h ;; Ok (option_map (cons p) (fst r), snd r)
      else h <- discard p h ;; Ok (Some l', h)
  end.
(** while (prune_oi_x(...)); [fuel] is one more than the number of tables *)
Fixpoint prune_all (fuel : nat) (discard : addr -> heap -> res heap) (l : list addr) (h : heap)
  : res (list addr * heap) :=
  match fuel with
  | O => UB
  | S fuel' =>
      r <- prune discard l h ;;
      match fst r with
      | Some l' => prune_all fuel' discard l' (snd r)
      | None => Ok (l, snd r)
      end
  end.
Definition pruned (free_x : addr -> heap -> res heap) (l : list addr) (h : heap)
  : res (list addr * heap) :=
  prune_all (S (List.length l)) (fun p h => h <- free_x p h ;; free h (Some p)) l h.

(** oifilter.c 1765-1828; [pOut] is the targets member of the caller's struct *)
Definition apply_oi_filter (i : fits_ptrs) (pOut : addr) (h : heap) : res (fits_ptrs * heap) :=
  h <- filter_oi_target (fp_targets i) pOut h ;;
  a <- filter_all_oi_array (fp_array i) h ;;
  c <- filter_all_oi_corr (fp_corr i) (snd a) ;;
  w <- filter_all_oi_wavelength (fp_wavelength i) (snd c) ;;
  let t := snd (fst w) in
  p <- filter_all_oi_inspol t (fp_inspol i) (snd w) ;;
  v <- filter_all_data filter_oi_vis t (fp_vis i) (snd p) ;;
  v2 <- filter_all_data filter_oi_vis2 t (fp_vis2 i) (snd v) ;;
  t3 <- filter_all_data filter_oi_t3 t (fp_t3 i) (snd v2) ;;
  f <- filter_all_data filter_oi_flux t (fp_flux i) (snd t3) ;;
  a' <- pruned free_oi_array (fst a) (snd f) ;;
  p' <- pruned free_oi_inspol (fst p) (snd a') ;;
  w' <- pruned free_oi_wavelength (fst (fst w)) (snd p') ;;
  c' <- pruned free_oi_corr (fst c) (snd w') ;;
  h <- hash_destroy t (snd c') ;;
  Ok (mk_ptrs pOut (fst a') (fst w') (fst c') (fst p') (fst v) (fst v2) (fst t3) (fst f), h).
End Filtering.
