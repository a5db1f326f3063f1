(** Storage used by reading: read_oi_fits (oifile.c) and the functions of read_fits.c that it
    calls, on the heap of HeapModel.v.

    What reading allocates and frees, and in which order.  What is in the file is given by
    [content], one for each table: whether reading goes well up to the allocation, the sizes,
    and whether it goes well afterwards (what the code reads, and when that fails, is modelled
    in IOModel.v).  The members read from the file are not written one by one: a new block has
    any contents, given by [fill], except for the counts, flags and pointers that the code
    sets.  The primary header and the three hash tables, which own nothing, are left out, and
    so is what cfitsio allocates. *)
From Verif Require Export HeapFilterModel.
Open Scope Z_scope.

(** A table of the file, as far as storage depends on it. *)
Record content := mk_content {
  (** status is 0 where storage is allocated *)
  c_keys : bool;
  (** the number of rows, and of elements in each row of a data column *)
  c_rows : Z; c_chans : Z;
  (** status is 0 after the columns (before read_oi_vis_opt, in OI_VIS) *)
  c_columns : bool;
  (** OI_VIS only: OI_REVN is 1; status is not COL_NOT_FOUND when VISREFMAP was looked for *)
  c_version1 : bool; c_visrefmap : bool;
  (** OI_VIS only: status is 0 after VISREFMAP; status is not COL_NOT_FOUND when RVIS
      was looked for; status is 0 at the end *)
  c_refmap_ok : bool; c_complex : bool; c_complex_ok : bool }.

(** A file: whether it can be opened, the primary header read, and the file closed; the
    OI_TARGET table; the tables of the other kinds in order. *)
Record file := mk_file {
  f_opens : bool; f_header : bool; f_closes : bool;
  f_target : content;
  f_array : list content; f_wavelength : list content; f_corr : list content;
  f_inspol : list content; f_vis : list content; f_vis2 : list content;
  f_t3 : list content; f_flux : list content }.

Section Reading.
Variable malloc : heap -> addr.
Variable fill : heap -> string -> Z -> struct.

(** ** One table *)

(** for (irow = 1; irow <= p->numrec; irow++) ... p->record[irow - 1] ... p->nwave ... *)
Definition each_record (p : addr) (body : addr -> Z -> Z -> heap -> res heap) (h : heap) : res heap :=
  n <- load_num h p 0 "numrec" ;;
  for_ n (fun i h =>
    q <- load_ptr h p 0 "record" ;; r <- deref q ;;
    w <- load_num h p 0 "nwave" ;;
    body r i w h) h.
Definition complex_names : list string := ["rvis"; "rviserr"; "ivis"; "iviserr"]%string.

(** read_fits.c 1037-1103: whether status is 0, the storage *)
Definition read_oi_vis_complex (p : addr) (c : content) (h : heap) : res (bool * heap) :=
  if c_complex c then
    h <- store h p 0 "usecomplex" (Num 1) ;;
    h <- each_record p (fun r i w h =>
           foreach complex_names (fun f h => new_field malloc (fill h) r i f w h) h) h ;;
    Ok (c_complex_ok c, h)
  else
    h <- store h p 0 "usecomplex" (Num 0) ;;
    h <- each_record p (fun r i w h => foreach complex_names (fun f h => store h r i f (Ptr None)) h) h ;;
    Ok (c_complex_ok c, h).
(** read_fits.c 1108-1173 *)
Definition read_oi_vis_opt (p : addr) (c : content) (h : heap) : res (bool * heap) :=
  if c_version1 c then
    h <- store h p 0 "usevisrefmap" (Num 0) ;;
    h <- store h p 0 "usecomplex" (Num 0) ;;
    Ok (true, h)
  else
    h <- (if c_visrefmap c then
            h <- store h p 0 "usevisrefmap" (Num 1) ;;
            each_record p (fun r i w h => new_field malloc (fill h) r i "visrefmap" (w * w) h) h
          else
            h <- store h p 0 "usevisrefmap" (Num 0) ;;
            each_record p (fun r i w h => store h r i "visrefmap" (Ptr None)) h) ;;
    if c_refmap_ok c then read_oi_vis_complex p c h else Ok (false, h).
Definition no_more (p : addr) (c : content) (h : heap) : res (bool * heap) := Ok (true, h).

(** The keywords, the storage, the columns, and [more].  After an error the storage stays. *)
Definition read_table (alloc : addr -> Z -> Z -> heap -> res heap)
  (more : addr -> content -> heap -> res (bool * heap)) (p : addr) (c : content) (h : heap)
  : res (bool * heap) :=
  if c_keys c then
    h <- alloc p (c_rows c) (c_chans c) h ;;
    if c_columns c then more p c h else Ok (false, h)
  else Ok (false, h).

(** read_fits.c 716-825 *)
Definition read_oi_target := read_table (fun p n _ h => alloc_oi_target malloc (fill h) p n h) no_more.
(** read_fits.c 377-457, through read_next_oi_array *)
Definition read_next_oi_array := read_table (fun p n _ h => alloc_oi_array malloc (fill h) p n h) no_more.
(** read_fits.c 470-514, through read_next_oi_wavelength *)
Definition read_next_oi_wavelength := read_table (fun p n _ h => alloc_oi_wavelength malloc (fill h) p n h) no_more.
(** read_fits.c 527-575, through read_next_oi_corr *)
Definition read_next_oi_corr := read_table (fun p n _ h => alloc_oi_corr malloc (fill h) p n h) no_more.
(** read_fits.c 587-653, through read_next_oi_inspol *)
Definition read_next_oi_inspol := read_table (fun p n w h => alloc_oi_inspol malloc (fill h) p n w h) no_more.
(** read_fits.c 1185-1276 *)
Definition read_next_oi_vis := read_table (fun p n w h => alloc_oi_vis malloc (fill h) p n w h) read_oi_vis_opt.
(** read_fits.c 1288-1390 *)
Definition read_next_oi_vis2 := read_table (fun p n w h => alloc_oi_vis2 malloc (fill h) p n w h) no_more.
(** read_fits.c 1402-1520 *)
Definition read_next_oi_t3 := read_table (fun p n w h => alloc_oi_t3 malloc (fill h) p n w h) no_more.
(** read_fits.c 1532-1640 *)
Definition read_next_oi_flux := read_table (fun p n w h => alloc_oi_flux malloc (fill h) p n w h) no_more.

(** ** All tables of one kind *)

(** oifile.c 725-739 (OI_ARRAY), 741-756 (OI_WAVELENGTH): the first table that cannot be read
    ends the reading.  The end of the list is END_OF_FILE.  Only the struct is freed. *)
Fixpoint read_required (read : addr -> content -> heap -> res (bool * heap)) (l : list content)
  (out : list addr) (h : heap) : res (bool * list addr * heap) :=
  let p := fst (new_struct malloc fill h) in
  let h := snd (new_struct malloc fill h) in
  match l with
  | [] => h <- free h (Some p) ;; Ok (true, out, h)
  | c :: l' =>
      r <- read p c h ;;
      if (fst r : bool) then read_required read l' (out ++ [p])%list (snd r)
      else h <- free (snd r) (Some p) ;; Ok (false, out, h)
  end.
(** oifile.c 758-781 (OI_CORR), 783-806 (OI_INSPOL), 808-847 (OI_VIS), 849-888 (OI_VIS2), 890-929
    (OI_T3), 931-964 (OI_FLUX): a table that cannot be read is skipped.  Only the struct is freed. *)
Fixpoint read_optional (read : addr -> content -> heap -> res (bool * heap)) (l : list content)
  (out : list addr) (h : heap) : res (list addr * heap) :=
  let p := fst (new_struct malloc fill h) in
  let h := snd (new_struct malloc fill h) in
  match l with
  | [] => h <- free h (Some p) ;; Ok (out, h)
  | c :: l' =>
      r <- read p c h ;;
      if (fst r : bool) then read_optional read l' (out ++ [p])%list (snd r)
      else h <- free (snd r) (Some p) ;; read_optional read l' out h
  end.

(** ** The whole file *)

(** oifile.c 684-976: whether status is 0, the dataset, the storage.  [o]: the struct of the
    caller, of which only the address of targets is used. *)
Definition read_oi_fits (f : file) (o : fits_ptrs) (h : heap) : res (bool * fits_ptrs * heap) :=
  if negb (f_opens f) then Ok (false, o, h)
  else
    let t := fp_targets o in
    let none := mk_ptrs t [] [] [] [] [] [] [] [] in
    if negb (f_header f) then Ok (false, none, h)
    else
      r <- read_oi_target t (f_target f) h ;;
      if negb (fst r) then Ok (false, none, snd r)
      else
        a <- read_required read_next_oi_array (f_array f) [] (snd r) ;;
        if negb (fst (fst a)) then Ok (false, mk_ptrs t (snd (fst a)) [] [] [] [] [] [] [], snd a)
        else
          w <- read_required read_next_oi_wavelength (f_wavelength f) [] (snd a) ;;
          if negb (fst (fst w)) then Ok (false, mk_ptrs t (snd (fst a)) (snd (fst w)) [] [] [] [] [] [], snd w)
          else
            c <- read_optional read_next_oi_corr (f_corr f) [] (snd w) ;;
            p <- read_optional read_next_oi_inspol (f_inspol f) [] (snd c) ;;
            v <- read_optional read_next_oi_vis (f_vis f) [] (snd p) ;;
            v2 <- read_optional read_next_oi_vis2 (f_vis2 f) [] (snd v) ;;
            t3 <- read_optional read_next_oi_t3 (f_t3 f) [] (snd v2) ;;
            x <- read_optional read_next_oi_flux (f_flux f) [] (snd t3) ;;
            Ok (f_closes f, mk_ptrs t (snd (fst a)) (snd (fst w)) (fst c) (fst p) (fst v) (fst v2) (fst t3) (fst x), snd x).
End Reading.
