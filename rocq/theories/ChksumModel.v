(** verify_chksum, and the reading of a file with the warnings it prints.

    The functions of ReadModel are taken up again with the call of verify_chksum they make.
    What fits_verify_chksum finds is an arbitrary function of the HDU.  Only the warnings of
    verify_chksum are modelled, not the other messages. *)
From Verif Require Export ReadModel.
Open Scope string_scope.
Open Scope list_scope.
Open Scope Z_scope.

(** what fits_verify_chksum(fptr, &dataok, &hduok, &status) leaves; [None]: not written *)
Record verdict := mk_verdict { v_dataok : option Z; v_hduok : option Z; v_status : Z }.

(** a computation that prints *)
Definition pr (A : Type) := res (list string * A).
Definition pbind {A B} (x : pr A) (k : A -> pr B) : pr B :=
  a <- x ;; b <- k (snd a) ;; Ok (fst a ++ fst b, snd b).
Notation "x <! e ;! k" := (pbind e (fun x => k))
  (at level 61, e at next level, right associativity).
Definition quiet {A} (x : res A) : pr A := a <- x ;; Ok ([], a).

Section Chksum.
Variable E : cfitsio.
Variable V : hdu -> verdict.

Definition newline : string := String (ascii_of_nat 10) EmptyString.
(** the two formats of read_fits.c 255-262 *)
Definition chksum_text (what : string) (hdunum : Z) (extname : string) (extver : Z) : string :=
  ("WARNING! " ++ what ++ " checksum verification failed for HDU #" ++ fmt_d hdunum
   ++ " (EXTNAME='" ++ extname ++ "' EXTVER=" ++ fmt_d extver ++ ")" ++ newline)%string.

(** a variable read: undefined unless it has been written *)
Definition var {A} (o : option A) : res A := match o with Some a => Ok a | None => UB end.

(** read_fits.c 246-253: extname and extver, with the status *)
Definition chksum_name (h : hdu) : rd (option string * option Z) :=
  n <~ read_key_opt_string E h "EXTNAME" ;~
  if negb (snd n) then rret (fst n, Some 0)
  else v <~ read_key_opt_int E h "EXTVER" ;~
       rret (fst n, if negb (snd v) then Some 0 else fst v).
(** read_fits.c 235-265 *)
Definition verify_chksum (h : hdu) (hdunum : Z) (st : Z) : pr Z :=
  if negb (st =? 0) then Ok ([], st)
  else
    let '(mk_verdict data hduv st) := V h in
    dataok <- var data ;;
    bad <- (if dataok =? -1 then Ok true else hduok <- var hduv ;; Ok (hduok =? -1)) ;;
    if negb bad then Ok ([], st)
    else
      r <- chksum_name h st ;;
      let '((extname, extver), st) := r in
      m1 <- (if dataok =? -1
             then n <- var extname ;; v <- var extver ;; Ok [chksum_text "Data" hdunum n v]
             else Ok []) ;;
      hduok <- var hduv ;;
      m2 <- (if hduok =? -1
             then n <- var extname ;; v <- var extver ;; Ok [chksum_text "HDU" hdunum n v]
             else Ok []) ;;
      Ok (m1 ++ m2, st).

(** a call that may move in the file and print *)
Definition pio (A : Type) := wstate -> pr (option A * wstate).
(** [verify_chksum(fptr, pStatus)] and the reading of the HDU the file is at *)
Definition verified_chdu {A} (r : hdu -> rd (option A)) : pio A :=
  fun s => match chdu (fst s) with
           | None => quiet (at_chdu r s)
           | Some h => st <! verify_chksum h (f_cur (fst s)) (snd s) ;! quiet (at_chdu r (fst s, st))
           end.
Definition guard_pio {A} (k : pio A) : pio A :=
  fun s => if negb (snd s =? 0) then Ok ([], (None, s)) else k s.

(** read_fits.c 671-704, 716-825, 838-855, 897-914, 957-974 *)
Definition read_header : pio oi_header := guard_pio (fun s =>
  s <- fits_movabs_hdu 1 s ;; verified_chdu (read_oi_header_chdu E) s).
Definition read_targets : pio oi_target := guard_pio (fun s =>
  verified_chdu (read_oi_target_chdu E) (fits_movnam_hdu E "OI_TARGET" s)).
Definition read_array (arrname : string) : pio oi_array := guard_pio (fun s =>
  verified_chdu (fun h => read_oi_array_chdu E h (Some arrname))
    (specific_named_hdu E "OI_ARRAY" "ARRNAME" arrname s)).
Definition read_wavelength (insname : string) : pio oi_wavelength := guard_pio (fun s =>
  verified_chdu (fun h => read_oi_wavelength_chdu E h (Some insname))
    (specific_named_hdu E "OI_WAVELENGTH" "INSNAME" insname s)).
Definition read_corr (corrname : string) : pio oi_corr := guard_pio (fun s =>
  verified_chdu (fun h => read_oi_corr_chdu E h (Some corrname))
    (specific_named_hdu E "OI_CORR" "CORRNAME" corrname s)).
(** read_fits.c 867-884, 926-944, 986-1003, 1015-1032, 1185-1200, 1288-1303, 1402-1417,
    1532-1548 *)
Definition read_next_table {A} (extname : string) (r : hdu -> rd (option A)) : pio A :=
  guard_pio (fun s =>
    let s := next_named_hdu E extname s in
    if negb (snd s =? 0) then Ok ([], (None, s)) else verified_chdu r s).

(** oifile.c 725-964, see [read_loop] *)
Fixpoint loop_tables {A} (fuel : nat) (skip_bad : bool) (next : pio A) (s : wstate)
  : pr (list A * wstate) :=
  match fuel with
  | O => UB
  | Datatypes.S fuel' =>
      r <! next s ;!
      let '(a, (f, st)) := r in
      if negb (st =? 0) then
        if st =? END_OF_FILE then Ok ([], ([], (f, 0)))
        else if skip_bad then loop_tables fuel' skip_bad next (f, 0)
        else Ok ([], ([], (f, st)))
      else match a with
           | None => UB
           | Some a => r <! loop_tables fuel' skip_bad next (f, st) ;! Ok ([], (a :: fst r, snd r))
           end
  end.
Definition all_tables {A} (skip_bad : bool) (next : pio A) (s : wstate) : pr (list A * wstate) :=
  s <- fits_movabs_hdu 1 s ;;
  loop_tables (Datatypes.S (List.length (f_hdus (fst s)))) skip_bad next s.
Definition ok_so_far {A} (s : wstate) (k : pr (option A * Z)) : pr (option A * Z) :=
  if negb (snd s =? 0) then Ok ([], (None, snd s)) else k.
(** oifile.c 718-966 *)
Definition read_file (s : wstate) : pr (option oi_fits * Z) :=
  r <! read_header s ;! let '(header, s) := r in
  r <! read_targets s ;! let '(targets, s) := r in
  ok_so_far s (
  r <! all_tables false (read_next_table "OI_ARRAY" (fun h => read_oi_array_chdu E h None)) s ;!
  let '(arrays, s) := r in
  ok_so_far s (
  r <! all_tables false (read_next_table "OI_WAVELENGTH" (fun h => read_oi_wavelength_chdu E h None)) s ;!
  let '(waves, s) := r in
  ok_so_far s (
  r <! all_tables true (read_next_table "OI_CORR" (fun h => read_oi_corr_chdu E h None)) s ;!
  let '(corrs, s) := r in
  r <! all_tables true (read_next_table "OI_INSPOL" (read_oi_inspol_chdu E)) s ;!
  let '(inspols, s) := r in
  r <! all_tables true (read_next_table "OI_VIS" (read_oi_vis_chdu E)) s ;!
  let '(vis, s) := r in
  r <! all_tables true (read_next_table "OI_VIS2" (read_oi_vis2_chdu E)) s ;!
  let '(vis2, s) := r in
  r <! all_tables true (read_next_table "OI_T3" (read_oi_t3_chdu E)) s ;!
  let '(t3, s) := r in
  r <! all_tables true (read_next_table "OI_FLUX" (read_oi_flux_chdu E)) s ;!
  let '(flux, s) := r in
  match header, targets with
  | Some header, Some targets =>
      o <! quiet (assemble header targets arrays waves corrs inspols vis vis2 t3 flux) ;!
      Ok ([], (Some o, snd s))
  | _, _ => UB
  end))).
(** oifile.c 684-976 *)
Definition read_file_named (name : string) (d : disk) (st : Z) : pr (option oi_fits * Z) :=
  if negb (st =? 0) then Ok ([], (None, st))
  else match find_file name d with
       | None => Ok ([], (None, FILE_NOT_OPENED))
       | Some hdus => read_file (mk_file hdus 1, 0)
       end.
End Chksum.
