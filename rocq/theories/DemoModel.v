(** Model of the half of oitable-demo.c that reads a file (demo_read).

    Simplified: the prompt "Enter input OIFITS filename: " and what goes to stderr are left
    out; so are the lines printed before an abort.  ScanModel.v has demo_write. *)
From Verif Require Export ReadModel ToolModel.
Open Scope list_scope.
Open Scope Z_scope.

(** ** The file name (oitable-demo.c 487-489) *)

(** fgets(s, n, stdin): at most [n] - 1 characters, up to and including a newline; the
    string is left as it was if there is no input *)
Fixpoint fgets (n : nat) (input : string) : string :=
  match n, input with
  | S n', String c rest => if Ascii.eqb c "010" then String c EmptyString else String c (fgets n' rest)
  | _, _ => EmptyString
  end.
Fixpoint drop_last (s : string) : string :=
  match s with
  | EmptyString => EmptyString
  | String c EmptyString => EmptyString
  | String c s' => String c (drop_last s')
  end.
(** [filename\[strlen(filename) - 1\] = '\0'] drops the last character whatever it is; without
    input the array was never written *)
Definition typed_name (input : string) : res string :=
  match input with
  | EmptyString => UB
  | _ => Ok (drop_last (fgets (Z.to_nat (FLEN_FILENAME - 1)) input))
  end.

Section Demo.
Variable E : cfitsio.
Local Open Scope string_scope.

(** ** The lines printed (oitable-demo.c 510-511, 543-544, 575-576, 607-608, 639) *)

Definition names_line (kind arrname insname corrname : string) : string :=
  "Read " ++ kind ++ "with  ARRNAME=" ++ arrname ++ " INSNAME=" ++ insname ++ " CORRNAME=" ++ corrname.
Definition data_line {X R} (kind : string) (t : dtab X R) : string :=
  names_line kind (tb_arrname t) (tb_insname t) (tb_corrname t).
(** the line for OI_VIS2 has the CORRNAME of the oi_vis struct, which is [None] if it was
    never filled in *)
Definition vis2_line (corrname : option string) (t : oi_vis2) : res string :=
  match corrname with
  | None => UB
  | Some c => Ok (names_line "OI_VIS2     " (tb_arrname t) (tb_insname t) c)
  end.
Definition inspol_line (t : oi_inspol) : string := "Read OI_INSPOL   with  ARRNAME=" ++ is_arrname t.

Local Close Scope string_scope.

(** ** The tables a data table names, read through the second connection *)

(** what is read is not used; the new position and *pStatus *)
Definition discard {A} (r : res (option A * wstate)) : res wstate := p <- r ;; Ok (snd p).
(** oitable-demo.c 512-524, 545-556, 577-588, 609-620 *)
Definition data_refs {X R} (t : dtab X R) (s : wstate) : res wstate :=
  s <- (if nonempty (tb_arrname t) then discard (read_oi_array E (tb_arrname t) s) else Ok s) ;;
  s <- (if nonempty (tb_corrname t) then discard (read_oi_corr E (tb_corrname t) s) else Ok s) ;;
  discard (read_oi_wavelength E (tb_insname t) s).
(** oitable-demo.c 640: also if ARRNAME is empty *)
Definition inspol_refs (t : oi_inspol) (s : wstate) : res wstate :=
  discard (read_oi_array E (is_arrname t) s).

(** ** The loops (oitable-demo.c 507-533, 540-565, 572-597, 604-629, 635-647)

    [f], [f2]: the two connections; they share [status].  The result: the tables read and
    the lines printed, in order, and the state when the loop is left.  Releasing the tables
    has no effect here.  [fuel] bounds the number of turns, as in [read_loop]. *)
Definition demo_state := (fitsfile * fitsfile * Z)%type.
Fixpoint demo_loop {A} (fuel : nat) (next : io A) (say : A -> res string) (refs : A -> wstate -> res wstate)
  (s : demo_state) : res (list (A * string) * demo_state) :=
  match fuel with
  | O => UB
  | S fuel' =>
      let '(f, f2, st) := s in
      r <- next (f, st) ;;
      let '(a, (f, st)) := r in
      if negb (st =? 0) then Ok ([], (f, f2, st))
      else match a with
           | None => UB
           | Some a =>
               line <- say a ;;
               s2 <- refs a (f2, st) ;;
               r <- demo_loop fuel' next say refs (f, fst s2, snd s2) ;;
               Ok ((a, line) :: fst r, snd r)
           end
  end.
(** [fits_movabs_hdu(fptr, 1, &hdutype, &status)] *)
Definition demo_start (s : demo_state) : res demo_state :=
  let '(f, f2, st) := s in r <- fits_movabs_hdu 1 (f, st) ;; Ok (fst r, f2, snd r).
Definition demo_run {A} (next : io A) (say : A -> res string) (refs : A -> wstate -> res wstate)
  (s : demo_state) : res (list (A * string) * demo_state) :=
  demo_loop (S (S (List.length (f_hdus (fst (fst s)))))) next say refs s.
(** [if (status != END_OF_FILE) goto except; status = 0;] with the lines printed so far *)
Definition demo_after (lines : list string) (s : demo_state)
  (k : demo_state -> res (list string * Z)) : res (list string * Z) :=
  let '(f, f2, st) := s in
  if st =? END_OF_FILE then k (f, f2, 0) else Ok (lines, 1).

Definition last_of {A} (l : list A) : option A := match rev l with [] => None | a :: _ => Some a end.

(** oitable-demo.c 491-657: what demo_read prints, and the exit status of the program.
    The first loop starts where read_oi_target has left the file.  The file is there when
    it is opened for the second time. *)
Definition demo_tables (hdus : list hdu) : res (list string * Z) :=
  r <- read_oi_header E (mk_file hdus 1, 0) ;; let '(_, s) := r in
  r <- read_oi_target E s ;; let '(_, s) := r in
  if negb (snd s =? 0) then Ok ([], 1)
  else
  let s := (fst s, mk_file hdus 1, 0) in
  r <- demo_run (read_next_oi_vis E) (fun t => Ok (data_line "OI_VIS      " t)) data_refs s ;;
  let '(vis, s) := r in let out := map snd vis in
  demo_after out s (fun s =>
  s <- demo_start s ;;
  r <- demo_run (read_next_oi_vis2 E) (vis2_line (option_map (fun p => tb_corrname (fst p)) (last_of vis)))
         data_refs s ;;
  let '(vis2, s) := r in let out := out ++ map snd vis2 in
  demo_after out s (fun s =>
  s <- demo_start s ;;
  r <- demo_run (read_next_oi_t3 E) (fun t => Ok (data_line "OI_T3       " t)) data_refs s ;;
  let '(t3, s) := r in let out := out ++ map snd t3 in
  demo_after out s (fun s =>
  s <- demo_start s ;;
  r <- demo_run (read_next_oi_flux E) (fun t => Ok (data_line "OI_FLUX     " t)) data_refs s ;;
  let '(flux, s) := r in let out := out ++ map snd flux in
  demo_after out s (fun s =>
  s <- demo_start s ;;
  r <- demo_run (read_next_oi_inspol E) (fun t => Ok (inspol_line t)) inspol_refs s ;;
  let '(inspol, s) := r in let out := out ++ map snd inspol in
  demo_after out s (fun _ => Ok (out, 0)))))).
(** oitable-demo.c 471-658, with the characters waiting on stdin *)
Definition demo_read (input : string) (d : disk) : res (list string * Z) :=
  name <- typed_name input ;;
  r <- match find_file name d with
       | None => Ok ([], 1)
       | Some hdus => demo_tables hdus
       end ;;
  Ok (("Reading FITS file " ++ name ++ "...")%string :: fst r, snd r).
End Demo.
