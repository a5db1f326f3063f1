(** Storage of the column formats: make_tform and free_tform of write_fits.c.

    A block of storage is a list of cells: a character, a pointer (to the start of a block) or
    something not written yet. *)
From Coq Require Import Ascii.
From Verif Require Export Base.
Open Scope Z_scope.

Definition addr := Z.
Inductive cell := Raw | Ch (c : ascii) | Pt (a : addr).
(** the blocks in use *)
Definition heap := list (addr * list cell).
Fixpoint lookup (h : heap) (a : addr) : option (list cell) :=
  match h with
  | [] => None
  | (a', b) :: h' => if a' =? a then Some b else lookup h' a
  end.
Definition remove (h : heap) (a : addr) : heap := filter (fun e => negb (fst e =? a)) h.

(** p[i] = c *)
Definition write (p : addr) (i : Z) (c : cell) (h : heap) : res heap :=
  match lookup h p with
  | None => UB
  | Some b =>
      if (0 <=? i) && (i <? Z.of_nat (List.length b))
      then Ok ((p, firstn (Z.to_nat i) b ++ c :: skipn (Z.to_nat i + 1) b) :: remove h p)
      else UB
  end.
(** the pointer p[i] *)
Definition read_ptr (p : addr) (i : Z) (h : heap) : res addr :=
  match lookup h p with
  | None => UB
  | Some b => c <- get b i ;; match c with Pt a => Ok a | _ => UB end
  end.
(** free(p) of a pointer that is not NULL *)
Definition free (p : addr) (h : heap) : res heap :=
  match lookup h p with Some _ => Ok (remove h p) | None => UB end.

(** the characters of a string and the final null, from p[i] on *)
Fixpoint put_text (p : addr) (i : Z) (s : string) (h : heap) : res heap :=
  match s with
  | EmptyString => write p i (Ch "000"%char) h
  | String c s' => h' <- write p i (Ch c) h ;; put_text p (i + 1) s' h'
  end.
(** snprintf(p, size, ...) where the whole text is [s]: the value returned, and the storage
    (C11 7.21.6.5) *)
Definition snprintf (p : addr) (size : Z) (s : string) (h : heap) : res (Z * heap) :=
  h' <- (if 0 <? size then put_text p 0 (substring 0 (Z.to_nat (size - 1)) s) h else Ok h) ;;
  Ok (strlen s, h').

Section Tform.
(** The address malloc returns, any function of the storage in use. *)
Variable malloc : heap -> addr.

Definition alloc (n : Z) (h : heap) : res (addr * heap) :=
  do chkmalloc n ;; let a := malloc h in Ok (a, (a, repeat Raw (Z.to_nat n)) :: h).

(** write_fits.c 55-66: one turn of the loop *)
Definition make_one (value : Z) (tform : addr) (i : Z) (t : string) (h : heap) : res heap :=
  match t with
  | String "?" rest =>
      let size := strlen t + 4 in
      r <- alloc size h ;;
      h <- write tform i (Pt (fst r)) (snd r) ;;
      p <- read_ptr tform i h ;;
      r <- snprintf p size (fmt_d value ++ rest) h ;;
      do assert_ (fst r <? size) ;;
      Ok (snd r)
  | _ =>
      r <- alloc (strlen t + 1) h ;;
      h <- write tform i (Pt (fst r)) (snd r) ;;
      p <- read_ptr tform i h ;;
      put_text p 0 t h
  end.
(** write_fits.c 47-69.  Simplified: a pointer takes up one cell. *)
Definition make_tform (template : list string) (n value : Z) (h : heap) : res (addr * heap) :=
  r <- alloc n h ;;
  let tform := fst r in
  h <- for_ n (fun i h => t <- get template i ;; make_one value tform i t h) (snd r) ;;
  Ok (tform, h).
(** write_fits.c 74-81 *)
Definition free_tform (tform : addr) (n : Z) (h : heap) : res heap :=
  h <- for_ n (fun i h => p <- read_ptr tform i h ;; free p h) h ;;
  free tform h.
End Tform.

(** The templates: write_fits.c 459, 537, 652-653, 754-755, 862-863, 978 *)
Local Open Scope string_scope.
Definition inspol_template : list string := ["I"; "70A"; "D"; "D"; "?C"; "?C"; "?C"; "?C"; "I"].
Definition complex_template : list string := ["?D"; "?D"; "?D"; "?D"].
Definition vis_template : list string := ["I"; "D"; "D"; "D"; "?D"; "?D"; "?D"; "?D"; "1D"; "1D"; "2I"; "?L"].
Definition vis2_template : list string := ["I"; "D"; "D"; "D"; "?D"; "?D"; "1D"; "1D"; "2I"; "?L"].
Definition t3_template : list string :=
  ["I"; "D"; "D"; "D"; "?D"; "?D"; "?D"; "?D"; "1D"; "1D"; "1D"; "1D"; "3I"; "?L"].
Definition flux_template : list string := ["I"; "D"; "D"; "?D"; "?D"; "?L"].
