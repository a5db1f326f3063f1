(** Storage: the copying functions of oifile.c, alloc_fits.c and free_fits.c on a heap.

    A block is an array of structs; a struct is a list of named fields.  Fields other than
    counts, flags and pointers are uninterpreted bytes.  Pointers are the start of a block
    (the code keeps no others in its structs).  An array of numbers is an array of structs
    with a single field.  The struct [pOi->targets], part of oi_fits in the code, is a block
    of its own here. *)
From Verif Require Export Base.
Open Scope Z_scope.

Definition addr := Z.
Inductive field := Num (z : Z) | Ptr (p : option addr) | Bytes (s : string).
Definition struct := list (string * field).
Definition block := list struct.
(** the live blocks *)
Definition heap := list (addr * block).

Fixpoint lookup (h : heap) (a : addr) : option block :=
  match h with
  | [] => None
  | (a', b) :: h' => if a' =? a then Some b else lookup h' a
  end.
Definition remove (h : heap) (a : addr) : heap := filter (fun e => negb (fst e =? a)) h.
Definition replace (h : heap) (a : addr) (b : block) : heap := (a, b) :: remove h a.

Fixpoint getf (s : struct) (f : string) : option field :=
  match s with
  | [] => None
  | (f', v) :: s' => if str_eqb f' f then Some v else getf s' f
  end.
Definition setf (s : struct) (f : string) (v : field) : struct :=
  map (fun e => if str_eqb (fst e) f then (f, v) else e) s.
Definition put_at {A} (l : list A) (i : Z) (a : A) : list A :=
  firstn (Z.to_nat i) l ++ a :: skipn (Z.to_nat i + 1) l.

(** Reading and writing [p[i].f]; a dangling pointer is [UB]. *)
Definition load (h : heap) (p : addr) (i : Z) : res struct :=
  match lookup h p with Some b => get b i | None => UB end.
Definition load_num (h : heap) (p : addr) (i : Z) (f : string) : res Z :=
  s <- load h p i ;; match getf s f with Some (Num z) => Ok z | _ => UB end.
Definition load_ptr (h : heap) (p : addr) (i : Z) (f : string) : res (option addr) :=
  s <- load h p i ;; match getf s f with Some (Ptr q) => Ok q | _ => UB end.
Definition deref (q : option addr) : res addr := match q with Some a => Ok a | None => UB end.
Definition store (h : heap) (p : addr) (i : Z) (f : string) (v : field) : res heap :=
  match lookup h p with
  | Some b =>
      s <- get b i ;;
      match getf s f with
      | Some _ => Ok (replace h p (put_at b i (setf s f v)))
      | None => UB
      end
  | None => UB
  end.

(** free(p): NULL is allowed, a block that is not live (freed before) is [UB] *)
Definition free (h : heap) (p : option addr) : res heap :=
  match p with
  | None => Ok h
  | Some a => match lookup h a with Some _ => Ok (remove h a) | None => UB end
  end.

Section Storage.
(** The address malloc returns, any function of the heap. *)
Variable malloc : heap -> addr.

(** ** Copying *)

(** MEMDUP(dest, src, n * sizeof), oifile.h 58-63: chkmalloc, then memcpy *)
Definition memdup (h : heap) (src : option addr) (n : Z) : res (addr * heap) :=
  do chkmalloc n ;;
  a <- deref src ;;
  match lookup h a with
  | None => UB
  | Some b => if Z.of_nat (List.length b) <? n then UB
              else let a' := malloc h in Ok (a', (a', firstn (Z.to_nat n) b) :: h)
  end.

(** MEMDUP(pOut[i].dst, pIn[i].src, n * sizeof) *)
Definition memdup_field (pIn pOut : addr) (i : Z) (dst src : string) (n : Z) (h : heap) : res heap :=
  q <- load_ptr h pIn i src ;;
  r <- memdup h q n ;;
  store (snd r) pOut i dst (Ptr (Some (fst r))).

(** a MEMDUP call: destination, source, and whether of nwave * nwave elements *)
Definition copy := (string * string * bool)%type.
Definition same (f : string) : copy := (f, f, false).

(** MEMDUP of the struct and of arrays of [count] elements *)
Definition dup_arrays (count : string) (fields : list string) (pIn : addr) (h : heap)
  : res (addr * heap) :=
  r <- memdup h (Some pIn) 1 ;;
  let pOut := fst r in
  h' <- foreach fields (fun f h =>
          n <- load_num h pIn 0 count ;; memdup_field pIn pOut 0 f f n h) (snd r) ;;
  Ok (pOut, h').

(** The loop over records: the MEMDUP calls of one pass are [copies h], which may depend on
    flags of the table. *)
Definition dup_records (copies : heap -> addr -> res (list copy)) (pIn : addr) (h : heap)
  : res (addr * heap) :=
  r <- dup_arrays "numrec" ["record"%string] pIn h ;;
  let pOut := fst r in
  n <- load_num (snd r) pIn 0 "numrec" ;;
  h' <- for_ n (fun i h =>
          cs <- copies h pIn ;;
          foreach cs (fun c h =>
            let '(dst, src, sq) := c in
            q <- load_ptr h pIn 0 "record" ;; rIn <- deref q ;;
            q' <- load_ptr h pOut 0 "record" ;; rOut <- deref q' ;;
            w <- load_num h pIn 0 "nwave" ;;
            memdup_field rIn rOut i dst src (if (sq : bool) then w * w else w) h) h) (snd r) ;;
  Ok (pOut, h').

(** oifile.c 1202-1210 *)
Definition dup_oi_target := dup_arrays "ntarget" ["targ"%string].
(** oifile.c 1218-1226 *)
Definition dup_oi_array := dup_arrays "nelement" ["elem"%string].
(** oifile.c 1235-1245 *)
Definition dup_oi_wavelength := dup_arrays "nwave" ["eff_wave"; "eff_band"]%string.
(** oifile.c 1254-1265 *)
Definition dup_oi_corr := dup_arrays "ncorr" ["iindx"; "jindx"; "corr"]%string.
(** oifile.c 1274-1293 *)
Definition dup_oi_inspol :=
  dup_records (fun _ _ => Ok (map same ["jxx"; "jyy"; "jxy"; "jyx"]%string)).
(** oifile.c 1302-1343; IVISERR is copied from RVISERR *)
Definition dup_oi_vis :=
  dup_records (fun h p =>
    m <- load_num h p 0 "usevisrefmap" ;;
    c <- load_num h p 0 "usecomplex" ;;
    Ok (map same ["visamp"; "visamperr"; "visphi"; "visphierr"; "flag"]%string
        ++ (if m =? 0 then [] else [("visrefmap", "visrefmap", true)]%string)
        ++ (if c =? 0 then []
            else map same ["rvis"; "rviserr"; "ivis"]%string ++ [("iviserr", "rviserr", false)]%string))).
(** oifile.c 1352-1373 *)
Definition dup_oi_vis2 := dup_records (fun _ _ => Ok (map same ["vis2data"; "vis2err"; "flag"]%string)).
(** oifile.c 1382-1407 *)
Definition dup_oi_t3 :=
  dup_records (fun _ _ => Ok (map same ["t3amp"; "t3amperr"; "t3phi"; "t3phierr"; "flag"]%string)).
(** oifile.c 1416-1437 *)
Definition dup_oi_flux := dup_records (fun _ _ => Ok (map same ["fluxdata"; "fluxerr"; "flag"]%string)).

(** ** Allocating *)

(** The contents of a new array for field [f] before it is filled, any structs. *)
Variable uninit : string -> Z -> struct.

(** p[i].f = chkmalloc(n * sizeof) *)
Definition new_field (p : addr) (i : Z) (f : string) (n : Z) (h : heap) : res heap :=
  do chkmalloc n ;;
  let a := malloc h in
  store ((a, map (fun j => uninit f (Z.of_nat j)) (seq 0 (Z.to_nat n))) :: h) p i f (Ptr (Some a)).
Definition alloc_arrays (count : string) (fields : list string) (p : addr) (n : Z) (h : heap) : res heap :=
  h <- foreach fields (fun f h => new_field p 0 f n h) h ;;
  store h p 0 count (Num n).
(** [nulls]: pointers of a record set to NULL; [flags]: flags of the table set to FALSE *)
Definition alloc_records (vectors nulls flags : list string) (p : addr) (n w : Z) (h : heap) : res heap :=
  h <- new_field p 0 "record" n h ;;
  h <- for_ n (fun i h =>
         q <- load_ptr h p 0 "record" ;; r <- deref q ;;
         h <- foreach vectors (fun f h => new_field r i f w h) h ;;
         foreach nulls (fun f h => store h r i f (Ptr None)) h) h ;;
  h <- store h p 0 "numrec" (Num n) ;;
  h <- store h p 0 "nwave" (Num w) ;;
  foreach flags (fun f h => store h p 0 f (Num 0)) h.

(** alloc_fits.c 37-41 *)
Definition alloc_oi_array := alloc_arrays "nelement" ["elem"%string].
(** alloc_fits.c 51-55 *)
Definition alloc_oi_target := alloc_arrays "ntarget" ["targ"%string].
(** alloc_fits.c 65-70 *)
Definition alloc_oi_wavelength := alloc_arrays "nwave" ["eff_wave"; "eff_band"]%string.
(** alloc_fits.c 80-86 *)
Definition alloc_oi_corr := alloc_arrays "ncorr" ["iindx"; "jindx"; "corr"]%string.
(** alloc_fits.c 97-113 *)
Definition alloc_oi_inspol := alloc_records ["jxx"; "jyy"; "jxy"; "jyx"]%string [] [].
(** alloc_fits.c 124-148 *)
Definition alloc_oi_vis :=
  alloc_records ["visamp"; "visamperr"; "visphi"; "visphierr"; "flag"]%string
    ["visrefmap"; "rvis"; "rviserr"; "ivis"; "iviserr"]%string ["usevisrefmap"; "usecomplex"]%string.
(** alloc_fits.c 159-174 *)
Definition alloc_oi_vis2 := alloc_records ["vis2data"; "vis2err"; "flag"]%string [] [].
(** alloc_fits.c 185-202 *)
Definition alloc_oi_t3 := alloc_records ["t3amp"; "t3amperr"; "t3phi"; "t3phierr"; "flag"]%string [] [].
(** alloc_fits.c 214-229 *)
Definition alloc_oi_flux := alloc_records ["fluxdata"; "fluxerr"; "flag"]%string [] [].
End Storage.

(** ** Freeing *)

(** free(p[i].f) *)
Definition free_field (p : addr) (i : Z) (f : string) (h : heap) : res heap :=
  q <- load_ptr h p i f ;; free h q.
Definition free_arrays (fields : list string) (p : addr) (h : heap) : res heap :=
  foreach fields (fun f h => free_field p 0 f h) h.
(** the loop over records, then free(p->record) *)
Definition free_records (fields : heap -> addr -> res (list string)) (p : addr) (h : heap) : res heap :=
  n <- load_num h p 0 "numrec" ;;
  h' <- for_ n (fun i h =>
          fs <- fields h p ;;
          foreach fs (fun f h =>
            q <- load_ptr h p 0 "record" ;; r <- deref q ;; free_field r i f h) h) h ;;
  free_field p 0 "record" h'.

(** free_fits.c 34-37 *)
Definition free_oi_array := free_arrays ["elem"%string].
(** free_fits.c 44-47 *)
Definition free_oi_target := free_arrays ["targ"%string].
(** free_fits.c 54-58 *)
Definition free_oi_wavelength := free_arrays ["eff_wave"; "eff_band"]%string.
(** free_fits.c 65-70 *)
Definition free_oi_corr := free_arrays ["iindx"; "jindx"; "corr"]%string.
(** free_fits.c 77-89 *)
Definition free_oi_inspol := free_records (fun _ _ => Ok ["jxx"; "jyy"; "jxy"; "jyx"]%string).
(** free_fits.c 96-119 *)
Definition free_oi_vis :=
  free_records (fun h p =>
    m <- load_num h p 0 "usevisrefmap" ;;
    c <- load_num h p 0 "usecomplex" ;;
    Ok (["visamp"; "visamperr"; "visphi"; "visphierr"; "flag"]%string
        ++ (if m =? 0 then [] else ["visrefmap"%string])
        ++ (if c =? 0 then [] else ["rvis"; "rviserr"; "ivis"; "iviserr"]%string))).
(** free_fits.c 126-137 *)
Definition free_oi_vis2 := free_records (fun _ _ => Ok ["vis2data"; "vis2err"; "flag"]%string).
(** free_fits.c 144-157 *)
Definition free_oi_t3 := free_records (fun _ _ => Ok ["t3amp"; "t3amperr"; "t3phi"; "t3phierr"; "flag"]%string).
(** free_fits.c 164-175 *)
Definition free_oi_flux := free_records (fun _ _ => Ok ["fluxdata"; "fluxerr"; "flag"]%string).

(** oifile.c 979-991; the list nodes belong to GLib *)
Definition free_list (internalFree : addr -> heap -> res heap) (l : list addr) (h : heap) : res heap :=
  foreach l (fun p h => h' <- internalFree p h ;; free h' (Some p)) h.

(** the pointers of an oi_fits struct *)
Record fits_ptrs := mk_ptrs {
  fp_targets : addr; fp_array : list addr; fp_wavelength : list addr; fp_corr : list addr;
  fp_inspol : list addr; fp_vis : list addr; fp_vis2 : list addr; fp_t3 : list addr;
  fp_flux : list addr }.
(** oifile.c 998-1012; the hash tables own neither keys nor values (706-708) *)
Definition free_oi_fits (o : fits_ptrs) (h : heap) : res heap :=
  h <- free_oi_target (fp_targets o) h ;;
  h <- free_list free_oi_array (fp_array o) h ;;
  h <- free_list free_oi_wavelength (fp_wavelength o) h ;;
  h <- free_list free_oi_corr (fp_corr o) h ;;
  h <- free_list free_oi_inspol (fp_inspol o) h ;;
  h <- free_list free_oi_vis (fp_vis o) h ;;
  h <- free_list free_oi_vis2 (fp_vis2 o) h ;;
  h <- free_list free_oi_t3 (fp_t3 o) h ;;
  free_list free_oi_flux (fp_flux o) h.
