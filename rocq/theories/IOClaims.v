(** What the properties of reading and writing files are stated with. *)
From Verif Require Export ReadModel IOSpec KeySpec.
Open Scope list_scope.
Open Scope Z_scope.

Section Claims.
Variable E : cfitsio.

(** ** HDUs *)

(** a binary table with that EXTNAME *)
Definition named (name : string) (h : hdu) : bool :=
  is_binary h && match key_text E h "EXTNAME"%string with Some e => str_eqb e name | None => false end.

(** one that read_oi_target may take for its table *)
Definition target_like (h : hdu) : bool :=
  is_binary h && match key_text E h "EXTNAME" with
                 | Some e => str_eqb (upper e) "OI_TARGET" | None => false end.
(** a table with that EXTNAME and keyword *)
Definition matches (name keyword value : string) (h : hdu) : bool :=
  match key_text E h "EXTNAME", key_text E h keyword with
  | Some n, Some v => str_eqb n name && str_eqb v value
  | _, _ => false
  end.

(** the columns of that name, ignoring case *)
Definition columns (name : string) (h : hdu) : list column :=
  filter (fun c => str_eqb (upper (c_name c)) (upper name)) (hd_cols h).
(** there is not exactly one column of that name *)
Definition lacks_column (h : hdu) (name : string) : Prop := List.length (columns name h) <> 1%nat.
Definition lacks_keyword (h : hdu) (k : string) : Prop := find_key k (hd_keys h) = None.

Definition vis_columns : list string := ["TARGET_ID"; "TIME"; "MJD"; "INT_TIME"; "VISAMP"; "VISAMPERR"; "VISPHI";
  "VISPHIERR"; "UCOORD"; "VCOORD"; "STA_INDEX"; "FLAG"]%string.
Definition vis2_columns : list string := ["TARGET_ID"; "TIME"; "MJD"; "INT_TIME"; "VIS2DATA"; "VIS2ERR"; "UCOORD"; "VCOORD";
  "STA_INDEX"; "FLAG"]%string.
Definition t3_columns : list string := ["TARGET_ID"; "TIME"; "MJD"; "INT_TIME"; "T3AMP"; "T3AMPERR"; "T3PHI"; "T3PHIERR"; "U1COORD";
  "V1COORD"; "U2COORD"; "V2COORD"; "STA_INDEX"; "FLAG"]%string.
Definition inspol_columns : list string := ["TARGET_ID"; "INSNAME"; "MJD_OBS"; "MJD_END"; "JXX"; "JYY"; "JXY"; "JYX"; "STA_INDEX"]%string.
Definition corr_columns : list string := ["IINDX"; "JINDX"; "CORR"]%string.
Definition data_keywords : list string := ["OI_REVN"; "DATE-OBS"; "INSNAME"]%string.
Definition inspol_keywords : list string := ["OI_REVN"; "DATE-OBS"; "NPOL"; "ARRNAME"; "ORIENT"; "MODEL"]%string.
Definition corr_keywords : list string := ["OI_REVN"; "CORRNAME"; "NDATA"]%string.
(** in OI_FLUX only the column giving the number of channels is required *)
Definition flux_keywords : list string := ["OI_REVN"; "DATE-OBS"; "INSNAME"; "CALSTAT"]%string.

(** ** Writing and reading *)

(** the HDUs of a file that gets its first extension *)
Definition base_hdus (f : fitsfile) : list hdu :=
  match f_hdus f with [] => [null_primary] | l => l end.
(** [w] appends one HDU, and from there [rd] gives [a] *)
Definition write_read_next {A} (w : wstate -> res wstate) (rd : io A) (a : A) : Prop :=
  forall f, exists f' h,
    w (f, 0) = Ok (f', 0) /\ f_hdus f' = base_hdus f ++ [h]
    /\ rd (mk_file (f_hdus f') (Z.of_nat (List.length (base_hdus f))), 0) = Ok (Some a, (f', 0)).

(** the tables of a dataset and their numbers *)
Definition has_tables (o : oi_fits) (header : oi_header) (targets : oi_target) (arrays : list oi_array)
  (waves : list oi_wavelength) (corrs : list oi_corr) (inspols : list oi_inspol) (vis : list oi_vis)
  (vis2 : list oi_vis2) (t3 : list oi_t3) (flux : list oi_flux) : Prop :=
  o_header o = header /\ o_targets o = targets /\ o_arrayList o = arrays
  /\ o_wavelengthList o = waves /\ o_corrList o = corrs /\ o_inspolList o = inspols
  /\ o_visList o = vis /\ o_vis2List o = vis2 /\ o_t3List o = t3 /\ o_fluxList o = flux
  /\ o_numArray o = Z.of_nat (List.length arrays) /\ o_numWavelength o = Z.of_nat (List.length waves)
  /\ o_numCorr o = Z.of_nat (List.length corrs) /\ o_numInspol o = Z.of_nat (List.length inspols)
  /\ o_numVis o = Z.of_nat (List.length vis) /\ o_numVis2 o = Z.of_nat (List.length vis2)
  /\ o_numT3 o = Z.of_nat (List.length t3) /\ o_numFlux o = Z.of_nat (List.length flux).

(** what reading gives when a table is the only one in the file *)
Definition alone {A} (rd : io A) (h : hdu) : res (option A * wstate) :=
  rd (mk_file [null_primary; h] 1, 0).
Definition readable {A} (rd : io A) (h : hdu) : list A :=
  match alone rd h with Ok (Some a, _) => [a] | _ => [] end.

(** every OI_xxx table of the list can be read *)
Definition all_readable {A} (rd : io A) (name : string) (l : list hdu) : Prop :=
  forall h, In h l -> named name h = true -> readable rd h <> [].

Definition returns_something {A} (m : res A) : Prop := exists a, m = Ok a.

(** ** Reading by name *)

(** [rd] finds the first table with that keyword when only binary tables precede it *)
Definition finds {A} (rd : io A) (name keyword value : string) : Prop :=
  forall p pre h post cur,
    forallb is_binary pre = true -> existsb (matches name keyword value) pre = false ->
    is_binary h = true -> matches name keyword value h = true ->
    rd (mk_file (p :: pre ++ h :: post) cur, 0)
    = (x <- alone rd h ;;
       Ok (fst x, (mk_file (p :: pre ++ h :: post) (Z.of_nat (List.length pre) + 2), snd (snd x)))).
Definition not_found {A} (rd : io A) (name keyword value : string) : Prop :=
  forall p l cur,
    forallb is_binary l = true -> existsb (matches name keyword value) l = false ->
    exists f', rd (mk_file (p :: l) cur, 0) = Ok (None, (f', BAD_HDU_NUM)) /\ f_hdus f' = p :: l.

(** ** Calls *)

(** the public functions of read_fits.c and write_fits.c with their arguments *)
Inductive io_call :=
| WriteHeader (h : oi_header) | WriteArray (a : oi_array) (extver : Z) | WriteTarget (t : oi_target)
| WriteWavelength (w : oi_wavelength) (extver : Z) | WriteCorr (c : oi_corr) (extver : Z)
| WriteInspol (t : oi_inspol) (extver : Z) | WriteVis (t : oi_vis) (extver : Z)
| WriteVis2 (t : oi_vis2) (extver : Z) | WriteT3 (t : oi_t3) (extver : Z)
| WriteFlux (t : oi_flux) (extver : Z)
| ReadHeader | ReadTarget | ReadArray (name : string) | ReadWavelength (name : string)
| ReadCorr (name : string) | ReadNextArray | ReadNextWavelength | ReadNextCorr | ReadNextInspol
| ReadNextVis | ReadNextVis2 | ReadNextT3 | ReadNextFlux.
(** what a call returns through its output argument *)
Inductive io_out :=
| Nothing | OutHeader (h : oi_header) | OutArray (a : oi_array) | OutTarget (t : oi_target)
| OutWavelength (w : oi_wavelength) | OutCorr (c : oi_corr) | OutInspol (t : oi_inspol)
| OutVis (t : oi_vis) | OutVis2 (t : oi_vis2) | OutT3 (t : oi_t3) | OutFlux (t : oi_flux).
Definition as_out {A} (f : A -> io_out) (r : res (option A * wstate)) : res (io_out * wstate) :=
  p <- r ;; Ok (match fst p with Some a => f a | None => Nothing end, snd p).
Definition no_out (r : res wstate) : res (io_out * wstate) := s <- r ;; Ok (Nothing, s).
Definition perform (c : io_call) (s : wstate) : res (io_out * wstate) :=
  match c with
  | WriteHeader h => no_out (write_oi_header E h s)
  | WriteArray a v => no_out (write_oi_array E a v s)
  | WriteTarget t => no_out (write_oi_target E t s)
  | WriteWavelength w v => no_out (write_oi_wavelength E w v s)
  | WriteCorr c v => no_out (write_oi_corr E c v s)
  | WriteInspol t v => no_out (write_oi_inspol E t v s)
  | WriteVis t v => no_out (write_oi_vis E t v s)
  | WriteVis2 t v => no_out (write_oi_vis2 E t v s)
  | WriteT3 t v => no_out (write_oi_t3 E t v s)
  | WriteFlux t v => no_out (write_oi_flux E t v s)
  | ReadHeader => as_out OutHeader (read_oi_header E s)
  | ReadTarget => as_out OutTarget (read_oi_target E s)
  | ReadArray n => as_out OutArray (read_oi_array E n s)
  | ReadWavelength n => as_out OutWavelength (read_oi_wavelength E n s)
  | ReadCorr n => as_out OutCorr (read_oi_corr E n s)
  | ReadNextArray => as_out OutArray (read_next_oi_array E s)
  | ReadNextWavelength => as_out OutWavelength (read_next_oi_wavelength E s)
  | ReadNextCorr => as_out OutCorr (read_next_oi_corr E s)
  | ReadNextInspol => as_out OutInspol (read_next_oi_inspol E s)
  | ReadNextVis => as_out OutVis (read_next_oi_vis E s)
  | ReadNextVis2 => as_out OutVis2 (read_next_oi_vis2 E s)
  | ReadNextT3 => as_out OutT3 (read_next_oi_t3 E s)
  | ReadNextFlux => as_out OutFlux (read_next_oi_flux E s)
  end.
Fixpoint perform_all (l : list io_call) (s : wstate) : res (list io_out * wstate) :=
  match l with
  | [] => Ok ([], s)
  | c :: l' => r <- perform c s ;; r' <- perform_all l' (snd r) ;; Ok (fst r :: fst r', snd r')
  end.
End Claims.
