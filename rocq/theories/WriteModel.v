(** Model of write_fits.c and of write_oi_fits.

    A function takes the open file with *pStatus and returns both afterwards; its C return
    value is that status.  Messages on stdout and stderr are left out. *)
From Verif Require Export FitsModel FileModel.

(** [a; b;] *)
Definition seq_ (a b : wstate -> res wstate) : wstate -> res wstate := fun s => s' <- a s ;; b s'.
Notation "a ;> b" := (seq_ a b) (at level 62, right associativity).
Definition skip_ : wstate -> res wstate := fun s => Ok s.
Definition when (b : bool) (a : wstate -> res wstate) : wstate -> res wstate :=
  if b then a else skip_.
(** [if ( *pStatus) return *pStatus;] before the body *)
Definition guarded (a : wstate -> res wstate) : wstate -> res wstate :=
  fun s => if negb (snd s =? 0) then Ok s else a s.

(** the first [n] elements of an array passed to cfitsio; UB if it is shorter *)
Definition take {A} (n : Z) (l : list A) : res (list A) :=
  if n <? 0 then UB
  else if Z.of_nat (List.length l) <? n then UB else Ok (firstn (Z.to_nat n) l).

(** the fits_write_col calls of one row: (column number, values), in order *)
Definition write_cells (irow : Z) (l : list (Z * res (list value))) : wstate -> res wstate :=
  fun s => foreach l (fun kv s => vs <- snd kv ;; fits_write_col (fst kv) irow vs s) s.
(** [for (irow = 1; irow <= n; irow++)] over the records, with the calls for one record *)
Definition write_rows {R} (n : Z) (records : list R) (cells : R -> list (Z * res (list value)))
  : wstate -> res wstate :=
  for_from (Z.to_nat n) 1 (fun irow s => r <- get records (irow - 1) ;; write_cells irow (cells r) s).

Definition ints (l : list Z) : res (list value) := Ok (map VInt l).
Definition int (z : Z) : res (list value) := ints [z].
Definition dbl (x : f64) : res (list value) := Ok [VDbl x].
Definition flt_ (x : f32) : res (list value) := Ok [VFlt x].
Definition str (s : string) : res (list value) := Ok [VStr s].
Definition dbls (n : Z) (l : list f64) : res (list value) := vs <- take n l ;; Ok (map VDbl vs).
Definition flts (n : Z) (l : list f32) : res (list value) := vs <- take n l ;; Ok (map VFlt vs).
Definition ints_ (n : Z) (l : list Z) : res (list value) := vs <- take n l ;; Ok (map VInt vs).
Definition logs (n : Z) (l : list bool) : res (list value) := vs <- take n l ;; Ok (map VLog vs).
(** TCOMPLEX *)
Definition cplxs (n : Z) (l : list cplx) : res (list value) :=
  vs <- take n l ;; Ok (flat_map (fun c => [VFlt (fst c); VFlt (snd c)]) vs).
(** a pointer that may be NULL *)
Definition opt {A} (f : list A -> res (list value)) (o : option (list A)) : res (list value) :=
  match o with Some l => f l | None => UB end.

(** ** make_tform, write_fits.c 47-69 *)

(** A TFORM template: with a fixed count or with an initial '?'.  All the latter have a
    single letter, so a buffer of strlen + 4 = 6 characters, that must hold the number,
    the letter and the final null. *)
Inductive tmpl := Fixed (k : kind) (n : Z) | PerWave (k : kind).
Definition make_form (value : Z) (t : tmpl) : res form :=
  match t with
  | Fixed k n => Ok (mk_form k n)
  | PerWave k => do assert_ (strlen (fmt_d value) + 1 <? 6) ;; Ok (mk_form k value)
  end.
Fixpoint make_tform {A} (value : Z) (l : list (A * tmpl)) : res (list (A * form)) :=
  match l with
  | [] => Ok []
  | (a, t) :: l' => f <- make_form value t ;; r <- make_tform value l' ;; Ok ((a, f) :: r)
  end.
Definition I_ := Fixed Short 1.
Definition J_ := Fixed Long 1.
Definition E_ := Fixed Float 1.
Definition D_ := Fixed Double 1.
Definition A_ (n : Z) := Fixed Chars n.
Definition nD := PerWave Double.
Definition nL := PerWave Logical.
Definition nC := PerWave Complex.

(** make_tform, fits_create_tbl, free_tform; columns are (TTYPE, TUNIT, TFORM template).
    The tables without '?' columns skip make_tform: the same with any value. *)
Definition create_table (nwave : Z) (cols : list (string * string * tmpl)) (extname : string)
  : wstate -> res wstate :=
  fun s => l <- make_tform nwave cols ;;
           fits_create_tbl (map (fun '(name, u, f) => (name, f, u)) l) extname s.

(** ** Tables *)
Section Write.
Variable E : cfitsio.
Local Open Scope string_scope.

(** write_fits.c 100-164 *)
Definition write_oi_header (h : oi_header) : wstate -> res wstate := guarded (
  (fun s => match f_hdus (fst s) with [] => fits_create_img s | _ => fits_movabs_hdu 1 s end) ;>
  write_key_str "ORIGIN" (h_origin h) ;>
  fits_write_date E ;>
  write_key_str "DATE-OBS" (h_date_obs h) ;>
  write_key_str "TELESCOP" (h_telescop h) ;>
  write_key_str "INSTRUME" (h_instrume h) ;>
  write_key_str "OBSERVER" (h_observer h) ;>
  write_key_str "CONTENT" "OIFITS2" ;>
  write_key_str "INSMODE" (h_insmode h) ;>
  write_key_str "OBJECT" (h_object h) ;>
  when (nonempty (h_referenc h)) (write_key_str "REFERENC" (h_referenc h)) ;>
  when (nonempty (h_author h)) (write_key_str "AUTHOR" (h_author h)) ;>
  when (nonempty (h_prog_id h)) (write_key_str "PROG_ID" (h_prog_id h)) ;>
  when (nonempty (h_procsoft h)) (write_key_str "PROCSOFT" (h_procsoft h)) ;>
  when (nonempty (h_obstech h)) (write_key_str "OBSTECH" (h_obstech h)) ;>
  fits_write_chksum E).

(** write_fits.c 181-184 *)
Definition array_cols : list (string * string * tmpl) :=
  [("TEL_NAME", "", A_ 16); ("STA_NAME", "", A_ 16); ("STA_INDEX", "", I_); ("DIAMETER", "m", E_);
   ("STAXYZ", "m", Fixed Double 3); ("FOV", "arcsec", D_); ("FOVTYPE", "", A_ 6)].
(** write_fits.c 217-231 *)
Definition array_cells (e : element) : list (Z * res (list value)) :=
  let '(x, y, z) := el_staxyz e in
  [(1, str (el_tel_name e)); (2, str (el_sta_name e)); (3, int (el_sta_index e));
   (4, flt_ (el_diameter e)); (5, Ok [VDbl x; VDbl y; VDbl z]); (6, dbl (el_fov e));
   (7, str (el_fovtype e))].
(** write_fits.c 176-242; fits_write_key_unit changes the comment only *)
Definition write_oi_array (a : oi_array) (extver : Z) : wstate -> res wstate := guarded (
  create_table 0 array_cols "OI_ARRAY" ;>
  write_key_int "OI_REVN" 2 ;>
  write_key_str "ARRNAME" (ar_arrname a) ;>
  write_key_str "FRAME" (ar_frame a) ;>
  write_key_double E "ARRAYX" (ar_arrayx a) ;>
  write_key_double E "ARRAYY" (ar_arrayy a) ;>
  write_key_double E "ARRAYZ" (ar_arrayz a) ;>
  write_key_int "EXTVER" extver ;>
  write_rows (ar_nelement a) (ar_elem a) array_cells ;>
  fits_write_chksum E).

(** write_fits.c 257-265 *)
Definition target_cols : list (string * string * tmpl) :=
  [("TARGET_ID", "", I_); ("TARGET", "", A_ 32); ("RAEP0", "deg", D_); ("DECEP0", "deg", D_);
   ("EQUINOX", "yr", E_); ("RA_ERR", "deg", D_); ("DEC_ERR", "deg", D_); ("SYSVEL", "m/s", D_);
   ("VELTYP", "", A_ 8); ("VELDEF", "", A_ 8); ("PMRA", "deg/yr", D_); ("PMDEC", "deg/yr", D_);
   ("PMRA_ERR", "deg/yr", D_); ("PMDEC_ERR", "deg/yr", D_); ("PARALLAX", "deg", E_);
   ("PARA_ERR", "deg", E_); ("SPECTYP", "", A_ 32)].
(** write_fits.c 284-317 *)
Definition target_cells (t : target) : list (Z * res (list value)) :=
  [(1, int (tg_target_id t)); (2, str (tg_target t)); (3, dbl (tg_raep0 t)); (4, dbl (tg_decep0 t));
   (5, flt_ (tg_equinox t)); (6, dbl (tg_ra_err t)); (7, dbl (tg_dec_err t)); (8, dbl (tg_sysvel t));
   (9, str (tg_veltyp t)); (10, str (tg_veldef t)); (11, dbl (tg_pmra t)); (12, dbl (tg_pmdec t));
   (13, dbl (tg_pmra_err t)); (14, dbl (tg_pmdec_err t)); (15, flt_ (tg_parallax t));
   (16, flt_ (tg_para_err t)); (17, str (tg_spectyp t))].
(** write_fits.c 253-339 *)
Definition write_oi_target (t : oi_target) : wstate -> res wstate := guarded (
  create_table 0 target_cols "OI_TARGET" ;>
  write_key_int "OI_REVN" 2 ;>
  write_rows (ot_ntarget t) (ot_targ t) target_cells ;>
  when (ot_usecategory t) (
    fits_insert_cols 18 [("CATEGORY", mk_form Chars 3)] ;>
    write_rows (ot_ntarget t) (ot_targ t) (fun t => [(18, str (tg_category t))])) ;>
  fits_write_chksum E).

(** write_fits.c 351-388 *)
Definition write_oi_wavelength (w : oi_wavelength) (extver : Z) : wstate -> res wstate := guarded (
  create_table 0 [("EFF_WAVE", "m", E_); ("EFF_BAND", "m", E_)] "OI_WAVELENGTH" ;>
  write_key_int "OI_REVN" 2 ;>
  write_key_str "INSNAME" (wv_insname w) ;>
  write_key_int "EXTVER" extver ;>
  write_cells 1 [(1, flts (wv_nwave w) (wv_eff_wave w)); (2, flts (wv_nwave w) (wv_eff_band w))] ;>
  fits_write_chksum E).

(** write_fits.c 400-439 *)
Definition write_oi_corr (c : oi_corr) (extver : Z) : wstate -> res wstate := guarded (
  create_table 0 [("IINDX", "", J_); ("JINDX", "", J_); ("CORR", "", D_)] "OI_CORR" ;>
  write_key_int "OI_REVN" 1 ;>
  write_key_str "CORRNAME" (co_corrname c) ;>
  write_key_int "NDATA" (co_ndata c) ;>
  write_key_int "EXTVER" extver ;>
  write_cells 1 [(1, ints_ (co_ncorr c) (co_iindx c)); (2, ints_ (co_ncorr c) (co_jindx c));
                 (3, dbls (co_ncorr c) (co_corr c))] ;>
  fits_write_chksum E).

(** write_fits.c 456-461 *)
Definition inspol_cols : list (string * string * tmpl) :=
  [("TARGET_ID", "", I_); ("INSNAME", "", A_ 70); ("MJD_OBS", "day", D_); ("MJD_END", "day", D_);
   ("JXX", "", nC); ("JYY", "", nC); ("JXY", "", nC); ("JYX", "", nC); ("STA_INDEX", "", I_)].
(** write_fits.c 500-517 *)
Definition inspol_cells (nwave : Z) (r : inspol_record) : list (Z * res (list value)) :=
  [(1, int (ip_target_id r)); (2, str (ip_insname r)); (3, dbl (ip_mjd_obs r)); (4, dbl (ip_mjd_end r));
   (5, cplxs nwave (ip_jxx r)); (6, cplxs nwave (ip_jyy r)); (7, cplxs nwave (ip_jxy r));
   (8, cplxs nwave (ip_jyx r)); (9, int (ip_sta_index r))].
(** write_fits.c 451-528 *)
Definition write_oi_inspol (t : oi_inspol) (extver : Z) : wstate -> res wstate := guarded (
  create_table (is_nwave t) inspol_cols "OI_INSPOL" ;>
  write_key_int "OI_REVN" 1 ;>
  write_key_str "DATE-OBS" (is_date_obs t) ;>
  write_key_int "NPOL" (is_npol t) ;>
  write_key_str "ARRNAME" (is_arrname t) ;>
  write_key_str "ORIENT" (is_orient t) ;>
  write_key_str "MODEL" (is_model t) ;>
  write_key_int "EXTVER" extver ;>
  write_rows (is_numrec t) (is_record t) (inspol_cells (is_nwave t)) ;>
  fits_write_chksum E).

(** write_fits.c 536-537 *)
Definition complex_cols : list (string * tmpl) :=
  [("RVIS", nD); ("RVISERR", nD); ("IVIS", nD); ("IVISERR", nD)].
(** make_tform and fits_insert_cols, write_fits.c 589-590 *)
Definition insert_complex (nwave : Z) : wstate -> res wstate :=
  fun s => l <- make_tform nwave complex_cols ;; fits_insert_cols 9 l s.
(** assert(p != NULL) before each call, write_fits.c 603-614 *)
Definition nonnull {A} (o : option A) : res unit := assert_ (negb (is_none o)).
Definition complex_cells (nwave : Z) (r : vis_record) : list (Z * res (list value)) :=
  let check := do nonnull (vr_rvis r) ;; do nonnull (vr_rviserr r) ;; do nonnull (vr_ivis r) ;;
               nonnull (vr_iviserr r) in
  [(9, do check ;; opt (dbls nwave) (vr_rvis r)); (10, opt (dbls nwave) (vr_rviserr r));
   (11, opt (dbls nwave) (vr_ivis r)); (12, opt (dbls nwave) (vr_iviserr r))].
(** write_fits.c 533-630 *)
Definition write_oi_vis_opt (t : oi_vis) : wstate -> res wstate :=
  let x := tb_x t in
  let correlated := nonempty (tb_corrname t) in
  let nwave := tb_nwave t in
  when correlated (write_key_str "CORRNAME" (tb_corrname t)) ;>
  when (nonempty (vx_amptyp x)) (write_key_str "AMPTYP" (vx_amptyp x)) ;>
  when (nonempty (vx_phityp x)) (write_key_str "PHITYP" (vx_phityp x)) ;>
  when (0 <=? vx_amporder x)%Z (write_key_int "AMPORDER" (vx_amporder x)) ;>
  when (0 <=? vx_phiorder x)%Z (write_key_int "PHIORDER" (vx_phiorder x)) ;>
  when correlated (
    fits_insert_cols 7 [("CORRINDX_VISAMP", mk_form Long 1)] ;>
    fits_insert_cols 10 [("CORRINDX_VISPHI", mk_form Long 1)] ;>
    write_rows (tb_numrec t) (tb_record t)
      (fun r => [(7, int (vr_corrindx_visamp r)); (10, int (vr_corrindx_visphi r))])) ;>
  when (vx_usevisrefmap x) (
    fits_insert_cols 11 [("VISREFMAP", mk_form Logical (nwave * nwave)%Z)] ;>
    write_tdim 11 ("(" ++ fmt_d nwave ++ "," ++ fmt_d nwave ++ ")") ;>
    write_rows (tb_numrec t) (tb_record t)
      (fun r => [(11, opt (logs (nwave * nwave)%Z) (vr_visrefmap r))])) ;>
  when (vx_usecomplex x) (
    insert_complex nwave ;>
    write_tunit 9 (vx_complexunit x) ;>
    write_tunit 10 (vx_complexunit x) ;>
    write_tunit 11 (vx_complexunit x) ;>
    write_tunit 12 (vx_complexunit x) ;>
    write_rows (tb_numrec t) (tb_record t) (complex_cells nwave) ;>
    when correlated (
      fits_insert_cols 11 [("CORRINDX_RVIS", mk_form Long 1)] ;>
      fits_insert_cols 14 [("CORRINDX_IVIS", mk_form Long 1)] ;>
      write_rows (tb_numrec t) (tb_record t)
        (fun r => [(11, int (vr_corrindx_rvis r)); (14, int (vr_corrindx_ivis r))]))).

(** write_fits.c 649-656 *)
Definition vis_cols : list (string * string * tmpl) :=
  [("TARGET_ID", "", I_); ("TIME", "s", D_); ("MJD", "day", D_); ("INT_TIME", "s", D_);
   ("VISAMP", "", nD); ("VISAMPERR", "", nD); ("VISPHI", "deg", nD); ("VISPHIERR", "deg", nD);
   ("UCOORD", "m", D_); ("VCOORD", "m", D_); ("STA_INDEX", "", Fixed Short 2); ("FLAG", "", nL)].
(** write_fits.c 699-721 *)
Definition vis_cells (nwave : Z) (r : vis_record) : list (Z * res (list value)) :=
  [(1, int (vr_target_id r)); (2, dbl f64_zero); (3, dbl (vr_mjd r)); (4, dbl (vr_int_time r));
   (5, dbls nwave (vr_visamp r)); (6, dbls nwave (vr_visamperr r));
   (7, dbls nwave (vr_visphi r)); (8, dbls nwave (vr_visphierr r));
   (9, dbl (vr_ucoord r)); (10, dbl (vr_vcoord r));
   (11, ints [fst (vr_sta_index r); snd (vr_sta_index r)]); (12, logs nwave (vr_flag r))].
(** write_fits.c 644-733 *)
Definition write_oi_vis (t : oi_vis) (extver : Z) : wstate -> res wstate := guarded (
  create_table (tb_nwave t) vis_cols "OI_VIS" ;>
  when (str_eqb (vx_amptyp (tb_x t)) "correlated flux") (
    write_tunit 5 (vx_ampunit (tb_x t)) ;> write_tunit 6 (vx_ampunit (tb_x t))) ;>
  write_key_int "OI_REVN" 2 ;>
  write_key_str "DATE-OBS" (tb_date_obs t) ;>
  when (nonempty (tb_arrname t)) (write_key_str "ARRNAME" (tb_arrname t)) ;>
  write_key_str "INSNAME" (tb_insname t) ;>
  write_key_int "EXTVER" extver ;>
  write_rows (tb_numrec t) (tb_record t) (vis_cells (tb_nwave t)) ;>
  write_oi_vis_opt t ;>
  fits_write_chksum E).

(** write_fits.c 752-757 *)
Definition vis2_cols : list (string * string * tmpl) :=
  [("TARGET_ID", "", I_); ("TIME", "s", D_); ("MJD", "day", D_); ("INT_TIME", "s", D_);
   ("VIS2DATA", "", nD); ("VIS2ERR", "", nD); ("UCOORD", "m", D_); ("VCOORD", "m", D_);
   ("STA_INDEX", "", Fixed Short 2); ("FLAG", "", nL)].
(** write_fits.c 794-812 *)
Definition vis2_cells (nwave : Z) (r : vis2_record) : list (Z * res (list value)) :=
  [(1, int (v2_target_id r)); (2, dbl f64_zero); (3, dbl (v2_mjd r)); (4, dbl (v2_int_time r));
   (5, dbls nwave (v2_vis2data r)); (6, dbls nwave (v2_vis2err r));
   (7, dbl (v2_ucoord r)); (8, dbl (v2_vcoord r));
   (9, ints [fst (v2_sta_index r); snd (v2_sta_index r)]); (10, logs nwave (v2_flag r))].
(** write_fits.c 747-840 *)
Definition write_oi_vis2 (t : oi_vis2) (extver : Z) : wstate -> res wstate := guarded (
  create_table (tb_nwave t) vis2_cols "OI_VIS2" ;>
  write_key_int "OI_REVN" 2 ;>
  write_key_str "DATE-OBS" (tb_date_obs t) ;>
  when (nonempty (tb_arrname t)) (write_key_str "ARRNAME" (tb_arrname t)) ;>
  write_key_str "INSNAME" (tb_insname t) ;>
  write_key_int "EXTVER" extver ;>
  write_rows (tb_numrec t) (tb_record t) (vis2_cells (tb_nwave t)) ;>
  when (nonempty (tb_corrname t)) (
    write_key_str "CORRNAME" (tb_corrname t) ;>
    fits_insert_cols 7 [("CORRINDX_VIS2DATA", mk_form Long 1)] ;>
    write_rows (tb_numrec t) (tb_record t) (fun r => [(7, int (v2_corrindx_vis2data r))])) ;>
  fits_write_chksum E).

(** write_fits.c 859-866 *)
Definition t3_cols : list (string * string * tmpl) :=
  [("TARGET_ID", "", I_); ("TIME", "s", D_); ("MJD", "day", D_); ("INT_TIME", "s", D_);
   ("T3AMP", "", nD); ("T3AMPERR", "", nD); ("T3PHI", "deg", nD); ("T3PHIERR", "deg", nD);
   ("U1COORD", "m", D_); ("V1COORD", "m", D_); ("U2COORD", "m", D_); ("V2COORD", "m", D_);
   ("STA_INDEX", "", Fixed Short 3); ("FLAG", "", nL)].
(** write_fits.c 903-929 *)
Definition t3_cells (nwave : Z) (r : t3_record) : list (Z * res (list value)) :=
  [(1, int (t3_target_id r)); (2, dbl f64_zero); (3, dbl (t3_mjd r)); (4, dbl (t3_int_time r));
   (5, dbls nwave (t3_t3amp r)); (6, dbls nwave (t3_t3amperr r));
   (7, dbls nwave (t3_t3phi r)); (8, dbls nwave (t3_t3phierr r));
   (9, dbl (t3_u1coord r)); (10, dbl (t3_v1coord r)); (11, dbl (t3_u2coord r));
   (12, dbl (t3_v2coord r));
   (13, ints [fst (fst (t3_sta_index r)); snd (fst (t3_sta_index r)); snd (t3_sta_index r)]);
   (14, logs nwave (t3_flag r))].
(** write_fits.c 854-960 *)
Definition write_oi_t3 (t : oi_t3) (extver : Z) : wstate -> res wstate := guarded (
  create_table (tb_nwave t) t3_cols "OI_T3" ;>
  write_key_int "OI_REVN" 2 ;>
  write_key_str "DATE-OBS" (tb_date_obs t) ;>
  when (nonempty (tb_arrname t)) (write_key_str "ARRNAME" (tb_arrname t)) ;>
  write_key_str "INSNAME" (tb_insname t) ;>
  write_key_int "EXTVER" extver ;>
  write_rows (tb_numrec t) (tb_record t) (t3_cells (tb_nwave t)) ;>
  when (nonempty (tb_corrname t)) (
    write_key_str "CORRNAME" (tb_corrname t) ;>
    fits_insert_cols 7 [("CORRINDX_T3AMP", mk_form Long 1)] ;>
    fits_insert_cols 10 [("CORRINDX_T3PHI", mk_form Long 1)] ;>
    write_rows (tb_numrec t) (tb_record t)
      (fun r => [(7, int (t3_corrindx_t3amp r)); (10, int (t3_corrindx_t3phi r))])) ;>
  fits_write_chksum E).

(** write_fits.c 976-980 *)
Definition flux_cols : list (string * string * tmpl) :=
  [("TARGET_ID", "", I_); ("MJD", "day", D_); ("INT_TIME", "s", D_); ("FLUXDATA", "", nD);
   ("FLUXERR", "", nD); ("FLAG", "", nL)].
(** write_fits.c 1024-1035 *)
Definition flux_cells (nwave : Z) (r : flux_record) : list (Z * res (list value)) :=
  [(1, int (fr_target_id r)); (2, dbl (fr_mjd r)); (3, dbl (fr_int_time r));
   (4, dbls nwave (fr_fluxdata r)); (5, dbls nwave (fr_fluxerr r)); (6, logs nwave (fr_flag r))].
(** keyval[0] = flux.calstat, write_fits.c 1014-1015 *)
Definition one_char (c : ascii) : string := if Ascii.eqb c zero then "" else String c "".
(** write_fits.c 972-1081 *)
Definition write_oi_flux (t : oi_flux) (extver : Z) : wstate -> res wstate := guarded (
  create_table (tb_nwave t) flux_cols "OI_FLUX" ;>
  write_tunit 4 (fx_fluxunit (tb_x t)) ;>
  write_tunit 5 (fx_fluxunit (tb_x t)) ;>
  write_key_int "OI_REVN" 1 ;>
  write_key_str "DATE-OBS" (tb_date_obs t) ;>
  when (nonempty (tb_arrname t)) (write_key_str "ARRNAME" (tb_arrname t)) ;>
  write_key_str "INSNAME" (tb_insname t) ;>
  write_key_str "CALSTAT" (one_char (fx_calstat (tb_x t))) ;>
  write_key_int "EXTVER" extver ;>
  write_rows (tb_numrec t) (tb_record t) (flux_cells (tb_nwave t)) ;>
  when (nonempty (fx_fovtype (tb_x t))) (
    write_key_double E "FOV" (fx_fov (tb_x t)) ;>
    write_key_str "FOVTYPE" (fx_fovtype (tb_x t))) ;>
  when (nonempty (tb_corrname t)) (
    write_key_str "CORRNAME" (tb_corrname t) ;>
    fits_insert_cols 5 [("CORRINDX_FLUXDATA", mk_form Long 1)] ;>
    write_rows (tb_numrec t) (tb_record t) (fun r => [(5, int (fr_corrindx_fluxdata r))])) ;>
  when (nonempty (tb_arrname t)) (
    fits_insert_cols 6 [("STA_INDEX", mk_form Short 1)] ;>
    write_rows (tb_numrec t) (tb_record t) (fun r => [(6, int (fr_sta_index r))])) ;>
  fits_write_chksum E).

(** ** write_oi_fits *)

(** WRITE_OI_LIST, oifile.c 544-554 *)
Fixpoint write_list {A} (w : A -> Z -> wstate -> res wstate) (extver : Z) (l : list A)
  : wstate -> res wstate :=
  match l with
  | [] => skip_
  | a :: l' => w a extver ;> write_list w (extver + 1)%Z l'
  end.

(** files by name *)
Definition disk := list (string * list hdu).
Fixpoint find_file (name : string) (d : disk) : option (list hdu) :=
  match d with
  | [] => None
  | (n, f) :: d' => if str_eqb n name then Some f else find_file name d'
  end.

(** oifile.c 637-660, the calls between opening and closing the file *)
Definition write_tables (o : oi_fits) : wstate -> res wstate :=
  write_oi_header (o_header o) ;>
  write_oi_target (o_targets o) ;>
  write_list write_oi_array 1 (o_arrayList o) ;>
  write_list write_oi_wavelength 1 (o_wavelengthList o) ;>
  write_list write_oi_corr 1 (o_corrList o) ;>
  write_list write_oi_inspol 1 (o_inspolList o) ;>
  write_list write_oi_vis 1 (o_visList o) ;>
  write_list write_oi_vis2 1 (o_vis2List o) ;>
  write_list write_oi_t3 1 (o_t3List o) ;>
  write_list write_oi_flux 1 (o_fluxList o).

(** oifile.c 628-672.  fits_create_file fails if the file exists; fits_close_file keeps
    whatever was written. *)
Definition write_oi_fits (name : string) (o : oi_fits) (d : disk) (st : Z) : res (disk * Z) :=
  if negb (st =? 0)%Z then Ok (d, st)
  else match find_file name d with
       | Some _ => Ok (d, FILE_NOT_CREATED)
       | None => s <- write_tables o (mk_file [] 0, 0) ;; Ok ((name, f_hdus (fst s)) :: d, snd s)
       end.
End Write.
