(** Model of read_fits.c and of read_oi_fits.

    A function reading one table takes its HDU and *pStatus; the result is [None] when the
    status is set at the end (the struct is then undefined).  A field that was never
    written though the function succeeds holds the contents of uninitialised storage
    ([cf_junk_*]).  Messages are left out.  verify_chksum (read_fits.c 235-265), which prints
    warnings, is in ChksumModel, with the readers that call it. *)
From Verif Require Export WriteModel.

Section Read.
Variable E : cfitsio.

Definition slot {A} (junk : A) (o : option A) : A := match o with Some a => a | None => junk end.
Definition slot_int := slot (cf_junk_int E).
Definition slot_str := slot (cf_junk_str E).
Definition slot_dbl := slot (cf_junk_dbl E).
Definition slot_flt := slot (cf_junk_flt E).
Definition slot_ints (n : Z) := slot (repeat (cf_junk_int E) (Z.to_nat n)).
Definition slot_dbls (n : Z) := slot (repeat (cf_junk_dbl E) (Z.to_nat n)).
Definition slot_flts (n : Z) := slot (repeat (cf_junk_flt E) (Z.to_nat n)).
Definition slot_bools (n : Z) := slot (repeat (cf_junk_bool E) (Z.to_nat n)).

(** [if ( *pStatus) return *pStatus;] and its variants with a goto *)
Definition unless_error {A} (k : rd (option A)) : rd (option A) :=
  st <~ get_status ;~ if negb (st =? 0) then rret None else k.
(** the struct as the function returns *)
Definition finish {A} (a : A) : rd (option A) := unless_error (rret (Some a)).

(** ** read_fits.c, private functions *)

(** read_fits.c 44-115: the value read (None: not written) and the C return value *)
Definition key_opt {A} (default : A) (read : rd (option A)) : rd (option A * bool) :=
  st <~ get_status ;~
  if negb (st =? 0) then rret (None, true)
  else
    v <~ read ;~ st <~ get_status ;~
    if st =? 0 then rret (v, true)
    else if st =? KEY_NO_EXIST then _ <~ set_status 0 ;~ rret (Some default, false)
    else rret (Some default, false).
Definition read_key_opt_string (h : hdu) (k : string) := key_opt EmptyString (read_key_str E h k).
Definition read_key_opt_int (h : hdu) (k : string) := key_opt (-1) (read_key_int E h k).
Definition read_key_opt_double (h : hdu) (k : string) := key_opt f64_nan (read_key_double E h k).

(** read_fits.c 126-164: the string and the C return value.  With two columns of that
    name the code uses [typecode] uninitialised. *)
Definition column_number (h : hdu) (optional : bool) (name : string)
  (k : Z -> rd (option string * bool)) : rd (option string * bool) :=
  st <~ get_status ;~
  if negb (st =? 0) then rret (None, true)
  else
    c <~ get_colnum h name ;~ st <~ get_status ;~
    if st =? COL_NOT_FOUND
    then _ <~ (if optional then set_status 0 else rret tt) ;~ rret (None, false)
    else match c with None => lift UB | Some c => k c end.
Definition one {A} (o : option (list A)) : option A :=
  match o with Some [a] => Some a | _ => None end.
Definition bad_format : rd (option string * bool) :=
  _ <~ set_status BAD_BTABLE_FORMAT ;~ rret (None, false).
Definition read_col_string (h : hdu) (optional : bool) (name : string) (maxRepeat irow : Z)
  : rd (option string * bool) :=
  column_number h optional name (fun c =>
    ty <~ get_coltype h (Some c) ;~
    match ty with
    | Some (Chars, actual) =>
        if maxRepeat <? actual then bad_format
        else v <~ read_col as_str h (Some c) irow 1 ;~ st <~ get_status ;~ rret (one v, st =? 0)
    | Some _ => bad_format
    | None => lift UB
    end).
(** read_fits.c 179-224 *)
Definition read_col_string_truncate (h : hdu) (optional : bool) (name : string)
  (maxRepeat irow : Z) : rd (option string * bool) :=
  column_number h optional name (fun c =>
    ty <~ get_coltype h (Some c) ;~
    match ty with
    | Some (Chars, actual) =>
        _ <~ lift (chkmalloc (actual + 1)) ;~
        v <~ read_col as_str h (Some c) irow 1 ;~ st <~ get_status ;~
        rret (option_map (substring 0 (Z.to_nat maxRepeat)) (one v), st =? 0)
    | Some _ => bad_format
    | None => lift UB
    end).

(** fits_get_colnum then fits_read_col of one element, or of [n] *)
Definition cell1 {A} (conv : value -> A + Z) (h : hdu) (name : string) (irow : Z) : rd (option A) :=
  k <~ get_colnum h name ;~ v <~ read_col conv h k irow 1 ;~ rret (one v).
Definition celln {A} (conv : value -> A + Z) (h : hdu) (name : string) (irow n : Z)
  : rd (option (list A)) :=
  k <~ get_colnum h name ;~ read_col conv h k irow n.
Definition int_at h name irow : rd Z := v <~ cell1 as_int h name irow ;~ rret (slot_int v).
Definition dbl_at h name irow : rd f64 := v <~ cell1 as_double h name irow ;~ rret (slot_dbl v).
Definition flt_at h name irow : rd f32 := v <~ cell1 as_float h name irow ;~ rret (slot_flt v).
Definition dbls_at h name irow n : rd (list f64) :=
  v <~ celln as_double h name irow n ;~ rret (slot_dbls n v).
Definition flts_at h name irow n : rd (list f32) :=
  v <~ celln as_float h name irow n ;~ rret (slot_flts n v).
Definition ints_at h name irow n : rd (list Z) :=
  v <~ celln as_int h name irow n ;~ rret (slot_ints n v).
Definition bools_at h name irow n : rd (list bool) :=
  v <~ celln as_bool h name irow n ;~ rret (slot_bools n v).
Definition str_at h name maxRepeat irow : rd string :=
  v <~ read_col_string h false name maxRepeat irow ;~ rret (slot_str (fst v)).
Definition str_trunc_at h name maxRepeat irow : rd string :=
  v <~ read_col_string_truncate h false name maxRepeat irow ;~ rret (slot_str (fst v)).
(** a complex column read with TDOUBLE (read_fits.c 636-647) *)
Definition cplxs_at h name irow n : rd (list cplx) :=
  v <~ dbls_at h name irow n ;~ rret (map (cf_pun E) v).
Definition key_str h k : rd string := v <~ read_key_str E h k ;~ rret (slot_str v).
Definition key_int h k : rd Z := v <~ read_key_int E h k ;~ rret (slot_int v).
Definition key_dbl h k : rd f64 := v <~ read_key_double E h k ;~ rret (slot_dbl v).
Definition key_opt_str h k : rd string := v <~ read_key_opt_string h k ;~ rret (slot_str (fst v)).
Definition key_opt_int h k : rd Z := v <~ read_key_opt_int h k ;~ rret (slot_int (fst v)).
Definition key_opt_dbl h k : rd f64 := v <~ read_key_opt_double h k ;~ rret (slot_dbl (fst v)).

(** [for (irow = 1; ...)] filling in or updating one record per row *)
Fixpoint rows_from {A B} (irow : Z) (l : list A) (f : Z -> A -> rd B) : rd (list B) :=
  match l with
  | [] => rret []
  | a :: l' => b <~ f irow a ;~ r <~ rows_from (irow + 1) l' f ;~ rret (b :: r)
  end.
Definition each_row {A B} (l : list A) (f : Z -> A -> rd B) : rd (list B) := rows_from 1 l f.
Definition new_rows {B} (n : Z) (f : Z -> rd B) : rd (list B) :=
  each_row (repeat tt (Z.to_nat n)) (fun irow _ => f irow).

Local Open Scope string_scope.

(** read_fits.c 377-457 *)
Definition read_element (h : hdu) (revision irow : Z) : rd element :=
  tel_name <~ str_at h "TEL_NAME" 16 irow ;~
  sta_name <~ str_at h "STA_NAME" 16 irow ;~
  sta_index <~ int_at h "STA_INDEX" irow ;~
  diameter <~ flt_at h "DIAMETER" irow ;~
  xyz <~ dbls_at h "STAXYZ" irow 3 ;~
  xyz <~ match xyz with [x; y; z] => rret (x, y, z) | _ => lift UB end ;~
  ff <~ (if (2 <=? revision)%Z
         then fov <~ dbl_at h "FOV" irow ;~ fovtype <~ str_at h "FOVTYPE" 6 irow ;~ rret (fov, fovtype)
         else rret (f64_nan, "FWHM")) ;~
  rret (mk_element tel_name sta_name sta_index diameter xyz (fst ff) (snd ff)).
(** the name in the struct: given, or read from the keyword *)
Definition name_of (h : hdu) (keyword : string) (given : option string) : rd string :=
  match given with None => key_str h keyword | Some s => rret s end.
Definition read_oi_array_chdu (h : hdu) (arrname : option string) : rd (option oi_array) :=
  unless_error (
  revision <~ key_int h "OI_REVN" ;~ unless_error (
  arrname <~ name_of h "ARRNAME" arrname ;~
  frame <~ key_str h "FRAME" ;~
  arrayx <~ key_dbl h "ARRAYX" ;~
  arrayy <~ key_dbl h "ARRAYY" ;~
  arrayz <~ key_dbl h "ARRAYZ" ;~
  nrows <~ get_num_rows h ;~ unless_error (
  let nrows := slot_int nrows in
  _ <~ lift (chkmalloc nrows) ;~
  elem <~ new_rows nrows (read_element h revision) ;~
  finish (mk_array revision arrname frame arrayx arrayy arrayz nrows elem)))).

(** read_fits.c 470-514 *)
Definition read_oi_wavelength_chdu (h : hdu) (insname : option string) : rd (option oi_wavelength) :=
  unless_error (
  revision <~ key_int h "OI_REVN" ;~ unless_error (
  insname <~ name_of h "INSNAME" insname ;~
  nrows <~ get_num_rows h ;~ unless_error (
  let nrows := slot_int nrows in
  _ <~ lift (chkmalloc nrows) ;~
  eff_wave <~ flts_at h "EFF_WAVE" 1 nrows ;~
  eff_band <~ flts_at h "EFF_BAND" 1 nrows ;~
  finish (mk_wavelength revision insname nrows eff_wave eff_band)))).

(** read_fits.c 527-575 *)
Definition read_oi_corr_chdu (h : hdu) (corrname : option string) : rd (option oi_corr) :=
  unless_error (
  revision <~ key_int h "OI_REVN" ;~ unless_error (
  corrname <~ name_of h "CORRNAME" corrname ;~
  ndata <~ key_int h "NDATA" ;~
  nrows <~ get_num_rows h ;~ unless_error (
  let nrows := slot_int nrows in
  _ <~ lift (chkmalloc nrows) ;~
  iindx <~ ints_at h "IINDX" 1 nrows ;~
  jindx <~ ints_at h "JINDX" 1 nrows ;~
  corr <~ dbls_at h "CORR" 1 nrows ;~
  finish (mk_corr revision corrname ndata nrows iindx jindx corr)))).

(** fits_get_num_rows, fits_get_colnum and fits_get_coltype of the column giving nwave;
    the column number is needed for its TUNIT *)
Definition dimensions (h : hdu) (name : string) : rd (Z * Z * Z) :=
  nrows <~ get_num_rows h ;~
  k <~ get_colnum h name ;~
  ty <~ get_coltype h k ;~
  rret (slot_int nrows, slot_int (option_map snd ty), slot_int k).
(** alloc_fits.c 97-229: one array of [numrec] records, then for each several arrays of
    [nwave] elements *)
Definition alloc_records (numrec nwave : Z) : res unit := do chkmalloc numrec ;; chkmalloc nwave.

(** read_fits.c 624-650 *)
Definition read_inspol_record (h : hdu) (nwave irow : Z) : rd inspol_record :=
  target_id <~ int_at h "TARGET_ID" irow ;~
  insname <~ str_at h "INSNAME" (FLEN_VALUE - 1) irow ;~
  mjd_obs <~ dbl_at h "MJD_OBS" irow ;~
  mjd_end <~ dbl_at h "MJD_END" irow ;~
  jxx <~ cplxs_at h "JXX" irow nwave ;~
  jyy <~ cplxs_at h "JYY" irow nwave ;~
  jxy <~ cplxs_at h "JXY" irow nwave ;~
  jyx <~ cplxs_at h "JYX" irow nwave ;~
  sta_index <~ int_at h "STA_INDEX" irow ;~
  rret (mk_inspol_record target_id insname mjd_obs mjd_end jxx jyy jxy jyx sta_index).
(** read_fits.c 587-653 *)
Definition read_oi_inspol_chdu (h : hdu) : rd (option oi_inspol) :=
  unless_error (
  revision <~ key_int h "OI_REVN" ;~ unless_error (
  date_obs <~ key_str h "DATE-OBS" ;~
  npol <~ key_int h "NPOL" ;~
  arrname <~ key_str h "ARRNAME" ;~
  orient <~ key_str h "ORIENT" ;~
  model <~ key_str h "MODEL" ;~
  dim <~ dimensions h "JXX" ;~ unless_error (
  let '(nrows, nwave, _) := dim in
  _ <~ lift (alloc_records nrows nwave) ;~
  record <~ new_rows nrows (read_inspol_record h nwave) ;~
  finish (mk_inspol revision date_obs npol arrname orient model nrows nwave record)))).

(** ** read_fits.c, public functions: the part that reads the current HDU *)

(** read_fits.c 681-696 *)
Definition read_oi_header_chdu (h : hdu) : rd (option oi_header) :=
  unless_error (
  origin <~ key_opt_str h "ORIGIN" ;~
  date <~ key_opt_str h "DATE" ;~
  date_obs <~ key_opt_str h "DATE-OBS" ;~
  content <~ key_opt_str h "CONTENT" ;~
  telescop <~ key_opt_str h "TELESCOP" ;~
  instrume <~ key_opt_str h "INSTRUME" ;~
  observer <~ key_opt_str h "OBSERVER" ;~
  insmode <~ key_opt_str h "INSMODE" ;~
  object <~ key_opt_str h "OBJECT" ;~
  referenc <~ key_opt_str h "REFERENC" ;~
  author <~ key_opt_str h "AUTHOR" ;~
  prog_id <~ key_opt_str h "PROG_ID" ;~
  procsoft <~ key_opt_str h "PROCSOFT" ;~
  obstech <~ key_opt_str h "OBSTECH" ;~
  finish (mk_header origin date date_obs content telescop instrume observer insmode object
            referenc author prog_id procsoft obstech)).

(** read_fits.c 745-793 *)
Definition read_target (h : hdu) (irow : Z) : rd target :=
  target_id <~ int_at h "TARGET_ID" irow ;~
  target <~ str_trunc_at h "TARGET" 32 irow ;~
  raep0 <~ dbl_at h "RAEP0" irow ;~
  decep0 <~ dbl_at h "DECEP0" irow ;~
  equinox <~ flt_at h "EQUINOX" irow ;~
  ra_err <~ dbl_at h "RA_ERR" irow ;~
  dec_err <~ dbl_at h "DEC_ERR" irow ;~
  sysvel <~ dbl_at h "SYSVEL" irow ;~
  veltyp <~ str_at h "VELTYP" 8 irow ;~
  veldef <~ str_at h "VELDEF" 8 irow ;~
  pmra <~ dbl_at h "PMRA" irow ;~
  pmdec <~ dbl_at h "PMDEC" irow ;~
  pmra_err <~ dbl_at h "PMRA_ERR" irow ;~
  pmdec_err <~ dbl_at h "PMDEC_ERR" irow ;~
  parallax <~ flt_at h "PARALLAX" irow ;~
  para_err <~ flt_at h "PARA_ERR" irow ;~
  spectyp <~ str_trunc_at h "SPECTYP" 32 irow ;~
  rret (mk_target target_id target raep0 decep0 equinox ra_err dec_err sysvel veltyp veldef
          pmra pmdec pmra_err pmdec_err parallax para_err spectyp (cf_junk_str E)).
Definition tg_set_category (s : string) (t : target) : target :=
  mk_target (tg_target_id t) (tg_target t) (tg_raep0 t) (tg_decep0 t) (tg_equinox t)
    (tg_ra_err t) (tg_dec_err t) (tg_sysvel t) (tg_veltyp t) (tg_veldef t) (tg_pmra t)
    (tg_pmdec t) (tg_pmra_err t) (tg_pmdec_err t) (tg_parallax t) (tg_para_err t)
    (tg_spectyp t) s.
(** read_fits.c 801-816: the first row tells whether there is a CATEGORY column.
    read_col_string returns TRUE when the status is already set. *)
Definition read_category (h : hdu) (revision : Z) (targ : list target) : rd (list target * bool) :=
  if (2 <=? revision)%Z then
    match targ with
    | [] => lift UB
    | t :: targ' =>
        c <~ read_col_string h true "CATEGORY" 3 1 ;~
        let t := tg_set_category (slot (tg_category t) (fst c)) t in
        if snd c : bool then
          targ' <~ rows_from 2 targ' (fun irow t =>
            c <~ read_col_string h false "CATEGORY" 3 irow ;~
            rret (tg_set_category (slot (tg_category t) (fst c)) t)) ;~
          rret ((t :: targ')%list, true)
        else rret ((t :: targ')%list, false)
    end
  else rret (targ, false).
(** read_fits.c 727-825 *)
Definition read_oi_target_chdu (h : hdu) : rd (option oi_target) :=
  unless_error (
  revision <~ key_int h "OI_REVN" ;~ unless_error (
  nrows <~ get_num_rows h ;~ unless_error (
  let nrows := slot_int nrows in
  _ <~ lift (chkmalloc nrows) ;~
  targ <~ new_rows nrows (read_target h) ;~
  tc <~ read_category h revision targ ;~
  finish (mk_oi_target revision nrows (fst tc) (snd tc))))).

(** the two elements of a STA_INDEX array; three for OI_T3 *)
Definition pair_at h name irow : rd (Z * Z) :=
  l <~ ints_at h name irow 2 ;~ match l with [a; b] => rret (a, b) | _ => lift UB end.
Definition triple_at h name irow : rd (Z * Z * Z) :=
  l <~ ints_at h name irow 3 ;~ match l with [a; b; c] => rret (a, b, c) | _ => lift UB end.

(** read_fits.c 1230-1265; alloc_oi_vis (alloc_fits.c 138-142) sets the optional
    pointers to NULL *)
Definition read_vis_record (h : hdu) (nwave irow : Z) : rd vis_record :=
  target_id <~ int_at h "TARGET_ID" irow ;~
  time <~ dbl_at h "TIME" irow ;~
  mjd <~ dbl_at h "MJD" irow ;~
  int_time <~ dbl_at h "INT_TIME" irow ;~
  visamp <~ dbls_at h "VISAMP" irow nwave ;~
  visamperr <~ dbls_at h "VISAMPERR" irow nwave ;~
  visphi <~ dbls_at h "VISPHI" irow nwave ;~
  visphierr <~ dbls_at h "VISPHIERR" irow nwave ;~
  ucoord <~ dbl_at h "UCOORD" irow ;~
  vcoord <~ dbl_at h "VCOORD" irow ;~
  sta_index <~ pair_at h "STA_INDEX" irow ;~
  flag <~ bools_at h "FLAG" irow nwave ;~
  let junk := cf_junk_int E in
  rret (mk_vis_record target_id time mjd int_time visamp visamperr junk visphi visphierr junk
          None None None junk None None junk ucoord vcoord sta_index flag).
Definition vr_set_corrindx (a p : Z) (r : vis_record) : vis_record :=
  mk_vis_record (vr_target_id r) (vr_time r) (vr_mjd r) (vr_int_time r) (vr_visamp r)
    (vr_visamperr r) a (vr_visphi r) (vr_visphierr r) p (vr_visrefmap r) (vr_rvis r)
    (vr_rviserr r) (vr_corrindx_rvis r) (vr_ivis r) (vr_iviserr r) (vr_corrindx_ivis r)
    (vr_ucoord r) (vr_vcoord r) (vr_sta_index r) (vr_flag r).
Definition vr_set_visrefmap (m : option (list bool)) (r : vis_record) : vis_record :=
  mk_vis_record (vr_target_id r) (vr_time r) (vr_mjd r) (vr_int_time r) (vr_visamp r)
    (vr_visamperr r) (vr_corrindx_visamp r) (vr_visphi r) (vr_visphierr r)
    (vr_corrindx_visphi r) m (vr_rvis r) (vr_rviserr r) (vr_corrindx_rvis r) (vr_ivis r)
    (vr_iviserr r) (vr_corrindx_ivis r) (vr_ucoord r) (vr_vcoord r) (vr_sta_index r) (vr_flag r).
Definition vr_set_complex (rvis rviserr : option (list f64)) (rindx : Z)
  (ivis iviserr : option (list f64)) (iindx : Z) (r : vis_record) : vis_record :=
  mk_vis_record (vr_target_id r) (vr_time r) (vr_mjd r) (vr_int_time r) (vr_visamp r)
    (vr_visamperr r) (vr_corrindx_visamp r) (vr_visphi r) (vr_visphierr r)
    (vr_corrindx_visphi r) (vr_visrefmap r) rvis rviserr rindx ivis iviserr iindx
    (vr_ucoord r) (vr_vcoord r) (vr_sta_index r) (vr_flag r).

(** read_fits.c 1071-1099 *)
Definition read_complex_row (h : hdu) (nwave : Z) (correlated : bool) (irow : Z) (r : vis_record)
  : rd vis_record :=
  _ <~ lift (chkmalloc nwave) ;~
  rvis <~ dbls_at h "RVIS" irow nwave ;~
  rviserr <~ dbls_at h "RVISERR" irow nwave ;~
  ivis <~ dbls_at h "IVIS" irow nwave ;~
  iviserr <~ dbls_at h "IVISERR" irow nwave ;~
  ix <~ (if correlated
         then a <~ int_at h "CORRINDX_RVIS" irow ;~ b <~ int_at h "CORRINDX_IVIS" irow ;~ rret (a, b)
         else rret (vr_corrindx_rvis r, vr_corrindx_ivis r)) ;~
  rret (vr_set_complex (Some rvis) (Some rviserr) (fst ix) (Some ivis) (Some iviserr) (snd ix) r).
(** read_fits.c 1037-1103: usecomplex, complexunit and the records *)
Definition read_oi_vis_complex (h : hdu) (nwave : Z) (correlated : bool) (record : list vis_record)
  : rd (bool * string * list vis_record) :=
  st <~ get_status ;~
  if negb (st =? 0)%Z then rret (false, cf_junk_str E, record)
  else
    k <~ get_colnum h "RVIS" ;~ st <~ get_status ;~
    if (st =? COL_NOT_FOUND)%Z then
      _ <~ set_status 0 ;~
      rret (false, "", map (fun r => vr_set_complex None None (vr_corrindx_rvis r) None None
                                       (vr_corrindx_ivis r) r) record)
    else
      k <~ get_colnum h "RVIS" ;~
      unit <~ read_tunit h (slot_int k) ;~
      record <~ each_row record (read_complex_row h nwave correlated) ;~
      rret (true, slot_str unit, record).
(** read_fits.c 1108-1173: corrname, the optional keywords and the records *)
Definition read_oi_vis_opt (h : hdu) (revision nwave : Z) (ampunit : string)
  (record : list vis_record) : rd (string * vis_extra * list vis_record) :=
  let junk := cf_junk_str E in
  st <~ get_status ;~
  if negb (st =? 0)%Z
  then rret (junk, mk_vis_extra junk junk (cf_junk_int E) (cf_junk_int E) false false junk ampunit,
             record)
  else if (revision =? 1)%Z
  then rret ("", mk_vis_extra "" "" (-1) (-1) false false junk ampunit, record)
  else
    corr <~ read_key_opt_string h "CORRNAME" ;~
    let correlated := snd corr in
    amptyp <~ key_opt_str h "AMPTYP" ;~
    phityp <~ key_opt_str h "PHITYP" ;~
    amporder <~ key_opt_int h "AMPORDER" ;~
    phiorder <~ key_opt_int h "PHIORDER" ;~
    record <~ (if correlated
               then each_row record (fun irow r =>
                      a <~ int_at h "CORRINDX_VISAMP" irow ;~
                      p <~ int_at h "CORRINDX_VISPHI" irow ;~
                      rret (vr_set_corrindx a p r))
               else rret record) ;~
    k <~ get_colnum h "VISREFMAP" ;~ st <~ get_status ;~
    map_ <~ (if (st =? COL_NOT_FOUND)%Z
             then _ <~ set_status 0 ;~ rret (false, map (vr_set_visrefmap None) record)
             else
               record <~ each_row record (fun irow r =>
                 _ <~ lift (chkmalloc (nwave * nwave)) ;~
                 m <~ read_col as_bool h k irow (nwave * nwave) ;~
                 rret (vr_set_visrefmap (Some (slot_bools (nwave * nwave) m)) r)) ;~
               rret (true, record)) ;~
    cplx <~ read_oi_vis_complex h nwave correlated (snd map_) ;~
    let '(usecomplex, complexunit, record) := cplx in
    rret (slot_str (fst corr),
          mk_vis_extra amptyp phityp amporder phiorder (fst map_) usecomplex complexunit ampunit,
          record).
(** read_fits.c 1202-1276 *)
Definition read_oi_vis_chdu (h : hdu) : rd (option oi_vis) :=
  unless_error (
  revision <~ key_int h "OI_REVN" ;~ unless_error (
  date_obs <~ key_str h "DATE-OBS" ;~
  arrname <~ key_opt_str h "ARRNAME" ;~
  insname <~ key_str h "INSNAME" ;~
  dim <~ dimensions h "VISAMP" ;~ unless_error (
  let '(nrows, nwave, colnum) := dim in
  _ <~ lift (alloc_records nrows nwave) ;~
  ampunit <~ key_opt "" (read_tunit h colnum) ;~
  record <~ new_rows nrows (read_vis_record h nwave) ;~
  o <~ read_oi_vis_opt h revision nwave (slot_str (fst ampunit)) record ;~
  let '(corrname, x, record) := o in
  finish (mk_dtab revision date_obs arrname insname corrname x nrows nwave record)))).

(** CORRNAME in OI_VIS2 and OI_T3 (read_fits.c 1321-1330, 1436-1445): name and [correlated] *)
Definition read_corrname (h : hdu) (allowed : bool) : rd (string * bool) :=
  if allowed then
    c <~ read_key_opt_string h "CORRNAME" ;~
    rret (if snd c : bool then slot_str (fst c) else "", snd c)
  else rret ("", false).
Definition int_if (b : bool) (h : hdu) (name : string) (irow : Z) : rd Z :=
  if b then int_at h name irow else rret (cf_junk_int E).

(** read_fits.c 1342-1380 *)
Definition read_vis2_record (h : hdu) (nwave : Z) (correlated : bool) (irow : Z) : rd vis2_record :=
  target_id <~ int_at h "TARGET_ID" irow ;~
  time <~ dbl_at h "TIME" irow ;~
  mjd <~ dbl_at h "MJD" irow ;~
  int_time <~ dbl_at h "INT_TIME" irow ;~
  vis2data <~ dbls_at h "VIS2DATA" irow nwave ;~
  vis2err <~ dbls_at h "VIS2ERR" irow nwave ;~
  ucoord <~ dbl_at h "UCOORD" irow ;~
  vcoord <~ dbl_at h "VCOORD" irow ;~
  sta_index <~ pair_at h "STA_INDEX" irow ;~
  flag <~ bools_at h "FLAG" irow nwave ;~
  corrindx <~ int_if correlated h "CORRINDX_VIS2DATA" irow ;~
  rret (mk_vis2_record target_id time mjd int_time vis2data vis2err corrindx ucoord vcoord
          sta_index flag).
(** read_fits.c 1305-1390 *)
Definition read_oi_vis2_chdu (h : hdu) : rd (option oi_vis2) :=
  unless_error (
  revision <~ key_int h "OI_REVN" ;~ unless_error (
  date_obs <~ key_str h "DATE-OBS" ;~
  arrname <~ key_opt_str h "ARRNAME" ;~
  insname <~ key_str h "INSNAME" ;~
  corr <~ read_corrname h (2 <=? revision)%Z ;~
  dim <~ dimensions h "VIS2DATA" ;~ unless_error (
  let '(nrows, nwave, _) := dim in
  _ <~ lift (alloc_records nrows nwave) ;~
  record <~ new_rows nrows (read_vis2_record h nwave (snd corr)) ;~
  finish (mk_dtab revision date_obs arrname insname (fst corr) tt nrows nwave record)))).

(** read_fits.c 1458-1510 *)
Definition read_t3_record (h : hdu) (nwave : Z) (correlated : bool) (irow : Z) : rd t3_record :=
  target_id <~ int_at h "TARGET_ID" irow ;~
  time <~ dbl_at h "TIME" irow ;~
  mjd <~ dbl_at h "MJD" irow ;~
  int_time <~ dbl_at h "INT_TIME" irow ;~
  t3amp <~ dbls_at h "T3AMP" irow nwave ;~
  t3amperr <~ dbls_at h "T3AMPERR" irow nwave ;~
  t3phi <~ dbls_at h "T3PHI" irow nwave ;~
  t3phierr <~ dbls_at h "T3PHIERR" irow nwave ;~
  u1coord <~ dbl_at h "U1COORD" irow ;~
  v1coord <~ dbl_at h "V1COORD" irow ;~
  u2coord <~ dbl_at h "U2COORD" irow ;~
  v2coord <~ dbl_at h "V2COORD" irow ;~
  sta_index <~ triple_at h "STA_INDEX" irow ;~
  flag <~ bools_at h "FLAG" irow nwave ;~
  amp <~ int_if correlated h "CORRINDX_T3AMP" irow ;~
  phi <~ int_if correlated h "CORRINDX_T3PHI" irow ;~
  rret (mk_t3_record target_id time mjd int_time t3amp t3amperr amp t3phi t3phierr phi
          u1coord v1coord u2coord v2coord sta_index flag).
(** read_fits.c 1419-1520 *)
Definition read_oi_t3_chdu (h : hdu) : rd (option oi_t3) :=
  unless_error (
  revision <~ key_int h "OI_REVN" ;~ unless_error (
  date_obs <~ key_str h "DATE-OBS" ;~
  arrname <~ key_opt_str h "ARRNAME" ;~
  insname <~ key_str h "INSNAME" ;~
  corr <~ read_corrname h (2 <=? revision)%Z ;~
  dim <~ dimensions h "T3AMP" ;~ unless_error (
  let '(nrows, nwave, _) := dim in
  _ <~ lift (alloc_records nrows nwave) ;~
  record <~ new_rows nrows (read_t3_record h nwave (snd corr)) ;~
  finish (mk_dtab revision date_obs arrname insname (fst corr) tt nrows nwave record)))).

(** read_fits.c 1591-1630.  COL_NOT_FOUND from an earlier column of the row is taken for
    a missing STA_INDEX. *)
Definition read_flux_record (h : hdu) (nwave : Z) (correlated : bool) (irow : Z) : rd flux_record :=
  target_id <~ int_at h "TARGET_ID" irow ;~
  mjd <~ dbl_at h "MJD" irow ;~
  int_time <~ dbl_at h "INT_TIME" irow ;~
  fluxdata <~ dbls_at h "FLUXDATA" irow nwave ;~
  fluxerr <~ dbls_at h "FLUXERR" irow nwave ;~
  flag <~ bools_at h "FLAG" irow nwave ;~
  k <~ get_colnum h "STA_INDEX" ;~ st <~ get_status ;~
  sta_index <~ (if (st =? COL_NOT_FOUND)%Z then _ <~ set_status 0 ;~ rret (-1)%Z
                else v <~ read_col as_int h k irow 1 ;~ rret (slot_int (one v))) ;~
  corrindx <~ int_if correlated h "CORRINDX_FLUXDATA" irow ;~
  rret (mk_flux_record target_id mjd int_time fluxdata fluxerr corrindx sta_index flag).
(** [value[0]] *)
Definition first_char (s : string) : ascii := match s with EmptyString => zero | String c _ => c end.
(** read_fits.c 1550-1640 *)
Definition read_oi_flux_chdu (h : hdu) : rd (option oi_flux) :=
  unless_error (
  revision <~ key_int h "OI_REVN" ;~ unless_error (
  date_obs <~ key_str h "DATE-OBS" ;~
  arrname <~ key_opt_str h "ARRNAME" ;~
  insname <~ key_str h "INSNAME" ;~
  corr <~ read_corrname h true ;~
  fov <~ key_opt_dbl h "FOV" ;~
  fovtype <~ key_opt_str h "FOVTYPE" ;~
  calstat <~ key_str h "CALSTAT" ;~
  dim <~ dimensions h "FLUXDATA" ;~ unless_error (
  let '(nrows, nwave, colnum) := dim in
  _ <~ lift (alloc_records nrows nwave) ;~
  fluxunit <~ read_tunit h colnum ;~
  record <~ new_rows nrows (read_flux_record h nwave (snd corr)) ;~
  finish (mk_dtab revision date_obs arrname insname (fst corr)
            (mk_flux_extra fov fovtype (first_char calstat) (slot_str fluxunit))
            nrows nwave record)))).

(** ** Moving between HDUs *)

(** a call that may move in the file: its result, the file and *pStatus *)
Definition io (A : Type) := wstate -> res (option A * wstate).
(** reading the HDU the file is at *)
Definition at_chdu {A} (r : hdu -> rd (option A)) : io A :=
  fun s => match chdu (fst s) with
           | None => Ok (None, s)
           | Some h => p <- r h (snd s) ;; Ok (fst p, (fst s, snd p))
           end.

(** text of a keyword as fits_read_key(TSTRING) gives it *)
Definition key_text (h : hdu) (k : string) : option string :=
  option_map (fun v => match v with KStr s => s | v => cf_conv_text E v end) (find_key k (hd_keys h)).
Definition is_binary (h : hdu) : bool := match hd_type h with BINARY_TBL => true | _ => false end.

(** read_fits.c 277-311, from the HDU after the current one; [rest]: the HDUs not yet
    visited.  Result: number of the current HDU and *pStatus. *)
Fixpoint next_named (rest : list hdu) (cur : Z) (reqName : string) : Z * Z :=
  match rest with
  | [] => (cur, END_OF_FILE)
  | h :: rest' =>
      if is_binary h then
        match key_text h "EXTNAME" with
        | None => next_named rest' (cur + 1) reqName
        | Some extname => if str_eqb extname reqName then (cur + 1, 0)%Z
                          else next_named rest' (cur + 1) reqName
        end
      else next_named rest' (cur + 1) reqName
  end.
Definition next_named_hdu (reqName : string) (s : wstate) : wstate :=
  let '(f, st) := s in
  if negb (st =? 0)%Z then s
  else let '(cur, st) := next_named (skipn (Z.to_nat (f_cur f)) (f_hdus f)) (f_cur f) reqName in
       (mk_file (f_hdus f) cur, st).

(** read_fits.c 325-364: [rest] are the HDUs from number [cur + 1] on.  An HDU that is not
    a binary table ends the search without an error. *)
Fixpoint specific_named (rest : list hdu) (cur : Z) (reqName keyword reqVal : string) : Z * Z :=
  match rest with
  | [] => (cur, BAD_HDU_NUM)
  | h :: rest' =>
      if is_binary h then
        match key_text h "EXTNAME", key_text h keyword with
        | Some extname, Some value =>
            if str_eqb extname reqName && str_eqb value reqVal then (cur + 1, 0)%Z
            else specific_named rest' (cur + 1) reqName keyword reqVal
        | _, _ => specific_named rest' (cur + 1) reqName keyword reqVal
        end
      else (cur + 1, 0)%Z
  end.
Definition specific_named_hdu (reqName keyword reqVal : string) (s : wstate) : wstate :=
  let '(f, st) := s in
  if negb (st =? 0)%Z then s
  else let '(cur, st) := specific_named (skipn 1 (f_hdus f)) 1 reqName keyword reqVal in
       (* the loop does not move when there is only a primary HDU *)
       (mk_file (f_hdus f) (match skipn 1 (f_hdus f) with [] => f_cur f | _ => cur end), st).

(** fits_movnam_hdu(fptr, BINARY_TBL, name, 0): first binary table with that EXTNAME,
    ignoring case; the position is kept on failure *)
Fixpoint movnam (l : list hdu) (i : Z) (name : string) : option Z :=
  match l with
  | [] => None
  | h :: l' =>
      if is_binary h && match key_text h "EXTNAME" with
                        | Some e => str_eqb (upper e) (upper name)
                        | None => false
                        end
      then Some i else movnam l' (i + 1) name
  end.
Definition fits_movnam_hdu (name : string) (s : wstate) : wstate :=
  let '(f, st) := s in
  if negb (st =? 0)%Z then s
  else match movnam (f_hdus f) 1 name with
       | Some i => (mk_file (f_hdus f) i, 0%Z)
       | None => (f, BAD_HDU_NUM)
       end.

(** ** read_fits.c, public functions *)

(** [if ( *pStatus) return *pStatus;] *)
Definition guard_io {A} (k : io A) : io A :=
  fun s => if negb (snd s =? 0)%Z then Ok (None, s) else k s.
(** read_fits.c 671-704 *)
Definition read_oi_header : io oi_header := guard_io (fun s =>
  s <- fits_movabs_hdu 1 s ;; at_chdu read_oi_header_chdu s).
(** read_fits.c 716-825 *)
Definition read_oi_target : io oi_target := guard_io (fun s =>
  at_chdu read_oi_target_chdu (fits_movnam_hdu "OI_TARGET" s)).
(** read_fits.c 838-855, 897-914, 957-974 *)
Definition read_oi_array (arrname : string) : io oi_array := guard_io (fun s =>
  at_chdu (fun h => read_oi_array_chdu h (Some arrname)) (specific_named_hdu "OI_ARRAY" "ARRNAME" arrname s)).
Definition read_oi_wavelength (insname : string) : io oi_wavelength := guard_io (fun s =>
  at_chdu (fun h => read_oi_wavelength_chdu h (Some insname))
    (specific_named_hdu "OI_WAVELENGTH" "INSNAME" insname s)).
Definition read_oi_corr (corrname : string) : io oi_corr := guard_io (fun s =>
  at_chdu (fun h => read_oi_corr_chdu h (Some corrname))
    (specific_named_hdu "OI_CORR" "CORRNAME" corrname s)).
(** read_fits.c 867-884, 926-944, 986-1003, 1015-1032, 1185-1200, 1288-1303, 1402-1417,
    1532-1548: they return at once when the search fails *)
Definition read_next {A} (extname : string) (r : hdu -> rd (option A)) : io A := guard_io (fun s =>
  let s := next_named_hdu extname s in
  if negb (snd s =? 0)%Z then Ok (None, s) else at_chdu r s).
Definition read_next_oi_array := read_next "OI_ARRAY" (fun h => read_oi_array_chdu h None).
Definition read_next_oi_wavelength :=
  read_next "OI_WAVELENGTH" (fun h => read_oi_wavelength_chdu h None).
Definition read_next_oi_corr := read_next "OI_CORR" (fun h => read_oi_corr_chdu h None).
Definition read_next_oi_inspol := read_next "OI_INSPOL" read_oi_inspol_chdu.
Definition read_next_oi_vis := read_next "OI_VIS" read_oi_vis_chdu.
Definition read_next_oi_vis2 := read_next "OI_VIS2" read_oi_vis2_chdu.
Definition read_next_oi_t3 := read_next "OI_T3" read_oi_t3_chdu.
Definition read_next_oi_flux := read_next "OI_FLUX" read_oi_flux_chdu.

(** ** read_oi_fits *)

(** The loops of oifile.c 725-964: back to the first HDU, then read until END_OF_FILE.
    [skip_bad]: tables that cannot be read are skipped (all but OI_ARRAY and
    OI_WAVELENGTH).  The result is the list of tables.  [fuel] bounds the number of turns;
    running out of it would be a loop that does not end, shown here as [UB]. *)
Fixpoint read_loop {A} (fuel : nat) (skip_bad : bool) (next : io A) (s : wstate)
  : res (list A * wstate) :=
  match fuel with
  | O => UB
  | Datatypes.S fuel' =>
      r <- next s ;;
      let '(a, (f, st)) := r in
      if negb (st =? 0)%Z then
        if (st =? END_OF_FILE)%Z then Ok ([], (f, 0%Z))
        else if skip_bad then read_loop fuel' skip_bad next (f, 0%Z)
        else Ok ([], (f, st))
      else match a with
           | None => UB
           | Some a => r <- read_loop fuel' skip_bad next (f, st) ;; Ok (a :: fst r, snd r)
           end
  end.
Definition read_all {A} (skip_bad : bool) (next : io A) (s : wstate) : res (list A * wstate) :=
  s <- fits_movabs_hdu 1 s ;;
  read_loop (Datatypes.S (List.length (f_hdus (fst s)))) skip_bad next s.
Definition ok_status {A} (s : wstate) (k : res (option A * Z)) : res (option A * Z) :=
  if negb (snd s =? 0)%Z then Ok (None, snd s) else k.

(** oifile.c 718-966, for an open file; indexing of names and set_oi_header are in
    [assemble] *)
Definition read_tables (s : wstate) : res (option oi_fits * Z) :=
  r <- read_oi_header s ;; let '(header, s) := r in
  r <- read_oi_target s ;; let '(targets, s) := r in
  ok_status s (
  r <- read_all false read_next_oi_array s ;; let '(arrays, s) := r in
  ok_status s (
  r <- read_all false read_next_oi_wavelength s ;; let '(waves, s) := r in
  ok_status s (
  r <- read_all true read_next_oi_corr s ;; let '(corrs, s) := r in
  r <- read_all true read_next_oi_inspol s ;; let '(inspols, s) := r in
  r <- read_all true read_next_oi_vis s ;; let '(vis, s) := r in
  r <- read_all true read_next_oi_vis2 s ;; let '(vis2, s) := r in
  r <- read_all true read_next_oi_t3 s ;; let '(t3, s) := r in
  r <- read_all true read_next_oi_flux s ;; let '(flux, s) := r in
  match header, targets with
  | Some header, Some targets =>
      o <- assemble header targets arrays waves corrs inspols vis vis2 t3 flux ;;
      Ok (Some o, snd s)
  | _, _ => UB
  end))).
(** oifile.c 684-976; fits_open_file fails if there is no such file *)
Definition read_oi_fits (name : string) (d : disk) (st : Z) : res (option oi_fits * Z) :=
  if negb (st =? 0)%Z then Ok (None, st)
  else match find_file name d with
       | None => Ok (None, FILE_NOT_OPENED)
       | Some hdus => read_tables (mk_file hdus 1, 0%Z)
       end.
End Read.
