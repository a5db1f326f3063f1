(** The keywords and columns of the tables of OIFITS version 2 with their types and units.
    Nothing here depends on the model of write_fits.c.

    No copy of the standard is at hand in /repo: these lists were written down as tables
    and compared with write_fits.c and exchange.h, so they can share a misreading of the
    standard with the code.  The width 70 of INSNAME in OI_INSPOL is known to be the
    code's own choice (write_fits.c 458, "TODO: follow standard"). *)
From Coq Require Import Permutation.
From Verif Require Import Base Types FloatModel FitsModel.
Open Scope string_scope.
Open Scope list_scope.
Open Scope Z_scope.

(** ** Keywords *)
(** [Today]: the date at which the file is written *)
Inductive keyval := Text (s : string) | Num (z : Z) | Dbl (x : f64) | Today.
Definition key_is (E : cfitsio) (e : string * keyval) (kv : string * kval) : Prop :=
  fst kv = fst e
  /\ match snd e with
     | Text s => snd kv = KStr (card s)
     | Num z => snd kv = KInt z
     | Dbl x => exists y, cf_key_double E x = Some y /\ snd kv = KDbl y
     | Today => snd kv = KStr (cf_today E)
     end.
(** the keywords of [l], each once, and the two checksums *)
Definition keywords (E : cfitsio) (l : list (string * keyval)) (h : hdu) : Prop :=
  (exists body c d, hd_keys h = body ++ [("CHECKSUM", c); ("DATASUM", d)] /\ Forall2 (key_is E) l body)
  /\ NoDup (map fst (hd_keys h)).
(** a keyword present under a condition; a string that is not empty *)
Definition kif (b : bool) (e : string * keyval) : list (string * keyval) := if b then [e] else [].
Definition given (s : string) : bool := match s with EmptyString => false | _ => true end.

(** ** Columns: TTYPE, TFORM, TUNIT, TDIM *)
Definition heading := (string * form * option string * option string)%type.
Definition heading_of (c : column) : heading := (c_name c, c_form c, c_unit c, c_dim c).
Definition col (name : string) (k : kind) (n : Z) : heading := (name, mk_form k n, None, None).
Definition colu (name : string) (k : kind) (n : Z) (u : string) : heading :=
  (name, mk_form k n, Some u, None).
Definition cif (b : bool) (l : list heading) : list heading := if b then l else [].
(** these columns, in any order, with names that differ in more than case *)
Definition columns (l : list heading) (h : hdu) : Prop :=
  Permutation l (map heading_of (hd_cols h)) /\ NoDup (map (fun c => upper (c_name c)) (hd_cols h)).
(** every column has its number of elements in every row *)
Definition rectangular (nrows : Z) (h : hdu) : Prop :=
  hd_nrows h = nrows
  /\ Forall (fun c => List.length (c_data c) = Z.to_nat (nrows * per_row (c_form c))) (hd_cols h).

Section Tables.
Variable E : cfitsio.
Definition table (extname : string) (keys : list (string * keyval)) (cols : list heading) (nrows : Z)
  (h : hdu) : Prop :=
  hd_type h = BINARY_TBL /\ keywords E (("EXTNAME", Text extname) :: keys) h /\ columns cols h
  /\ rectangular (Z.max 0 nrows) h.

Definition primary (x : oi_header) (h : hdu) : Prop :=
  hd_type h = IMAGE_HDU /\ hd_cols h = []
  /\ keywords E
       ([("ORIGIN", Text (h_origin x)); ("DATE", Today); ("DATE-OBS", Text (h_date_obs x));
         ("TELESCOP", Text (h_telescop x)); ("INSTRUME", Text (h_instrume x));
         ("OBSERVER", Text (h_observer x)); ("CONTENT", Text "OIFITS2");
         ("INSMODE", Text (h_insmode x)); ("OBJECT", Text (h_object x))]
        ++ kif (given (h_referenc x)) ("REFERENC", Text (h_referenc x))
        ++ kif (given (h_author x)) ("AUTHOR", Text (h_author x))
        ++ kif (given (h_prog_id x)) ("PROG_ID", Text (h_prog_id x))
        ++ kif (given (h_procsoft x)) ("PROCSOFT", Text (h_procsoft x))
        ++ kif (given (h_obstech x)) ("OBSTECH", Text (h_obstech x))) h.

Definition target_table (t : oi_target) : hdu -> Prop :=
  table "OI_TARGET" [("OI_REVN", Num 2)]
    ([col "TARGET_ID" Short 1; col "TARGET" Chars 32; colu "RAEP0" Double 1 "deg";
      colu "DECEP0" Double 1 "deg"; colu "EQUINOX" Float 1 "yr"; colu "RA_ERR" Double 1 "deg";
      colu "DEC_ERR" Double 1 "deg"; colu "SYSVEL" Double 1 "m/s"; col "VELTYP" Chars 8;
      col "VELDEF" Chars 8; colu "PMRA" Double 1 "deg/yr"; colu "PMDEC" Double 1 "deg/yr";
      colu "PMRA_ERR" Double 1 "deg/yr"; colu "PMDEC_ERR" Double 1 "deg/yr";
      colu "PARALLAX" Float 1 "deg"; colu "PARA_ERR" Float 1 "deg"; col "SPECTYP" Chars 32]
     ++ cif (ot_usecategory t) [col "CATEGORY" Chars 3]) (ot_ntarget t).
Definition array_table (a : oi_array) (extver : Z) : hdu -> Prop :=
  table "OI_ARRAY"
    [("OI_REVN", Num 2); ("ARRNAME", Text (ar_arrname a)); ("FRAME", Text (ar_frame a));
     ("ARRAYX", Dbl (ar_arrayx a)); ("ARRAYY", Dbl (ar_arrayy a)); ("ARRAYZ", Dbl (ar_arrayz a));
     ("EXTVER", Num extver)]
    [col "TEL_NAME" Chars 16; col "STA_NAME" Chars 16; col "STA_INDEX" Short 1;
     colu "DIAMETER" Float 1 "m"; colu "STAXYZ" Double 3 "m"; colu "FOV" Double 1 "arcsec";
     col "FOVTYPE" Chars 6] (ar_nelement a).
Definition wavelength_table (w : oi_wavelength) (extver : Z) : hdu -> Prop :=
  table "OI_WAVELENGTH"
    [("OI_REVN", Num 2); ("INSNAME", Text (wv_insname w)); ("EXTVER", Num extver)]
    [colu "EFF_WAVE" Float 1 "m"; colu "EFF_BAND" Float 1 "m"] (wv_nwave w).
Definition corr_table (c : oi_corr) (extver : Z) : hdu -> Prop :=
  table "OI_CORR"
    [("OI_REVN", Num 1); ("CORRNAME", Text (co_corrname c)); ("NDATA", Num (co_ndata c));
     ("EXTVER", Num extver)]
    [col "IINDX" Long 1; col "JINDX" Long 1; col "CORR" Double 1] (co_ncorr c).
Definition inspol_table (t : oi_inspol) (extver : Z) : hdu -> Prop :=
  let n := is_nwave t in
  table "OI_INSPOL"
    [("OI_REVN", Num 1); ("DATE-OBS", Text (is_date_obs t)); ("NPOL", Num (is_npol t));
     ("ARRNAME", Text (is_arrname t)); ("ORIENT", Text (is_orient t)); ("MODEL", Text (is_model t));
     ("EXTVER", Num extver)]
    [col "TARGET_ID" Short 1; col "INSNAME" Chars 70; colu "MJD_OBS" Double 1 "day";
     colu "MJD_END" Double 1 "day"; col "JXX" Complex n; col "JYY" Complex n; col "JXY" Complex n;
     col "JYX" Complex n; col "STA_INDEX" Short 1] (is_numrec t).
(** DATE-OBS, ARRNAME and INSNAME of a data table *)
Definition data_keys {X R} (revn : Z) (t : dtab X R) : list (string * keyval) :=
  [("OI_REVN", Num revn); ("DATE-OBS", Text (tb_date_obs t))]
  ++ kif (given (tb_arrname t)) ("ARRNAME", Text (tb_arrname t))
  ++ [("INSNAME", Text (tb_insname t))].
Definition corrname_key {X R} (t : dtab X R) : list (string * keyval) :=
  kif (given (tb_corrname t)) ("CORRNAME", Text (tb_corrname t)).
Definition vis_table (t : oi_vis) (extver : Z) : hdu -> Prop :=
  let n := tb_nwave t in
  let x := tb_x t in
  let corr := given (tb_corrname t) in
  let amp name : heading :=
    (name, mk_form Double n,
     if String.eqb (vx_amptyp x) "correlated flux" then Some (card (vx_ampunit x)) else None, None) in
  let cplx name := colu name Double n (card (vx_complexunit x)) in
  table "OI_VIS"
    (data_keys 2 t ++ [("EXTVER", Num extver)] ++ corrname_key t
     ++ kif (given (vx_amptyp x)) ("AMPTYP", Text (vx_amptyp x))
     ++ kif (given (vx_phityp x)) ("PHITYP", Text (vx_phityp x))
     ++ kif (0 <=? vx_amporder x) ("AMPORDER", Num (vx_amporder x))
     ++ kif (0 <=? vx_phiorder x) ("PHIORDER", Num (vx_phiorder x)))
    ([col "TARGET_ID" Short 1; colu "TIME" Double 1 "s"; colu "MJD" Double 1 "day";
      colu "INT_TIME" Double 1 "s"; amp "VISAMP"; amp "VISAMPERR"]
     ++ cif corr [col "CORRINDX_VISAMP" Long 1]
     ++ [colu "VISPHI" Double n "deg"; colu "VISPHIERR" Double n "deg"]
     ++ cif corr [col "CORRINDX_VISPHI" Long 1]
     ++ cif (vx_usevisrefmap x)
          [("VISREFMAP", mk_form Logical (n * n), None,
            Some (card ("(" ++ fmt_d n ++ "," ++ fmt_d n ++ ")")%string))]
     ++ cif (vx_usecomplex x) ([cplx "RVIS"; cplx "RVISERR"] ++ cif corr [col "CORRINDX_RVIS" Long 1]
                               ++ [cplx "IVIS"; cplx "IVISERR"] ++ cif corr [col "CORRINDX_IVIS" Long 1])
     ++ [colu "UCOORD" Double 1 "m"; colu "VCOORD" Double 1 "m"; col "STA_INDEX" Short 2;
         col "FLAG" Logical n]) (tb_numrec t).
Definition vis2_table (t : oi_vis2) (extver : Z) : hdu -> Prop :=
  let n := tb_nwave t in
  table "OI_VIS2" (data_keys 2 t ++ [("EXTVER", Num extver)] ++ corrname_key t)
    ([col "TARGET_ID" Short 1; colu "TIME" Double 1 "s"; colu "MJD" Double 1 "day";
      colu "INT_TIME" Double 1 "s"; col "VIS2DATA" Double n; col "VIS2ERR" Double n]
     ++ cif (given (tb_corrname t)) [col "CORRINDX_VIS2DATA" Long 1]
     ++ [colu "UCOORD" Double 1 "m"; colu "VCOORD" Double 1 "m"; col "STA_INDEX" Short 2;
         col "FLAG" Logical n]) (tb_numrec t).
Definition t3_table (t : oi_t3) (extver : Z) : hdu -> Prop :=
  let n := tb_nwave t in
  let corr := given (tb_corrname t) in
  table "OI_T3" (data_keys 2 t ++ [("EXTVER", Num extver)] ++ corrname_key t)
    ([col "TARGET_ID" Short 1; colu "TIME" Double 1 "s"; colu "MJD" Double 1 "day";
      colu "INT_TIME" Double 1 "s"; col "T3AMP" Double n; col "T3AMPERR" Double n]
     ++ cif corr [col "CORRINDX_T3AMP" Long 1]
     ++ [colu "T3PHI" Double n "deg"; colu "T3PHIERR" Double n "deg"]
     ++ cif corr [col "CORRINDX_T3PHI" Long 1]
     ++ [colu "U1COORD" Double 1 "m"; colu "V1COORD" Double 1 "m"; colu "U2COORD" Double 1 "m";
         colu "V2COORD" Double 1 "m"; col "STA_INDEX" Short 3; col "FLAG" Logical n]) (tb_numrec t).
Definition flux_table (t : oi_flux) (extver : Z) : hdu -> Prop :=
  let n := tb_nwave t in
  let x := tb_x t in
  let u := card (fx_fluxunit x) in
  table "OI_FLUX"
    (data_keys 1 t
     ++ [("CALSTAT", Text (if Ascii.eqb (fx_calstat x) zero then "" else String (fx_calstat x) ""));
         ("EXTVER", Num extver)]
     ++ kif (given (fx_fovtype x)) ("FOV", Dbl (fx_fov x))
     ++ kif (given (fx_fovtype x)) ("FOVTYPE", Text (fx_fovtype x))
     ++ corrname_key t)
    ([col "TARGET_ID" Short 1; colu "MJD" Double 1 "day"; colu "INT_TIME" Double 1 "s";
      colu "FLUXDATA" Double n u; colu "FLUXERR" Double n u]
     ++ cif (given (tb_corrname t)) [col "CORRINDX_FLUXDATA" Long 1]
     ++ cif (given (tb_arrname t)) [col "STA_INDEX" Short 1]
     ++ [col "FLAG" Logical n]) (tb_numrec t).

(** the tables of one kind, EXTVER counting from 1 *)
Definition tables {A} (P : A -> Z -> hdu -> Prop) (l : list A) (hs : list hdu) : Prop :=
  List.length hs = List.length l
  /\ forall i a h, nth_error l i = Some a -> nth_error hs i = Some h -> P a (Z.of_nat i + 1) h.
Definition file_of (o : oi_fits) (hdus : list hdu) : Prop :=
  exists p t arrays waves corrs inspols vis vis2 t3 flux,
    hdus = p :: t :: arrays ++ waves ++ corrs ++ inspols ++ vis ++ vis2 ++ t3 ++ flux
    /\ primary (o_header o) p /\ target_table (o_targets o) t
    /\ tables array_table (o_arrayList o) arrays
    /\ tables wavelength_table (o_wavelengthList o) waves
    /\ tables corr_table (o_corrList o) corrs
    /\ tables inspol_table (o_inspolList o) inspols
    /\ tables vis_table (o_visList o) vis
    /\ tables vis2_table (o_vis2List o) vis2
    /\ tables t3_table (o_t3List o) t3
    /\ tables flux_table (o_fluxList o) flux.
End Tables.
