(** Model of oicheck.c. *)
From Verif Require Export FileModel.
Open Scope Z_scope.

(** ** Check results *)

(** oicheck.h 84-91, oi_breach_level *)
Definition OI_BREACH_NONE : Z := 0.
Definition OI_BREACH_WARNING : Z := 1.
Definition OI_BREACH_NOT_OIFITS : Z := 2.
(** oicheck.h 81 *)
Definition MAX_REPORT : Z := 10.

(** oicheck.h 96-104.  The strings live in [chunk], which is not modelled; a NULL
    pointer is [None]. *)
Record check_result := mk_check_result {
  cr_level : Z; cr_description : option string; cr_numBreach : Z;
  cr_location : list (option string) }.

(** oicheck.c 48-58 *)
Definition init_check_result : check_result :=
  mk_check_result OI_BREACH_NONE None 0 (repeat None (Z.to_nat MAX_REPORT)).

(** oicheck.c 61-79.  Overflow of numBreach is not modelled. *)
Definition set_result (level : Z) (description location : string) (r : check_result)
  : res check_result :=
  let level' := if level >? cr_level r then level else cr_level r in
  description' <-
    match cr_description r with
    | None => Ok (Some description)
    | Some d => do assert_ (str_eqb description d) ;; Ok (Some d)
    end ;;
  let n := cr_numBreach r + 1 in
  location' <-
    (if n <? MAX_REPORT then put (cr_location r) (n - 1) (Some location)
     else if n =? MAX_REPORT then
       put (cr_location r) (MAX_REPORT - 1) (Some "[List truncated]"%string)
     else Ok (cr_location r)) ;;
  Ok (mk_check_result level' description' n location').

(** oicheck.c 38-42 *)
Definition oi_breach_level_desc : list string :=
  ["No error";
   "Valid OIFITS, but may cause problems for some reading software";
   "Does not conform to the OIFITS standard";
   "Does not conform to the FITS standard"]%string.

(** "%s" with a pointer that may be NULL *)
Definition fmt_s (s : option string) : res string :=
  match s with Some s => Ok s | None => UB end.
Definition newline : string := String (ascii_of_nat 10) EmptyString.

(** oicheck.c 98-115; NULL is [None].  The text is kept in the global GString shared
    with format_oi_fits_summary. *)
Definition format_check_result (r : check_result) : res (option string) :=
  if cr_level r =? OI_BREACH_NONE then Ok None
  else
    level <- get oi_breach_level_desc (cr_level r) ;;
    description <- fmt_s (cr_description r) ;;
    let head := ("*** " ++ level ++ ":" ++ newline ++ description ++ ", "
                 ++ fmt_d (cr_numBreach r) ++ " occurrences:-" ++ newline)%string in
    let n := if cr_numBreach r <? MAX_REPORT then cr_numBreach r else MAX_REPORT in
    text <- for_ n (fun i s =>
      l <- get (cr_location r) i ;; l <- fmt_s l ;;
      Ok (s ++ "    " ++ l ++ newline)%string) head ;;
    Ok (Some text).

(** oicheck.c 122-125: the text printed; printf("%s", NULL) is undefined *)
Definition print_check_result (r : check_result) : res string :=
  text <- format_check_result r ;; fmt_s text.

(** ** Locations *)

(** g_snprintf(location, FLEN_VALUE, ...) *)
Definition loc (s : string) : string := strlcpy FLEN_VALUE s.
(** "<table> #%d" *)
Definition at_table (name : string) (k : Z) : string := (name ++ " #" ++ fmt_d k)%string.
(** "<table> #%d record %d" *)
Definition at_record (name : string) (k i : Z) : string :=
  (at_table name k ++ " record " ++ fmt_d i)%string.
(** "<table> #%d record %d channel %d" *)
Definition at_channel (name : string) (k i j : Z) : string :=
  (at_record name k i ++ " channel " ++ fmt_d j)%string.

(** [while (link != NULL) { body; link = link->next; }] where the body uses
    g_list_position(list, link) + 1, the first argument of [body] *)
Fixpoint foreach_at {A S} (k : Z) (l : list A) (body : Z -> A -> S -> res S) (s : S) : res S :=
  match l with
  | [] => Ok s
  | a :: l' => s' <- body k a s ;; foreach_at (k + 1) l' body s'
  end.
Definition each_table {A S} (l : list A) (body : Z -> A -> S -> res S) (s : S) : res S :=
  foreach_at 1 l body s.

(** "if (bad) set_result(pResult, level, desc, location)" *)
Definition breach_if (bad : bool) (level : Z) (desc location : string) (r : check_result)
  : res check_result :=
  if bad then set_result level desc location r else Ok r.

Definition OI_INSPOL := "OI_INSPOL"%string.
Definition OI_VIS := "OI_VIS"%string.
Definition OI_VIS2 := "OI_VIS2"%string.
Definition OI_T3 := "OI_T3"%string.
Definition OI_FLUX := "OI_FLUX"%string.

(** ** check_tables *)

(** CHECK_BAD_TAB_REVISION, oicheck.c 127-145 *)
Definition check_revisions {A} (name : string) (revision : A -> Z) (rev : Z) (l : list A)
  (r : check_result) : res check_result :=
  each_table l (fun k t r =>
    breach_if (negb (revision t =? rev)) OI_BREACH_NOT_OIFITS "Invalid OI_REVN"
      (loc (at_table name k)) r) r.

(** oicheck.c 155-233; the OI_REVN_* values are in exchange.h 47-62.  The two constant
    texts without "#" are shorter than FLEN_VALUE. *)
Definition check_tables (o : oi_fits) : res check_result :=
  let desc1 := "Mandatory table missing"%string in
  let missing b text := breach_if b OI_BREACH_NOT_OIFITS desc1 (loc text) in
  let r := init_check_result in
  if is_oi_fits_two o then
    r <- missing (o_numArray o =? 0) "No OI_ARRAY table - at least one required"%string r ;;
    r <- missing (o_numWavelength o =? 0)
           "No OI_WAVELENGTH table - at least one required"%string r ;;
    r <- missing ((o_numVis o =? 0) && (o_numVis2 o =? 0) && (o_numT3 o =? 0)
                  && (o_numFlux o =? 0))
           "No data table - at least one OI_VIS/VIS2/T3/FLUX required"%string r ;;
    r <- breach_if (negb (ot_revision (o_targets o) =? 2)) OI_BREACH_NOT_OIFITS
           "Invalid OI_REVN" "OI_TARGET" r ;;
    r <- check_revisions "OI_ARRAY" ar_revision 2 (o_arrayList o) r ;;
    r <- check_revisions "OI_WAVELENGTH" wv_revision 2 (o_wavelengthList o) r ;;
    r <- check_revisions OI_VIS tb_revision 2 (o_visList o) r ;;
    r <- check_revisions OI_VIS2 tb_revision 2 (o_vis2List o) r ;;
    r <- check_revisions OI_T3 tb_revision 2 (o_t3List o) r ;;
    r <- check_revisions OI_FLUX tb_revision 1 (o_fluxList o) r ;;
    r <- check_revisions "OI_CORR" co_revision 1 (o_corrList o) r ;;
    check_revisions OI_INSPOL is_revision 1 (o_inspolList o) r
  else
    r <- missing (o_numWavelength o =? 0)
           "No OI_WAVELENGTH table - at least one required"%string r ;;
    r <- missing ((o_numVis o =? 0) && (o_numVis2 o =? 0) && (o_numT3 o =? 0))
           "No data table - at least one OI_VIS/VIS2/T3 required"%string r ;;
    r <- breach_if (negb (ot_revision (o_targets o) =? 1)) OI_BREACH_NOT_OIFITS
           "Invalid OI_REVN" "OI_TARGET" r ;;
    r <- check_revisions "OI_ARRAY" ar_revision 1 (o_arrayList o) r ;;
    r <- check_revisions "OI_WAVELENGTH" wv_revision 1 (o_wavelengthList o) r ;;
    r <- check_revisions OI_VIS tb_revision 1 (o_visList o) r ;;
    r <- check_revisions OI_VIS2 tb_revision 1 (o_vis2List o) r ;;
    check_revisions OI_T3 tb_revision 1 (o_t3List o) r.

(** ** check_header *)

(** oicheck.c 243-314 *)
Definition check_header (o : oi_fits) : res check_result :=
  let desc := "Invalid/missing primary header keyword value"%string in
  let h := o_header o in
  let bad b text := breach_if b OI_BREACH_NOT_OIFITS desc (loc text) in
  let missing key v :=
    bad (strlen v =? 0) (key ++ " value missing from primary header")%string in
  let r := init_check_result in
  if is_oi_fits_two o then
    r <- missing "ORIGIN"%string (h_origin h) r ;;
    r <- missing "DATE"%string (h_date h) r ;;
    r <- missing "DATE-OBS"%string (h_date_obs h) r ;;
    r <- (if strlen (h_content h) =? 0 then missing "CONTENT"%string (h_content h) r
          else bad (negb (str_eqb (h_content h) "OIFITS2"))
                 ("Value of CONTENT in primary header is '" ++ h_content h
                  ++ "' not 'OIFITS2'")%string r) ;;
    r <- missing "TELESCOP"%string (h_telescop h) r ;;
    r <- missing "INSTRUME"%string (h_instrume h) r ;;
    r <- missing "OBSERVER"%string (h_observer h) r ;;
    r <- missing "INSMODE"%string (h_insmode h) r ;;
    missing "OBJECT"%string (h_object h) r
  else Ok r.

(** ** check_keywords *)

(** oicheck.c 324-406.  A CALSTAT of '\0' ends the text. *)
Definition check_keywords (o : oi_fits) : res check_result :=
  let bad b text := breach_if b OI_BREACH_NOT_OIFITS "Invalid keyword value" (loc text) in
  let ver2 := is_oi_fits_two o in
  let r := init_check_result in
  r <- each_table (o_arrayList o) (fun k a r =>
    bad (negb (str_eqb (ar_frame a) "GEOCENTRIC") && negb (str_eqb (ar_frame a) "SKY"))
      (at_table "OI_ARRAY" k ++ " FRAME='" ++ ar_frame a ++ "' ('GEOCENTRIC'/'SKY')")%string r) r ;;
  r <- each_table (o_visList o) (fun k t r =>
    let amptyp := vx_amptyp (tb_x t) in
    let phityp := vx_phityp (tb_x t) in
    r <- bad (ver2 && (strlen amptyp >? 0) && negb (str_eqb amptyp "absolute")
              && negb (str_eqb amptyp "differential") && negb (str_eqb amptyp "correlated flux"))
           (at_table OI_VIS k ++ " AMPTYP='" ++ amptyp
            ++ "' ('absolute'/'differential'/'correlated flux')")%string r ;;
    bad (ver2 && (strlen phityp >? 0) && negb (str_eqb phityp "absolute")
         && negb (str_eqb phityp "differential"))
      (at_table OI_VIS k ++ " PHITYP='" ++ phityp ++ "' ('absolute'/'differential')")%string r) r ;;
  each_table (o_fluxList o) (fun k t r =>
    let calstat := fx_calstat (tb_x t) in
    let fovtype := fx_fovtype (tb_x t) in
    r <- bad (negb (Ascii.eqb calstat "C") && negb (Ascii.eqb calstat "U"))
           (at_table OI_FLUX k ++ " CALSTAT='"
            ++ (if Ascii.eqb calstat zero then "" else String calstat "' ('C'/'U')"))%string r ;;
    bad ((strlen fovtype >? 0) && negb (str_eqb fovtype "FWHM")
         && negb (str_eqb fovtype "RADIUS"))
      (at_table OI_FLUX k ++ " FOVTYPE='" ++ fovtype ++ "' ('FWHM', 'RADIUS')")%string r) r.

(** ** check_visrefmap *)

(** oicheck.c 419-460 *)
Definition check_visrefmap (o : oi_fits) : res check_result :=
  let desc := "VISREFMAP present (missing) for absolute (differential) vis"%string in
  each_table (o_visList o) (fun k t r =>
    let amptyp := vx_amptyp (tb_x t) in
    let phityp := vx_phityp (tb_x t) in
    let text end_ := loc (at_table OI_VIS k ++ " AMPTYP='" ++ amptyp ++ "' PHITYP='" ++ phityp
                          ++ end_)%string in
    if str_eqb amptyp "differential" || str_eqb phityp "differential" then
      breach_if (negb (vx_usevisrefmap (tb_x t))) OI_BREACH_NOT_OIFITS desc
        (text "' has no VISREFMAP"%string) r
    else
      breach_if (vx_usevisrefmap (tb_x t)) OI_BREACH_WARNING desc
        (text "' has VISREFMAP"%string) r) init_check_result.

(** ** check_unique_targets *)

(** oicheck.c 470-501; idList is the list of names seen *)
Definition check_unique_targets (o : oi_fits) : res check_result :=
  s <- for_ (ot_ntarget (o_targets o)) (fun i s =>
    let '(idList, r) := s in
    t <- get (ot_targ (o_targets o)) i ;;
    if existsb (str_eqb (tg_target t)) idList then
      r <- set_result OI_BREACH_WARNING "Duplicate value in TARGET column of OI_TARGET"
             (loc ("TARGET_ID=" ++ fmt_d (tg_target_id t) ++ "  TARGET='" ++ tg_target t
                   ++ "'")%string) r ;;
      Ok (idList, r)
    else Ok (tg_target t :: idList, r)) ([], init_check_result) ;;
  Ok (snd s).

(** ** check_targets_present *)

(** one of the four loop nests of oicheck.c 511-594 *)
Definition check_target_ids {X R} (o : oi_fits) (name : string) (id : R -> Z)
  (l : list (dtab X R)) (r : check_result) : res check_result :=
  each_table l (fun k t r =>
    for_ (tb_numrec t) (fun i r =>
      rec <- get (tb_record t) i ;;
      found <- oi_fits_lookup_target o (id rec) ;;
      breach_if (is_none found) OI_BREACH_NOT_OIFITS "Reference to missing target record"
        (loc (at_record name k (i + 1))) r) r) r.
(** oicheck.c 511-594 *)
Definition check_targets_present (o : oi_fits) : res check_result :=
  r <- check_target_ids o OI_VIS vr_target_id (o_visList o) init_check_result ;;
  r <- check_target_ids o OI_VIS2 v2_target_id (o_vis2List o) r ;;
  r <- check_target_ids o OI_T3 t3_target_id (o_t3List o) r ;;
  check_target_ids o OI_FLUX fr_target_id (o_fluxList o) r.

(** ** check_arrname *)

(** g_list_position(pOi->visList, link) for a link of inspolList: -1 (lines 630 and
    743 search the wrong list) *)
Definition wrong_position : Z := -1.

(** one of the loops of oicheck.c 636-675 *)
Definition check_arrname_set {X R} (name : string) (required : dtab X R -> bool)
  (l : list (dtab X R)) (r : check_result) : res check_result :=
  each_table l (fun k t r =>
    breach_if (required t && (strlen (tb_arrname t) =? 0)) OI_BREACH_NOT_OIFITS "ARRNAME missing"
      (loc (at_table name k)) r) r.
(** oicheck.c 608-695 *)
Definition check_arrname (o : oi_fits) : res check_result :=
  let r := init_check_result in
  if is_oi_fits_two o then
    r <- foreach (o_inspolList o) (fun t r =>
      breach_if (strlen (is_arrname t) =? 0) OI_BREACH_NOT_OIFITS "ARRNAME missing"
        (loc (at_table OI_INSPOL (wrong_position + 1))) r) r ;;
    r <- check_arrname_set OI_VIS (fun _ => true) (o_visList o) r ;;
    r <- check_arrname_set OI_VIS2 (fun _ => true) (o_vis2List o) r ;;
    r <- check_arrname_set OI_T3 (fun _ => true) (o_t3List o) r ;;
    check_arrname_set OI_FLUX (fun t => Ascii.eqb (fx_calstat (tb_x t)) "U") (o_fluxList o) r
  else Ok r.

(** ** check_elements_present *)

(** The body of the loops over sta_index, e.g. oicheck.c 760-770, for one index *)
Definition check_station (o : oi_fits) (arrname : string) (location : string) (sta : Z)
  (r : check_result) : res check_result :=
  found <- oi_fits_lookup_element o arrname sta ;;
  breach_if (is_none found) OI_BREACH_NOT_OIFITS "Reference to missing array element"
    (loc location) r.

(** one of the loop nests of oicheck.c 749-842; [stations] are the entries of
    sta_index that are looked up *)
Definition check_stations {X R} (o : oi_fits) (name : string) (stations : R -> list Z)
  (l : list (dtab X R)) (r : check_result) : res check_result :=
  each_table l (fun k t r =>
    if strlen (tb_arrname t) >? 0 then
      for_ (tb_numrec t) (fun i r =>
        rec <- get (tb_record t) i ;;
        foreach (stations rec) (check_station o (tb_arrname t) (at_record name k (i + 1))) r) r
    else Ok r) r.
Definition pair_stations (s : Z * Z) : list Z := [fst s; snd s].
Definition triple_stations (s : Z * Z * Z) : list Z := [fst (fst s); snd (fst s); snd s].
(** oicheck.c 830: sta_index -1 is skipped *)
Definition flux_stations (r : flux_record) : list Z :=
  if fr_sta_index r =? -1 then [] else [fr_sta_index r].
(** oicheck.c 707-845 *)
Definition check_elements_present (o : oi_fits) : res check_result :=
  r <- each_table (o_inspolList o) (fun k t r =>
    if strlen (is_arrname t) >? 0 then
      for_ (is_numrec t) (fun i r =>
        rec <- get (is_record t) i ;;
        check_station o (is_arrname t) (at_record OI_INSPOL k (i + 1)) (ip_sta_index rec) r) r
    else
      set_result OI_BREACH_NOT_OIFITS "ARRNAME missing"
        (loc (at_table OI_INSPOL (wrong_position + 1))) r) init_check_result ;;
  r <- check_stations o OI_VIS (fun r => pair_stations (vr_sta_index r)) (o_visList o) r ;;
  r <- check_stations o OI_VIS2 (fun r => pair_stations (v2_sta_index r)) (o_vis2List o) r ;;
  r <- check_stations o OI_T3 (fun r => triple_stations (t3_sta_index r)) (o_t3List o) r ;;
  check_stations o OI_FLUX flux_stations (o_fluxList o) r.

(** ** check_corr_present *)

(** one of the loops of oicheck.c 858-931 *)
Definition check_corrnames {X R} (o : oi_fits) (name : string) (l : list (dtab X R))
  (r : check_result) : res check_result :=
  each_table l (fun k t r =>
    breach_if ((strlen (tb_corrname t) >? 0) && is_none (oi_fits_lookup_corr o (tb_corrname t)))
      OI_BREACH_NOT_OIFITS "Reference to missing OI_CORR table" (loc (at_table name k)) r) r.
(** oicheck.c 858-931 *)
Definition check_corr_present (o : oi_fits) : res check_result :=
  r <- check_corrnames o OI_VIS (o_visList o) init_check_result ;;
  r <- check_corrnames o OI_VIS2 (o_vis2List o) r ;;
  r <- check_corrnames o OI_T3 (o_t3List o) r ;;
  check_corrnames o OI_FLUX (o_fluxList o) r.

(** ** check_flagging, check_t3amp *)

(** The loop nests over channels of oicheck.c 941-1018 and 1028-1063: [bad rec j] is
    evaluated for unflagged data *)
Definition check_channels {X R} (name desc : string) (flag : R -> list bool)
  (bad : R -> Z -> res bool) (l : list (dtab X R)) (r : check_result) : res check_result :=
  each_table l (fun k t r =>
    for_ (tb_numrec t) (fun i r =>
      for_ (tb_nwave t) (fun j r =>
        rec <- get (tb_record t) i ;;
        f <- get (flag rec) j ;;
        if f : bool then Ok r
        else
          b <- bad rec j ;;
          breach_if b OI_BREACH_NOT_OIFITS desc (loc (at_channel name k (i + 1) (j + 1))) r)
        r) r) r.
(** a[j] < 0. *)
Definition negative (a : list f64) (j : Z) : res bool := x <- get a j ;; Ok (flt x f64_zero).
(** a[j] < 0. || b[j] < 0. *)
Definition negative2 (a b : list f64) (j : Z) : res bool :=
  x <- negative a j ;; if x : bool then Ok true else negative b j.
(** oicheck.c 941-1018 *)
Definition check_flagging (o : oi_fits) : res check_result :=
  let desc := "Data table contains negative error bar"%string in
  r <- check_channels OI_VIS desc vr_flag
         (fun r => negative2 (vr_visamperr r) (vr_visphierr r)) (o_visList o) init_check_result ;;
  r <- check_channels OI_VIS2 desc v2_flag (fun r => negative (v2_vis2err r)) (o_vis2List o) r ;;
  check_channels OI_T3 desc t3_flag
    (fun r => negative2 (t3_t3amperr r) (t3_t3phierr r)) (o_t3List o) r.
(** oicheck.c 1028-1063; the multiplication by 1 is exact and left out *)
Definition check_t3amp (o : oi_fits) : res check_result :=
  check_channels OI_T3 "OI_T3 table may contain unnormalised triple product amplitude" t3_flag
    (fun r j => amp <- get (t3_t3amp r) j ;; err <- get (t3_t3amperr r) j ;;
                Ok (fgt (f64_sub amp f64_one) err)) (o_t3List o) init_check_result.

(** ** check_waveorder *)

(** oicheck.c 1073-1101 *)
Definition check_waveorder (o : oi_fits) : res check_result :=
  foreach (o_wavelengthList o) (fun w r =>
    for_from (Z.to_nat (wv_nwave w - 1)) 1 (fun i r =>
      x <- get (wv_eff_wave w) i ;;
      before <- get (wv_eff_wave w) (i - 1) ;;
      bad <- (if flt x before then Ok true
              else if i + 1 <? wv_nwave w then
                after <- get (wv_eff_wave w) (i + 1) ;; Ok (fgt x after)
              else Ok false) ;;
      breach_if bad OI_BREACH_WARNING "OI_WAVELENGTH has wavelengths not in ascending order"
        (loc ("OI_WAVELENGTH INSNAME=" ++ wv_insname w ++ " channel " ++ fmt_d (i + 1))%string) r)
      r) init_check_result.

(** ** check_time *)

(** one of the loop nests of oicheck.c 1128-1177 *)
Definition check_times {X R} (name : string) (time : R -> f64) (l : list (dtab X R))
  (r : check_result) : res check_result :=
  each_table l (fun k t r =>
    for_ (tb_numrec t) (fun i r =>
      rec <- get (tb_record t) i ;;
      breach_if (fgt (fabs (time rec)) c_1em10) OI_BREACH_WARNING
        "Non-zero TIME values in OIFITS v2 data table" (loc (at_record name k (i + 1))) r) r) r.
(** oicheck.c 1113-1180 *)
Definition check_time (o : oi_fits) : res check_result :=
  let r := init_check_result in
  if is_oi_fits_two o then
    r <- check_times OI_VIS vr_time (o_visList o) r ;;
    r <- check_times OI_VIS2 v2_time (o_vis2List o) r ;;
    check_times OI_T3 t3_time (o_t3List o) r
  else Ok r.

(** ** check_flux *)

(** oicheck.c 1194-1254 *)
Definition check_flux (o : oi_fits) : res check_result :=
  let desc := "ARRNAME/STA_INDEX/FOVTYPE present (missing) in (un)calibrated fluxes"%string in
  each_table (o_fluxList o) (fun k t r =>
    let bad b text :=
      breach_if b OI_BREACH_NOT_OIFITS desc (loc (at_table OI_FLUX k ++ text)%string) in
    if Ascii.eqb (fx_calstat (tb_x t)) "C" then
      r <- bad (strlen (tb_arrname t) >? 0)
             (" Calibrated but ARRNAME='" ++ tb_arrname t ++ "'")%string r ;;
      rec <- get (tb_record t) 0 ;;
      bad (negb (fr_sta_index rec =? -1)) " Calibrated but STA_INDEX present"%string r
    else if Ascii.eqb (fx_calstat (tb_x t)) "U" then
      r <- bad (strlen (tb_arrname t) =? 0) " Uncalibrated but ARRNAME missing"%string r ;;
      rec <- get (tb_record t) 0 ;;
      r <- bad (fr_sta_index rec =? -1) " Uncalibrated but STA_INDEX missing"%string r ;;
      bad (strlen (fx_fovtype (tb_x t)) >? 0) " Uncalibrated but FOVTYPE present"%string r
    else Ok r) init_check_result.
