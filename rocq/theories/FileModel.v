(** Model of oifile.c, except file input/output (see FitsModel.v). *)
From Verif Require Export Types DateModel.

(** ** Tables by name *)

(** GList search loops, oifile.c 47-60, 65-78, 83-96: first table with the given
    name, or NULL. *)
Fixpoint find_by {A} (name_of : A -> string) (l : list A) (name : string) : option A :=
  match l with
  | [] => None
  | a :: l' => if str_eqb (name_of a) name then Some a else find_by name_of l' name
  end.
(** oifile.c 47-60 *)
Definition find_oi_array (o : oi_fits) (name : string) : option oi_array :=
  find_by ar_arrname (o_arrayList o) name.
(** oifile.c 65-78 *)
Definition find_oi_wavelength (o : oi_fits) (name : string) : option oi_wavelength :=
  find_by wv_insname (o_wavelengthList o) name.
(** oifile.c 83-96 *)
Definition find_oi_corr (o : oi_fits) (name : string) : option oi_corr :=
  find_by co_corrname (o_corrList o) name.

(** oifile.c 105-115, get_min_wavelength; 1.0e11 is stored in a float *)
Definition get_min_wavelength (w : oi_wavelength) : res f32 :=
  for_ (wv_nwave w) (fun i m =>
    x <- get (wv_eff_wave w) i ;; Ok (if flt x m then x else m))
    (to_f32 (f64_of_Z 100000000000)).
(** oifile.c 124-134, get_max_wavelength *)
Definition get_max_wavelength (w : oi_wavelength) : res f32 :=
  for_ (wv_nwave w) (fun i m =>
    x <- get (wv_eff_wave w) i ;; Ok (if fgt x m then x else m))
    (S754_zero false).

(** One of the four loops of get_min_mjd/get_max_mjd: [better x m] replaces the
    running extreme [m] by [x]. *)
Definition scan_mjd {X R} (mjd : R -> f64) (better : f64 -> f64 -> bool)
  (l : list (dtab X R)) (m : f64) : res f64 :=
  foreach l (fun t m =>
    for_ (tb_numrec t) (fun i m =>
      r <- get (tb_record t) i ;; Ok (if better (mjd r) m then mjd r else m)) m) m.

(** oifile.c 218-270 *)
Definition get_min_mjd (o : oi_fits) : res f64 :=
  m1 <- scan_mjd vr_mjd flt (o_visList o) (f64_of_Z 100000) ;;
  m2 <- scan_mjd v2_mjd flt (o_vis2List o) m1 ;;
  m3 <- scan_mjd t3_mjd flt (o_t3List o) m2 ;;
  scan_mjd fr_mjd flt (o_fluxList o) m3.

(** oifile.c 275-327 *)
Definition get_max_mjd (o : oi_fits) : res f64 :=
  m1 <- scan_mjd vr_mjd fgt (o_visList o) (f64_of_Z 0) ;;
  m2 <- scan_mjd v2_mjd fgt (o_vis2List o) m1 ;;
  m3 <- scan_mjd t3_mjd fgt (o_t3List o) m2 ;;
  scan_mjd fr_mjd fgt (o_fluxList o) m3.

(** ** Public functions *)

Definition empty_header : oi_header := mk_header "" "" "" "" "" "" "" "" "" "" "" "" "" "".

(** oifile.c 338-380, init_oi_fits; OI_REVN_V2_TARGET = 2 *)
Definition init_oi_fits : oi_fits :=
  mk_fits empty_header (mk_oi_target 2 0 [] false) 0 0 0 0 0 0 0 0
    [] [] [] [] [] [] [] [] hash_new hash_new hash_new.

(** RETURN_VAL_IF_BAD_TAB_REVISION, oifile.c 382-394: false at the first table
    with another revision *)
Fixpoint all_revision {A} (rev_of : A -> Z) (rev : Z) (l : list A) : bool :=
  match l with
  | [] => true
  | a :: l' => if rev_of a =? rev then all_revision rev_of rev l' else false
  end.

(** oifile.c 412-426 *)
Definition is_oi_fits_one (o : oi_fits) : bool :=
  if str_eqb (h_content (o_header o)) "OIFITS2" then false
  else if negb (ot_revision (o_targets o) =? 1) then false
  else all_revision ar_revision 1 (o_arrayList o)
    && all_revision wv_revision 1 (o_wavelengthList o)
    && all_revision tb_revision 1 (o_visList o)
    && all_revision tb_revision 1 (o_vis2List o)
    && all_revision tb_revision 1 (o_t3List o).

(** oifile.c 438-442 *)
Definition is_oi_fits_two (o : oi_fits) : bool :=
  str_eqb (h_content (o_header o)) "OIFITS2".

(** oifile.c 454-468 *)
Definition is_atomic (o : oi_fits) (maxDays : f64) : res bool :=
  if o_numArray o >? 1 then Ok false
  else if negb (o_numWavelength o =? 1) then Ok false
  else if negb (ot_ntarget (o_targets o) =? 1) then Ok false
  else
    minMjd <- get_min_mjd o ;;
    maxMjd <- get_max_mjd o ;;
    if fgt (fabs (f64_sub maxMjd minMjd)) maxDays then Ok false else Ok true.

(** One loop nest of count_oi_fits_data *)
Definition count_list {X R} (flag : R -> list bool) (l : list (dtab X R)) : res Z :=
  foreach l (fun t n =>
    for_ (tb_numrec t) (fun j n =>
      for_ (tb_nwave t) (fun i n =>
        r <- get (tb_record t) j ;;
        f <- get (flag r) i ;;
        Ok (if f then n else n + 1)) n) n) 0.

(** oifile.c 480-541: counts of unflagged data (vis, vis2, t3).  Storing through
    the optional return pointers is not modelled. *)
Definition count_oi_fits_data (o : oi_fits) : res (Z * Z * Z) :=
  a <- count_list vr_flag (o_visList o) ;;
  b <- count_list v2_flag (o_vis2List o) ;;
  c <- count_list t3_flag (o_t3List o) ;;
  Ok (a, b, c).

Definition head_res {A} (l : list A) : res A :=
  match l with [] => UB | a :: _ => Ok a end.

(** "%4ld-%02ld-%02ld" *)
Definition format_date (ymd : Z * Z * Z) : string :=
  let '(y, m, d) := ymd in
  (fmt_wd 4 y ++ "-" ++ fmt_0wd 2 m ++ "-" ++ fmt_0wd 2 d)%string.

(** oifile.c 564-616: new header of the dataset *)
Definition set_oi_header (o : oi_fits) : res oi_header :=
  let h := o_header o in
  telescop <-
    (if o_numArray o =? 0 then Ok "UNKNOWN"%string
     else if o_numArray o =? 1 then
       a <- head_res (o_arrayList o) ;; Ok (strlcpy FLEN_VALUE (ar_arrname a))
     else Ok "MULTIPLE"%string) ;;
  instrume <-
    (if o_numWavelength o =? 1 then
       w <- head_res (o_wavelengthList o) ;; Ok (strlcpy FLEN_VALUE (wv_insname w))
     else Ok "MULTIPLE"%string) ;;
  object <-
    (if ot_ntarget (o_targets o) =? 1 then
       t <- get (ot_targ (o_targets o)) 0 ;; Ok (strlcpy FLEN_VALUE (tg_target t))
     else Ok "MULTIPLE"%string) ;;
  minMjd <- get_min_mjd o ;;
  match floor_Z minMjd with
  | None => UB (* conversion of NaN or infinity to long *)
  | Some day =>
      Ok (mk_header "UNKNOWN" (h_date h)
            (strlcpy FLEN_VALUE (format_date (mjd2date day)))
            (h_content h) telescop instrume "UNKNOWN" "UNKNOWN" object
            (h_referenc h) (h_author h) (h_prog_id h) (h_procsoft h) (h_obstech h))
  end.

(** ** Lookups, oifile.c 1022-1118 *)

(** oifile.c 1022-1025 *)
Definition oi_fits_lookup_array (o : oi_fits) (name : string) : option oi_array :=
  hash_lookup (o_arrayHash o) name.
(** oifile.c 1060-1064 *)
Definition oi_fits_lookup_wavelength (o : oi_fits) (name : string) : option oi_wavelength :=
  hash_lookup (o_wavelengthHash o) name.
(** oifile.c 1074-1077 *)
Definition oi_fits_lookup_corr (o : oi_fits) (name : string) : option oi_corr :=
  hash_lookup (o_corrHash o) name.

(** "for (i = 0; i < n; i++) if (p(a[i])) return &a[i]; return NULL;" *)
Fixpoint search_from {A} (n : nat) (i : Z) (l : list A) (p : A -> bool) : res (option A) :=
  match n with
  | O => Ok None
  | S n' => a <- get l i ;; if p a then Ok (Some a) else search_from n' (i + 1) l p
  end.
Definition search {A} (n : Z) (l : list A) (p : A -> bool) : res (option A) :=
  search_from (Z.to_nat n) 0 l p.

(** oifile.c 1036-1050 *)
Definition oi_fits_lookup_element (o : oi_fits) (arrname : string) (staIndex : Z)
  : res (option element) :=
  match oi_fits_lookup_array o arrname with
  | None => Ok None
  | Some a => search (ar_nelement a) (ar_elem a) (fun e => el_sta_index e =? staIndex)
  end.

(** oifile.c 1087-1098 *)
Definition oi_fits_lookup_target (o : oi_fits) (targetId : Z) : res (option target) :=
  search (ot_ntarget (o_targets o)) (ot_targ (o_targets o))
    (fun t => tg_target_id t =? targetId).

(** oifile.c 1108-1118 *)
Definition oi_fits_lookup_target_by_name (o : oi_fits) (name : string) : res (option target) :=
  search (ot_ntarget (o_targets o)) (ot_targ (o_targets o))
    (fun t => str_eqb (tg_target t) name).

(** ** Deep copies *)

(** MEMDUP of [n] elements, oifile.h 58-63: chkmalloc aborts for size 0; memcpy
    reads [n] elements. *)
Definition memdup {A} (n : Z) (l : list A) : res (list A) :=
  do chkmalloc n ;;
  if Z.of_nat (List.length l) <? n then UB else Ok (firstn (Z.to_nat n) l).
Definition memdup_ptr {A} (n : Z) (o : option (list A)) : res (option (list A)) :=
  match o with
  | None => do chkmalloc n ;; UB (* memcpy from NULL *)
  | Some l => l' <- memdup n l ;; Ok (Some l')
  end.

(** Loop over records [0..n): the output array holds the transformed records *)
Definition map_records {R} (n : Z) (l : list R) (f : R -> res R) : res (list R) :=
  for_ n (fun i out => r <- get l i ;; r' <- f r ;; Ok (out ++ [r'])) [].

(** oifile.c 1202-1210 *)
Definition dup_oi_target (t : oi_target) : res oi_target :=
  targ <- memdup (ot_ntarget t) (ot_targ t) ;;
  Ok (mk_oi_target (ot_revision t) (ot_ntarget t) targ (ot_usecategory t)).

(** oifile.c 1218-1226 *)
Definition dup_oi_array (a : oi_array) : res oi_array :=
  elem <- memdup (ar_nelement a) (ar_elem a) ;;
  Ok (mk_array (ar_revision a) (ar_arrname a) (ar_frame a) (ar_arrayx a) (ar_arrayy a)
        (ar_arrayz a) (ar_nelement a) elem).

(** oifile.c 1235-1245 *)
Definition dup_oi_wavelength (w : oi_wavelength) : res oi_wavelength :=
  eff_wave <- memdup (wv_nwave w) (wv_eff_wave w) ;;
  eff_band <- memdup (wv_nwave w) (wv_eff_band w) ;;
  Ok (mk_wavelength (wv_revision w) (wv_insname w) (wv_nwave w) eff_wave eff_band).

(** oifile.c 1254-1265 *)
Definition dup_oi_corr (c : oi_corr) : res oi_corr :=
  iindx <- memdup (co_ncorr c) (co_iindx c) ;;
  jindx <- memdup (co_ncorr c) (co_jindx c) ;;
  corr <- memdup (co_ncorr c) (co_corr c) ;;
  Ok (mk_corr (co_revision c) (co_corrname c) (co_ndata c) (co_ncorr c) iindx jindx corr).

(** oifile.c 1274-1293 *)
Definition dup_oi_inspol (t : oi_inspol) : res oi_inspol :=
  record0 <- memdup (is_numrec t) (is_record t) ;;
  let n := is_nwave t in
  record <- map_records (is_numrec t) record0 (fun r =>
    jxx <- memdup n (ip_jxx r) ;; jyy <- memdup n (ip_jyy r) ;;
    jxy <- memdup n (ip_jxy r) ;; jyx <- memdup n (ip_jyx r) ;;
    Ok (mk_inspol_record (ip_target_id r) (ip_insname r) (ip_mjd_obs r) (ip_mjd_end r)
          jxx jyy jxy jyx (ip_sta_index r))) ;;
  Ok (mk_inspol (is_revision t) (is_date_obs t) (is_npol t) (is_arrname t) (is_orient t)
        (is_model t) (is_numrec t) (is_nwave t) record).

(** oifile.c 1313-1340: one record of an OI_VIS table.  Line 1338 copies rviserr
    into iviserr. *)
Definition dup_vis_record (x : vis_extra) (n : Z) (r : vis_record) : res vis_record :=
  visamp <- memdup n (vr_visamp r) ;; visamperr <- memdup n (vr_visamperr r) ;;
  visphi <- memdup n (vr_visphi r) ;; visphierr <- memdup n (vr_visphierr r) ;;
  flag <- memdup n (vr_flag r) ;;
  visrefmap <- (if vx_usevisrefmap x then memdup_ptr (n * n) (vr_visrefmap r)
                else Ok (vr_visrefmap r)) ;;
  rvis <- (if vx_usecomplex x then memdup_ptr n (vr_rvis r) else Ok (vr_rvis r)) ;;
  rviserr <- (if vx_usecomplex x then memdup_ptr n (vr_rviserr r) else Ok (vr_rviserr r)) ;;
  ivis <- (if vx_usecomplex x then memdup_ptr n (vr_ivis r) else Ok (vr_ivis r)) ;;
  iviserr <- (if vx_usecomplex x then memdup_ptr n (vr_rviserr r) else Ok (vr_iviserr r)) ;;
  Ok (mk_vis_record (vr_target_id r) (vr_time r) (vr_mjd r) (vr_int_time r) visamp visamperr
        (vr_corrindx_visamp r) visphi visphierr (vr_corrindx_visphi r) visrefmap rvis rviserr
        (vr_corrindx_rvis r) ivis iviserr (vr_corrindx_ivis r) (vr_ucoord r) (vr_vcoord r)
        (vr_sta_index r) flag).

(** oifile.c 1363-1370: one record *)
Definition dup_vis2_record (n : Z) (r : vis2_record) : res vis2_record :=
  vis2data <- memdup n (v2_vis2data r) ;; vis2err <- memdup n (v2_vis2err r) ;;
  flag <- memdup n (v2_flag r) ;;
  Ok (mk_vis2_record (v2_target_id r) (v2_time r) (v2_mjd r) (v2_int_time r) vis2data vis2err
        (v2_corrindx_vis2data r) (v2_ucoord r) (v2_vcoord r) (v2_sta_index r) flag).

(** oifile.c 1393-1404: one record *)
Definition dup_t3_record (n : Z) (r : t3_record) : res t3_record :=
  t3amp <- memdup n (t3_t3amp r) ;; t3amperr <- memdup n (t3_t3amperr r) ;;
  t3phi <- memdup n (t3_t3phi r) ;; t3phierr <- memdup n (t3_t3phierr r) ;;
  flag <- memdup n (t3_flag r) ;;
  Ok (mk_t3_record (t3_target_id r) (t3_time r) (t3_mjd r) (t3_int_time r) t3amp t3amperr
        (t3_corrindx_t3amp r) t3phi t3phierr (t3_corrindx_t3phi r) (t3_u1coord r) (t3_v1coord r)
        (t3_u2coord r) (t3_v2coord r) (t3_sta_index r) flag).

(** oifile.c 1427-1434: one record *)
Definition dup_flux_record (n : Z) (r : flux_record) : res flux_record :=
  fluxdata <- memdup n (fr_fluxdata r) ;; fluxerr <- memdup n (fr_fluxerr r) ;;
  flag <- memdup n (fr_flag r) ;;
  Ok (mk_flux_record (fr_target_id r) (fr_mjd r) (fr_int_time r) fluxdata fluxerr
        (fr_corrindx_fluxdata r) (fr_sta_index r) flag).

(** Common shape of dup_oi_vis/vis2/t3/flux *)
Definition dup_dtab {X R} (dup_record : Z -> R -> res R) (t : dtab X R) : res (dtab X R) :=
  record0 <- memdup (tb_numrec t) (tb_record t) ;;
  record <- map_records (tb_numrec t) record0 (dup_record (tb_nwave t)) ;;
  Ok (mk_dtab (tb_revision t) (tb_date_obs t) (tb_arrname t) (tb_insname t) (tb_corrname t)
        (tb_x t) (tb_numrec t) (tb_nwave t) record).
(** oifile.c 1302-1343 *)
Definition dup_oi_vis (t : oi_vis) : res oi_vis := dup_dtab (dup_vis_record (tb_x t)) t.
(** oifile.c 1352-1373 *)
Definition dup_oi_vis2 (t : oi_vis2) : res oi_vis2 := dup_dtab dup_vis2_record t.
(** oifile.c 1382-1407 *)
Definition dup_oi_t3 (t : oi_t3) : res oi_t3 := dup_dtab dup_t3_record t.
(** oifile.c 1416-1437 *)
Definition dup_oi_flux (t : oi_flux) : res oi_flux := dup_dtab dup_flux_record t.

(** ** Upgrades to OIFITS v2 *)

(** oifile.c 1444-1447 *)
Definition upgrade_oi_target (t : oi_target) : oi_target :=
  if ot_revision t =? 1 then ot_set_revision 2 t else t.
(** oifile.c 1454-1458 *)
Definition upgrade_oi_wavelength (w : oi_wavelength) : oi_wavelength :=
  if wv_revision w =? 1 then wv_set_revision 2 w else w.
(** oifile.c 1465-1468 *)
Definition upgrade_oi_array (a : oi_array) : oi_array :=
  if ar_revision a =? 1 then ar_set_revision 2 a else a.

(** [for (i = 0; i < n; i++) record[i] = f(record[i])] in place *)
Fixpoint list_set {A} (l : list A) (n : nat) (v : A) : option (list A) :=
  match l, n with
  | [], _ => None
  | _ :: l', O => Some (v :: l')
  | a :: l', S n' => match list_set l' n' v with Some l'' => Some (a :: l'') | None => None end
  end.
Definition put {A} (l : list A) (i : Z) (v : A) : res (list A) :=
  if i <? 0 then UB
  else match list_set l (Z.to_nat i) v with Some l' => Ok l' | None => UB end.
Definition update_records {R} (n : Z) (f : R -> res R) (l : list R) : res (list R) :=
  for_ n (fun i l => r <- get l i ;; r' <- f r ;; put l i r') l.

(** Common shape of upgrade_oi_vis/vis2/t3 *)
Definition upgrade_dtab {X R} (set_time : f64 -> R -> R) (t : dtab X R) : res (dtab X R) :=
  if tb_revision t =? 1 then
    record <- update_records (tb_numrec t) (fun r => Ok (set_time f64_zero r)) (tb_record t) ;;
    Ok (set_record record (set_revision 2 t))
  else Ok t.
(** oifile.c 1477-1487 *)
Definition upgrade_oi_vis (t : oi_vis) : res oi_vis := upgrade_dtab vr_set_time t.
(** oifile.c 1496-1506 *)
Definition upgrade_oi_vis2 (t : oi_vis2) : res oi_vis2 := upgrade_dtab v2_set_time t.
(** oifile.c 1515-1525 *)
Definition upgrade_oi_t3 (t : oi_t3) : res oi_t3 := upgrade_dtab t3_set_time t.

(** ** Indexing of tables by read_oi_fits (oifile.c 684-976)

    The name tables are filled while the data tables are appended; by then
    arrayList, wavelengthList and corrList are complete. *)

Record name_index := mk_index {
  ix_array : hash oi_array; ix_wavelength : hash oi_wavelength; ix_corr : hash oi_corr }.

(** "if (!g_hash_table_lookup(h, name)) g_hash_table_insert(h, name, find(name))" *)
Definition hash_cache {V} (h : hash V) (name : string) (found : option V) : hash V :=
  match hash_lookup h name with
  | Some _ => h
  | None => hash_insert h name found
  end.

Section Index.
Variables (arrays : list oi_array) (waves : list oi_wavelength) (corrs : list oi_corr).

Definition cache_arrname (name : string) (h : hash oi_array) : hash oi_array :=
  if nonempty name then hash_cache h name (find_by ar_arrname arrays name) else h.
Definition cache_insname (name : string) (h : hash oi_wavelength) : hash oi_wavelength :=
  hash_cache h name (find_by wv_insname waves name).
Definition cache_corrname (name : string) (h : hash oi_corr) : hash oi_corr :=
  if nonempty name then hash_cache h name (find_by co_corrname corrs name) else h.

(** after appending an OI_VIS (832-846), OI_VIS2 (873-887) or OI_T3 (914-928) *)
Definition index_table {X R} (ix : name_index) (t : dtab X R) : name_index :=
  mk_index (cache_arrname (tb_arrname t) (ix_array ix))
           (cache_insname (tb_insname t) (ix_wavelength ix))
           (cache_corrname (tb_corrname t) (ix_corr ix)).
(** after appending an OI_FLUX (955-963): CORRNAME is not indexed *)
Definition index_flux (ix : name_index) (t : oi_flux) : name_index :=
  mk_index (cache_arrname (tb_arrname t) (ix_array ix))
           (cache_insname (tb_insname t) (ix_wavelength ix))
           (ix_corr ix).

Definition index_all (vis : list oi_vis) (vis2 : list oi_vis2) (t3 : list oi_t3)
  (flux : list oi_flux) : name_index :=
  let ix0 := mk_index hash_new hash_new hash_new in
  let ix1 := fold_left index_table vis ix0 in
  let ix2 := fold_left index_table vis2 ix1 in
  let ix3 := fold_left index_table t3 ix2 in
  fold_left index_flux flux ix3.
End Index.

Definition set_header (h : oi_header) (o : oi_fits) : oi_fits :=
  mk_fits h (o_targets o) (o_numArray o) (o_numWavelength o) (o_numCorr o) (o_numInspol o)
    (o_numVis o) (o_numVis2 o) (o_numT3 o) (o_numFlux o) (o_arrayList o) (o_wavelengthList o)
    (o_corrList o) (o_inspolList o) (o_visList o) (o_vis2List o) (o_t3List o) (o_fluxList o)
    (o_arrayHash o) (o_wavelengthHash o) (o_corrHash o).

(** The dataset read_oi_fits builds from the tables it managed to read
    (oifile.c 704-966), given those tables in file order. *)
Definition assemble (h : oi_header) (tg : oi_target) (arrays : list oi_array)
  (waves : list oi_wavelength) (corrs : list oi_corr) (inspols : list oi_inspol)
  (vis : list oi_vis) (vis2 : list oi_vis2) (t3 : list oi_t3) (flux : list oi_flux)
  : res oi_fits :=
  let ix := index_all arrays waves corrs vis vis2 t3 flux in
  let n {A} (l : list A) := Z.of_nat (List.length l) in
  let o := mk_fits h tg (n arrays) (n waves) (n corrs) (n inspols) (n vis) (n vis2) (n t3)
             (n flux) arrays waves corrs inspols vis vis2 t3 flux
             (ix_array ix) (ix_wavelength ix) (ix_corr ix) in
  if is_oi_fits_two o then Ok o
  else h' <- set_oi_header o ;; Ok (set_header h' o).
