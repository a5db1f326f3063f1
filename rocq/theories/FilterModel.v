(** Model of oifilter.c (command-line option parsing and printing of a filter
    specification excepted). *)
From Verif Require Export FileModel.

(** ** Storage that is filled piecewise *)

(** Memory block of which some cells have not been written yet ([None]) *)
Definition buffer (A : Type) := list (option A).
(** chkmalloc(n * size) *)
Definition alloc {A} (n : Z) : res (buffer A) :=
  do chkmalloc n ;; Ok (repeat None (Z.to_nat n)).
(** [b[i] = v] *)
Definition write {A} (b : buffer A) (i : Z) (v : A) : res (buffer A) := put b i (Some v).
(** The array a caller will read from the block.  A cell left unwritten makes
    the outcome [UB]: the C function itself returns normally, but what the caller
    then reads is indeterminate. *)
Fixpoint contents {A} (b : buffer A) : res (list A) :=
  match b with
  | [] => Ok []
  | Some a :: b' => l <- contents b' ;; Ok (a :: l)
  | None :: _ => UB
  end.
(** realloc to a smaller size keeps the first [n] cells *)
Definition shrink {A} (n : Z) (b : buffer A) : buffer A := firstn (Z.to_nat n) b.

(** Loop with early exit: [for (i = 0; i < n; i++) if (body(i)) return TRUE;
    return FALSE;] *)
Fixpoint any_from (n : nat) (i : Z) (body : Z -> res bool) : res bool :=
  match n with
  | O => Ok false
  | S n' => b <- body i ;; if b then Ok true else any_from n' (i + 1) body
  end.
Definition any_ (n : Z) (body : Z -> res bool) : res bool := any_from (Z.to_nat n) 0 body.

(** ** Filter specification *)

(** oifilter.h 73-97; the int accept_* fields are used as booleans; a compiled
    GPatternSpec is represented by the pattern it was compiled from. *)
Record filter_spec := mk_filter {
  f_arrname : string; f_insname : string; f_corrname : string;
  f_target_id : Z;
  f_mjd_lo : f64; f_mjd_hi : f64; f_wave_lo : f32; f_wave_hi : f32;
  f_bas_lo : f64; f_bas_hi : f64; f_uvrad_lo : f64; f_uvrad_hi : f64;
  f_snr_lo : f32; f_snr_hi : f32;
  f_accept_vis : bool; f_accept_vis2 : bool; f_accept_t3amp : bool;
  f_accept_t3phi : bool; f_accept_flux : bool; f_accept_flagged : bool;
  f_arrname_pttn : option string; f_insname_pttn : option string;
  f_corrname_pttn : option string }.

Definition set_pttns (a i c : option string) (f : filter_spec) : filter_spec :=
  mk_filter (f_arrname f) (f_insname f) (f_corrname f) (f_target_id f) (f_mjd_lo f) (f_mjd_hi f)
    (f_wave_lo f) (f_wave_hi f) (f_bas_lo f) (f_bas_hi f) (f_uvrad_lo f) (f_uvrad_hi f)
    (f_snr_lo f) (f_snr_hi f) (f_accept_vis f) (f_accept_vis2 f) (f_accept_t3amp f)
    (f_accept_t3phi f) (f_accept_flux f) (f_accept_flagged f) a i c.

(** oifilter.c 488-514; 1e-4 and the SNR limits are stored in floats *)
Definition init_oi_filter : filter_spec :=
  mk_filter "*" "*" "*" (-1)
    (f64_of_Z 0) (f64_of_Z 10000000)
    (to_f32 (f64_of_Z 0)) (to_f32 (f64_ratio 1 10000))
    (f64_of_Z 0) (f64_of_Z 10000)
    (f64_of_Z 0) (f64_of_Z 100000000000)
    (to_f32 (f64_of_Z (-5))) (to_f32 (f64_of_Z 10000000000))
    true true true true true true None None None.

(** g_pattern_match_string (glib): '*' matches any string, '?' any one character,
    other characters themselves.  Bytes, so '?' is exact for single-byte
    characters only. *)
Fixpoint glob (p s : string) {struct p} : bool :=
  match p with
  | EmptyString => is_empty s
  | String c p' =>
      if Ascii.eqb c "*"%char then
        (fix star (s : string) : bool :=
           glob p' s || match s with EmptyString => false | String _ s' => star s' end) s
      else match s with
           | EmptyString => false
           | String d s' => (Ascii.eqb c "?"%char || Ascii.eqb c d) && glob p' s'
           end
  end.
Definition match_pttn (p : option string) (s : string) : bool :=
  match p with None => true | Some p => glob p s end.
(** ACCEPT_ARRNAME, ACCEPT_INSNAME, ACCEPT_CORRNAME, oifilter.c 584-594 *)
Definition accept_arrname (f : filter_spec) (name : string) : bool := match_pttn (f_arrname_pttn f) name.
Definition accept_insname (f : filter_spec) (name : string) : bool := match_pttn (f_insname_pttn f) name.
Definition accept_corrname (f : filter_spec) (name : string) : bool := match_pttn (f_corrname_pttn f) name.

(** [x < lo || x > hi] *)
Definition outside (lo hi x : spec_float) : bool := flt x lo || fgt x hi.

(** ** OI_TARGET, OI_ARRAY, OI_CORR *)

(** oifilter.c 618-645, on the output table [out] prepared by init_oi_fits.
    alloc_oi_target: alloc_fits.c 51-55 *)
Definition filter_oi_target (t : oi_target) (f : filter_spec) (out : oi_target) : res oi_target :=
  if 0 <=? f_target_id f then
    for_ (ot_ntarget t) (fun i out =>
      x <- get (ot_targ t) i ;;
      if tg_target_id x =? f_target_id f then
        Ok (mk_oi_target (ot_revision out) 1 [tg_set_target_id 1 x] (ot_usecategory out))
      else Ok out)
      (mk_oi_target (ot_revision t) 0 (ot_targ out) (ot_usecategory out))
  else
    targ <- memdup (ot_ntarget t) (ot_targ t) ;;
    Ok (mk_oi_target (ot_revision t) (ot_ntarget t) targ (ot_usecategory t)).

(** oifilter.c 656-677 (OI_ARRAY) and 786-807 (OI_CORR): accepted tables are
    duplicated, appended to the output list, counted and indexed. *)
Definition filter_copied {A} (name_of : A -> string) (accept : string -> bool)
  (dup : A -> res A) (l : list A) : res (list A * Z * hash A) :=
  foreach l (fun a '(out, n, h) =>
    if accept (name_of a) then
      a' <- dup a ;; Ok (out ++ [a'], n + 1, hash_insert h (name_of a') (Some a'))
    else Ok (out, n, h)) ([], 0, hash_new).
(** oifilter.c 656-677 *)
Definition filter_all_oi_array (o : oi_fits) (f : filter_spec) :=
  filter_copied ar_arrname (accept_arrname f) dup_oi_array (o_arrayList o).
(** oifilter.c 786-807 *)
Definition filter_all_oi_corr (o : oi_fits) (f : filter_spec) :=
  filter_copied co_corrname (accept_corrname f) dup_oi_corr (o_corrList o).

(** ** OI_WAVELENGTH *)

(** oifilter.c 741-775; returns the output table and the array useWave, for which
    the caller has allocated nwave cells (line 706) *)
Definition filter_oi_wavelength (w : oi_wavelength) (lo hi : f32) (useWave0 : buffer bool)
  : res (oi_wavelength * list bool) :=
  eff_wave0 <- alloc (wv_nwave w) ;;
  eff_band0 <- alloc (wv_nwave w) ;;
  r <- for_ (wv_nwave w) (fun i '(n, ew, eb, use) =>
         x <- get (wv_eff_wave w) i ;;
         if outside lo hi x then
           use' <- write use i false ;; Ok (n, ew, eb, use')
         else
           use' <- write use i true ;;
           ew' <- write ew n x ;;
           b <- get (wv_eff_band w) i ;;
           eb' <- write eb n b ;;
           Ok (n + 1, ew', eb', use'))
         (0, eff_wave0, eff_band0, useWave0) ;;
  let '(n, ew, eb, use) := r in
  let ew := if n <? wv_nwave w then shrink n ew else ew in
  let eb := if n <? wv_nwave w then shrink n eb else eb in
  eff_wave <- contents ew ;;
  eff_band <- contents eb ;;
  useWave <- contents use ;;
  Ok (mk_wavelength (wv_revision w) (strlcpy FLEN_VALUE (wv_insname w)) n eff_wave eff_band, useWave).

(** oifilter.c 690-730; last component: useWaveHash *)
Definition filter_all_oi_wavelength (o : oi_fits) (f : filter_spec)
  : res (list oi_wavelength * Z * hash oi_wavelength * hash (list bool)) :=
  foreach (o_wavelengthList o) (fun w '(out, n, h, uh) =>
    if accept_insname f (wv_insname w) then
      use0 <- alloc (wv_nwave w) ;;
      r <- filter_oi_wavelength w (f_wave_lo f) (f_wave_hi f) use0 ;;
      let '(w', use) := r in
      if 0 <? wv_nwave w' then
        Ok (out ++ [w'], n + 1, hash_insert h (wv_insname w') (Some w'),
            hash_insert uh (wv_insname w) (Some use))
      else Ok (out, n, h, hash_insert uh (wv_insname w) None)
    else Ok (out, n, h, uh)) ([], 0, hash_new, hash_new).

(** ** OI_INSPOL *)

(** Lines 892-912: copy the accepted channels of one vector pair into blocks of
    [cap] cells; the result is the blocks and the number [k] of channels copied *)
Definition inspol_copy (r : inspol_record) (useWave : list bool) (nwaveIn cap : Z)
  : res (buffer cplx * buffer cplx * buffer cplx * buffer cplx * Z) :=
  xx0 <- alloc cap ;; yy0 <- alloc cap ;; xy0 <- alloc cap ;; yx0 <- alloc cap ;;
  for_ nwaveIn (fun j '(xx, yy, xy, yx, k) =>
    u <- get useWave j ;;
    if u : bool then
      a <- get (ip_jxx r) j ;; xx' <- write xx k a ;;
      b <- get (ip_jyy r) j ;; yy' <- write yy k b ;;
      c <- get (ip_jxy r) j ;; xy' <- write xy k c ;;
      d <- get (ip_jyx r) j ;; yx' <- write yx k d ;;
      Ok (xx', yy', xy', yx', k + 1)
    else Ok (xx, yy, xy, yx, k)) (xx0, yy0, xy0, yx0, 0).

(** oifilter.c 859-931.  State of the loop: output records so far (nrec is their
    number) and the output table's nwave *)
Definition filter_oi_inspol (t : oi_inspol) (f : filter_spec) (uh : hash (list bool))
  : res oi_inspol :=
  do chkmalloc (is_numrec t) ;;
  r <- for_ (is_numrec t) (fun i s =>
    r <- get (is_record t) i ;;
    let '(out, nwave) := s in
    if (0 <=? f_target_id f) && negb (ip_target_id r =? f_target_id f) then Ok (out, nwave)
    else if negb (accept_insname f (ip_insname r)) then Ok (out, nwave)
    else if flt (ip_mjd_end r) (f_mjd_lo f) || fgt (ip_mjd_obs r) (f_mjd_hi f) then Ok (out, nwave)
    else match hash_lookup uh (ip_insname r) with
    | None => Ok (out, nwave)
    | Some useWave =>
        c <- inspol_copy r useWave (is_nwave t) nwave ;;
        let '(xx, yy, xy, yx, k) := c in
        let first := match out with [] => true | _ => false end && (k <? nwave) in
        let nwave' := if first then k else nwave in
        let fit b := if first then shrink k b else b in
        jxx <- contents (fit xx) ;; jyy <- contents (fit yy) ;;
        jxy <- contents (fit xy) ;; jyx <- contents (fit yx) ;;
        let tid := if 0 <=? f_target_id f then 1 else ip_target_id r in
        Ok (out ++ [mk_inspol_record tid (ip_insname r) (ip_mjd_obs r) (ip_mjd_end r)
                      jxx jyy jxy jyx (ip_sta_index r)], nwave')
    end) ([], is_nwave t) ;;
  let '(out, nwave) := r in
  Ok (mk_inspol (is_revision t) (is_date_obs t) (is_npol t) (is_arrname t) (is_orient t)
        (is_model t) (Z.of_nat (List.length out)) nwave out).

(** oifilter.c 818-848 *)
Definition filter_all_oi_inspol (o : oi_fits) (f : filter_spec) (uh : hash (list bool))
  : res (list oi_inspol * Z) :=
  foreach (o_inspolList o) (fun t '(out, n) =>
    if negb (accept_arrname f (is_arrname t)) then Ok (out, n)
    else
      t' <- filter_oi_inspol t f uh ;;
      if (0 <? is_nwave t') && (0 <? is_numrec t') then Ok (out ++ [t'], n + 1)
      else Ok (out, n)) ([], 0).

(** ** Data tables *)

Section Pow.
(** pow(x, 0.5) *)
Variable pow_half : f64 -> f64.

(** pow(u * u + v * v, 0.5) *)
Definition baseline (u v : f64) : f64 := pow_half (f64_add (f64_mul u u) (f64_mul v v)).
(** baseline / eff_wave[j] *)
Definition uv_radius (w : oi_wavelength) (bas : f64) (j : Z) : res f64 :=
  x <- get (wv_eff_wave w) j ;; Ok (f64_div bas (to_f64 x)).
(** (float)(x / y) *)
Definition ratio_f32 (x y : f64) : f32 := to_f32 (f64_div x y).
Definition outside_uvrad (f : filter_spec) (x : f64) : bool := outside (f_uvrad_lo f) (f_uvrad_hi f) x.
Definition outside_snr (f : filter_spec) (x : f32) : bool := outside (f_snr_lo f) (f_snr_hi f) x.

(** [if (pWave != NULL) {uvrad = bas / eff_wave[j]; outside?}] *)
Definition bad_uvrad (f : filter_spec) (pWave : option oi_wavelength) (bas : f64) (j : Z) : res bool :=
  match pWave with
  | None => Ok false
  | Some w => x <- uv_radius w bas j ;; Ok (outside_uvrad f x)
  end.

(** Number of accepted channels, e.g. oifilter.c 1138-1140 *)
Definition count_use (useWave : list bool) (nwave : Z) : res Z :=
  for_ nwave (fun j n => u <- get useWave j ;; Ok (if u : bool then n + 1 else n)) 0.

(** Shape shared by filter_oi_vis 1129-1171, filter_oi_vis2 1320-1362,
    filter_oi_t3 1572-1622, filter_oi_flux 1726-1756: count the accepted channels,
    then transform the records that pass [rec_ok]. *)
Definition filter_dtab {X R} (rec_ok : Z -> R -> res bool) (filter_rec : Z -> Z -> R -> res R)
  (useWave : list bool) (t : dtab X R) : res (dtab X R) :=
  nwave <- count_use useWave (tb_nwave t) ;;
  do chkmalloc (tb_numrec t) ;;
  out <- for_ (tb_numrec t) (fun i out =>
    r <- get (tb_record t) i ;;
    ok <- rec_ok (tb_nwave t) r ;;
    if ok : bool then r' <- filter_rec (tb_nwave t) nwave r ;; Ok (out ++ [r']) else Ok out) [] ;;
  Ok (mk_dtab (tb_revision t) (tb_date_obs t) (tb_arrname t) (tb_insname t) (tb_corrname t)
        (tb_x t) (Z.of_nat (List.length out)) nwave out).

(** Shape shared by filter_all_oi_vis 942-987, filter_all_oi_vis2 1182-1227,
    filter_all_oi_t3 1373-1417, filter_all_oi_flux 1633-1673. *)
Definition filter_all_dtab {X R} (accept_kind : bool) (o : oi_fits) (f : filter_spec)
  (uh : hash (list bool))
  (filter_tab : dtab X R -> option oi_wavelength -> list bool -> res (dtab X R))
  (l : list (dtab X R)) : res (list (dtab X R) * Z) :=
  if negb accept_kind then Ok ([], 0) else
  foreach l (fun t '(out, n) =>
    if negb (accept_insname f (tb_insname t)) then Ok (out, n)
    else if negb (accept_arrname f (tb_arrname t)) then Ok (out, n)
    else if negb (accept_corrname f (tb_corrname t)) then Ok (out, n)
    else match hash_lookup uh (tb_insname t) with
    | None => Ok (out, n)
    | Some useWave =>
        t' <- filter_tab t (oi_fits_lookup_wavelength o (tb_insname t)) useWave ;;
        if (0 <? tb_nwave t') && (0 <? tb_numrec t') then Ok (out ++ [t'], n + 1)
        else Ok (out, n)
    end) ([], 0).

(** TARGET_ID and MJD tests, e.g. oifilter.c 1148-1153 *)
Definition skip_target (f : filter_spec) (id : Z) : bool :=
  (0 <=? f_target_id f) && negb (id =? f_target_id f).
Definition skip_mjd (f : filter_spec) (mjd : f64) : bool := outside (f_mjd_lo f) (f_mjd_hi f) mjd.
Definition skip_bas (f : filter_spec) (bas : f64) : bool := outside (f_bas_lo f) (f_bas_hi f) bas.
Definition new_target_id (f : filter_spec) (id : Z) : Z := if 0 <=? f_target_id f then 1 else id.

(** *** OI_VIS *)

(** Lines 1012-1016, 1087-1090: SNR of channel j out of range *)
Definition vis_bad_snr (f : filter_spec) (r : vis_record) (j : Z) : res bool :=
  a <- get (vr_visamp r) j ;; e <- get (vr_visamperr r) j ;; pe <- get (vr_visphierr r) j ;;
  Ok (outside_snr f (ratio_f32 a e) || outside_snr f (ratio_f32 c_rad2deg pe)).

(** oifilter.c 992-1021 *)
Definition any_vis_chan_ok (r : vis_record) (f : filter_spec) (pWave : option oi_wavelength)
  (useWave : list bool) (nwave : Z) : res bool :=
  let bas := baseline (vr_ucoord r) (vr_vcoord r) in
  any_ nwave (fun j =>
    u <- get useWave j ;;
    if negb u then Ok false else
    fl <- get (vr_flag r) j ;;
    if fl : bool then Ok false else
    b <- bad_uvrad f pWave bas j ;;
    if b : bool then Ok false else
    s <- vis_bad_snr f r j ;; Ok (negb s)).

(** One row of visrefmap: lines 1094-1106 *)
Definition refmap_row (useWave : list bool) (inmap : list bool) (nwaveIn nwaveOut j k : Z)
  (outmap : buffer bool) : res (buffer bool) :=
  r <- for_ nwaveIn (fun l '(m, b) =>
         u <- get useWave l ;;
         if u : bool then
           x <- get inmap (l + j * nwaveIn) ;;
           b' <- write b (m + k * nwaveOut) x ;; Ok (m + 1, b')
         else Ok (m, b)) (0, outmap) ;;
  Ok (snd r).

(** chkmalloc for an optional column *)
Definition alloc_if {A} (b : bool) (n : Z) : res (option (buffer A)) :=
  if b then x <- alloc n ;; Ok (Some x) else Ok None.
(** [if (use) out[k] = in[j]] on optional columns *)
Definition copy_opt {A} (out : option (buffer A)) (k : Z) (inp : option (list A)) (j : Z)
  : res (option (buffer A)) :=
  match out with
  | None => Ok None
  | Some b =>
      match inp with
      | None => UB
      | Some l => x <- get l j ;; b' <- write b k x ;; Ok (Some b')
      end
  end.
Definition contents_opt {A} (o : option (buffer A)) : res (option (list A)) :=
  match o with None => Ok None | Some b => l <- contents b ;; Ok (Some l) end.

Record vis_bufs := mk_vis_bufs {
  vb_k : Z; vb_some : bool; vb_visamp : buffer f64; vb_visamperr : buffer f64;
  vb_visphi : buffer f64; vb_visphierr : buffer f64; vb_flag : buffer bool;
  vb_visrefmap : option (buffer bool);
  vb_rvis : option (buffer f64); vb_rviserr : option (buffer f64);
  vb_ivis : option (buffer f64); vb_iviserr : option (buffer f64) }.

(** Lines 1066-1116: body of the channel loop.  The flag cell is written once with
    its final value. *)
Definition vis_channel (r : vis_record) (f : filter_spec) (pWave : option oi_wavelength)
  (useWave : list bool) (nwaveIn nwaveOut : Z) (j : Z) (b : vis_bufs) : res vis_bufs :=
  u <- get useWave j ;;
  if negb u then Ok b else
  let k := vb_k b in
  a <- get (vr_visamp r) j ;; visamp <- write (vb_visamp b) k a ;;
  ae <- get (vr_visamperr r) j ;; visamperr <- write (vb_visamperr b) k ae ;;
  p <- get (vr_visphi r) j ;; visphi <- write (vb_visphi b) k p ;;
  pe <- get (vr_visphierr r) j ;; visphierr <- write (vb_visphierr b) k pe ;;
  fl <- get (vr_flag r) j ;;
  fl' <- (if fl : bool then Ok true else
            b1 <- bad_uvrad f pWave (baseline (vr_ucoord r) (vr_vcoord r)) j ;;
            b2 <- vis_bad_snr f r j ;;
            Ok (b1 || b2)) ;;
  flag <- write (vb_flag b) k fl' ;;
  refmap <- match vb_visrefmap b with
            | None => Ok None
            | Some m =>
                match vr_visrefmap r with
                | None => UB
                | Some inmap => m' <- refmap_row useWave inmap nwaveIn nwaveOut j k m ;; Ok (Some m')
                end
            end ;;
  rvis <- copy_opt (vb_rvis b) k (vr_rvis r) j ;;
  rviserr <- copy_opt (vb_rviserr b) k (vr_rviserr r) j ;;
  ivis <- copy_opt (vb_ivis b) k (vr_ivis r) j ;;
  iviserr <- copy_opt (vb_iviserr b) k (vr_iviserr r) j ;;
  Ok (mk_vis_bufs (k + 1) (vb_some b || negb fl') visamp visamperr visphi visphierr flag refmap
        rvis rviserr ivis iviserr).

(** oifilter.c 1026-1118 *)
Definition filter_oi_vis_record (x : vis_extra) (f : filter_spec) (pWave : option oi_wavelength)
  (useWave : list bool) (nwaveIn nwaveOut : Z) (r : vis_record) : res vis_record :=
  visamp <- alloc nwaveOut ;; visamperr <- alloc nwaveOut ;;
  visphi <- alloc nwaveOut ;; visphierr <- alloc nwaveOut ;; flag <- alloc nwaveOut ;;
  refmap <- alloc_if (vx_usevisrefmap x) (nwaveOut * nwaveOut) ;;
  rvis <- alloc_if (vx_usecomplex x) nwaveOut ;; rviserr <- alloc_if (vx_usecomplex x) nwaveOut ;;
  ivis <- alloc_if (vx_usecomplex x) nwaveOut ;; iviserr <- alloc_if (vx_usecomplex x) nwaveOut ;;
  b <- for_ nwaveIn (vis_channel r f pWave useWave nwaveIn nwaveOut)
         (mk_vis_bufs 0 false visamp visamperr visphi visphierr flag refmap rvis rviserr ivis iviserr) ;;
  do assert_ (f_accept_flagged f || vb_some b) ;;
  visamp <- contents (vb_visamp b) ;; visamperr <- contents (vb_visamperr b) ;;
  visphi <- contents (vb_visphi b) ;; visphierr <- contents (vb_visphierr b) ;;
  flag <- contents (vb_flag b) ;;
  refmap <- contents_opt (vb_visrefmap b) ;;
  rvis <- contents_opt (vb_rvis b) ;; rviserr <- contents_opt (vb_rviserr b) ;;
  ivis <- contents_opt (vb_ivis b) ;; iviserr <- contents_opt (vb_iviserr b) ;;
  Ok (mk_vis_record (new_target_id f (vr_target_id r)) (vr_time r) (vr_mjd r) (vr_int_time r)
        visamp visamperr (vr_corrindx_visamp r) visphi visphierr (vr_corrindx_visphi r)
        refmap rvis rviserr (vr_corrindx_rvis r) ivis iviserr (vr_corrindx_ivis r)
        (vr_ucoord r) (vr_vcoord r) (vr_sta_index r) flag).

(** Lines 1148-1162 *)
Definition vis_record_ok (f : filter_spec) (pWave : option oi_wavelength) (useWave : list bool)
  (nwave : Z) (r : vis_record) : res bool :=
  if skip_target f (vr_target_id r) then Ok false
  else if skip_mjd f (vr_mjd r) then Ok false
  else if skip_bas f (baseline (vr_ucoord r) (vr_vcoord r)) then Ok false
  else if f_accept_flagged f then Ok true
  else any_vis_chan_ok r f pWave useWave nwave.

(** oifilter.c 1129-1171 *)
Definition filter_oi_vis (f : filter_spec) (t : oi_vis) (pWave : option oi_wavelength)
  (useWave : list bool) : res oi_vis :=
  filter_dtab (vis_record_ok f pWave useWave) (filter_oi_vis_record (tb_x t) f pWave useWave)
    useWave t.
(** oifilter.c 942-987 *)
Definition filter_all_oi_vis (o : oi_fits) (f : filter_spec) (uh : hash (list bool)) :=
  filter_all_dtab (f_accept_vis f) o f uh (filter_oi_vis f) (o_visList o).

(** *** OI_VIS2 *)

(** Lines 1252-1253, 1300-1301 *)
Definition vis2_bad_snr (f : filter_spec) (r : vis2_record) (j : Z) : res bool :=
  a <- get (v2_vis2data r) j ;; e <- get (v2_vis2err r) j ;;
  Ok (outside_snr f (ratio_f32 a e)).

(** oifilter.c 1232-1258 *)
Definition any_vis2_chan_ok (r : vis2_record) (f : filter_spec) (pWave : option oi_wavelength)
  (useWave : list bool) (nwave : Z) : res bool :=
  let bas := baseline (v2_ucoord r) (v2_vcoord r) in
  any_ nwave (fun j =>
    u <- get useWave j ;;
    if negb u then Ok false else
    fl <- get (v2_flag r) j ;;
    if fl : bool then Ok false else
    b <- bad_uvrad f pWave bas j ;;
    if b : bool then Ok false else
    s <- vis2_bad_snr f r j ;; Ok (negb s)).

Record vis2_bufs := mk_vis2_bufs {
  v2b_k : Z; v2b_some : bool; v2b_data : buffer f64; v2b_err : buffer f64; v2b_flag : buffer bool }.

(** Lines 1281-1307 *)
Definition vis2_channel (r : vis2_record) (f : filter_spec) (pWave : option oi_wavelength)
  (useWave : list bool) (j : Z) (b : vis2_bufs) : res vis2_bufs :=
  u <- get useWave j ;;
  if negb u then Ok b else
  let k := v2b_k b in
  a <- get (v2_vis2data r) j ;; data <- write (v2b_data b) k a ;;
  ae <- get (v2_vis2err r) j ;; err <- write (v2b_err b) k ae ;;
  fl <- get (v2_flag r) j ;;
  fl' <- (if fl : bool then Ok true else
            b1 <- bad_uvrad f pWave (baseline (v2_ucoord r) (v2_vcoord r)) j ;;
            b2 <- vis2_bad_snr f r j ;;
            Ok (b1 || b2)) ;;
  flag <- write (v2b_flag b) k fl' ;;
  Ok (mk_vis2_bufs (k + 1) (v2b_some b || negb fl') data err flag).

(** oifilter.c 1263-1309 *)
Definition filter_oi_vis2_record (f : filter_spec) (pWave : option oi_wavelength)
  (useWave : list bool) (nwaveIn nwaveOut : Z) (r : vis2_record) : res vis2_record :=
  data <- alloc nwaveOut ;; err <- alloc nwaveOut ;; flag <- alloc nwaveOut ;;
  b <- for_ nwaveIn (vis2_channel r f pWave useWave) (mk_vis2_bufs 0 false data err flag) ;;
  do assert_ (f_accept_flagged f || v2b_some b) ;;
  data <- contents (v2b_data b) ;; err <- contents (v2b_err b) ;; flag <- contents (v2b_flag b) ;;
  Ok (mk_vis2_record (new_target_id f (v2_target_id r)) (v2_time r) (v2_mjd r) (v2_int_time r)
        data err (v2_corrindx_vis2data r) (v2_ucoord r) (v2_vcoord r) (v2_sta_index r) flag).

(** Lines 1339-1353 *)
Definition vis2_record_ok (f : filter_spec) (pWave : option oi_wavelength) (useWave : list bool)
  (nwave : Z) (r : vis2_record) : res bool :=
  if skip_target f (v2_target_id r) then Ok false
  else if skip_mjd f (v2_mjd r) then Ok false
  else if skip_bas f (baseline (v2_ucoord r) (v2_vcoord r)) then Ok false
  else if f_accept_flagged f then Ok true
  else any_vis2_chan_ok r f pWave useWave nwave.

(** oifilter.c 1320-1362 *)
Definition filter_oi_vis2 (f : filter_spec) (t : oi_vis2) (pWave : option oi_wavelength)
  (useWave : list bool) : res oi_vis2 :=
  filter_dtab (vis2_record_ok f pWave useWave) (filter_oi_vis2_record f pWave useWave) useWave t.
(** oifilter.c 1182-1227 *)
Definition filter_all_oi_vis2 (o : oi_fits) (f : filter_spec) (uh : hash (list bool)) :=
  filter_all_dtab (f_accept_vis2 f) o f uh (filter_oi_vis2 f) (o_vis2List o).

(** *** OI_T3 *)

(** The three sides of the triangle *)
Definition t3_ab (r : t3_record) : f64 := baseline (t3_u1coord r) (t3_v1coord r).
Definition t3_bc (r : t3_record) : f64 := baseline (t3_u2coord r) (t3_v2coord r).
Definition t3_ac (r : t3_record) : f64 :=
  baseline (f64_add (t3_u1coord r) (t3_u2coord r)) (f64_add (t3_v1coord r) (t3_v2coord r)).

(** Lines 1443-1451 and 1533-1545: some side out of range *)
Definition t3_bad_uvrad (f : filter_spec) (w : oi_wavelength) (r : t3_record) (j : Z) : res bool :=
  ab <- uv_radius w (t3_ab r) j ;; bc <- uv_radius w (t3_bc r) j ;; ac <- uv_radius w (t3_ac r) j ;;
  Ok (outside_uvrad f ab || outside_uvrad f bc || outside_uvrad f ac).

(** Lines 1454-1465 and 1547-1554.  Simplified: the C reads a quantity only when it
    is accepted; here the three reads always happen. *)
Definition t3_bad_snr (f : filter_spec) (r : t3_record) (j : Z) : res bool :=
  a <- get (t3_t3amp r) j ;; ae <- get (t3_t3amperr r) j ;; pe <- get (t3_t3phierr r) j ;;
  Ok (f_accept_t3amp f && outside_snr f (ratio_f32 a ae)
      || f_accept_t3phi f && outside_snr f (ratio_f32 c_rad2deg pe)).

(** oifilter.c 1422-1470 *)
Definition any_t3_chan_ok (r : t3_record) (f : filter_spec) (pWave : option oi_wavelength)
  (useWave : list bool) (nwave : Z) : res bool :=
  match pWave with
  | None => Ok true
  | Some w =>
      any_ nwave (fun j =>
        u <- get useWave j ;;
        if negb u then Ok false else
        fl <- get (t3_flag r) j ;;
        if fl : bool then Ok false else
        b <- t3_bad_uvrad f w r j ;;
        if b : bool then Ok false else
        s <- t3_bad_snr f r j ;; Ok (negb s))
  end.

Record t3_bufs := mk_t3_bufs {
  tb_k : Z; tb_some : bool; tb_amp : buffer f64; tb_amperr : buffer f64;
  tb_phi : buffer f64; tb_phierr : buffer f64; tb_flag : buffer bool }.

(** Lines 1506-1559.  The value of a rejected quantity is not read. *)
Definition t3_channel (r : t3_record) (f : filter_spec) (pWave : option oi_wavelength)
  (useWave : list bool) (j : Z) (b : t3_bufs) : res t3_bufs :=
  u <- get useWave j ;;
  if negb u then Ok b else
  let k := tb_k b in
  a <- (if f_accept_t3amp f then get (t3_t3amp r) j else Ok f64_nan) ;;
  amp <- write (tb_amp b) k a ;;
  ae <- get (t3_t3amperr r) j ;; amperr <- write (tb_amperr b) k ae ;;
  p <- (if f_accept_t3phi f then get (t3_t3phi r) j else Ok f64_nan) ;;
  phi <- write (tb_phi b) k p ;;
  pe <- get (t3_t3phierr r) j ;; phierr <- write (tb_phierr b) k pe ;;
  fl <- get (t3_flag r) j ;;
  fl' <- (if fl : bool then Ok true else
            b1 <- match pWave with None => Ok false | Some w => t3_bad_uvrad f w r j end ;;
            b2 <- t3_bad_snr f r j ;;
            Ok (b1 || b2)) ;;
  flag <- write (tb_flag b) k fl' ;;
  Ok (mk_t3_bufs (k + 1) (tb_some b || negb fl') amp amperr phi phierr flag).

(** oifilter.c 1475-1561 *)
Definition filter_oi_t3_record (f : filter_spec) (pWave : option oi_wavelength)
  (useWave : list bool) (nwaveIn nwaveOut : Z) (r : t3_record) : res t3_record :=
  amp <- alloc nwaveOut ;; amperr <- alloc nwaveOut ;; phi <- alloc nwaveOut ;;
  phierr <- alloc nwaveOut ;; flag <- alloc nwaveOut ;;
  b <- for_ nwaveIn (t3_channel r f pWave useWave) (mk_t3_bufs 0 false amp amperr phi phierr flag) ;;
  do assert_ (f_accept_flagged f || tb_some b) ;;
  amp <- contents (tb_amp b) ;; amperr <- contents (tb_amperr b) ;; phi <- contents (tb_phi b) ;;
  phierr <- contents (tb_phierr b) ;; flag <- contents (tb_flag b) ;;
  Ok (mk_t3_record (new_target_id f (t3_target_id r)) (t3_time r) (t3_mjd r) (t3_int_time r)
        amp amperr (t3_corrindx_t3amp r) phi phierr (t3_corrindx_t3phi r)
        (t3_u1coord r) (t3_v1coord r) (t3_u2coord r) (t3_v2coord r) (t3_sta_index r) flag).

(** Lines 1591-1613 *)
Definition t3_record_ok (f : filter_spec) (pWave : option oi_wavelength) (useWave : list bool)
  (nwave : Z) (r : t3_record) : res bool :=
  if skip_target f (t3_target_id r) then Ok false
  else if skip_mjd f (t3_mjd r) then Ok false
  else if skip_bas f (t3_ab r) then Ok false
  else if skip_bas f (t3_bc r) then Ok false
  else if skip_bas f (t3_ac r) then Ok false
  else if f_accept_flagged f then Ok true
  else any_t3_chan_ok r f pWave useWave nwave.

(** oifilter.c 1572-1622 *)
Definition filter_oi_t3 (f : filter_spec) (t : oi_t3) (pWave : option oi_wavelength)
  (useWave : list bool) : res oi_t3 :=
  filter_dtab (t3_record_ok f pWave useWave) (filter_oi_t3_record f pWave useWave) useWave t.
(** oifilter.c 1373-1417 *)
Definition filter_all_oi_t3 (o : oi_fits) (f : filter_spec) (uh : hash (list bool)) :=
  filter_all_dtab (f_accept_t3amp f || f_accept_t3phi f) o f uh (filter_oi_t3 f) (o_t3List o).

(** *** OI_FLUX *)

Record flux_bufs := mk_flux_bufs {
  fb_k : Z; fb_data : buffer f64; fb_err : buffer f64; fb_flag : buffer bool }.

(** Lines 1697-1715 *)
Definition flux_channel (r : flux_record) (f : filter_spec) (useWave : list bool) (j : Z)
  (b : flux_bufs) : res flux_bufs :=
  u <- get useWave j ;;
  if negb u then Ok b else
  let k := fb_k b in
  a <- get (fr_fluxdata r) j ;; ae <- get (fr_fluxerr r) j ;;
  data <- write (fb_data b) k (if outside_snr f (ratio_f32 a ae) then f64_nan else a) ;;
  err <- write (fb_err b) k ae ;;
  fl <- get (fr_flag r) j ;; flag <- write (fb_flag b) k fl ;;
  Ok (mk_flux_bufs (k + 1) data err flag).

(** oifilter.c 1678-1716 *)
Definition filter_oi_flux_record (f : filter_spec) (useWave : list bool) (nwaveIn nwaveOut : Z)
  (r : flux_record) : res flux_record :=
  data <- alloc nwaveOut ;; err <- alloc nwaveOut ;; flag <- alloc nwaveOut ;;
  b <- for_ nwaveIn (flux_channel r f useWave) (mk_flux_bufs 0 data err flag) ;;
  data <- contents (fb_data b) ;; err <- contents (fb_err b) ;; flag <- contents (fb_flag b) ;;
  Ok (mk_flux_record (new_target_id f (fr_target_id r)) (fr_mjd r) (fr_int_time r)
        data err (fr_corrindx_fluxdata r) (fr_sta_index r) flag).

(** Lines 1743-1748 *)
Definition flux_record_ok (f : filter_spec) (_ : Z) (r : flux_record) : res bool :=
  Ok (negb (skip_target f (fr_target_id r)) && negb (skip_mjd f (fr_mjd r))).

(** oifilter.c 1726-1756 *)
Definition filter_oi_flux (f : filter_spec) (t : oi_flux) (_ : option oi_wavelength)
  (useWave : list bool) : res oi_flux :=
  filter_dtab (flux_record_ok f) (filter_oi_flux_record f useWave) useWave t.
(** oifilter.c 1633-1673 (no OI_WAVELENGTH lookup) *)
Definition filter_all_oi_flux (o : oi_fits) (f : filter_spec) (uh : hash (list bool)) :=
  filter_all_dtab (f_accept_flux f) o f uh (filter_oi_flux f) (o_fluxList o).

(** ** Pruning *)

(** g_list_find_custom(list, name, strcmp) != NULL *)
Definition listed (names : list string) (name : string) : bool := existsb (fun n => str_eqb n name) names.

(** One of the loops of get_arrname_list etc. (prepends; the list is reversed at
    the end) *)
Definition add_names {X R} (name_of : dtab X R -> string) (skip_empty : bool)
  (l : list (dtab X R)) (names : list string) : list string :=
  fold_left (fun names t =>
    if (if skip_empty then nonempty (name_of t) else true) && negb (listed names (name_of t))
    then name_of t :: names else names) l names.
(** oifilter.c 137-191 *)
Definition get_arrname_list (vis : list oi_vis) (vis2 : list oi_vis2) (t3 : list oi_t3)
  (flux : list oi_flux) : list string :=
  rev (add_names tb_arrname true flux (add_names tb_arrname true t3
        (add_names tb_arrname true vis2 (add_names tb_arrname true vis [])))).
(** oifilter.c 197-247 *)
Definition get_insname_list (vis : list oi_vis) (vis2 : list oi_vis2) (t3 : list oi_t3)
  (flux : list oi_flux) : list string :=
  rev (add_names tb_insname false flux (add_names tb_insname false t3
        (add_names tb_insname false vis2 (add_names tb_insname false vis [])))).
(** oifilter.c 253-307 *)
Definition get_corrname_list (vis : list oi_vis) (vis2 : list oi_vis2) (t3 : list oi_t3)
  (flux : list oi_flux) : list string :=
  rev (add_names tb_corrname true flux (add_names tb_corrname true t3
        (add_names tb_corrname true vis2 (add_names tb_corrname true vis [])))).

(** prune_oi_array 314-339, prune_oi_wavelength 346-371, prune_oi_corr 378-403:
    remove the first table whose name is not listed; [None] = nothing removed.
    prune_oi_inspol 410-434 is the same without the hash table. *)
Fixpoint remove_first {A} (drop : A -> bool) (l : list A) : option (A * list A) :=
  match l with
  | [] => None
  | a :: l' =>
      if drop a then Some (a, l')
      else match remove_first drop l' with
           | None => None
           | Some (x, l'') => Some (x, a :: l'')
           end
  end.
Definition prune {A} (name_of : A -> string) (names : list string) (s : list A * Z * hash A)
  : option (list A * Z * hash A) :=
  let '(l, n, h) := s in
  match remove_first (fun a => negb (listed names (name_of a))) l with
  | None => None
  | Some (a, l') => Some (l', n - 1, hash_remove h (name_of a))
  end.
(** [while (prune(...));]: at most one removal per table, so the fuel
    [length l + 1] given below does not run out; running out would be [UB]. *)
Fixpoint prune_loop {A} (fuel : nat) (name_of : A -> string) (names : list string)
  (s : list A * Z * hash A) : res (list A * Z * hash A) :=
  match fuel with
  | O => UB
  | S fuel' =>
      match prune name_of names s with
      | None => Ok s
      | Some s' => prune_loop fuel' name_of names s'
      end
  end.
Definition prune_all {A} (name_of : A -> string) (names : list string) (s : list A * Z * hash A) :=
  prune_loop (S (List.length (fst (fst s)))) name_of names s.

(** ** The whole filter: oifilter.c 1765-1828.  Returns the filter specification as
    left by the call, and the output dataset. *)
Definition apply_oi_filter (o : oi_fits) (f0 : filter_spec) : res (filter_spec * oi_fits) :=
  do assert_ (is_none (f_arrname_pttn f0)) ;;
  do assert_ (is_none (f_insname_pttn f0)) ;;
  do assert_ (is_none (f_corrname_pttn f0)) ;;
  let f := set_pttns (Some (f_arrname f0)) (Some (f_insname f0)) (Some (f_corrname f0)) f0 in
  targets <- filter_oi_target (o_targets o) f (o_targets init_oi_fits) ;;
  arrays <- filter_all_oi_array o f ;;
  corrs <- filter_all_oi_corr o f ;;
  ws <- filter_all_oi_wavelength o f ;;
  let '(wl, wn, wh, uh) := ws in
  inspols <- filter_all_oi_inspol o f uh ;;
  viss <- filter_all_oi_vis o f uh ;;
  vis2s <- filter_all_oi_vis2 o f uh ;;
  t3s <- filter_all_oi_t3 o f uh ;;
  fluxs <- filter_all_oi_flux o f uh ;;
  let '(visl, visn) := viss in let '(vis2l, vis2n) := vis2s in
  let '(t3l, t3n) := t3s in let '(fluxl, fluxn) := fluxs in
  let arrnames := get_arrname_list visl vis2l t3l fluxl in
  arrays' <- prune_all ar_arrname arrnames arrays ;;
  inspols' <- prune_all is_arrname arrnames (fst inspols, snd inspols, hash_new) ;;
  waves' <- prune_all wv_insname (get_insname_list visl vis2l t3l fluxl) (wl, wn, wh) ;;
  corrs' <- prune_all co_corrname (get_corrname_list visl vis2l t3l fluxl) corrs ;;
  let '(arrl, arrn, arrh) := arrays' in
  let '(ipl, ipn, _) := inspols' in
  let '(wavl, wavn, wavh) := waves' in
  let '(corl, corn, corh) := corrs' in
  Ok (set_pttns None None None f,
      mk_fits (o_header o) targets arrn wavn corn ipn visn vis2n t3n fluxn
        arrl wavl corl ipl visl vis2l t3l fluxl arrh wavh corh).

End Pow.
