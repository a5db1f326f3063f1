(** Model of fscanf as oitable-demo.c uses it, and of the half of that program that writes a
    file (demo_write).

    Simplified: prompts and messages are left out.  A number whose conversion fails leaves the
    input at its first character that is not white space.  Storage is not modelled but for the
    abort of chkmalloc on sizes that are not positive. *)
From Coq Require Import DecimalString.
From Verif Require Export DemoModel MergeModel.
Open Scope list_scope.
Open Scope Z_scope.

(** ** Formats *)

Inductive directive :=
  | DSpace                        (* white space: skips any white space *)
  | DLit (c : ascii)              (* any other character: must be next *)
  | DInt                          (* %d, %ld *)
  | DFloat                        (* %f *)
  | DDouble                       (* %lf *)
  | DStr (width : option Z)       (* %s, %<width>s *)
  | DChar.                        (* %c *)
Definition is_dec (c : ascii) : bool :=
  let n := Z.of_nat (nat_of_ascii c) in (48 <=? n) && (n <=? 57).
Definition conversion (width : option Z) (l : bool) (c : ascii) : directive :=
  if Ascii.eqb c "d" then DInt
  else if Ascii.eqb c "f" then if l then DDouble else DFloat
  else if Ascii.eqb c "s" then DStr width
  else DChar.
(** [spec]: after a percent sign, the width so far and whether there was an l *)
Fixpoint directives (spec : option (option Z * bool)) (s : string) : list directive :=
  match s with
  | EmptyString => []
  | String c s' =>
      match spec with
      | None =>
          if Ascii.eqb c "%" then directives (Some (None, false)) s'
          else if is_space c then DSpace :: directives None s'
          else DLit c :: directives None s'
      | Some (w, l) =>
          if is_dec c then
            let d := Z.of_nat (nat_of_ascii c) - 48 in
            directives (Some (Some (match w with Some w => 10 * w + d | None => d end), l)) s'
          else if Ascii.eqb c "l" then directives (Some (w, true)) s'
          else conversion w l c :: directives None s'
      end
  end.

(** ** Input *)

(** the longest beginning of characters satisfying [p], at most [w] of them, and the rest *)
Fixpoint span (p : ascii -> bool) (w : option Z) (s : string) : string * string :=
  match s with
  | EmptyString => (EmptyString, EmptyString)
  | String c s' =>
      if p c && match w with Some w => 1 <=? w | None => true end then
        let r := span p (option_map (fun w => w - 1) w) s' in (String c (fst r), snd r)
      else (EmptyString, s)
  end.
Definition read_digits (s : string) : option (Z * string) :=
  let r := span is_dec None s in
  match NilZero.uint_of_string (fst r) with
  | Some u => if is_empty (fst r) then None else Some (Z.of_uint u, snd r)
  | None => None
  end.
Definition scan_int (s : string) : option (Z * string) :=
  match s with
  | String "-" s' => option_map (fun r => (- fst r, snd r)) (read_digits s')
  | String "+" s' => read_digits s'
  | _ => read_digits s
  end.

Inductive scanned :=
  | SInt (z : Z)
  | SFlt (x : f32)
  | SDbl (x : f64)
  | SStr (s : string)
  | SChr (c : ascii).

(** How the C library reads a decimal number at the start of a string: the value and the rest *)
Record numbers := mk_numbers {
  nm_float : string -> option (f32 * string);
  nm_double : string -> option (f64 * string) }.

Section Scan.
Variable N : numbers.

(** the values assigned and the input that is left *)
Fixpoint fscanf (ds : list directive) (s : string) : list scanned * string :=
  match ds with
  | [] => ([], s)
  | DSpace :: ds' => fscanf ds' (skip_space s)
  | DLit c :: ds' =>
      match s with
      | String c' s' => if Ascii.eqb c c' then fscanf ds' s' else ([], s)
      | EmptyString => ([], s)
      end
  | DInt :: ds' =>
      match scan_int (skip_space s) with
      | Some (z, s') => let q := fscanf ds' s' in (SInt z :: fst q, snd q)
      | None => ([], skip_space s)
      end
  | DFloat :: ds' =>
      match nm_float N (skip_space s) with
      | Some (x, s') => let q := fscanf ds' s' in (SFlt x :: fst q, snd q)
      | None => ([], skip_space s)
      end
  | DDouble :: ds' =>
      match nm_double N (skip_space s) with
      | Some (x, s') => let q := fscanf ds' s' in (SDbl x :: fst q, snd q)
      | None => ([], skip_space s)
      end
  | DStr w :: ds' =>
      let r := span (fun c => negb (is_space c)) w (skip_space s) in
      if is_empty (fst r) then ([], skip_space s)
      else let q := fscanf ds' (snd r) in (SStr (fst r) :: fst q, snd q)
  | DChar :: ds' =>
      match s with
      | String c s' => let q := fscanf ds' s' in (SChr c :: fst q, snd q)
      | EmptyString => ([], s)
      end
  end.

(** ** Steps of demo_write *)

Definition scan (A : Type) : Type := string -> res (A * string).
Definition ret {A} (a : A) : scan A := fun s => Ok (a, s).
Definition bind_s {A B} (m : scan A) (k : A -> scan B) : scan B := fun s => r <- m s ;; k (fst r) (snd r).
Definition undefined {A} : scan A := fun _ => UB.
Definition stop {A} : scan A := fun _ => Abort.
Definition scanf (format : string) : scan (list scanned) := fun s => Ok (fscanf (directives None format) s).
Notation "x <~~ m ; k" := (bind_s m (fun x => k)) (at level 100, m at level 99, k at level 200, right associativity).

(** A conversion that is not made leaves its destination as it was, which is to say undefined,
    or for nrows and numrec the value read for another table: all of this is treated as undefined.
    So is an int out of range. *)
Definition scan0 (format : string) : scan unit := v <~~ scanf format; match v with [] => ret tt | _ => undefined end.
Definition scan_i (format : string) : scan Z :=
  v <~~ scanf format; match v with [SInt z] => if FitsModel.in_int z then ret z else undefined | _ => undefined end.
Definition scan_f (format : string) : scan f32 := v <~~ scanf format; match v with [SFlt x] => ret x | _ => undefined end.
Definition scan_d (format : string) : scan f64 := v <~~ scanf format; match v with [SDbl x] => ret x | _ => undefined end.
Definition scan_s (format : string) : scan string := v <~~ scanf format; match v with [SStr x] => ret x | _ => undefined end.
Definition scan_ss (format : string) : scan (string * string) :=
  v <~~ scanf format; match v with [SStr x; SStr y] => ret (x, y) | _ => undefined end.
Definition scan_dd (format : string) : scan (f64 * f64) :=
  v <~~ scanf format; match v with [SDbl x; SDbl y] => ret (x, y) | _ => undefined end.
Definition scan_ii (format : string) : scan (Z * Z) :=
  v <~~ scanf format; match v with [SInt x; SInt y] => if FitsModel.in_int x && FitsModel.in_int y then ret (x, y) else undefined | _ => undefined end.
(** "%f %fi ", a complex number *)
Definition scan_c : scan cplx :=
  v <~~ scanf "%f %fi "; match v with [SFlt x; SFlt y] => ret (x, y) | _ => undefined end.

(** oitable-demo.c 32-66: the value and whether there was one *)
Definition scan_opt_string (format : string) : scan (option string) :=
  v <~~ scanf format; match v with [SStr x] => ret (Some x) | _ => ret None end.
Definition scan_opt_int (format : string) (nullval : Z) : scan Z :=
  v <~~ scanf format;
  match v with [SInt z] => if FitsModel.in_int z then ret z else undefined | _ => ret nullval end.
Definition scan_opt_double (format : string) (nullval : f64) : scan f64 :=
  v <~~ scanf format; match v with [SDbl x] => ret x | _ => ret nullval end.
Definition text (o : option string) : string := match o with Some s => s | None => EmptyString end.

Fixpoint times {A} (n : nat) (k : Z) (m : Z -> scan A) : scan (list A) :=
  match n with
  | O => ret []
  | S n' => a <~~ m k; l <~~ times n' (k + 1) m; ret (a :: l)
  end.
(** for (i = 0; i < n; i++) *)
Definition rows {A} (n : Z) (m : Z -> scan A) : scan (list A) := times (Z.to_nat n) 0 m.
(** alloc_oi_xxx: chkmalloc stops the program if the size is not positive (or far too large) *)
Definition room (n : Z) : scan unit := if 0 <? n then ret tt else stop.
(** "%lf " nwave times *)
Definition vector (nwave : Z) : scan (list f64) := rows nwave (fun _ => scan_d "%lf ").
Definition unflagged (nwave : Z) : list bool := repeat false (Z.to_nat nwave).

(** ** The tables *)

(** oitable-demo.c 90-112.  [fovtype]: "%s" into 7 characters. *)
Definition scan_element (i : Z) : scan element :=
  v <~~ scanf "tel_name %16s sta_name %16s ";
  match v with
  | [SStr tel; SStr sta] =>
      v <~~ scanf "staxyz %lf %lf %lf diameter %f ";
      match v with
      | [SDbl x; SDbl y; SDbl z; SFlt diameter] =>
          v <~~ scanf "fov %lf fovtype %s ";
          match v with
          | [SDbl fov; SStr fovtype] =>
              if strlen fovtype <=? 6 then ret (mk_element tel sta (i + 1) diameter (x, y, z) fov fovtype)
              else undefined
          | _ => undefined
          end
      | _ => undefined
      end
  | _ => undefined
  end.
Definition scan_array : scan oi_array :=
  arrname <~~ scan_s "OI_ARRAY arrname %70s ";
  frame <~~ scan_s "frame %70s ";
  v <~~ scanf "arrayx %lf arrayy %lf arrayz %lf ";
  match v with
  | [SDbl x; SDbl y; SDbl z] =>
      nelement <~~ scan_i "nelement %d ";
      _ <~~ room nelement;
      elem <~~ rows nelement scan_element;
      ret (mk_array 2 arrname frame x y z nelement elem)
  | _ => undefined
  end.

(** oitable-demo.c 119-141: a target, and whether it has a category *)
Definition scan_target1 : scan (target * bool) :=
  target_id <~~ scan_i "target_id %d ";
  name <~~ scan_s "target %16s ";
  raep0 <~~ scan_d "raep0 %lf ";
  decep0 <~~ scan_d "decep0 %lf ";
  equinox <~~ scan_f "equinox %f ";
  ra_err <~~ scan_d "ra_err %lf ";
  dec_err <~~ scan_d "dec_err %lf ";
  sysvel <~~ scan_d "sysvel %lf ";
  veltyp <~~ scan_s "veltyp %8s ";
  veldef <~~ scan_s "veldef %8s ";
  pmra <~~ scan_d "pmra %lf ";
  pmdec <~~ scan_d "pmdec %lf ";
  pmra_err <~~ scan_d "pmra_err %lf ";
  pmdec_err <~~ scan_d "pmdec_err %lf ";
  parallax <~~ scan_f "parallax %f ";
  para_err <~~ scan_f "para_err %f ";
  spectyp <~~ scan_s "spectyp %16s ";
  category <~~ scan_opt_string "category %3s";
  _ <~~ scan0 " ";
  ret (mk_target target_id name raep0 decep0 equinox ra_err dec_err sysvel veltyp veldef pmra pmdec
         pmra_err pmdec_err parallax para_err spectyp (text category),
       match category with Some _ => true | None => false end).
(** oitable-demo.c 115-142 *)
Definition scan_targets : scan oi_target :=
  n <~~ scan_i "OI_TARGET ntarget %d ";
  _ <~~ room n;
  l <~~ rows n (fun _ => scan_target1);
  ret (mk_oi_target 2 n (map fst l) (existsb snd l)).

(** oitable-demo.c 144-158 *)
Definition scan_wavelength : scan oi_wavelength :=
  insname <~~ scan_s "OI_WAVELENGTH insname %70s ";
  nwave <~~ scan_i "nwave %d ";
  _ <~~ room nwave;
  _ <~~ scan0 "eff_wave ";
  wave <~~ rows nwave (fun _ => scan_f "%f ");
  _ <~~ scan0 "eff_band ";
  band <~~ rows nwave (fun _ => scan_f "%f ");
  ret (mk_wavelength 2 insname nwave wave band).

(** oitable-demo.c 160-180 *)
Definition scan_corr : scan oi_corr :=
  corrname <~~ scan_s "OI_CORR corrname %70s ";
  ndata <~~ scan_i "ndata %d ";
  ncorr <~~ scan_i "ncorr %d ";
  _ <~~ room ncorr;
  _ <~~ scan0 "iindx ";
  iindx <~~ rows ncorr (fun _ => scan_i "%d ");
  _ <~~ scan0 "jindx ";
  jindx <~~ rows ncorr (fun _ => scan_i "%d ");
  _ <~~ scan0 "corr ";
  corr <~~ rows ncorr (fun _ => scan_d "%lf ");
  ret (mk_corr 1 corrname ndata ncorr iindx jindx corr).

(** oitable-demo.c 192-223 *)
Definition scan_inspol_record (nwave : Z) : scan inspol_record :=
  v <~~ scanf "target_id %d insname %70s mjd_obs %lf ";
  match v with
  | [SInt target_id; SStr insname; SDbl mjd_obs] =>
      if FitsModel.in_int target_id then
        mjd_end <~~ scan_d "mjd_end %lf jxx ";
        jxx <~~ rows nwave (fun _ => scan_c);
        _ <~~ scan0 "jyy ";
        jyy <~~ rows nwave (fun _ => scan_c);
        _ <~~ scan0 "jxy ";
        jxy <~~ rows nwave (fun _ => scan_c);
        _ <~~ scan0 "jyx ";
        jyx <~~ rows nwave (fun _ => scan_c);
        sta_index <~~ scan_i "sta_index %d ";
        ret (mk_inspol_record target_id insname mjd_obs mjd_end jxx jyy jxy jyx sta_index)
      else undefined
  | _ => undefined
  end.
(** oitable-demo.c 182-224.  Simplified: numrec is a long, as are the numbers of rows below. *)
Definition scan_inspol (nwave : Z) : scan oi_inspol :=
  date_obs <~~ scan_s "OI_INSPOL date-obs %70s ";
  npol <~~ scan_i "npol %d ";
  arrname <~~ scan_s "arrname %70s ";
  orient <~~ scan_s "orient %70s ";
  model <~~ scan_s "model %70s ";
  numrec <~~ scan_i "numrec %ld ";
  _ <~~ room numrec;
  record <~~ rows numrec (fun _ => scan_inspol_record nwave);
  ret (mk_inspol 1 date_obs npol arrname orient model numrec nwave record).

(** "target_id %d time %lf mjd %lf " *)
Definition scan_times : scan (Z * f64 * f64) :=
  v <~~ scanf "target_id %d time %lf mjd %lf ";
  match v with
  | [SInt target_id; SDbl time; SDbl mjd] => if FitsModel.in_int target_id then ret (target_id, time, mjd) else undefined
  | _ => undefined
  end.
(** oitable-demo.c 240-274.  The members for complex data and VISREFMAP are not set. *)
Definition scan_vis_record (junk nwave : Z) : scan vis_record :=
  t <~~ scan_times;
  int_time <~~ scan_d "int_time %lf visamp ";
  visamp <~~ vector nwave;
  _ <~~ scan0 "visamperr ";
  visamperr <~~ vector nwave;
  corrindx_visamp <~~ scan_i "corrindx_visamp %d ";
  _ <~~ scan0 "visphi ";
  visphi <~~ vector nwave;
  _ <~~ scan0 "visphierr ";
  visphierr <~~ vector nwave;
  corrindx_visphi <~~ scan_i "corrindx_visphi %d ";
  uv <~~ scan_dd "ucoord %lf vcoord %lf ";
  sta_index <~~ scan_ii "sta_index %d %d ";
  let '(target_id, time, mjd) := t in
  ret (mk_vis_record target_id time mjd int_time visamp visamperr corrindx_visamp visphi visphierr
         corrindx_visphi None None None junk None None junk (fst uv) (snd uv) sta_index (unflagged nwave)).
(** oitable-demo.c 226-282 *)
Definition scan_vis (junk nwave : Z) : scan oi_vis :=
  date_obs <~~ scan_s "OI_VIS date-obs %70s ";
  names <~~ scan_ss "arrname %70s insname %70s ";
  corrname <~~ scan_s "corrname %70s ";
  amptyp <~~ scan_opt_string "amptyp %70s";
  phityp <~~ scan_opt_string " phityp %70s";
  amporder <~~ scan_opt_int " amporder %d" (-1);
  phiorder <~~ scan_opt_int " phiorder %d" (-1);
  numrec <~~ scan_i " numrec %ld ";
  _ <~~ room numrec;
  record <~~ rows numrec (fun _ => scan_vis_record junk nwave);
  ret (mk_dtab 2 date_obs (fst names) (snd names) corrname
         (mk_vis_extra (text amptyp) (text phityp) amporder phiorder false false EmptyString
            (if str_eqb (text amptyp) "correlated flux" then "Jy" else EmptyString)) numrec nwave record).

(** oitable-demo.c 292-317 *)
Definition scan_vis2_record (nwave : Z) : scan vis2_record :=
  t <~~ scan_times;
  int_time <~~ scan_d "int_time %lf vis2data ";
  vis2data <~~ vector nwave;
  _ <~~ scan0 "vis2err ";
  vis2err <~~ vector nwave;
  corrindx_vis2data <~~ scan_i "corrindx_vis2data %d ";
  uv <~~ scan_dd "ucoord %lf vcoord %lf ";
  sta_index <~~ scan_ii "sta_index %d %d ";
  let '(target_id, time, mjd) := t in
  ret (mk_vis2_record target_id time mjd int_time vis2data vis2err corrindx_vis2data (fst uv) (snd uv)
         sta_index (unflagged nwave)).
(** oitable-demo.c 284-318 *)
Definition scan_vis2 (nwave : Z) : scan oi_vis2 :=
  date_obs <~~ scan_s "OI_VIS2 date-obs %70s ";
  names <~~ scan_ss "arrname %70s insname %70s ";
  corrname <~~ scan_s "corrname %70s ";
  numrec <~~ scan_i "numrec %ld ";
  _ <~~ room numrec;
  record <~~ rows numrec (fun _ => scan_vis2_record nwave);
  ret (mk_dtab 2 date_obs (fst names) (snd names) corrname tt numrec nwave record).

(** oitable-demo.c 327-359 *)
Definition scan_t3_record (nwave : Z) : scan t3_record :=
  t <~~ scan_times;
  int_time <~~ scan_d "int_time %lf t3amp ";
  t3amp <~~ vector nwave;
  _ <~~ scan0 "t3amperr ";
  t3amperr <~~ vector nwave;
  corrindx_t3amp <~~ scan_i "corrindx_t3amp %d ";
  _ <~~ scan0 "t3phi ";
  t3phi <~~ vector nwave;
  _ <~~ scan0 "t3phierr ";
  t3phierr <~~ vector nwave;
  corrindx_t3phi <~~ scan_i "corrindx_t3phi %d ";
  uv1 <~~ scan_dd "u1coord %lf v1coord %lf ";
  uv2 <~~ scan_dd "u2coord %lf v2coord %lf ";
  v <~~ scanf "sta_index %d %d %d ";
  match v with
  | [SInt i; SInt j; SInt k] =>
      if FitsModel.in_int i && FitsModel.in_int j && FitsModel.in_int k then
        let '(target_id, time, mjd) := t in
        ret (mk_t3_record target_id time mjd int_time t3amp t3amperr corrindx_t3amp t3phi t3phierr
               corrindx_t3phi (fst uv1) (snd uv1) (fst uv2) (snd uv2) (i, j, k) (unflagged nwave))
      else undefined
  | _ => undefined
  end.
(** oitable-demo.c 320-360 *)
Definition scan_t3 (nwave : Z) : scan oi_t3 :=
  date_obs <~~ scan_s "OI_T3 date-obs %70s ";
  names <~~ scan_ss "arrname %70s insname %70s ";
  corrname <~~ scan_s "corrname %70s ";
  numrec <~~ scan_i "numrec %ld ";
  _ <~~ room numrec;
  record <~~ rows numrec (fun _ => scan_t3_record nwave);
  ret (mk_dtab 2 date_obs (fst names) (snd names) corrname tt numrec nwave record).

(** oitable-demo.c 374-394 *)
Definition scan_flux_record (nwave : Z) : scan flux_record :=
  v <~~ scanf "target_id %d mjd %lf ";
  match v with
  | [SInt target_id; SDbl mjd] =>
      if FitsModel.in_int target_id then
        int_time <~~ scan_d "int_time %lf fluxdata ";
        fluxdata <~~ vector nwave;
        _ <~~ scan0 "fluxerr ";
        fluxerr <~~ vector nwave;
        corrindx_fluxdata <~~ scan_i "corrindx_fluxdata %d ";
        sta_index <~~ scan_opt_int "sta_index %d " (-1);
        ret (mk_flux_record target_id mjd int_time fluxdata fluxerr corrindx_fluxdata sta_index (unflagged nwave))
      else undefined
  | _ => undefined
  end.
(** oitable-demo.c 362-396 *)
Definition scan_flux (nwave : Z) : scan oi_flux :=
  date_obs <~~ scan_s "OI_FLUX date-obs %70s ";
  arrname <~~ scan_opt_string "arrname %70s ";
  names <~~ scan_ss "insname %70s corrname %70s ";
  fov <~~ scan_opt_double "fov %lf " f64_zero;
  fovtype <~~ scan_opt_string "fovtype %6s ";
  v <~~ scanf "calstat %c ";
  match v with
  | [SChr calstat] =>
      numrec <~~ scan_i "numrec %ld ";
      _ <~~ room numrec;
      record <~~ rows numrec (fun _ => scan_flux_record nwave);
      ret (mk_dtab 1 date_obs (text arrname) (fst names) (snd names)
             (mk_flux_extra fov (text fovtype) calstat "Jy") numrec nwave record)
  | _ => undefined
  end.

Record demo := mk_demo {
  dm_array : oi_array; dm_targets : oi_target; dm_wave : oi_wavelength; dm_corr : oi_corr;
  dm_inspol : oi_inspol; dm_vis : oi_vis; dm_vis2 : oi_vis2; dm_t3 : oi_t3; dm_flux : oi_flux }.
(** oitable-demo.c 89-396 *)
Definition scan_all (junk : Z) : scan demo :=
  array <~~ scan_array;
  targets <~~ scan_targets;
  wave <~~ scan_wavelength;
  corr <~~ scan_corr;
  inspol <~~ scan_inspol (wv_nwave wave);
  vis <~~ scan_vis junk (wv_nwave wave);
  vis2 <~~ scan_vis2 (wv_nwave wave);
  t3 <~~ scan_t3 (wv_nwave wave);
  flux <~~ scan_flux (wv_nwave wave);
  ret (mk_demo array targets wave corr inspol vis vis2 t3 flux).

(** ** Writing *)

Variable E : cfitsio.
(** oitable-demo.c 400-412; [header.date] and [header.content] are not set *)
Definition demo_header (m : demo) : res oi_header :=
  match ot_targ (dm_targets m) with
  | [] => UB
  | t :: _ =>
      Ok (mk_header "ESO" (cf_junk_str E) (tb_date_obs (dm_vis m)) (cf_junk_str E) (ar_arrname (dm_array m))
            (wv_insname (dm_wave m)) "Astronomer" "Low_JHK" (tg_target t) "" "" "" "" "")
  end.
(** oitable-demo.c 426-435 *)
Definition demo_write_tables (h : oi_header) (m : demo) : wstate -> res wstate :=
  write_oi_header E h ;>
  write_oi_target E (dm_targets m) ;>
  write_oi_vis E (dm_vis m) 1 ;>
  write_oi_vis2 E (dm_vis2 m) 1 ;>
  write_oi_t3 E (dm_t3 m) 1 ;>
  write_oi_flux E (dm_flux m) 1 ;>
  write_oi_array E (dm_array m) 1 ;>
  write_oi_wavelength E (dm_wave m) 1 ;>
  write_oi_corr E (dm_corr m) 1 ;>
  write_oi_inspol E (dm_inspol m) 1.

Fixpoint find_text (name : string) (l : list (string * string)) : option string :=
  match l with
  | [] => None
  | (n, t) :: l' => if str_eqb n name then Some t else find_text name l'
  end.
(** what fgets leaves on stdin *)
Fixpoint after_fgets (n : nat) (input : string) : string :=
  match n, input with
  | S n', String c rest => if Ascii.eqb c "010" then rest else after_fgets n' rest
  | _, _ => input
  end.
Definition after_name (input : string) : string := after_fgets (Z.to_nat (FLEN_FILENAME - 1)) input.
(** oitable-demo.c 69-458: the exit status if the program ends here, the files, and what is left
    on stdin.  [texts]: the text files that can be read; opening any other gives a null pointer,
    which fscanf must not be given.  A file that could not be completed is deleted. *)
Definition demo_write (input : string) (texts : list (string * string)) (d : disk)
  : res (option Z * disk * string) :=
  name <- typed_name input ;;
  match find_text name texts with
  | None => UB
  | Some t =>
      r <- scan_all (cf_junk_int E) t ;;
      let m := fst r in
      h <- demo_header m ;;
      let input := after_name input in
      out <- typed_name input ;;
      match find_file out d with
      | Some _ => Ok (Some 1, d, after_name input)
      | None =>
          s <- demo_write_tables h m (mk_file [] 0, 0) ;;
          if snd s =? 0 then Ok (None, (out, f_hdus (fst s)) :: d, after_name input)
          else Ok (Some 1, d, after_name input)
      end
  end.
(** oitable-demo.c 663-668: the lines printed by demo_read, the exit status and the files *)
Definition demo_main (input : string) (texts : list (string * string)) (d : disk)
  : res (list string * Z * disk) :=
  r <- demo_write input texts d ;;
  let '(stopped, d', input') := r in
  match stopped with
  | Some st => Ok ([], st, d')
  | None => r <- demo_read E input' d' ;; Ok (fst r, snd r, d')
  end.
End Scan.
