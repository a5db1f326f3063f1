(** Model of the command-line programs in src/util, and of format_oi_fits_summary and
    the command-line filter of oifilter.c.

    A program takes its arguments (argv[1] on) and the files, and returns its exit
    status, what it printed itself on stdout, and the files afterwards.  Messages
    printed by the reading and writing functions, g_warning() messages, the program name
    in usage messages and the freeing of storage before exit are left out.  File names are plain: cfitsio's extended
    syntax ("!name", "name[1]") is left out. *)
From Verif Require Export CheckModel FilterModel MergeModel ReadModel WriteModel.
Open Scope Z_scope.

Record outcome := mk_outcome { x_status : Z; x_stdout : string; x_disk : disk }.

(** stdlib.h *)
Definition EXIT_SUCCESS : Z := 0.
Definition EXIT_FAILURE : Z := 1.
(** fitsio.h *)
Definition FLEN_FILENAME : Z := 1025.

(** ** Summary of a dataset *)

(** "%-<w>d": pad with blanks on the right *)
Definition fmt_ld (w : nat) (z : Z) : string :=
  let s := string_of_Z z in (s ++ repeat_char " "%char (w - String.length s))%string.

Definition c_1e9 : f64 := Eval vm_compute in f64_of_Z 1000000000.
Definition c_1em9 : f64 := Eval vm_compute in f64_ratio 1 1000000000.

(** "while (link != NULL) { append(format(nn++, link->data)); link = link->next; }" *)
Fixpoint format_list {A} (format : Z -> A -> res string) (nn : Z) (l : list A) : res string :=
  match l with
  | [] => Ok EmptyString
  | a :: l' => s <- format nn a ;; rest <- format_list format (nn + 1) l' ;; Ok (s ++ rest)%string
  end.

Section Tools.
Variable E : cfitsio.
(** what printf makes of a number for a conversion specification *)
Variable fmt : string -> f64 -> string.
(** pow(x, 0.5) *)
Variable pow_half : f64 -> f64.
(** whether g_remove() succeeds *)
Variable can_remove : string -> bool.

(** oifile.c 137-152 *)
Definition format_array (nn : Z) (a : oi_array) : res string :=
  Ok ("    #" ++ fmt_ld 2 nn ++ " ARRNAME='" ++ ar_arrname a ++ "'  " ++ fmt_d (ar_nelement a)
      ++ " elements" ++ newline)%string.
(** oifile.c 155-174 *)
Definition format_wavelength (nn : Z) (w : oi_wavelength) : res string :=
  lo <- get_min_wavelength w ;; hi <- get_max_wavelength w ;;
  Ok ("    #" ++ fmt_ld 2 nn ++ " INSNAME='" ++ wv_insname w ++ "'  " ++ fmt_d (wv_nwave w)
      ++ " channels  " ++ fmt "%7.1f" (f64_mul c_1e9 (to_f64 lo)) ++ "-"
      ++ fmt "%7.1f" (f64_mul c_1e9 (to_f64 hi)) ++ "nm" ++ newline)%string.
(** oifile.c 177-194 *)
Definition format_corr (nn : Z) (c : oi_corr) : res string :=
  Ok ("    #" ++ fmt_ld 2 nn ++ " CORRNAME='" ++ co_corrname c ++ "'  " ++ fmt_d (co_ncorr c)
      ++ "/" ++ fmt_d (co_ndata c) ++ " non-zero correlations" ++ newline)%string.
(** oifile.c 197-213 *)
Definition format_inspol (nn : Z) (t : oi_inspol) : res string :=
  Ok ("    #" ++ fmt_ld 2 nn ++ " ARRNAME='" ++ is_arrname t ++ "'" ++ newline)%string.
(** FORMAT_OI_LIST_SUMMARY, oifile.c 1120-1138 *)
Definition format_dtab {X R} (nn : Z) (t : dtab X R) : res string :=
  Ok ("    #" ++ fmt_ld 2 nn ++ " DATE-OBS=" ++ tb_date_obs t ++ newline
      ++ "    INSNAME='" ++ tb_insname t ++ "'  ARRNAME='" ++ tb_arrname t ++ "'  CORRNAME='"
      ++ tb_corrname t ++ "'" ++ newline
      ++ "     " ++ fmt_wd 5 (tb_numrec t) ++ " records x " ++ fmt_wd 3 (tb_nwave t)
      ++ " wavebands" ++ newline)%string.

(** oifile.c 1147-1183 *)
Definition format_oi_fits_summary (o : oi_fits) : res string :=
  let h := o_header o in
  let line (name value : string) := ("  " ++ name ++ "= '" ++ value ++ "'" ++ newline)%string in
  let count (n : Z) (name : string) := ("  " ++ fmt_d n ++ " " ++ name ++ " tables:" ++ newline)%string in
  arrays <- format_list format_array 1 (o_arrayList o) ;;
  waves <- format_list format_wavelength 1 (o_wavelengthList o) ;;
  corrs <- format_list format_corr 1 (o_corrList o) ;;
  inspols <- format_list format_inspol 1 (o_inspolList o) ;;
  vis <- format_list format_dtab 1 (o_visList o) ;;
  vis2 <- format_list format_dtab 1 (o_vis2List o) ;;
  t3 <- format_list format_dtab 1 (o_t3List o) ;;
  flux <- format_list format_dtab 1 (o_fluxList o) ;;
  Ok ((if is_oi_fits_two o then "OIFITS version 2 data:" else "OIFITS version 1 data:") ++ newline
      ++ line "ORIGIN  " (h_origin h) ++ line "DATE    " (h_date h)
      ++ line "DATE-OBS" (h_date_obs h) ++ line "TELESCOP" (h_telescop h)
      ++ line "INSTRUME" (h_instrume h) ++ line "OBSERVER" (h_observer h)
      ++ line "OBJECT  " (h_object h) ++ line "INSMODE " (h_insmode h)
      ++ line "OBSTECH " (h_obstech h) ++ newline
      ++ count (o_numArray o) "OI_ARRAY" ++ arrays
      ++ count (o_numWavelength o) "OI_WAVELENGTH" ++ waves
      ++ count (o_numCorr o) "OI_CORR" ++ corrs
      ++ count (o_numInspol o) "OI_INSPOL" ++ inspols
      ++ count (o_numVis o) "OI_VIS" ++ vis
      ++ count (o_numVis2 o) "OI_VIS2" ++ vis2
      ++ count (o_numT3 o) "OI_T3" ++ t3
      ++ count (o_numFlux o) "OI_FLUX" ++ flux)%string.

(** [status = 0; read_oi_fits(name, &o, &status); if (status) goto except;] followed by
    [k o]; reading does not change the files. *)
Definition reading (name : string) (d : disk) (k : oi_fits -> res outcome) : res outcome :=
  r <- read_oi_fits E name d 0 ;;
  if negb (snd r =? 0) then Ok (mk_outcome EXIT_FAILURE "" d)
  else match fst r with Some o => k o | None => UB end.

(** [write_oi_fits(name, o, &status); if (status) goto except; exit(EXIT_SUCCESS);] *)
Definition writing (name : string) (o : oi_fits) (d : disk) (out : string) : res outcome :=
  w <- write_oi_fits E name o d 0 ;;
  Ok (mk_outcome (if snd w =? 0 then EXIT_SUCCESS else EXIT_FAILURE) out (fst w)).

(** ** oifits-merge.c 31-95 *)

(** lines 54-66: [None] if a file cannot be read *)
Fixpoint read_files (names : list string) (d : disk) : res (option (list oi_fits)) :=
  match names with
  | [] => Ok (Some [])
  | name :: names' =>
      r <- read_oi_fits E name d 0 ;;
      if negb (snd r =? 0) then Ok None
      else match fst r with
           | None => UB
           | Some o =>
               rest <- read_files names' d ;;
               Ok (match rest with Some l => Some (o :: l) | None => None end)
           end
  end.

Definition oifits_merge (args : list string) (d : disk) : res outcome :=
  match args with
  | outName :: ((_ :: _ :: _) as names) =>
      ins <- read_files names d ;;
      match ins with
      | None => Ok (mk_outcome EXIT_FAILURE "" d)
      | Some ins =>
          o <- merge_oi_fits_list ins ;;
          text <- format_oi_fits_summary o ;;
          writing outName o d ("=== MERGED DATA: ===" ++ newline ++ text)
      end
  | _ => Ok (mk_outcome 2 ("Usage: OUTFILE INFILE1 INFILE2..." ++ newline) d)
  end.

(** ** oifits-upgrade.c 32-85

    argv[argc] is NULL.  g_strlcpy() with a NULL source leaves the destination alone
    (g_return_val_if_fail). *)
Definition oifits_upgrade (args : list string) (d : disk) : res outcome :=
  match args with
  | inName :: outName :: origin :: observer :: more =>
      reading inName d (fun o =>
        if is_oi_fits_two o then
          Ok (mk_outcome EXIT_FAILURE
                ("Input datafile is already latest OIFITS version" ++ newline) d)
        else if o_numArray o =? 0 then
          Ok (mk_outcome EXIT_FAILURE
                ("Input datafile has no OI_ARRAY table - cannot convert" ++ newline) d)
        else
          let h := o_header o in
          let insmode := match more with s :: _ => strlcpy FLEN_VALUE s | [] => h_insmode h end in
          let o := set_header
            (mk_header (strlcpy FLEN_VALUE origin) (h_date h) (h_date_obs h) (h_content h)
               (h_telescop h) (h_instrume h) (strlcpy FLEN_VALUE observer) insmode (h_object h)
               (h_referenc h) (h_author h) (h_prog_id h) (h_procsoft h) (h_obstech h)) o in
          text <- format_oi_fits_summary o ;;
          writing outName o d ("=== INPUT DATA: ===" ++ newline ++ text))
  | _ => Ok (mk_outcome 2 ("Usage: INFILE OUTFILE ORIGIN OBSERVER INSMODE" ++ newline) d)
  end.

(** ** oifits-check.c 30-90 *)

(** lines 33-47 *)
Definition checks : list (oi_fits -> res check_result) :=
  [check_tables; check_header; check_keywords; check_visrefmap; check_unique_targets;
   check_targets_present; check_arrname; check_elements_present; check_corr_present;
   check_flagging; check_t3amp; check_waveorder; check_time; check_flux].

(** one turn of the loop, lines 75-80; the state is the worst level and the text *)
Definition run_check (o : oi_fits) (check : oi_fits -> res check_result) (s : Z * string)
  : res (Z * string) :=
  result <- check o ;;
  if cr_level result =? OI_BREACH_NONE then Ok s
  else
    text <- print_check_result result ;;
    Ok (if cr_level result >? fst s then cr_level result else fst s, (snd s ++ text)%string).

Definition oifits_check (args : list string) (d : disk) : res outcome :=
  match args with
  | [arg] =>
      reading (strlcpy FLEN_FILENAME arg) d (fun o =>
        text <- format_oi_fits_summary o ;;
        s <- foreach checks (run_check o) (OI_BREACH_NONE, text) ;;
        Ok (mk_outcome EXIT_SUCCESS
              (if fst s =? OI_BREACH_NONE then (snd s ++ "All checks passed" ++ newline)%string
               else snd s) d))
  | _ => Ok (mk_outcome 2 ("Usage: FILE" ++ newline) d)
  end.

(** ** The command-line filter, oifilter.c 40-92 *)

(** The options, with their values as converted by GLib (lines 50-90) *)
Inductive filter_option :=
| Arrname (s : string) | Insname (s : string) | Corrname (s : string) | Target_id (z : Z)
| Mjd_min (x : f64) | Mjd_max (x : f64) | Wave_min (x : f64) | Wave_max (x : f64)
| Bas_min (x : f64) | Bas_max (x : f64) | Uvrad_min (x : f64) | Uvrad_max (x : f64)
| Snr_min (x : f64) | Snr_max (x : f64)
| Accept_vis (z : Z) | Accept_vis2 (z : Z) | Accept_t3amp (z : Z) | Accept_t3phi (z : Z)
| Accept_flux (z : Z) | Accept_flagged (z : Z).

(** the static and global variables, lines 41-45; doneParse is TRUE after parsing *)
Record parse_state := mk_parse {
  ps_filter : filter_spec;
  ps_arrname : option string; ps_insname : option string; ps_corrname : option string;
  ps_waveMinNm : f64; ps_waveMaxNm : f64; ps_snrMin : f64; ps_snrMax : f64 }.

(** oifilter.c 100-113 *)
Definition filter_pre_parse : parse_state :=
  let f := init_oi_filter in
  mk_parse f None None None
    (f64_mul c_1e9 (to_f64 (f_wave_lo f))) (f64_mul c_1e9 (to_f64 (f_wave_hi f)))
    (to_f64 (f_snr_lo f)) (to_f64 (f_snr_hi f)).

(** What GLib does for one option: assign to the variable of its entry.  The accept_*
    members are ints in C, used as booleans. *)
Definition set_option (op : filter_option) (p : parse_state) : parse_state :=
  let f := ps_filter p in
  let nonzero z := negb (z =? 0) in
  let with_filter f := mk_parse f (ps_arrname p) (ps_insname p) (ps_corrname p) (ps_waveMinNm p)
    (ps_waveMaxNm p) (ps_snrMin p) (ps_snrMax p) in
  let spec target_id mjd_lo mjd_hi bas_lo bas_hi uvrad_lo uvrad_hi vis vis2 t3amp t3phi flux flagged :=
    with_filter (mk_filter (f_arrname f) (f_insname f) (f_corrname f) target_id mjd_lo mjd_hi
      (f_wave_lo f) (f_wave_hi f) bas_lo bas_hi uvrad_lo uvrad_hi (f_snr_lo f) (f_snr_hi f)
      vis vis2 t3amp t3phi flux flagged (f_arrname_pttn f) (f_insname_pttn f) (f_corrname_pttn f)) in
  let with_names a i c := mk_parse f a i c (ps_waveMinNm p) (ps_waveMaxNm p) (ps_snrMin p) (ps_snrMax p) in
  let with_ranges wlo whi slo shi :=
    mk_parse f (ps_arrname p) (ps_insname p) (ps_corrname p) wlo whi slo shi in
  let ti := f_target_id f in let ml := f_mjd_lo f in let mh := f_mjd_hi f in
  let bl := f_bas_lo f in let bh := f_bas_hi f in let ul := f_uvrad_lo f in let uh := f_uvrad_hi f in
  let v := f_accept_vis f in let v2 := f_accept_vis2 f in let ta := f_accept_t3amp f in
  let tp := f_accept_t3phi f in let fx := f_accept_flux f in let fg := f_accept_flagged f in
  match op with
  | Arrname s => with_names (Some s) (ps_insname p) (ps_corrname p)
  | Insname s => with_names (ps_arrname p) (Some s) (ps_corrname p)
  | Corrname s => with_names (ps_arrname p) (ps_insname p) (Some s)
  | Target_id z => spec z ml mh bl bh ul uh v v2 ta tp fx fg
  | Mjd_min x => spec ti x mh bl bh ul uh v v2 ta tp fx fg
  | Mjd_max x => spec ti ml x bl bh ul uh v v2 ta tp fx fg
  | Wave_min x => with_ranges x (ps_waveMaxNm p) (ps_snrMin p) (ps_snrMax p)
  | Wave_max x => with_ranges (ps_waveMinNm p) x (ps_snrMin p) (ps_snrMax p)
  | Bas_min x => spec ti ml mh x bh ul uh v v2 ta tp fx fg
  | Bas_max x => spec ti ml mh bl x ul uh v v2 ta tp fx fg
  | Uvrad_min x => spec ti ml mh bl bh x uh v v2 ta tp fx fg
  | Uvrad_max x => spec ti ml mh bl bh ul x v v2 ta tp fx fg
  | Snr_min x => with_ranges (ps_waveMinNm p) (ps_waveMaxNm p) x (ps_snrMax p)
  | Snr_max x => with_ranges (ps_waveMinNm p) (ps_waveMaxNm p) (ps_snrMin p) x
  | Accept_vis z => spec ti ml mh bl bh ul uh (nonzero z) v2 ta tp fx fg
  | Accept_vis2 z => spec ti ml mh bl bh ul uh v (nonzero z) ta tp fx fg
  | Accept_t3amp z => spec ti ml mh bl bh ul uh v v2 (nonzero z) tp fx fg
  | Accept_t3phi z => spec ti ml mh bl bh ul uh v v2 ta (nonzero z) fx fg
  | Accept_flux z => spec ti ml mh bl bh ul uh v v2 ta tp (nonzero z) fg
  | Accept_flagged z => spec ti ml mh bl bh ul uh v v2 ta tp fx (nonzero z)
  end.

(** oifilter.c 118-131: parsedFilter afterwards *)
Definition filter_post_parse (p : parse_state) : filter_spec :=
  let f := ps_filter p in
  let name (given : option string) (old : string) :=
    match given with Some s => strlcpy FLEN_VALUE s | None => old end in
  mk_filter (name (ps_arrname p) (f_arrname f)) (name (ps_insname p) (f_insname f))
    (name (ps_corrname p) (f_corrname f)) (f_target_id f) (f_mjd_lo f) (f_mjd_hi f)
    (to_f32 (f64_mul c_1em9 (ps_waveMinNm p))) (to_f32 (f64_mul c_1em9 (ps_waveMaxNm p)))
    (f_bas_lo f) (f_bas_hi f) (f_uvrad_lo f) (f_uvrad_hi f)
    (to_f32 (ps_snrMin p)) (to_f32 (ps_snrMax p))
    (f_accept_vis f) (f_accept_vis2 f) (f_accept_t3amp f) (f_accept_t3phi f) (f_accept_flux f)
    (f_accept_flagged f) (f_arrname_pttn f) (f_insname_pttn f) (f_corrname_pttn f).

(** get_user_oi_filter after g_option_context_parse *)
Definition user_filter (opts : list filter_option) : filter_spec :=
  filter_post_parse (fold_left (fun p op => set_option op p) opts filter_pre_parse).

(** ** oifits-filter.c 37-112 *)

(** g_remove() *)
Definition remove_file (name : string) (d : disk) : disk :=
  filter (fun f => negb (str_eqb (fst f) name)) d.

(** the command line as split by g_option_context_parse *)
Record command_line := mk_command_line {
  cl_clobber : bool; cl_options : list filter_option; cl_args : list string }.

(** oifilter.c 523-572; print_oi_filter (579-582) prints this.  float arguments are promoted to
    double. *)
Definition format_oi_filter (f : filter_spec) : string :=
  let range what spec (lo hi : f64) unit :=
    ("  " ++ what ++ ": " ++ fmt spec lo ++ " - " ++ fmt spec hi ++ unit ++ newline)%string in
  let accepts (flag : bool) yes no := ("  " ++ (if flag then yes else no) ++ newline)%string in
  ("Filter accepts:" ++ newline
   ++ "  ARRNAME='" ++ f_arrname f ++ "'" ++ newline
   ++ "  INSNAME='" ++ f_insname f ++ "'" ++ newline
   ++ "  CORRNAME='" ++ f_corrname f ++ "'" ++ newline
   ++ (if (0 <=? f_target_id f)%Z then "  TARGET_ID=" ++ fmt_d (f_target_id f) ++ newline
       else "  [Any TARGET_ID]" ++ newline)
   ++ range "MJD" "%.2lf" (f_mjd_lo f) (f_mjd_hi f) ""
   ++ range "Wavelength" "%.1f" (f64_mul c_1e9 (to_f64 (f_wave_lo f))) (f64_mul c_1e9 (to_f64 (f_wave_hi f))) "nm"
   ++ range "Baseline" "%.1lf" (f_bas_lo f) (f_bas_hi f) "m"
   ++ range "UV Radius" "%.1lg" (f_uvrad_lo f) (f_uvrad_hi f) " waves"
   ++ range "SNR" "%.1f" (to_f64 (f_snr_lo f)) (to_f64 (f_snr_hi f)) ""
   ++ accepts (f_accept_vis f) "OI_VIS (complex visibilities)" "[OI_VIS not accepted]"
   ++ accepts (f_accept_vis2 f) "OI_VIS2 (squared visibilities)" "[OI_VIS2 not accepted]"
   ++ accepts (f_accept_t3amp f) "OI_T3 T3AMP (triple amplitudes)" "[OI_T3 T3AMP not accepted]"
   ++ accepts (f_accept_t3phi f) "OI_T3 T3PHI (closure phases)" "[OI_T3 T3PHI not accepted]"
   ++ accepts (f_accept_flux f) "OI_FLUX (incoherent spectra)" "[OI_FLUX not accepted]"
   ++ accepts (f_accept_flagged f) "All-flagged records" "[All-flagged records not accepted]")%string.

(** [None]: g_option_context_parse reported an error.  --help is left out. *)
Definition oifits_filter (cl : option command_line) (d : disk) : res outcome :=
  match cl with
  | None => Ok (mk_outcome 2 ("Error parsing command-line options" ++ newline) d)
  | Some cl =>
      match cl_args cl with
      | [arg1; arg2] =>
          let inName := strlcpy FLEN_FILENAME arg1 in
          let outName := strlcpy FLEN_FILENAME arg2 in
          reading inName d (fun o =>
            text1 <- format_oi_fits_summary o ;;
            r <- apply_oi_filter pow_half o (user_filter (cl_options cl)) ;;
            text2 <- format_oi_fits_summary (snd r) ;;
            let text := ("=== INPUT DATA: ===" ++ newline ++ text1 ++ "=== Applying filter: ==="
              ++ newline ++ format_oi_filter (user_filter (cl_options cl)) ++ "--> OUTPUT DATA: ===" ++ newline
              ++ text2)%string in
            match find_file outName d with
            | None => writing outName (snd r) d text
            | Some _ =>
                if negb (cl_clobber cl) then
                  Ok (mk_outcome 1 (text ++ "Output file '" ++ outName ++ "' exists and '--clobber' not specified "
                        ++ "-> Exiting..." ++ newline) d)
                else if negb (can_remove outName) then
                  Ok (mk_outcome 1 (text ++ "Failed to remove existing output file '" ++ outName ++ "'" ++ newline) d)
                else writing outName (snd r) (remove_file outName d) text
            end)
      | _ => Ok (mk_outcome 2 ("Wrong number of command-line arguments" ++ newline) d)
      end
  end.
End Tools.
