(** What the properties of the programs in src/util are stated with. *)
From Verif Require Import ToolModel.
From Verif Require Export IOClaims FilterSpec MergeSpec CheckSpec Types FloatModel.
Open Scope list_scope.
Open Scope Z_scope.

(** ** Files *)

Section Files.
Variable E : cfitsio.
(** The file can be read, and this is the dataset. *)
Definition reads (name : string) (d : disk) (o : oi_fits) : Prop :=
  read_oi_fits E name d 0 = Ok (Some o, 0).
(** Reading ends with an error (no such file, or not a readable OIFITS file). *)
Definition cannot_read (name : string) (d : disk) : Prop :=
  exists st, st <> 0 /\ read_oi_fits E name d 0 = Ok (None, st).
(** The file holds the dataset as write_oi_fits stores it ([stored_x], IOSpec.v). *)
Definition file_holds (name : string) (d : disk) (o : oi_fits) : Prop :=
  exists o', reads name d o'
    /\ has_tables o' (stored_header E (o_header o)) (stored_target E (o_targets o))
         (map (stored_array E) (o_arrayList o)) (map stored_wavelength (o_wavelengthList o))
         (map stored_corr (o_corrList o)) (map (stored_inspol E) (o_inspolList o))
         (map (stored_vis E) (o_visList o)) (map (stored_vis2 E) (o_vis2List o))
         (map (stored_t3 E) (o_t3List o)) (map (stored_flux E) (o_fluxList o)).
End Files.
(** Whenever [m] returns a table, it is a [Q]. *)
Definition yields {A} (m : io A) (Q : A -> Prop) : Prop := forall s a s', m s = Ok (Some a, s') -> Q a.
(** All other files are as they were. *)
Definition others_kept (name : string) (d d' : disk) : Prop :=
  forall other, other <> name -> find_file other d' = find_file other d.
(** Every file there was is as it was; only [name] may be new. *)
Definition only_adds (name : string) (d d' : disk) : Prop :=
  others_kept name d d' /\ forall hdus, find_file name d = Some hdus -> find_file name d' = Some hdus.

(** ** What the contents of a readable file must satisfy *)

(** for filtering: names of instruments are unique and at most 70 characters long, tables have
    as many channels as the instrument they name, and an OI_INSPOL table is for one *)
Record channels_match (o : oi_fits) : Prop := mk_channels_match {
  cm_names : Forall (fun w => fits_value (wv_insname w) = true) (o_wavelengthList o);
  cm_unique : NoDup (map wv_insname (o_wavelengthList o));
  cm_vis : forall t w, In t (o_visList o) -> instrument o (tb_insname t) w -> wv_nwave w = tb_nwave t;
  cm_vis2 : forall t w, In t (o_vis2List o) -> instrument o (tb_insname t) w -> wv_nwave w = tb_nwave t;
  cm_t3 : forall t w, In t (o_t3List o) -> instrument o (tb_insname t) w -> wv_nwave w = tb_nwave t;
  cm_flux : forall t w, In t (o_fluxList o) -> instrument o (tb_insname t) w -> wv_nwave w = tb_nwave t;
  cm_inspol : forall t, In t (o_inspolList o) ->
    exists name, (forall r, In r (is_record t) -> ip_insname r = name)
      /\ forall w, instrument o name w -> wv_nwave w = is_nwave t }.
(** for merging: records are of listed targets, the date is understood, and there are not
    too many targets *)
Definition targets_match (ins : list oi_fits) : Prop :=
  Forall (fun d => targets_listed d /\ dated d) ins
  /\ (List.length (nodup string_dec (map tg_target (all_targets ins))) < 100)%nat.
(** for checking: the ARRNAME of an OI_INSPOL table and the CORRNAME of an OI_FLUX table occur in
    another data table too (see C06) *)
Definition named_elsewhere (o : oi_fits) : Prop :=
  (forall t, In t (o_inspolList o) -> is_arrname t <> ""%string -> uses_arrname o (is_arrname t))
  /\ (forall t, In t (o_fluxList o) -> tb_corrname t <> ""%string ->
      (exists u, In u (o_visList o) /\ tb_corrname u = tb_corrname t)
      \/ (exists u, In u (o_vis2List o) /\ tb_corrname u = tb_corrname t)
      \/ (exists u, In u (o_t3List o) /\ tb_corrname u = tb_corrname t)).

(** ** oifits-upgrade *)

(** at most 70 characters *)
Definition cut (s : string) : string := substring 0 70 s.
(** the dataset with these three values in its header *)
Definition relabelled (origin observer insmode : string) (o o' : oi_fits) : Prop :=
  o_header o' = mk_header (cut origin) (h_date (o_header o)) (h_date_obs (o_header o)) (h_content (o_header o))
     (h_telescop (o_header o)) (h_instrume (o_header o)) (cut observer) (cut insmode) (h_object (o_header o))
     (h_referenc (o_header o)) (h_author (o_header o)) (h_prog_id (o_header o)) (h_procsoft (o_header o))
     (h_obstech (o_header o))
  /\ o_targets o' = o_targets o /\ o_arrayList o' = o_arrayList o /\ o_wavelengthList o' = o_wavelengthList o
  /\ o_corrList o' = o_corrList o /\ o_inspolList o' = o_inspolList o /\ o_visList o' = o_visList o
  /\ o_vis2List o' = o_vis2List o /\ o_t3List o' = o_t3List o /\ o_fluxList o' = o_fluxList o.

(** ** Summaries *)

(** "    #n", blanks, and then the text *)
Definition item (n : Z) (text : string) : string -> Prop :=
  fun line => exists k, line = ("    #" ++ string_of_Z n ++ repeat_char " " k ++ text)%string.
Definition data_item {X R} (n : Z) (t : dtab X R) (lines : string) : Prop :=
  exists k1 k2, item n
    (" DATE-OBS=" ++ tb_date_obs t ++ nl
     ++ "    INSNAME='" ++ tb_insname t ++ "'  ARRNAME='" ++ tb_arrname t
     ++ "'  CORRNAME='" ++ tb_corrname t ++ "'" ++ nl
     ++ "     " ++ repeat_char " " k1 ++ string_of_Z (tb_numrec t) ++ " records x "
     ++ repeat_char " " k2 ++ string_of_Z (tb_nwave t) ++ " wavebands" ++ nl)%string lines.
(** how many tables of that kind there are, and then all of them in order, numbered from 1 *)
Definition listed {A} (name : string) (l : list A) (describe : Z -> A -> string -> Prop) (part : string) : Prop :=
  exists items,
    part = ("  " ++ string_of_Z (Z.of_nat (List.length l)) ++ " " ++ name ++ " tables:" ++ nl
            ++ fold_right String.append ""%string items)%string
    /\ List.length items = List.length l
    /\ forall i a text, nth_error l i = Some a -> nth_error items i = Some text -> describe (Z.of_nat i + 1) a text.
(** the least and greatest of the channels, but at most 1e11 and at least 0 *)
Definition least (w : oi_wavelength) (m : f32) : Prop :=
  (In m (wv_eff_wave w) \/ m = to_f32 (f64_of_Z (10 ^ 11)))
  /\ Forall (fun x => SFltb x m = false) (wv_eff_wave w).
Definition greatest (w : oi_wavelength) (m : f32) : Prop :=
  (In m (wv_eff_wave w) \/ m = to_f32 (f64_of_Z 0))
  /\ Forall (fun x => SFltb m x = false) (wv_eff_wave w).
Definition keyword_line (name value : string) : string := ("  " ++ name ++ "= '" ++ value ++ "'" ++ nl)%string.
Definition summary_of (fmt : string -> f64 -> string) (o : oi_fits) (text : string) : Prop :=
  exists arrays waves corrs inspols vis vis2 t3 flux,
  text = ("OIFITS version " ++ (if String.eqb (h_content (o_header o)) "OIFITS2" then "2" else "1") ++ " data:" ++ nl
    ++ keyword_line "ORIGIN  " (h_origin (o_header o)) ++ keyword_line "DATE    " (h_date (o_header o))
    ++ keyword_line "DATE-OBS" (h_date_obs (o_header o)) ++ keyword_line "TELESCOP" (h_telescop (o_header o))
    ++ keyword_line "INSTRUME" (h_instrume (o_header o)) ++ keyword_line "OBSERVER" (h_observer (o_header o))
    ++ keyword_line "OBJECT  " (h_object (o_header o)) ++ keyword_line "INSMODE " (h_insmode (o_header o))
    ++ keyword_line "OBSTECH " (h_obstech (o_header o)) ++ nl
    ++ arrays ++ waves ++ corrs ++ inspols ++ vis ++ vis2 ++ t3 ++ flux)%string
  /\ listed "OI_ARRAY" (o_arrayList o) (fun n a => item n (" ARRNAME='" ++ ar_arrname a ++ "'  "
       ++ string_of_Z (ar_nelement a) ++ " elements" ++ nl)%string) arrays
  /\ listed "OI_WAVELENGTH" (o_wavelengthList o) (fun n w line => exists lo hi, least w lo /\ greatest w hi
       /\ item n (" INSNAME='" ++ wv_insname w ++ "'  " ++ string_of_Z (wv_nwave w) ++ " channels  "
       ++ fmt "%7.1f"%string (f64_mul (f64_of_Z (10 ^ 9)) (to_f64 lo)) ++ "-"
       ++ fmt "%7.1f"%string (f64_mul (f64_of_Z (10 ^ 9)) (to_f64 hi)) ++ "nm" ++ nl)%string line) waves
  /\ listed "OI_CORR" (o_corrList o) (fun n c => item n (" CORRNAME='" ++ co_corrname c ++ "'  "
       ++ string_of_Z (co_ncorr c) ++ "/" ++ string_of_Z (co_ndata c) ++ " non-zero correlations" ++ nl)%string) corrs
  /\ listed "OI_INSPOL" (o_inspolList o) (fun n t => item n (" ARRNAME='" ++ is_arrname t ++ "'" ++ nl)%string) inspols
  /\ listed "OI_VIS" (o_visList o) data_item vis /\ listed "OI_VIS2" (o_vis2List o) data_item vis2
  /\ listed "OI_T3" (o_t3List o) data_item t3 /\ listed "OI_FLUX" (o_fluxList o) data_item flux.

(** What a filter accepts, one criterion to a line: what stands for the names, the target, the
    ranges (wavelengths in nm) and each of the kinds of data *)
Definition filter_text (fmt : string -> f64 -> string) (f : filter_spec) : string :=
  String.concat nl ["Filter accepts:";
    "  ARRNAME='" ++ f_arrname f ++ "'";
    "  INSNAME='" ++ f_insname f ++ "'";
    "  CORRNAME='" ++ f_corrname f ++ "'";
    if (f_target_id f <? 0)%Z then "  [Any TARGET_ID]" else "  TARGET_ID=" ++ string_of_Z (f_target_id f);
    "  MJD: " ++ fmt "%.2lf" (f_mjd_lo f) ++ " - " ++ fmt "%.2lf" (f_mjd_hi f);
    "  Wavelength: " ++ fmt "%.1f" (f64_mul (f64_of_Z (10 ^ 9)) (to_f64 (f_wave_lo f))) ++ " - "
      ++ fmt "%.1f" (f64_mul (f64_of_Z (10 ^ 9)) (to_f64 (f_wave_hi f))) ++ "nm";
    "  Baseline: " ++ fmt "%.1lf" (f_bas_lo f) ++ " - " ++ fmt "%.1lf" (f_bas_hi f) ++ "m";
    "  UV Radius: " ++ fmt "%.1lg" (f_uvrad_lo f) ++ " - " ++ fmt "%.1lg" (f_uvrad_hi f) ++ " waves";
    "  SNR: " ++ fmt "%.1f" (to_f64 (f_snr_lo f)) ++ " - " ++ fmt "%.1f" (to_f64 (f_snr_hi f));
    if f_accept_vis f then "  OI_VIS (complex visibilities)" else "  [OI_VIS not accepted]";
    if f_accept_vis2 f then "  OI_VIS2 (squared visibilities)" else "  [OI_VIS2 not accepted]";
    if f_accept_t3amp f then "  OI_T3 T3AMP (triple amplitudes)" else "  [OI_T3 T3AMP not accepted]";
    if f_accept_t3phi f then "  OI_T3 T3PHI (closure phases)" else "  [OI_T3 T3PHI not accepted]";
    if f_accept_flux f then "  OI_FLUX (incoherent spectra)" else "  [OI_FLUX not accepted]";
    if f_accept_flagged f then "  All-flagged records" else "  [All-flagged records not accepted]";
    ""]%string.

(** ** oifits-check *)

(** what is found by each of the fourteen checks, in the order they are made *)
Definition findings (o : oi_fits) : list (list violation) :=
  [(missing_tables o ++ revision_violations o)%list; header_violations o; keyword_violations o;
   visrefmap_violations o; duplicate_violations o; target_violations o; arrname_violations o;
   element_violations o; corr_violations o; flagging_violations o; t3amp_violations o;
   order_violations o; time_violations o; flux_violations o].
Definition finding_text (vs : list violation) : string :=
  match vs with
  | [] => ""%string
  | v :: _ => report_text vs (v_desc v) (fold_right Z.max 0 (map v_level vs))
  end.
Definition check_text (o : oi_fits) : string :=
  (fold_right String.append ""%string (map finding_text (findings o))
   ++ (if forallb (fun vs => match vs with [] => true | _ => false end) (findings o)
       then "All checks passed" ++ nl else ""))%string.
(** the two combinations of violations on which a check aborts (see C33) do not occur *)
Definition checkable (o : oi_fits) : Prop :=
  (tables_present o \/ revisions_ok o) /\ (inspol_named o \/ elements_present o).

(** ** The filter made from the options of a command line *)

(** the value given last *)
Fixpoint latest {A} (pick : filter_option -> option A) (opts : list filter_option) : option A :=
  match opts with
  | [] => None
  | op :: opts' => match latest pick opts' with Some a => Some a | None => pick op end
  end.
Definition or_else {A B} (use : A -> B) (default : B) (given : option A) : B :=
  match given with Some a => use a | None => default end.
(** a wavelength given in nm *)
Definition metres (nm : f64) : f32 := to_f32 (f64_mul (f64_ratio 1 (10 ^ 9)) nm).
Definition wanted (z : Z) : bool := negb (z =? 0).
Record filter_of (opts : list filter_option) (f : filter_spec) : Prop := {
  fo_arrname : f_arrname f = or_else cut "*"%string
    (latest (fun op => match op with Arrname s => Some s | _ => None end) opts);
  fo_insname : f_insname f = or_else cut "*"%string
    (latest (fun op => match op with Insname s => Some s | _ => None end) opts);
  fo_corrname : f_corrname f = or_else cut "*"%string
    (latest (fun op => match op with Corrname s => Some s | _ => None end) opts);
  fo_target_id : f_target_id f = or_else (fun a => a) (-1)
    (latest (fun op => match op with Target_id z => Some z | _ => None end) opts);
  fo_mjd_lo : f_mjd_lo f = or_else (fun a => a) (f64_of_Z 0)
    (latest (fun op => match op with Mjd_min x => Some x | _ => None end) opts);
  fo_mjd_hi : f_mjd_hi f = or_else (fun a => a) (f64_of_Z (10 ^ 7))
    (latest (fun op => match op with Mjd_max x => Some x | _ => None end) opts);
  fo_wave_lo : f_wave_lo f = or_else metres (to_f32 (f64_of_Z 0))
    (latest (fun op => match op with Wave_min x => Some x | _ => None end) opts);
  fo_wave_hi : f_wave_hi f = or_else metres (to_f32 (f64_ratio 1 (10 ^ 4)))
    (latest (fun op => match op with Wave_max x => Some x | _ => None end) opts);
  fo_bas_lo : f_bas_lo f = or_else (fun a => a) (f64_of_Z 0)
    (latest (fun op => match op with Bas_min x => Some x | _ => None end) opts);
  fo_bas_hi : f_bas_hi f = or_else (fun a => a) (f64_of_Z (10 ^ 4))
    (latest (fun op => match op with Bas_max x => Some x | _ => None end) opts);
  fo_uvrad_lo : f_uvrad_lo f = or_else (fun a => a) (f64_of_Z 0)
    (latest (fun op => match op with Uvrad_min x => Some x | _ => None end) opts);
  fo_uvrad_hi : f_uvrad_hi f = or_else (fun a => a) (f64_of_Z (10 ^ 11))
    (latest (fun op => match op with Uvrad_max x => Some x | _ => None end) opts);
  fo_snr_lo : f_snr_lo f = or_else to_f32 (to_f32 (f64_of_Z (-5)))
    (latest (fun op => match op with Snr_min x => Some x | _ => None end) opts);
  fo_snr_hi : f_snr_hi f = or_else to_f32 (to_f32 (f64_of_Z (10 ^ 10)))
    (latest (fun op => match op with Snr_max x => Some x | _ => None end) opts);
  fo_accept_vis : f_accept_vis f = or_else wanted true
    (latest (fun op => match op with Accept_vis z => Some z | _ => None end) opts);
  fo_accept_vis2 : f_accept_vis2 f = or_else wanted true
    (latest (fun op => match op with Accept_vis2 z => Some z | _ => None end) opts);
  fo_accept_t3amp : f_accept_t3amp f = or_else wanted true
    (latest (fun op => match op with Accept_t3amp z => Some z | _ => None end) opts);
  fo_accept_t3phi : f_accept_t3phi f = or_else wanted true
    (latest (fun op => match op with Accept_t3phi z => Some z | _ => None end) opts);
  fo_accept_flux : f_accept_flux f = or_else wanted true
    (latest (fun op => match op with Accept_flux z => Some z | _ => None end) opts);
  fo_accept_flagged : f_accept_flagged f = or_else wanted true
    (latest (fun op => match op with Accept_flagged z => Some z | _ => None end) opts);
  fo_fresh : fresh_filter f }.
