(** Specifications for oicheck.c: the violations of each rule, and what a report of a
    list of violations is. *)
From Verif Require Export Types FileSpec.
From Verif Require Import FileModel CheckModel.
Open Scope Z_scope.

(** ** Reports *)

(** level (1: warning, 2: not OIFITS), description, location *)
Record violation := mk_violation { v_level : Z; v_desc : string; v_text : string }.

(** The ten location slots *)
Definition slots (texts : list string) : list (option string) :=
  if (List.length texts <? 10)%nat
  then map Some texts ++ repeat None (10 - List.length texts)
  else map Some (firstn 9 texts) ++ [Some "[List truncated]"%string].

(** [r] is the report of the violations [vs]: exact count, first description, worst
    level. *)
Definition reported (vs : list violation) (r : check_result) : Prop :=
  cr_numBreach r = Z.of_nat (List.length vs)
  /\ cr_level r = fold_right Z.max 0 (map v_level vs)
  /\ cr_description r = hd_error (map v_desc vs)
  /\ cr_location r = slots (map v_text vs).

(** The check [c] completes and reports [vs]. *)
Definition reports (c : res check_result) (vs : list violation) : Prop :=
  exists r, c = Ok r /\ reported vs r.

(** The check [c] completes with level 0 if [rule] holds and [level] if not. *)
Definition decides (c : res check_result) (rule : Prop) (level : Z) : Prop :=
  exists r, c = Ok r /\ (cr_level r = 0 \/ cr_level r = level)
    /\ (cr_level r = 0 <-> rule).

(** ** Enumerating violations *)

(** At most 70 characters *)
Definition short (s : string) : string := substring 0 70 s.
(** Elements numbered from 1 *)
Definition numbered {A} (l : list A) : list (Z * A) :=
  combine (map (fun i => 1 + Z.of_nat i) (seq 0 (List.length l))) l.
Definition over {A} (place what : string) (l : list A) (f : string -> A -> list violation)
  : list violation :=
  flat_map (fun p => f (place ++ what ++ fmt_d (fst p))%string (snd p)) (numbered l).
Definition over_tables {T} (name : string) : list T -> (string -> T -> list violation) -> list violation :=
  over name " #".
Definition over_records {R} (place : string) : list R -> (string -> R -> list violation) -> list violation :=
  over place " record ".
Definition over_channels {C} (place : string) : list C -> (string -> C -> list violation) -> list violation :=
  over place " channel ".
Definition when (b : bool) (level : Z) (desc text : string) : list violation :=
  if b then [mk_violation level desc (short text)] else [].

(** *** Tables and revisions *)

Definition d_missing := "Mandatory table missing"%string.
Definition d_revision := "Invalid OI_REVN"%string.
Definition no_table {A} (l : list A) : bool := (List.length l =? 0)%nat.
Definition missing_tables (o : oi_fits) : list violation :=
  let v2 := str_eqb (h_content (o_header o)) "OIFITS2" in
  when (v2 && no_table (o_arrayList o)) 2 d_missing "No OI_ARRAY table - at least one required"
  ++ when (no_table (o_wavelengthList o)) 2 d_missing
       "No OI_WAVELENGTH table - at least one required"
  ++ (let none := no_table (o_visList o) && no_table (o_vis2List o) && no_table (o_t3List o) in
      if v2 then when (none && no_table (o_fluxList o)) 2 d_missing
                   "No data table - at least one OI_VIS/VIS2/T3/FLUX required"
      else when none 2 d_missing "No data table - at least one OI_VIS/VIS2/T3 required").
Definition bad_revisions {A} (name : string) (revision : A -> Z) (rev : Z) (l : list A)
  : list violation :=
  over_tables name l (fun p t => when (negb (revision t =? rev)) 2 d_revision p).
Definition revision_violations (o : oi_fits) : list violation :=
  let v2 := str_eqb (h_content (o_header o)) "OIFITS2" in
  let n := if v2 then 2 else 1 in
  when (negb (ot_revision (o_targets o) =? n)) 2 d_revision "OI_TARGET"
  ++ bad_revisions "OI_ARRAY" ar_revision n (o_arrayList o)
  ++ bad_revisions "OI_WAVELENGTH" wv_revision n (o_wavelengthList o)
  ++ bad_revisions "OI_VIS" tb_revision n (o_visList o)
  ++ bad_revisions "OI_VIS2" tb_revision n (o_vis2List o)
  ++ bad_revisions "OI_T3" tb_revision n (o_t3List o)
  ++ if v2 then
       bad_revisions "OI_FLUX" tb_revision 1 (o_fluxList o)
       ++ bad_revisions "OI_CORR" co_revision 1 (o_corrList o)
       ++ bad_revisions "OI_INSPOL" is_revision 1 (o_inspolList o)
     else [].

(** The mandatory tables are present / all OI_REVN values are right. *)
Definition tables_present (o : oi_fits) : Prop :=
  let v2 := h_content (o_header o) = "OIFITS2"%string in
  (v2 -> o_arrayList o <> []) /\ o_wavelengthList o <> []
  /\ (o_visList o <> [] \/ o_vis2List o <> [] \/ o_t3List o <> []
      \/ (v2 /\ o_fluxList o <> [])).
Definition revisions_ok (o : oi_fits) : Prop :=
  let v2 := h_content (o_header o) = "OIFITS2"%string in
  let ok n := (v2 -> n = 2) /\ (~ v2 -> n = 1) in
  ok (ot_revision (o_targets o))
  /\ Forall (fun a => ok (ar_revision a)) (o_arrayList o)
  /\ Forall (fun w => ok (wv_revision w)) (o_wavelengthList o)
  /\ Forall (fun t => ok (tb_revision t)) (o_visList o)
  /\ Forall (fun t => ok (tb_revision t)) (o_vis2List o)
  /\ Forall (fun t => ok (tb_revision t)) (o_t3List o)
  /\ (v2 -> Forall (fun t => tb_revision t = 1) (o_fluxList o)
            /\ Forall (fun c => co_revision c = 1) (o_corrList o)
            /\ Forall (fun t => is_revision t = 1) (o_inspolList o)).

(** *** Header *)

Definition header_violations (o : oi_fits) : list violation :=
  let h := o_header o in
  let missing (kv : string * string) :=
    when (is_empty (snd kv)) 2 "Invalid/missing primary header keyword value"
      (fst kv ++ " value missing from primary header")%string in
  if str_eqb (h_content h) "OIFITS2" then
    flat_map missing
      [("ORIGIN", h_origin h); ("DATE", h_date h); ("DATE-OBS", h_date_obs h);
       ("TELESCOP", h_telescop h); ("INSTRUME", h_instrume h); ("OBSERVER", h_observer h);
       ("INSMODE", h_insmode h); ("OBJECT", h_object h)]%string
  else [].
Definition header_rule (o : oi_fits) : Prop :=
  let h := o_header o in
  h_content h = "OIFITS2"%string ->
  Forall (fun v => v <> ""%string)
    [h_origin h; h_date h; h_date_obs h; h_telescop h; h_instrume h; h_observer h; h_insmode h;
     h_object h].

(** *** Keywords *)

Definition one_of (allowed : list string) (s : string) : bool := existsb (String.eqb s) allowed.
Definition d_keyword := "Invalid keyword value"%string.
Definition keyword_violations (o : oi_fits) : list violation :=
  let v2 := str_eqb (h_content (o_header o)) "OIFITS2" in
  over_tables "OI_ARRAY" (o_arrayList o) (fun p a =>
    when (negb (one_of ["GEOCENTRIC"; "SKY"]%string (ar_frame a))) 2 d_keyword
      (p ++ " FRAME='" ++ ar_frame a ++ "' ('GEOCENTRIC'/'SKY')")%string)
  ++ over_tables "OI_VIS" (o_visList o) (fun p t =>
    let x := tb_x t in
    when (v2 && negb (one_of [""; "absolute"; "differential"; "correlated flux"]%string
                        (vx_amptyp x))) 2 d_keyword
      (p ++ " AMPTYP='" ++ vx_amptyp x ++ "' ('absolute'/'differential'/'correlated flux')")%string
    ++ when (v2 && negb (one_of [""; "absolute"; "differential"]%string (vx_phityp x)))
         2 d_keyword (p ++ " PHITYP='" ++ vx_phityp x ++ "' ('absolute'/'differential')")%string)
  ++ over_tables "OI_FLUX" (o_fluxList o) (fun p t =>
    let x := tb_x t in
    when (negb (Ascii.eqb (fx_calstat x) "C" || Ascii.eqb (fx_calstat x) "U")) 2 d_keyword
      (p ++ " CALSTAT='" ++ (if Ascii.eqb (fx_calstat x) "000" then ""
                             else String (fx_calstat x) "' ('C'/'U')"))%string
    ++ when (negb (one_of [""; "FWHM"; "RADIUS"]%string (fx_fovtype x))) 2 d_keyword
         (p ++ " FOVTYPE='" ++ fx_fovtype x ++ "' ('FWHM', 'RADIUS')")%string).
Definition keyword_rule (o : oi_fits) : Prop :=
  Forall (fun a => In (ar_frame a) ["GEOCENTRIC"; "SKY"]%string) (o_arrayList o)
  /\ (h_content (o_header o) = "OIFITS2"%string ->
      Forall (fun t =>
        In (vx_amptyp (tb_x t)) [""; "absolute"; "differential"; "correlated flux"]%string
        /\ In (vx_phityp (tb_x t)) [""; "absolute"; "differential"]%string) (o_visList o))
  /\ Forall (fun t => In (fx_calstat (tb_x t)) ["C"; "U"]%char
               /\ In (fx_fovtype (tb_x t)) [""; "FWHM"; "RADIUS"]%string) (o_fluxList o).

(** *** VISREFMAP *)

Definition differential (t : oi_vis) : bool :=
  str_eqb (vx_amptyp (tb_x t)) "differential" || str_eqb (vx_phityp (tb_x t)) "differential".
Definition visrefmap_violations (o : oi_fits) : list violation :=
  let d := "VISREFMAP present (missing) for absolute (differential) vis"%string in
  over_tables "OI_VIS" (o_visList o) (fun p t =>
    let x := tb_x t in
    when (differential t && negb (vx_usevisrefmap x)) 2 d
      (p ++ " AMPTYP='" ++ vx_amptyp x ++ "' PHITYP='" ++ vx_phityp x ++ "' has no VISREFMAP")%string
    ++ when (negb (differential t) && vx_usevisrefmap x) 1 d
      (p ++ " AMPTYP='" ++ vx_amptyp x ++ "' PHITYP='" ++ vx_phityp x ++ "' has VISREFMAP")%string).
(** Differential data lack a VISREFMAP; others have one. *)
Definition refmap_missing (t : oi_vis) : Prop :=
  (vx_amptyp (tb_x t) = "differential"%string \/ vx_phityp (tb_x t) = "differential"%string)
  /\ vx_usevisrefmap (tb_x t) = false.
Definition refmap_surplus (t : oi_vis) : Prop :=
  vx_amptyp (tb_x t) <> "differential"%string /\ vx_phityp (tb_x t) <> "differential"%string
  /\ vx_usevisrefmap (tb_x t) = true.

(** *** Targets *)

(** Rows bearing the name of an earlier row *)
Fixpoint repeated_rows (seen : list string) (l : list target) : list target :=
  match l with
  | [] => []
  | t :: l' =>
      (if in_dec string_dec (tg_target t) seen then [t] else [])
      ++ repeated_rows (tg_target t :: seen) l'
  end.
Definition duplicate_violations (o : oi_fits) : list violation :=
  map (fun t => mk_violation 1 "Duplicate value in TARGET column of OI_TARGET"
        (short ("TARGET_ID=" ++ fmt_d (tg_target_id t) ++ "  TARGET='" ++ tg_target t ++ "'")))
    (repeated_rows [] (ot_targ (o_targets o))).

Definition unlisted (o : oi_fits) (id : Z) : bool :=
  negb (existsb (fun t => tg_target_id t =? id) (ot_targ (o_targets o))).
Definition unlisted_in {X R} (o : oi_fits) (name : string) (id : R -> Z) (l : list (dtab X R))
  : list violation :=
  over_tables name l (fun p t => over_records p (tb_record t) (fun p r =>
    when (unlisted o (id r)) 2 "Reference to missing target record" p)).
Definition target_violations (o : oi_fits) : list violation :=
  unlisted_in o "OI_VIS" vr_target_id (o_visList o)
  ++ unlisted_in o "OI_VIS2" v2_target_id (o_vis2List o)
  ++ unlisted_in o "OI_T3" t3_target_id (o_t3List o)
  ++ unlisted_in o "OI_FLUX" fr_target_id (o_fluxList o).
(** Every record of a data table refers to a row of OI_TARGET. *)
Definition targets_present (o : oi_fits) : Prop :=
  let ok id := In id (map tg_target_id (ot_targ (o_targets o))) in
  (forall t r, In t (o_visList o) -> In r (tb_record t) -> ok (vr_target_id r))
  /\ (forall t r, In t (o_vis2List o) -> In r (tb_record t) -> ok (v2_target_id r))
  /\ (forall t r, In t (o_t3List o) -> In r (tb_record t) -> ok (t3_target_id r))
  /\ (forall t r, In t (o_fluxList o) -> In r (tb_record t) -> ok (fr_target_id r)).

(** *** ARRNAME *)

Definition d_arrname := "ARRNAME missing"%string.
Definition unnamed {X R} (name : string) (required : dtab X R -> bool) (l : list (dtab X R))
  : list violation :=
  over_tables name l (fun p t => when (required t && is_empty (tb_arrname t)) 2 d_arrname p).
(** OI_INSPOL tables are all reported as number 0. *)
Definition unnamed_inspol (o : oi_fits) : list violation :=
  flat_map (fun t => when (is_empty (is_arrname t)) 2 d_arrname "OI_INSPOL #0") (o_inspolList o).
Definition arrname_violations (o : oi_fits) : list violation :=
  if str_eqb (h_content (o_header o)) "OIFITS2" then
    unnamed_inspol o
    ++ unnamed "OI_VIS" (fun _ => true) (o_visList o)
    ++ unnamed "OI_VIS2" (fun _ => true) (o_vis2List o)
    ++ unnamed "OI_T3" (fun _ => true) (o_t3List o)
    ++ unnamed "OI_FLUX" (fun t => Ascii.eqb (fx_calstat (tb_x t)) "U") (o_fluxList o)
  else [].
Definition arrname_rule (o : oi_fits) : Prop :=
  h_content (o_header o) = "OIFITS2"%string ->
  Forall (fun t => is_arrname t <> ""%string) (o_inspolList o)
  /\ Forall (fun t => tb_arrname t <> ""%string) (o_visList o)
  /\ Forall (fun t => tb_arrname t <> ""%string) (o_vis2List o)
  /\ Forall (fun t => tb_arrname t <> ""%string) (o_t3List o)
  /\ Forall (fun t => fx_calstat (tb_x t) = "U"%char -> tb_arrname t <> ""%string) (o_fluxList o).

(** *** Array elements *)

(** The array and correlation tables found by name are the first in the dataset of
    that name, or there is none. *)
Definition array_found (o : oi_fits) (name : string) : Prop :=
  name <> ""%string ->
  lookup_result (fun a => ar_arrname a = name) (o_arrayList o) (oi_fits_lookup_array o name).
Definition corr_found (o : oi_fits) (name : string) : Prop :=
  name <> ""%string ->
  lookup_result (fun c => co_corrname c = name) (o_corrList o) (oi_fits_lookup_corr o name).
Definition arrays_found (o : oi_fits) : Prop :=
  (forall t, In t (o_inspolList o) -> array_found o (is_arrname t))
  /\ (forall t, In t (o_visList o) -> array_found o (tb_arrname t))
  /\ (forall t, In t (o_vis2List o) -> array_found o (tb_arrname t))
  /\ (forall t, In t (o_t3List o) -> array_found o (tb_arrname t))
  /\ (forall t, In t (o_fluxList o) -> array_found o (tb_arrname t)).
Definition corrs_found (o : oi_fits) : Prop :=
  (forall t, In t (o_visList o) -> corr_found o (tb_corrname t))
  /\ (forall t, In t (o_vis2List o) -> corr_found o (tb_corrname t))
  /\ (forall t, In t (o_t3List o) -> corr_found o (tb_corrname t))
  /\ (forall t, In t (o_fluxList o) -> corr_found o (tb_corrname t)).

(** The first array called [name] has no station [sta]. *)
Definition no_station (o : oi_fits) (name : string) (sta : Z) : bool :=
  match find (fun a => String.eqb (ar_arrname a) name) (o_arrayList o) with
  | Some a => negb (existsb (fun e => el_sta_index e =? sta) (ar_elem a))
  | None => true
  end.
Definition d_element := "Reference to missing array element"%string.
Definition stationless {X R} (o : oi_fits) (name : string) (stations : R -> list Z)
  (l : list (dtab X R)) : list violation :=
  over_tables name l (fun p t =>
    if is_empty (tb_arrname t) then [] else
    over_records p (tb_record t) (fun p r =>
      flat_map (fun sta => when (no_station o (tb_arrname t) sta) 2 d_element p) (stations r))).
Definition element_violations (o : oi_fits) : list violation :=
  over_tables "OI_INSPOL" (o_inspolList o) (fun p t =>
    if is_empty (is_arrname t)
    then [mk_violation 2 d_arrname "OI_INSPOL #0"]
    else over_records p (is_record t) (fun p r =>
           when (no_station o (is_arrname t) (ip_sta_index r)) 2 d_element p))
  ++ stationless o "OI_VIS" (fun r => [fst (vr_sta_index r); snd (vr_sta_index r)]) (o_visList o)
  ++ stationless o "OI_VIS2" (fun r => [fst (v2_sta_index r); snd (v2_sta_index r)])
       (o_vis2List o)
  ++ stationless o "OI_T3" (fun r => [fst (fst (t3_sta_index r)); snd (fst (t3_sta_index r));
                                      snd (t3_sta_index r)]) (o_t3List o)
  ++ stationless o "OI_FLUX" (fun r => if fr_sta_index r =? -1 then [] else [fr_sta_index r])
       (o_fluxList o).
(** Station [sta] of array [name] exists. *)
Definition station_exists (o : oi_fits) (name : string) (sta : Z) : Prop :=
  exists a, first_match (fun a => ar_arrname a = name) (o_arrayList o) a
    /\ In sta (map el_sta_index (ar_elem a)).
Definition elements_present (o : oi_fits) : Prop :=
  (forall t r, In t (o_inspolList o) -> is_arrname t <> ""%string -> In r (is_record t) ->
     station_exists o (is_arrname t) (ip_sta_index r))
  /\ (forall t r, In t (o_visList o) -> tb_arrname t <> ""%string -> In r (tb_record t) ->
     station_exists o (tb_arrname t) (fst (vr_sta_index r))
     /\ station_exists o (tb_arrname t) (snd (vr_sta_index r)))
  /\ (forall t r, In t (o_vis2List o) -> tb_arrname t <> ""%string -> In r (tb_record t) ->
     station_exists o (tb_arrname t) (fst (v2_sta_index r))
     /\ station_exists o (tb_arrname t) (snd (v2_sta_index r)))
  /\ (forall t r, In t (o_t3List o) -> tb_arrname t <> ""%string -> In r (tb_record t) ->
     station_exists o (tb_arrname t) (fst (fst (t3_sta_index r)))
     /\ station_exists o (tb_arrname t) (snd (fst (t3_sta_index r)))
     /\ station_exists o (tb_arrname t) (snd (t3_sta_index r)))
  /\ (forall t r, In t (o_fluxList o) -> tb_arrname t <> ""%string -> In r (tb_record t) ->
     fr_sta_index r <> -1 -> station_exists o (tb_arrname t) (fr_sta_index r)).
Definition inspol_named (o : oi_fits) : Prop :=
  Forall (fun t => is_arrname t <> ""%string) (o_inspolList o).

(** *** Correlations *)

Definition uncorrelated {X R} (o : oi_fits) (name : string) (l : list (dtab X R))
  : list violation :=
  over_tables name l (fun p t =>
    when (negb (is_empty (tb_corrname t))
          && negb (existsb (fun c => String.eqb (co_corrname c) (tb_corrname t)) (o_corrList o)))
      2 "Reference to missing OI_CORR table" p).
Definition corr_violations (o : oi_fits) : list violation :=
  uncorrelated o "OI_VIS" (o_visList o) ++ uncorrelated o "OI_VIS2" (o_vis2List o)
  ++ uncorrelated o "OI_T3" (o_t3List o) ++ uncorrelated o "OI_FLUX" (o_fluxList o).
Definition corr_rule (o : oi_fits) : Prop :=
  let ok n := n <> ""%string -> In n (map co_corrname (o_corrList o)) in
  Forall (fun t => ok (tb_corrname t)) (o_visList o)
  /\ Forall (fun t => ok (tb_corrname t)) (o_vis2List o)
  /\ Forall (fun t => ok (tb_corrname t)) (o_t3List o)
  /\ Forall (fun t => ok (tb_corrname t)) (o_fluxList o).

(** *** Error bars and amplitudes *)

Definition below_zero (x : f64) : bool := SFltb x f64_zero.
Definition d_error := "Data table contains negative error bar"%string.
Definition flagging_violations (o : oi_fits) : list violation :=
  over_tables "OI_VIS" (o_visList o) (fun p t => over_records p (tb_record t) (fun p r =>
    over_channels p (combine (vr_flag r) (combine (vr_visamperr r) (vr_visphierr r)))
      (fun p c => when (negb (fst c) && (below_zero (fst (snd c)) || below_zero (snd (snd c))))
                    2 d_error p)))
  ++ over_tables "OI_VIS2" (o_vis2List o) (fun p t => over_records p (tb_record t) (fun p r =>
    over_channels p (combine (v2_flag r) (v2_vis2err r))
      (fun p c => when (negb (fst c) && below_zero (snd c)) 2 d_error p)))
  ++ over_tables "OI_T3" (o_t3List o) (fun p t => over_records p (tb_record t) (fun p r =>
    over_channels p (combine (t3_flag r) (combine (t3_t3amperr r) (t3_t3phierr r)))
      (fun p c => when (negb (fst c) && (below_zero (fst (snd c)) || below_zero (snd (snd c))))
                    2 d_error p))).
(** The error bars [err] are not negative where [flag] is unset. *)
Definition errors_ok (flag : list bool) (err : list f64) : Prop :=
  forall j e, nth_error flag j = Some false -> nth_error err j = Some e ->
  SFltb e f64_zero = false.
Definition flagging_rule (o : oi_fits) : Prop :=
  (forall t r, In t (o_visList o) -> In r (tb_record t) ->
     errors_ok (vr_flag r) (vr_visamperr r) /\ errors_ok (vr_flag r) (vr_visphierr r))
  /\ (forall t r, In t (o_vis2List o) -> In r (tb_record t) -> errors_ok (v2_flag r) (v2_vis2err r))
  /\ (forall t r, In t (o_t3List o) -> In r (tb_record t) ->
     errors_ok (t3_flag r) (t3_t3amperr r) /\ errors_ok (t3_flag r) (t3_t3phierr r)).

(** More than one sigma above 1 *)
Definition above_one (amp err : f64) : bool := SFltb err (f64_sub amp f64_one).
Definition t3amp_violations (o : oi_fits) : list violation :=
  over_tables "OI_T3" (o_t3List o) (fun p t => over_records p (tb_record t) (fun p r =>
    over_channels p (combine (t3_flag r) (combine (t3_t3amp r) (t3_t3amperr r)))
      (fun p c => when (negb (fst c) && above_one (fst (snd c)) (snd (snd c))) 2
        "OI_T3 table may contain unnormalised triple product amplitude" p))).
Definition t3amp_rule (o : oi_fits) : Prop :=
  forall t r j a e, In t (o_t3List o) -> In r (tb_record t) ->
  nth_error (t3_flag r) j = Some false -> nth_error (t3_t3amp r) j = Some a ->
  nth_error (t3_t3amperr r) j = Some e -> above_one a e = false.

(** *** Wavelengths *)

(** Channel [j] (from 0) is less than its predecessor or more than its successor. *)
Definition out_of_order (l : list f32) (j : nat) : bool :=
  match j with
  | O => false
  | S i =>
      match nth_error l i, nth_error l j, nth_error l (S j) with
      | Some a, Some b, Some c => SFltb b a || SFltb c b
      | Some a, Some b, None => SFltb b a
      | _, _, _ => false
      end
  end.
Definition order_violations (o : oi_fits) : list violation :=
  flat_map (fun w =>
    flat_map (fun j =>
      when (out_of_order (wv_eff_wave w) j) 1
        "OI_WAVELENGTH has wavelengths not in ascending order"
        ("OI_WAVELENGTH INSNAME=" ++ wv_insname w ++ " channel " ++ fmt_d (1 + Z.of_nat j)))
      (seq 0 (List.length (wv_eff_wave w)))) (o_wavelengthList o).
(** No wavelength is less than the one before it. *)
Definition order_rule (o : oi_fits) : Prop :=
  forall w j a b, In w (o_wavelengthList o) ->
  nth_error (wv_eff_wave w) j = Some a -> nth_error (wv_eff_wave w) (S j) = Some b ->
  SFltb b a = false.

(** *** TIME *)

Definition nonzero_time (x : f64) : bool := SFltb c_1em10 (SFabs x).
Definition timed {X R} (name : string) (time : R -> f64) (l : list (dtab X R)) : list violation :=
  over_tables name l (fun p t => over_records p (tb_record t) (fun p r =>
    when (nonzero_time (time r)) 1 "Non-zero TIME values in OIFITS v2 data table" p)).
Definition time_violations (o : oi_fits) : list violation :=
  if str_eqb (h_content (o_header o)) "OIFITS2" then
    timed "OI_VIS" vr_time (o_visList o) ++ timed "OI_VIS2" v2_time (o_vis2List o)
    ++ timed "OI_T3" t3_time (o_t3List o)
  else [].
Definition time_rule (o : oi_fits) : Prop :=
  h_content (o_header o) = "OIFITS2"%string ->
  (forall t r, In t (o_visList o) -> In r (tb_record t) -> nonzero_time (vr_time r) = false)
  /\ (forall t r, In t (o_vis2List o) -> In r (tb_record t) -> nonzero_time (v2_time r) = false)
  /\ (forall t r, In t (o_t3List o) -> In r (tb_record t) -> nonzero_time (t3_time r) = false).

(** *** Fluxes *)

(** STA_INDEX of the first record stands for the presence of the column. *)
Definition first_station (t : oi_flux) : Z :=
  match tb_record t with r :: _ => fr_sta_index r | [] => -1 end.
Definition flux_violations (o : oi_fits) : list violation :=
  over_tables "OI_FLUX" (o_fluxList o) (fun p t =>
    let bad b text := when b 2
      "ARRNAME/STA_INDEX/FOVTYPE present (missing) in (un)calibrated fluxes" (p ++ text)%string in
    if Ascii.eqb (fx_calstat (tb_x t)) "C" then
      bad (negb (is_empty (tb_arrname t)))
        (" Calibrated but ARRNAME='" ++ tb_arrname t ++ "'")%string
      ++ bad (negb (first_station t =? -1)) " Calibrated but STA_INDEX present"%string
    else if Ascii.eqb (fx_calstat (tb_x t)) "U" then
      bad (is_empty (tb_arrname t)) " Uncalibrated but ARRNAME missing"%string
      ++ bad (first_station t =? -1) " Uncalibrated but STA_INDEX missing"%string
      ++ bad (negb (is_empty (fx_fovtype (tb_x t)))) " Uncalibrated but FOVTYPE present"%string
    else []).
(** No record has a STA_INDEX / every record has one. *)
Definition no_stations (t : oi_flux) : Prop := Forall (fun r => fr_sta_index r = -1) (tb_record t).
Definition all_stations (t : oi_flux) : Prop := Forall (fun r => fr_sta_index r <> -1) (tb_record t).
Definition flux_rule (o : oi_fits) : Prop :=
  forall t, In t (o_fluxList o) ->
  (fx_calstat (tb_x t) = "C"%char -> tb_arrname t = ""%string /\ no_stations t)
  /\ (fx_calstat (tb_x t) = "U"%char ->
      tb_arrname t <> ""%string /\ all_stations t /\ fx_fovtype (tb_x t) = ""%string).
Definition fluxes_nonempty (o : oi_fits) : Prop :=
  forall t, In t (o_fluxList o) -> tb_record t <> [].
(** In each OI_FLUX table STA_INDEX is present throughout or absent throughout. *)
Definition uniform_stations (o : oi_fits) : Prop :=
  forall t, In t (o_fluxList o) -> no_stations t \/ all_stations t.

Definition levels_ok (vs : list violation) : Prop :=
  forall v, In v vs -> v_level v = 1 \/ v_level v = 2.

(** ** Text of a report *)

Definition nl : string := String "010" EmptyString.
Fixpoint lines (l : list string) : string :=
  match l with [] => ""%string | s :: l' => ("    " ++ s ++ nl ++ lines l')%string end.
(** The text printed for a nonempty list of violations *)
Definition report_text (vs : list violation) (desc : string) (worst : Z) : string :=
  ("*** " ++ (if (worst =? 1)%Z then "Valid OIFITS, but may cause problems for some reading software"
              else "Does not conform to the OIFITS standard") ++ ":" ++ nl
   ++ desc ++ ", " ++ fmt_d (Z.of_nat (List.length vs)) ++ " occurrences:-" ++ nl
   ++ lines (if (List.length vs <? 10)%nat then map v_text vs
             else firstn 9 (map v_text vs) ++ ["[List truncated]"])%list)%string.
