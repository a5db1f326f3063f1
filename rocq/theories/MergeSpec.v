(** Specifications for oimerge.c, independent of how it computes. *)
From Verif Require Export Types FileSpec DateSpec.
From Verif Require Import FileModel.
Open Scope Z_scope.

(** The tables of one kind of all inputs, in input order, each with the dataset
    it comes from *)
Definition from_inputs {A} (tabs : oi_fits -> list A) (ins : list oi_fits) : list (oi_fits * A) :=
  flat_map (fun d => map (pair d) (tabs d)) ins.

(** ** Tables and records are kept *)

(** [t'] holds the data of [t]: other names, TARGET_IDs, revision and TIME allowed.
    [same r r'] compares records in everything but TIME. *)
Definition merged_data {X R} (set_id : Z -> R -> R) (id : R -> Z) (time : R -> f64)
  (same : R -> R -> Prop) (t t' : dtab X R) : Prop :=
  tb_revision t' = (if tb_revision t =? 1 then 2 else tb_revision t)
  /\ tb_date_obs t' = tb_date_obs t /\ tb_x t' = tb_x t
  /\ tb_numrec t' = tb_numrec t /\ tb_nwave t' = tb_nwave t
  /\ Forall2 (fun r r' =>
       same r (set_id (id r) r')
       /\ time r' = (if tb_revision t =? 1 then f64_zero else time r))
       (tb_record t) (tb_record t').

Definition vr_set_iviserr (v : option (list f64)) (r : vis_record) : vis_record :=
  mk_vis_record (vr_target_id r) (vr_time r) (vr_mjd r) (vr_int_time r) (vr_visamp r)
    (vr_visamperr r) (vr_corrindx_visamp r) (vr_visphi r) (vr_visphierr r)
    (vr_corrindx_visphi r) (vr_visrefmap r) (vr_rvis r) (vr_rviserr r) (vr_corrindx_rvis r)
    (vr_ivis r) v (vr_corrindx_ivis r) (vr_ucoord r) (vr_vcoord r) (vr_sta_index r) (vr_flag r).
Definition same_but_time_iviserr (r r' : vis_record) : Prop :=
  same_but_time_vis r (vr_set_iviserr (vr_iviserr r) r').

(** OI_FLUX has no TIME and keeps its revision. *)
Definition merged_flux (t t' : oi_flux) : Prop :=
  tb_revision t' = tb_revision t /\ tb_date_obs t' = tb_date_obs t /\ tb_x t' = tb_x t
  /\ tb_numrec t' = tb_numrec t /\ tb_nwave t' = tb_nwave t
  /\ Forall2 (fun r r' => fr_set_target_id (fr_target_id r) r' = r) (tb_record t) (tb_record t').
Definition merged_inspol (t t' : oi_inspol) : Prop :=
  is_revision t' = is_revision t /\ is_date_obs t' = is_date_obs t /\ is_npol t' = is_npol t
  /\ is_orient t' = is_orient t /\ is_model t' = is_model t
  /\ is_numrec t' = is_numrec t /\ is_nwave t' = is_nwave t
  /\ Forall2 (fun r r' => ip_set_insname (ip_insname r) (ip_set_target_id (ip_target_id r) r') = r)
       (is_record t) (is_record t').
Definition merged_corr (c c' : oi_corr) : Prop := co_set_corrname (co_corrname c) c' = c.

(** ** References *)

(** Differences of at most 1e-10 (1 mm for diameters, less than 1e-10 for
    wavelengths), as computed in floating point; a NaN is close to everything. *)
Definition close (x y : f64) : Prop := SFltb c_1em10 (SFabs (f64_sub x y)) = false.
Definition close_diameter (x y : f32) : Prop :=
  SFltb (to_f64 c_1em3f) (SFabs (to_f64 (f32_sub x y))) = false.
Definition close_wave (x y : f32) : Prop :=
  SFleb c_1em10 (SFabs (to_f64 (f32_sub x y))) = false.
Definition close3 (p q : f64 * f64 * f64) : Prop :=
  close (fst (fst p)) (fst (fst q)) /\ close (snd (fst p)) (snd (fst q))
  /\ close (snd p) (snd q).

(** STA_INDEX values of [a] mean the same station in [a']. *)
Definition same_stations (a a' : oi_array) : Prop :=
  close (ar_arrayx a) (ar_arrayx a') /\ close (ar_arrayy a) (ar_arrayy a')
  /\ close (ar_arrayz a) (ar_arrayz a')
  /\ forall s e, first_match (fun e => el_sta_index e = s) (ar_elem a) e ->
       exists e', first_match (fun e => el_sta_index e = s) (ar_elem a') e'
         /\ close3 (el_staxyz e) (el_staxyz e')
         /\ close_diameter (el_diameter e) (el_diameter e')
         /\ (2 <= ar_revision a -> 2 <= ar_revision a' ->
             close (el_fov e) (el_fov e') /\ el_fovtype e' = el_fovtype e).
(** Station indices are distinct. *)
Definition distinct_stations (a : oi_array) : Prop := NoDup (map el_sta_index (ar_elem a)).
Definition same_wavebands (w w' : oi_wavelength) : Prop :=
  wv_nwave w' = wv_nwave w
  /\ Forall2 (fun x x' => close_wave x' x) (wv_eff_wave w) (wv_eff_wave w')
  /\ Forall2 (fun x x' => close_wave x' x) (wv_eff_band w) (wv_eff_band w').

(** [a] is the table called [n] in [l], and the only one. *)
Definition the_one {A} (name : A -> string) (l : list A) (n : string) (a : A) : Prop :=
  exists before after, l = before ++ a :: after /\ name a = n
    /\ forall b, In b (before ++ after) -> name b <> n.

(** The name [old] of an input table and the name [new] replacing it *)
Definition name_follows {A} (name : A -> string) (same : A -> A -> Prop) (tabs : list A)
  (lookup : string -> option A) (old new : string) : Prop :=
  (forall a, the_one name tabs old a -> exists a', lookup new = Some a' /\ same a a')
  /\ ((forall a, In a tabs -> name a <> old) -> new = old).
(** The same where the empty string means no reference *)
Definition optional_follows {A} (name : A -> string) (same : A -> A -> Prop) (tabs : list A)
  (lookup : string -> option A) (old new : string) : Prop :=
  (old = ""%string -> new = ""%string)
  /\ (old <> ""%string -> name_follows name same tabs lookup old new).

(** TARGET_ID [id] in [d] and the TARGET_ID [id'] replacing it *)
Definition target_follows (d out : oi_fits) (id id' : Z) : Prop :=
  exists t t', first_match (fun t => tg_target_id t = id) (ot_targ (o_targets d)) t
    /\ oi_fits_lookup_target out id' = Ok (Some t') /\ tg_target t' = tg_target t.

Definition array_follows (d out : oi_fits) : string -> string -> Prop :=
  optional_follows ar_arrname same_stations (o_arrayList d) (oi_fits_lookup_array out).
Definition wavelength_follows (d out : oi_fits) : string -> string -> Prop :=
  name_follows wv_insname same_wavebands (o_wavelengthList d) (oi_fits_lookup_wavelength out).
Definition corr_follows (d out : oi_fits) : string -> string -> Prop :=
  optional_follows co_corrname merged_corr (o_corrList d) (oi_fits_lookup_corr out).

Definition references_kept {X R} (id : R -> Z) (out : oi_fits) (dt : oi_fits * dtab X R)
  (t' : dtab X R) : Prop :=
  let '(d, t) := dt in
  array_follows d out (tb_arrname t) (tb_arrname t')
  /\ wavelength_follows d out (tb_insname t) (tb_insname t')
  /\ corr_follows d out (tb_corrname t) (tb_corrname t')
  /\ Forall2 (fun r r' => target_follows d out (id r) (id r')) (tb_record t) (tb_record t').
Definition inspol_references_kept (out : oi_fits) (dt : oi_fits * oi_inspol) (t' : oi_inspol)
  : Prop :=
  let '(d, t) := dt in
  array_follows d out (is_arrname t) (is_arrname t')
  /\ Forall2 (fun r r' => target_follows d out (ip_target_id r) (ip_target_id r')
                /\ wavelength_follows d out (ip_insname r) (ip_insname r'))
       (is_record t) (is_record t').

(** ** Names *)

Definition names_fit (d : oi_fits) : Prop :=
  Forall (fun a => fits_value (ar_arrname a) = true) (o_arrayList d)
  /\ Forall (fun w => fits_value (wv_insname w) = true) (o_wavelengthList d)
  /\ Forall (fun c => fits_value (co_corrname c) = true) (o_corrList d).

Definition distinct_names (o : oi_fits) : Prop :=
  NoDup (map ar_arrname (o_arrayList o)) /\ NoDup (map wv_insname (o_wavelengthList o))
  /\ NoDup (map co_corrname (o_corrList o)).

(** A name that looks like a replacement: "<name>_<3 digits>" or "<literal><3 digits>"
    (more digits from 1000 on) *)
Definition looks_generated (literal n : string) : Prop :=
  exists k, 0 < k /\ ((exists base, n = base ++ "_" ++ fmt_0wd 3 k) \/ n = literal ++ fmt_0wd 3 k)%string.
(** No input table has such a name, and there are at most 9999 tables of a kind. *)
Definition plain_names (ins : list oi_fits) : Prop :=
  (forall d a, In d ins -> In a (o_arrayList d) -> ~ looks_generated "array" (ar_arrname a))
  /\ (forall d w, In d ins -> In w (o_wavelengthList d) -> ~ looks_generated "ins" (wv_insname w))
  /\ (forall d c, In d ins -> In c (o_corrList d) -> ~ looks_generated "ins" (co_corrname c))
  /\ Z.of_nat (List.length (flat_map o_arrayList ins)) < 10000
  /\ Z.of_nat (List.length (flat_map o_wavelengthList ins)) < 10000
  /\ Z.of_nat (List.length (flat_map o_corrList ins)) < 10000.

(** ** Targets *)

(** The rows bearing a name not in [seen] and not borne by an earlier row *)
Fixpoint first_rows (seen : list string) (l : list target) : list target :=
  match l with
  | [] => []
  | t :: l' =>
      if in_dec string_dec (tg_target t) seen then first_rows seen l'
      else t :: first_rows (tg_target t :: seen) l'
  end.
(** Rows renumbered from [i] *)
Fixpoint renumber (i : Z) (l : list target) : list target :=
  match l with
  | [] => []
  | t :: l' => tg_set_target_id i t :: renumber (i + 1) l'
  end.
Definition all_targets (ins : list oi_fits) : list target :=
  flat_map (fun d => ot_targ (o_targets d)) ins.

(** ** Header *)

Definition header_fits (d : oi_fits) : Prop :=
  Forall (fun s => fits_value s = true)
    [h_origin (o_header d); h_telescop (o_header d); h_instrume (o_header d);
     h_observer (o_header d); h_insmode (o_header d); h_object (o_header d);
     h_referenc (o_header d); h_author (o_header d); h_prog_id (o_header d);
     h_procsoft (o_header d); h_obstech (o_header d)].

(** [v] is the merged value of a keyword with input values [vals]. *)
Definition merged_keyword (if_absent : string) (vals : list string) (v : string) : Prop :=
  ((forall x, In x vals -> x = ""%string) -> v = if_absent)
  /\ (forall x, In x vals -> x <> ""%string ->
        (forall y, In y vals -> y = ""%string \/ y = x) -> v = x)
  /\ (forall x y, In x vals -> In y vals -> x <> ""%string -> y <> ""%string -> x <> y ->
        v = "MULTIPLE"%string).

Definition header_merged (ins : list oi_fits) (h : oi_header) : Prop :=
  let vals key := map (fun d => key (o_header d)) ins in
  h_content h = "OIFITS2"%string /\ h_date h = "[unset]"%string
  /\ merged_keyword "UNKNOWN" (vals h_origin) (h_origin h)
  /\ merged_keyword "UNKNOWN" (vals h_telescop) (h_telescop h)
  /\ merged_keyword "UNKNOWN" (vals h_instrume) (h_instrume h)
  /\ merged_keyword "UNKNOWN" (vals h_observer) (h_observer h)
  /\ merged_keyword "UNKNOWN" (vals h_insmode) (h_insmode h)
  /\ merged_keyword "UNKNOWN" (vals h_object) (h_object h)
  /\ merged_keyword "" (vals h_referenc) (h_referenc h)
  /\ merged_keyword "" (vals h_author) (h_author h)
  /\ merged_keyword "" (vals h_prog_id) (h_prog_id h)
  /\ merged_keyword "" (vals h_procsoft) (h_procsoft h)
  /\ merged_keyword "" (vals h_obstech) (h_obstech h).

(** DATE-OBS of [d] starts with the given date (a time of day may follow), or is
    empty. *)
Definition observed_on (d : oi_fits) (ymd : option (Z * Z * Z)) : Prop :=
  match ymd with
  | Some (y, m, dd) =>
      1901 <= y <= 2099 /\ valid_date y m dd = true
      /\ exists rest, h_date_obs (o_header d) = (iso_date y m dd ++ rest)%string
  | None => h_date_obs (o_header d) = ""%string
  end.
Definition dated (d : oi_fits) : Prop := exists ymd, observed_on d ymd.

(** The first date is not later than the second. *)
Definition not_later (a b : Z * Z * Z) : Prop :=
  exists m n, is_date_of_mjd m a /\ is_date_of_mjd n b /\ m <= n.

(** ** When merging is defined *)

(** Every table has rows and channels. *)
Definition tables_nonempty (d : oi_fits) : Prop :=
  Forall (fun a => 0 < ar_nelement a) (o_arrayList d)
  /\ Forall (fun w => 0 < wv_nwave w) (o_wavelengthList d)
  /\ Forall (fun c => 0 < co_ncorr c) (o_corrList d)
  /\ Forall (fun t => 0 < is_numrec t /\ 0 < is_nwave t) (o_inspolList d)
  /\ Forall (fun t => 0 < tb_numrec t /\ 0 < tb_nwave t) (o_visList d)
  /\ Forall (fun t => 0 < tb_numrec t /\ 0 < tb_nwave t) (o_vis2List d)
  /\ Forall (fun t => 0 < tb_numrec t /\ 0 < tb_nwave t) (o_t3List d)
  /\ Forall (fun t => 0 < tb_numrec t /\ 0 < tb_nwave t) (o_fluxList d).

(** Every record's TARGET_ID is in OI_TARGET. *)
Definition targets_listed (d : oi_fits) : Prop :=
  let ok id := In id (map tg_target_id (ot_targ (o_targets d))) in
  Forall (fun t => Forall (fun r => ok (ip_target_id r)) (is_record t)) (o_inspolList d)
  /\ Forall (fun t => Forall (fun r => ok (vr_target_id r)) (tb_record t)) (o_visList d)
  /\ Forall (fun t => Forall (fun r => ok (v2_target_id r)) (tb_record t)) (o_vis2List d)
  /\ Forall (fun t => Forall (fun r => ok (t3_target_id r)) (tb_record t)) (o_t3List d)
  /\ Forall (fun t => Forall (fun r => ok (fr_target_id r)) (tb_record t)) (o_fluxList d).

Definition mergeable (ins : list oi_fits) : Prop :=
  Forall (fun d => wf_fits d = true /\ tables_nonempty d /\ targets_listed d /\ dated d) ins
  /\ (List.length (nodup string_dec (map tg_target (all_targets ins))) < 100)%nat.

(** ** Versions *)

(** Revision numbers allowed by versions 1 and 2 of the standard *)
Definition standard_revisions (d : oi_fits) : Prop :=
  let v12 r := r = 1 \/ r = 2 in
  v12 (ot_revision (o_targets d))
  /\ Forall (fun a => v12 (ar_revision a)) (o_arrayList d)
  /\ Forall (fun w => v12 (wv_revision w)) (o_wavelengthList d)
  /\ Forall (fun c => co_revision c = 1) (o_corrList d)
  /\ Forall (fun t => is_revision t = 1) (o_inspolList d)
  /\ Forall (fun t => v12 (tb_revision t)) (o_visList d)
  /\ Forall (fun t => v12 (tb_revision t)) (o_vis2List d)
  /\ Forall (fun t => v12 (tb_revision t)) (o_t3List d)
  /\ Forall (fun t => tb_revision t = 1) (o_fluxList d).
(** Revision numbers of version 2 *)
Definition version2_revisions (d : oi_fits) : Prop :=
  ot_revision (o_targets d) = 2
  /\ Forall (fun a => ar_revision a = 2) (o_arrayList d)
  /\ Forall (fun w => wv_revision w = 2) (o_wavelengthList d)
  /\ Forall (fun c => co_revision c = 1) (o_corrList d)
  /\ Forall (fun t => is_revision t = 1) (o_inspolList d)
  /\ Forall (fun t => tb_revision t = 2) (o_visList d)
  /\ Forall (fun t => tb_revision t = 2) (o_vis2List d)
  /\ Forall (fun t => tb_revision t = 2) (o_t3List d)
  /\ Forall (fun t => tb_revision t = 1) (o_fluxList d).

(** ** Counters *)
Definition counters_agree (o : oi_fits) : Prop :=
  o_numArray o = Z.of_nat (List.length (o_arrayList o))
  /\ o_numWavelength o = Z.of_nat (List.length (o_wavelengthList o))
  /\ o_numCorr o = Z.of_nat (List.length (o_corrList o))
  /\ o_numInspol o = Z.of_nat (List.length (o_inspolList o))
  /\ o_numVis o = Z.of_nat (List.length (o_visList o))
  /\ o_numVis2 o = Z.of_nat (List.length (o_vis2List o))
  /\ o_numT3 o = Z.of_nat (List.length (o_t3List o))
  /\ o_numFlux o = Z.of_nat (List.length (o_fluxList o))
  /\ ot_ntarget (o_targets o) = Z.of_nat (List.length (ot_targ (o_targets o))).
