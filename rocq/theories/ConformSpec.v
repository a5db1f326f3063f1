(** Datasets that satisfy every rule checked by oicheck.c. *)
From Verif Require Export FilterSpec MergeSpec CheckSpec ToolSpec.
From Verif Require Import FileModel CheckModel ToolModel.
Open Scope Z_scope.

(** VISREFMAP is there exactly for differential data. *)
Definition refmap_rule (o : oi_fits) : Prop :=
  forall t, In t (o_visList o) -> ~ refmap_missing t /\ ~ refmap_surplus t.
(** No two rows of OI_TARGET have the same name. *)
Definition unique_rule (o : oi_fits) : Prop := NoDup (map tg_target (ot_targ (o_targets o))).

Record conforms (o : oi_fits) : Prop := mk_conforms {
  cf_tables : tables_present o;
  cf_revisions : revisions_ok o;
  cf_header : header_rule o;
  cf_keywords : keyword_rule o;
  cf_refmap : refmap_rule o;
  cf_unique : unique_rule o;
  cf_targets : targets_present o;
  cf_arrname : arrname_rule o;
  cf_elements : elements_present o;
  cf_inspol : inspol_named o;
  cf_corr : corr_rule o;
  cf_flagging : flagging_rule o;
  cf_t3amp : t3amp_rule o;
  cf_order : order_rule o;
  cf_time : time_rule o;
  cf_flux : flux_rule o }.

(** Each of the fourteen checks of oifits-check completes and finds nothing. *)
Definition passes (o : oi_fits) : Prop :=
  Forall (fun check => exists r, check o = Ok r /\ cr_level r = OI_BREACH_NONE) checks.

(** Some interferometric data: an OI_VIS, OI_VIS2 or OI_T3 table *)
Definition has_fringes (o : oi_fits) : Prop :=
  o_visList o <> [] \/ o_vis2List o <> [] \/ o_t3List o <> [].
(** Interferometric data or, in OIFITS version 2, uncalibrated spectra *)
Definition has_data (o : oi_fits) : Prop :=
  has_fringes o
  \/ h_content (o_header o) = "OIFITS2"%string
     /\ exists t, In t (o_fluxList o) /\ fx_calstat (tb_x t) = "U"%char.

(** What version 2 asks of tables and version 1 does not: an OI_ARRAY, ARRNAME in the
    tables referring to one, known AMPTYP and PHITYP, and OI_REVN 1 in the tables that
    only version 2 has *)
Record version2_needs (o : oi_fits) : Prop := mk_needs {
  vn_arrays : o_arrayList o <> [];
  vn_inspol : Forall (fun t => is_arrname t <> ""%string) (o_inspolList o);
  vn_vis : Forall (fun t => tb_arrname t <> ""%string) (o_visList o);
  vn_vis2 : Forall (fun t => tb_arrname t <> ""%string) (o_vis2List o);
  vn_t3 : Forall (fun t => tb_arrname t <> ""%string) (o_t3List o);
  vn_types : Forall (fun t =>
      In (vx_amptyp (tb_x t)) [""; "absolute"; "differential"; "correlated flux"]%string
      /\ In (vx_phityp (tb_x t)) [""; "absolute"; "differential"]%string) (o_visList o);
  vn_flux_revn : Forall (fun t => tb_revision t = 1) (o_fluxList o);
  vn_corr_revn : Forall (fun c => co_revision c = 1) (o_corrList o);
  vn_inspol_revn : Forall (fun t => is_revision t = 1) (o_inspolList o) }.

(** Every OI_ARRAY has a name. *)
Definition arrays_named (o : oi_fits) : Prop :=
  Forall (fun a => ar_arrname a <> ""%string) (o_arrayList o).

(** A dataset ready to be merged into a conforming one *)
Record merge_ready (o : oi_fits) : Prop := mk_merge_ready {
  rd_conforms : conforms o;
  rd_version1 : h_content (o_header o) <> "OIFITS2"%string -> version2_needs o;
  rd_distinct : distinct_names o;
  rd_named : arrays_named o;
  rd_names : names_fit o;
  rd_header : header_fits o }.

(** What is needed of a dataset for the file written from it to satisfy every rule: OI_REVN,
    TIME, DATE and CONTENT are set by the library, and STA_INDEX is left out of an OI_FLUX
    table without ARRNAME *)
Record store_ready (o : oi_fits) : Prop := mk_store_ready {
  sr_arrays : o_arrayList o <> [];
  sr_waves : o_wavelengthList o <> [];
  sr_data : has_fringes o \/ o_fluxList o <> [];
  sr_header : Forall (fun v => v <> ""%string)
    [h_origin (o_header o); h_date_obs (o_header o); h_telescop (o_header o); h_instrume (o_header o);
     h_observer (o_header o); h_insmode (o_header o); h_object (o_header o)];
  sr_frame : Forall (fun a => In (ar_frame a) ["GEOCENTRIC"; "SKY"]%string) (o_arrayList o);
  sr_types : Forall (fun t =>
      In (vx_amptyp (tb_x t)) [""; "absolute"; "differential"; "correlated flux"]%string
      /\ In (vx_phityp (tb_x t)) [""; "absolute"; "differential"]%string) (o_visList o);
  sr_refmap : refmap_rule o;
  sr_unique : unique_rule o;
  sr_targets : targets_present o;
  sr_inspol : Forall (fun t => is_arrname t <> ""%string) (o_inspolList o);
  sr_vis : Forall (fun t => tb_arrname t <> ""%string) (o_visList o);
  sr_vis2 : Forall (fun t => tb_arrname t <> ""%string) (o_vis2List o);
  sr_t3 : Forall (fun t => tb_arrname t <> ""%string) (o_t3List o);
  sr_elements : elements_present o;
  sr_corr : corr_rule o;
  sr_flagging : flagging_rule o;
  sr_t3amp : t3amp_rule o;
  sr_order : order_rule o;
  sr_flux : Forall (fun t =>
      fx_calstat (tb_x t) = "C"%char /\ tb_arrname t = ""%string
        /\ In (fx_fovtype (tb_x t)) [""; "FWHM"; "RADIUS"]%string
      \/ fx_calstat (tb_x t) = "U"%char /\ tb_arrname t <> ""%string /\ all_stations t
        /\ fx_fovtype (tb_x t) = ""%string) (o_fluxList o) }.

(** What a merge does to the names in the tables of one input *)
Record renaming := mk_renaming { rn_array : string -> string; rn_ins : string -> string; rn_corr : string -> string }.
(** no reference stays no reference *)
Definition keeps_blank (f : renaming) : Prop := rn_array f ""%string = ""%string /\ rn_corr f ""%string = ""%string.
(** all tables of a kind, each with what is done to names in the input it is from *)
Definition with_inputs {T} (tabs : oi_fits -> list T) (ins : list oi_fits) (fs : list renaming) : list (renaming * T) :=
  flat_map (fun df => map (pair (snd df)) (tabs (fst df))) (combine ins fs).
Definition renamed {X R} (ft : renaming * dtab X R) (t' : dtab X R) : Prop :=
  let '(f, t) := ft in
  tb_arrname t' = rn_array f (tb_arrname t) /\ tb_insname t' = rn_ins f (tb_insname t)
  /\ tb_corrname t' = rn_corr f (tb_corrname t).
Definition inspol_renamed (ft : renaming * oi_inspol) (t' : oi_inspol) : Prop :=
  let '(f, t) := ft in
  is_arrname t' = rn_array f (is_arrname t)
  /\ Forall2 (fun r r' => ip_insname r' = rn_ins f (ip_insname r)) (is_record t) (is_record t').

(** the header a version 2 file needs: everything but DATE and CONTENT *)
Definition header_given (h : oi_header) : Prop :=
  Forall (fun v => v <> ""%string) [h_origin h; h_date_obs h; h_telescop h; h_instrume h; h_observer h; h_insmode h; h_object h].
(** Something left that needs an array *)
Definition has_stations (o : oi_fits) : Prop :=
  has_fringes o \/ exists t, In t (o_fluxList o) /\ fx_calstat (tb_x t) = "U"%char.
(** The CORRNAME of an OI_FLUX table occurs in another data table too (see C06). *)
Definition corrs_elsewhere (o : oi_fits) : Prop :=
  forall t, In t (o_fluxList o) -> tb_corrname t <> ""%string ->
  (exists u, In u (o_visList o) /\ tb_corrname u = tb_corrname t)
  \/ (exists u, In u (o_vis2List o) /\ tb_corrname u = tb_corrname t)
  \/ (exists u, In u (o_t3List o) /\ tb_corrname u = tb_corrname t).
(** oifits-check says of a file that all is well, after the summary of what it reads. *)
Definition passed (E : cfitsio) (fmt : string -> f64 -> string) (name : string) (d : disk) : Prop :=
  exists o text, reads E name d o /\ summary_of fmt o text
    /\ oifits_check E fmt [name] d = Ok (mk_outcome 0 (text ++ "All checks passed" ++ nl) d).
