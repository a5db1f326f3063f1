(** Properties C11-C20 and C42-C44: apply_oi_filter.  [pow_half] stands for the C
    library's pow(x, 0.5); the theorems hold whatever it computes. *)
From Verif Require Import FilterModel FilterSpec FilterMain FilterFinal Sample.
Open Scope Z_scope.

(** ** C11: wavelength channels.  An OI_WAVELENGTH is kept when its INSNAME matches,
    it has a channel in range, and a retained data table refers to it; it then holds
    exactly the channels in range. *)

Theorem C11_channels : forall pow_half d f f' d',
  consistent d -> fresh_filter f -> apply_oi_filter pow_half d f = Ok (f', d') ->
  kept (fun w => glob_match (f_insname f) (wv_insname w) /\ (exists j, chan_accepted f w j)
          /\ uses_insname d' (wv_insname w))
       (wave_filtered f) (o_wavelengthList d) (o_wavelengthList d').
Proof. exact main_waves. Qed.
Print Assumptions C11_channels.
(** Every retained data table has as many channels as its OI_WAVELENGTH. *)
Theorem C11_channel_counts : forall pow_half d f f' d',
  consistent d -> fresh_filter f -> apply_oi_filter pow_half d f = Ok (f', d') ->
  (forall t, In t (o_visList d') -> exists w, instrument d' (tb_insname t) w /\ wv_nwave w = tb_nwave t)
  /\ (forall t, In t (o_vis2List d') -> exists w, instrument d' (tb_insname t) w /\ wv_nwave w = tb_nwave t)
  /\ (forall t, In t (o_t3List d') -> exists w, instrument d' (tb_insname t) w /\ wv_nwave w = tb_nwave t)
  /\ (forall t, In t (o_fluxList d') -> exists w, instrument d' (tb_insname t) w /\ wv_nwave w = tb_nwave t).
Proof. exact final_nwave. Qed.
Print Assumptions C11_channel_counts.

(** ** C12: data tables and records *)

Theorem C12_vis : forall pow_half d f f' d',
  consistent d -> fresh_filter f -> apply_oi_filter pow_half d f = Ok (f', d') ->
  filtered_tables (kind_vis pow_half) f d (fun _ _ => same_observation (kind_vis pow_half))
    (o_visList d) (o_visList d').
Proof. exact final_vis_records. Qed.
Print Assumptions C12_vis.
Theorem C12_vis2 : forall pow_half d f f' d',
  consistent d -> fresh_filter f -> apply_oi_filter pow_half d f = Ok (f', d') ->
  filtered_tables (kind_vis2 pow_half) f d (fun _ _ => same_observation (kind_vis2 pow_half))
    (o_vis2List d) (o_vis2List d').
Proof. exact final_vis2_records. Qed.
Print Assumptions C12_vis2.
Theorem C12_t3 : forall pow_half d f f' d',
  consistent d -> fresh_filter f -> apply_oi_filter pow_half d f = Ok (f', d') ->
  filtered_tables (kind_t3 pow_half) f d (fun _ _ => same_observation (kind_t3 pow_half))
    (o_t3List d) (o_t3List d').
Proof. exact final_t3_records. Qed.
Print Assumptions C12_t3.
Theorem C12_flux : forall pow_half d f f' d',
  consistent d -> fresh_filter f -> apply_oi_filter pow_half d f = Ok (f', d') ->
  filtered_tables kind_flux f d (fun _ _ => same_observation kind_flux) (o_fluxList d) (o_fluxList d').
Proof. exact final_flux_records. Qed.
Print Assumptions C12_flux.
(** OI_INSPOL tables, with their content *)
Theorem C12_inspol : forall pow_half d f f' d',
  consistent d -> fresh_filter f -> apply_oi_filter pow_half d f = Ok (f', d') ->
  kept (inspol_accepted f d d') (inspol_filtered f d) (o_inspolList d) (o_inspolList d').
Proof. exact main_inspol. Qed.
Print Assumptions C12_inspol.

(** ** C13: content of the retained records.  [idx] lists the accepted channels. *)

Theorem C13_vis : forall pow_half d f f' d',
  consistent d -> fresh_filter f -> apply_oi_filter pow_half d f = Ok (f', d') ->
  filtered_tables (kind_vis pow_half) f d
    (fun _ w r r' => exists idx, accepted_channels f w idx
       /\ vis_data_kept f (length (wv_eff_wave w)) idx r r')
    (o_visList d) (o_visList d').
Proof. exact final_vis_data. Qed.
Print Assumptions C13_vis.
Theorem C13_vis2 : forall pow_half d f f' d',
  consistent d -> fresh_filter f -> apply_oi_filter pow_half d f = Ok (f', d') ->
  filtered_tables (kind_vis2 pow_half) f d
    (fun _ w r r' => exists idx, accepted_channels f w idx /\ vis2_data_kept f idx r r')
    (o_vis2List d) (o_vis2List d').
Proof. exact final_vis2_data. Qed.
Print Assumptions C13_vis2.
Theorem C13_t3 : forall pow_half d f f' d',
  consistent d -> fresh_filter f -> apply_oi_filter pow_half d f = Ok (f', d') ->
  filtered_tables (kind_t3 pow_half) f d
    (fun _ w r r' => exists idx, accepted_channels f w idx /\ t3_data_kept f idx r r')
    (o_t3List d) (o_t3List d').
Proof. exact final_t3_data. Qed.
Print Assumptions C13_t3.
Theorem C13_flux : forall pow_half d f f' d',
  consistent d -> fresh_filter f -> apply_oi_filter pow_half d f = Ok (f', d') ->
  filtered_tables kind_flux f d
    (fun _ w r r' => exists idx, accepted_channels f w idx /\ flux_data_kept f idx r r')
    (o_fluxList d) (o_fluxList d').
Proof. exact final_flux_data. Qed.
Print Assumptions C13_flux.

(** ** C14: flags.  For OI_FLUX no channel counts as bad, so its flags are unchanged. *)

Theorem C14_vis : forall pow_half d f f' d',
  consistent d -> fresh_filter f -> apply_oi_filter pow_half d f = Ok (f', d') ->
  filtered_tables (kind_vis pow_half) f d
    (fun _ w r r' => exists idx, accepted_channels f w idx
       /\ flags_updated (kind_vis pow_half) f w idx r r')
    (o_visList d) (o_visList d').
Proof. exact final_vis_flags. Qed.
Print Assumptions C14_vis.
Theorem C14_vis2 : forall pow_half d f f' d',
  consistent d -> fresh_filter f -> apply_oi_filter pow_half d f = Ok (f', d') ->
  filtered_tables (kind_vis2 pow_half) f d
    (fun _ w r r' => exists idx, accepted_channels f w idx
       /\ flags_updated (kind_vis2 pow_half) f w idx r r')
    (o_vis2List d) (o_vis2List d').
Proof. exact final_vis2_flags. Qed.
Print Assumptions C14_vis2.
Theorem C14_t3 : forall pow_half d f f' d',
  consistent d -> fresh_filter f -> apply_oi_filter pow_half d f = Ok (f', d') ->
  filtered_tables (kind_t3 pow_half) f d
    (fun _ w r r' => exists idx, accepted_channels f w idx
       /\ flags_updated (kind_t3 pow_half) f w idx r r')
    (o_t3List d) (o_t3List d').
Proof. exact final_t3_flags. Qed.
Print Assumptions C14_t3.
Theorem C14_flux : forall pow_half d f f' d',
  consistent d -> fresh_filter f -> apply_oi_filter pow_half d f = Ok (f', d') ->
  filtered_tables kind_flux f d
    (fun _ w r r' => exists idx, accepted_channels f w idx /\ flags_updated kind_flux f w idx r r')
    (o_fluxList d) (o_fluxList d').
Proof. exact final_flux_flags. Qed.
Print Assumptions C14_flux.

(** ** C15: references *)

Theorem C15_no_unreferenced : forall pow_half d f f' d',
  consistent d -> fresh_filter f -> apply_oi_filter pow_half d f = Ok (f', d') ->
  (forall a, In a (o_arrayList d') -> uses_arrname d' (ar_arrname a))
  /\ (forall w, In w (o_wavelengthList d') -> uses_insname d' (wv_insname w))
  /\ (forall c, In c (o_corrList d') -> uses_corrname d' (co_corrname c)).
Proof. exact final_referenced. Qed.
Print Assumptions C15_no_unreferenced.
(** Names used by retained data tables resolve, in the lists and by lookup *)
Theorem C15_insname_resolves : forall pow_half d f f' d',
  consistent d -> fresh_filter f -> apply_oi_filter pow_half d f = Ok (f', d') ->
  forall n, uses_insname d' n ->
    exists w, instrument d' n w /\ oi_fits_lookup_wavelength d' n = Some w.
Proof. exact main_resolve_ins. Qed.
Print Assumptions C15_insname_resolves.
Theorem C15_arrname_resolves : forall pow_half d f f' d',
  consistent d -> fresh_filter f -> apply_oi_filter pow_half d f = Ok (f', d') ->
  forall n a, uses_arrname d' n -> In a (o_arrayList d) -> ar_arrname a = n ->
    exists a', oi_fits_lookup_array d' n = Some a' /\ In a' (o_arrayList d') /\ ar_arrname a' = n.
Proof. exact main_resolve_arr. Qed.
Print Assumptions C15_arrname_resolves.
Theorem C15_corrname_resolves : forall pow_half d f f' d',
  consistent d -> fresh_filter f -> apply_oi_filter pow_half d f = Ok (f', d') ->
  forall n c, uses_corrname d' n -> In c (o_corrList d) -> co_corrname c = n ->
    exists c', oi_fits_lookup_corr d' n = Some c' /\ In c' (o_corrList d') /\ co_corrname c' = n.
Proof. exact main_resolve_corr. Qed.
Print Assumptions C15_corrname_resolves.
(** Retained OI_INSPOL tables belong to arrays in use *)
Theorem C15_inspol_arrname_resolves : forall pow_half d f f' d',
  consistent d -> fresh_filter f -> apply_oi_filter pow_half d f = Ok (f', d') ->
  forall t a, In t (o_inspolList d') -> In a (o_arrayList d) -> ar_arrname a = is_arrname t ->
    exists a', oi_fits_lookup_array d' (is_arrname t) = Some a' /\ In a' (o_arrayList d').
Proof. exact final_inspol_array. Qed.
Print Assumptions C15_inspol_arrname_resolves.
(** The full statement fails for the INSNAME of an OI_INSPOL record: its
    OI_WAVELENGTH may be removed because no data table refers to it. *)
Theorem C15_inspol_insname_refuted : exists d f d1 t r,
  consistent d /\ fresh_filter f /\ apply_oi_filter sqrt64 d f = Ok (f, d1)
  /\ In t (o_inspolList d1) /\ In r (is_record t)
  /\ (exists w, instrument d (ip_insname r) w) /\ (forall w, ~ instrument d1 (ip_insname r) w).
Proof. exact final_inspol_dangling. Qed.
Print Assumptions C15_inspol_insname_refuted.

(** ** C16: targets *)

Theorem C16_one_target : forall pow_half d f f' d',
  consistent d -> fresh_filter f -> apply_oi_filter pow_half d f = Ok (f', d') ->
  forall x, 0 <= f_target_id f -> In x (ot_targ (o_targets d)) -> tg_target_id x = f_target_id f ->
  (forall y, In y (ot_targ (o_targets d)) -> tg_target_id y = f_target_id f -> y = x) ->
  ot_ntarget (o_targets d') = 1 /\ ot_targ (o_targets d') = [tg_set_target_id 1 x].
Proof. exact final_one_target. Qed.
Print Assumptions C16_one_target.
(** The revision of OI_TARGET is kept either way. *)
Theorem C16_target_revision : forall pow_half d f f' d',
  consistent d -> fresh_filter f -> apply_oi_filter pow_half d f = Ok (f', d') ->
  ot_revision (o_targets d') = ot_revision (o_targets d).
Proof. exact final_target_revision. Qed.
Print Assumptions C16_target_revision.
Theorem C16_no_target : forall pow_half d f f' d',
  consistent d -> fresh_filter f -> apply_oi_filter pow_half d f = Ok (f', d') ->
  0 <= f_target_id f ->
  (forall y, In y (ot_targ (o_targets d)) -> tg_target_id y <> f_target_id f) ->
  ot_ntarget (o_targets d') = 0 /\ ot_targ (o_targets d') = [].
Proof. exact final_no_target. Qed.
Print Assumptions C16_no_target.
Theorem C16_records_renumbered : forall pow_half d f f' d',
  consistent d -> fresh_filter f -> apply_oi_filter pow_half d f = Ok (f', d') ->
  0 <= f_target_id f -> forall id, record_target d' id -> id = 1.
Proof. exact final_renumbered. Qed.
Print Assumptions C16_records_renumbered.
(** Every retained record had the requested id. *)
Theorem C16_records_selected : forall pow_half d f f' d',
  consistent d -> fresh_filter f -> apply_oi_filter pow_half d f = Ok (f', d') ->
  0 <= f_target_id f -> (exists id, record_target d' id) -> record_target d (f_target_id f).
Proof. exact final_selected. Qed.
Print Assumptions C16_records_selected.
Theorem C16_all_targets : forall pow_half d f f' d',
  consistent d -> fresh_filter f -> apply_oi_filter pow_half d f = Ok (f', d') ->
  f_target_id f < 0 ->
  o_targets d' = o_targets d /\ forall id, record_target d' id -> record_target d id.
Proof. exact final_all_targets. Qed.
Print Assumptions C16_all_targets.

(** ** C17: filters whose ranges contain all the data *)

Theorem C17_open_filter : forall pow_half d f,
  consistent d -> fresh_filter f -> open_filter f -> within pow_half f d ->
  exists d', apply_oi_filter pow_half d f = Ok (f, d') /\ same_data d d'
    /\ kept (fun a => uses_arrname d (ar_arrname a)) eq (o_arrayList d) (o_arrayList d')
    /\ kept (fun w => uses_insname d (wv_insname w)) eq (o_wavelengthList d) (o_wavelengthList d')
    /\ kept (fun c => uses_corrname d (co_corrname c)) eq (o_corrList d) (o_corrList d')
    /\ kept (fun t => uses_arrname d (is_arrname t)) eq (o_inspolList d) (o_inspolList d').
Proof. exact final_open. Qed.
Print Assumptions C17_open_filter.
(** The default filter is one, with the limits documented in oifilter.h *)
Theorem C17_default_filter : fresh_filter init_oi_filter /\ open_filter init_oi_filter
  /\ f_mjd_lo init_oi_filter = f64_of_Z 0 /\ f_mjd_hi init_oi_filter = f64_of_Z (10 ^ 7)
  /\ f_wave_lo init_oi_filter = to_f32 (f64_of_Z 0)
  /\ f_wave_hi init_oi_filter = to_f32 (f64_ratio 1 (10 ^ 4))
  /\ f_bas_lo init_oi_filter = f64_of_Z 0 /\ f_bas_hi init_oi_filter = f64_of_Z (10 ^ 4)
  /\ f_uvrad_lo init_oi_filter = f64_of_Z 0 /\ f_uvrad_hi init_oi_filter = f64_of_Z (10 ^ 11)
  /\ f_snr_lo init_oi_filter = to_f32 (f64_of_Z (-5))
  /\ f_snr_hi init_oi_filter = to_f32 (f64_of_Z (10 ^ 10)).
Proof. exact final_default. Qed.
Print Assumptions C17_default_filter.

(** ** C18: no crash; the filter specification is returned as it was, ready for
    another use; the output is again consistent. *)

Theorem C18_no_crash : forall pow_half d f, consistent d -> fresh_filter f ->
  exists d', apply_oi_filter pow_half d f = Ok (f, d').
Proof. exact final_no_crash. Qed.
Print Assumptions C18_no_crash.
Theorem C18_output_consistent : forall pow_half d f f' d',
  consistent d -> fresh_filter f -> apply_oi_filter pow_half d f = Ok (f', d') ->
  f_target_id f < 0 \/ (exists x, In x (ot_targ (o_targets d)) /\ tg_target_id x = f_target_id f) ->
  consistent d'.
Proof. exact main_consistent. Qed.
Print Assumptions C18_output_consistent.
(** [consistent] asks that each OI_INSPOL table be for one instrument.  Without that
    the filter writes outside an array, even when every instrument named has as many
    channels as the table. *)
Theorem C18_inspol_refuted : exists d t f,
  consistent d /\ wf_inspol t = true /\ 0 < is_numrec t
  /\ (forall r, In r (is_record t) -> exists w, instrument d (ip_insname r) w /\ wv_nwave w = is_nwave t)
  /\ fresh_filter f
  /\ apply_oi_filter sqrt64 (set_inspols [t] d) f = UB.
Proof. exact inspol_counterexample. Qed.
Print Assumptions C18_inspol_refuted.

(** ** C19: filtering twice *)

(** Missing: OI_INSPOL tables when their OI_WAVELENGTH was removed the first time. *)
Theorem C19_idempotent_partial : forall pow_half d f d1 f1,
  consistent d -> fresh_filter f -> f_target_id f < 0 ->
  apply_oi_filter pow_half d f = Ok (f1, d1) ->
  exists d2, apply_oi_filter pow_half d1 f = Ok (f, d2)
    /\ same_data d1 d2 /\ same_config d1 d2 /\ same_lookups d1 d2
    /\ ((forall t r, In t (o_inspolList d1) -> In r (is_record t) -> uses_insname d1 (ip_insname r)) ->
        o_inspolList d2 = o_inspolList d1).
Proof. exact final_twice. Qed.
Print Assumptions C19_idempotent_partial.
Theorem C19_idempotent_refuted : exists d f d1 d2,
  consistent d /\ fresh_filter f /\ f_target_id f < 0
  /\ apply_oi_filter sqrt64 d f = Ok (f, d1) /\ apply_oi_filter sqrt64 d1 f = Ok (f, d2)
  /\ o_inspolList d1 <> [] /\ o_inspolList d2 = [].
Proof. exact final_not_idempotent. Qed.
Print Assumptions C19_idempotent_refuted.

(** ** C20, for the filter *)

Theorem C20_filter_counters : forall pow_half d f f' d',
  consistent d -> fresh_filter f -> apply_oi_filter pow_half d f = Ok (f', d') ->
  o_numArray d' = Z.of_nat (length (o_arrayList d'))
  /\ o_numWavelength d' = Z.of_nat (length (o_wavelengthList d'))
  /\ o_numCorr d' = Z.of_nat (length (o_corrList d'))
  /\ o_numInspol d' = Z.of_nat (length (o_inspolList d'))
  /\ o_numVis d' = Z.of_nat (length (o_visList d'))
  /\ o_numVis2 d' = Z.of_nat (length (o_vis2List d'))
  /\ o_numT3 d' = Z.of_nat (length (o_t3List d'))
  /\ o_numFlux d' = Z.of_nat (length (o_fluxList d')).
Proof. exact main_counters. Qed.
Print Assumptions C20_filter_counters.

(** ** C42: header, arrays and correlations *)

Theorem C42_header : forall pow_half d f f' d',
  consistent d -> fresh_filter f -> apply_oi_filter pow_half d f = Ok (f', d') ->
  o_header d' = o_header d.
Proof. exact main_header. Qed.
Print Assumptions C42_header.
Theorem C42_arrays : forall pow_half d f f' d',
  consistent d -> fresh_filter f -> apply_oi_filter pow_half d f = Ok (f', d') ->
  kept (fun a => glob_match (f_arrname f) (ar_arrname a) /\ uses_arrname d' (ar_arrname a)) eq
    (o_arrayList d) (o_arrayList d').
Proof. exact main_arrays. Qed.
Print Assumptions C42_arrays.
Theorem C42_corrs : forall pow_half d f f' d',
  consistent d -> fresh_filter f -> apply_oi_filter pow_half d f = Ok (f', d') ->
  kept (fun c => glob_match (f_corrname f) (co_corrname c) /\ uses_corrname d' (co_corrname c)) eq
    (o_corrList d) (o_corrList d').
Proof. exact main_corrs. Qed.
Print Assumptions C42_corrs.

(** ** C43, for the filter: lost when a target is selected *)

Theorem C43_filter_category_partial : forall pow_half d f f' d',
  consistent d -> fresh_filter f -> apply_oi_filter pow_half d f = Ok (f', d') ->
  f_target_id f < 0 -> ot_usecategory (o_targets d') = ot_usecategory (o_targets d).
Proof. exact final_category. Qed.
Print Assumptions C43_filter_category_partial.
Theorem C43_filter_category_refuted : exists d f d',
  consistent d /\ fresh_filter f /\ apply_oi_filter sqrt64 d f = Ok (f, d')
  /\ ot_usecategory (o_targets d) = true /\ ot_usecategory (o_targets d') = false
  /\ map tg_category (ot_targ (o_targets d')) = ["SCI"%string].
Proof. exact category_counterexample. Qed.
Print Assumptions C43_filter_category_refuted.

(** ** C44: patterns.  What the filter does with them is in C11, C12 and C42. *)

Theorem C44_glob : forall p s, glob p s = true <-> glob_match p s.
Proof. exact FilterProofs.glob_spec. Qed.
Print Assumptions C44_glob.
Theorem C44_star_accepts_all : forall s, glob "*" s = true.
Proof. exact final_star. Qed.
Print Assumptions C44_star_accepts_all.
(** A pattern without wildcards accepts exactly itself. *)
Theorem C44_literal : forall p s,
  (forall c, InString c p -> c <> "*"%char /\ c <> "?"%char) -> (glob p s = true <-> s = p).
Proof. exact final_literal. Qed.
Print Assumptions C44_literal.

(** ** The hypotheses can be met, with an effect *)

Example consistent_example : consistent s_fits /\ fresh_filter s_filter.
Proof. exact (conj s_fits_consistent s_filter_fresh). Qed.
Example within_example : within sqrt64 init_oi_filter s_fits.
Proof. exact s_fits_within. Qed.
(** Selecting target 4, arrays V*, 2.05 to 2.5 microns, SNR up to 40, unflagged:
    one OI_VIS record with two of three channels, ... *)
Example filter_example : exists d', apply_oi_filter sqrt64 s_fits s_filter = Ok (s_filter, d')
  /\ map (fun t => (tb_nwave t, map vr_target_id (tb_record t), map vr_flag (tb_record t))) (o_visList d')
     = [(2, [1], [[false; true]])]
  /\ o_vis2List d' = []
  /\ o_t3List d' = []
  /\ map (fun t => map (fun r => map is_nan (fr_fluxdata r)) (tb_record t)) (o_fluxList d')
     = [[[true; true]]]
  /\ map ar_arrname (o_arrayList d') = ["VLTI"%string]
  /\ map wv_insname (o_wavelengthList d') = ["GRAVITY"%string].
Proof. exact s_fits1_effect. Qed.
Example glob_example : glob "V?T*" "VLTI" = true /\ glob "V?T*" "VTI" = false /\ glob "*A*" "CHARA" = true.
Proof. repeat split. Qed.
