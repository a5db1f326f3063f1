(** Properties C20 and C24-C30, C43 for merge_oi_fits_list. *)
From Verif Require Import FileModel FileSpec MergeModel MergeSpec MergeTables MergeHeader MergeWhole
  MergeFacts MergeMain Sample.
From Coq Require Import Lia.
Open Scope Z_scope.

(** ** C24: every table and record is kept, in order.  [merged_data] compares all but
    names, TARGET_ID, revision and TIME. *)

Theorem C24_vis2 : forall ins out,
  Forall (fun d => wf_fits d = true) ins -> merge_oi_fits_list ins = Ok out ->
  Forall2 (fun p t' =>
      merged_data v2_set_target_id v2_target_id v2_time same_but_time_vis2 (snd p) t')
    (from_inputs o_vis2List ins) (o_vis2List out).
Proof. exact kept_vis2. Qed.
Print Assumptions C24_vis2.
Theorem C24_t3 : forall ins out,
  Forall (fun d => wf_fits d = true) ins -> merge_oi_fits_list ins = Ok out ->
  Forall2 (fun p t' =>
      merged_data t3_set_target_id t3_target_id t3_time same_but_time_t3 (snd p) t')
    (from_inputs o_t3List ins) (o_t3List out).
Proof. exact kept_t3. Qed.
Print Assumptions C24_t3.
Theorem C24_flux : forall ins out,
  Forall (fun d => wf_fits d = true) ins -> merge_oi_fits_list ins = Ok out ->
  Forall2 (fun p t' => merged_flux (snd p) t') (from_inputs o_fluxList ins) (o_fluxList out).
Proof. exact kept_flux. Qed.
Print Assumptions C24_flux.
Theorem C24_inspol : forall ins out,
  Forall (fun d => wf_fits d = true) ins -> merge_oi_fits_list ins = Ok out ->
  Forall2 (fun p t' => merged_inspol (snd p) t') (from_inputs o_inspolList ins) (o_inspolList out).
Proof. exact kept_inspol. Qed.
Print Assumptions C24_inspol.
Theorem C24_corr : forall ins out,
  Forall (fun d => wf_fits d = true) ins -> merge_oi_fits_list ins = Ok out ->
  Forall2 merged_corr (flat_map o_corrList ins) (o_corrList out).
Proof. exact kept_corr. Qed.
Print Assumptions C24_corr.

(** OI_VIS without complex visibilities *)
Theorem C24_vis_plain : forall ins out,
  Forall (fun d => wf_fits d = true) ins -> merge_oi_fits_list ins = Ok out ->
  (forall d t, In d ins -> In t (o_visList d) -> vx_usecomplex (tb_x t) = false) ->
  Forall2 (fun p t' =>
      merged_data vr_set_target_id vr_target_id vr_time same_but_time_vis (snd p) t')
    (from_inputs o_visList ins) (o_visList out).
Proof. exact kept_vis_plain. Qed.
Print Assumptions C24_vis_plain.
(** OI_VIS in general: IVISERR is missing from the comparison. *)
Theorem C24_vis_partial : forall ins out,
  Forall (fun d => wf_fits d = true) ins -> merge_oi_fits_list ins = Ok out ->
  Forall2 (fun p t' =>
      merged_data vr_set_target_id vr_target_id vr_time same_but_time_iviserr (snd p) t')
    (from_inputs o_visList ins) (o_visList out).
Proof. exact kept_vis_partial. Qed.
Print Assumptions C24_vis_partial.
(** IVISERR of complex visibilities is lost. *)
Theorem C24_vis_refuted : exists ins out,
  Forall (fun d => wf_fits d = true) ins /\ merge_oi_fits_list ins = Ok out
  /\ ~ Forall2 (fun p t' =>
          merged_data vr_set_target_id vr_target_id vr_time same_but_time_vis (snd p) t')
        (from_inputs o_visList ins) (o_visList out).
Proof. exact vis_counterexample. Qed.
Print Assumptions C24_vis_refuted.

(** Inputs that can be merged *)
Theorem C24_defined : forall ins, mergeable ins -> exists out, merge_oi_fits_list ins = Ok out.
Proof. exact merge_defined. Qed.
Print Assumptions C24_defined.
(** Listed TARGET_IDs and fewer than 100 targets are necessary. *)
Theorem C24_requires : forall ins out,
  Forall (fun d => wf_fits d = true) ins -> merge_oi_fits_list ins = Ok out ->
  Forall targets_listed ins
  /\ (length (nodup string_dec (map tg_target (all_targets ins))) < 100)%nat.
Proof. exact merge_requires. Qed.
Print Assumptions C24_requires.
(** A record of an unlisted target makes the merge undefined. *)
Theorem C24_unlisted_target : exists d,
  wf_fits d = true /\ tables_nonempty d /\ dated d /\ merge_oi_fits_list [d] = UB.
Proof. exact unlisted_counterexample. Qed.
Print Assumptions C24_unlisted_target.
(** The output is well-formed again. *)
Theorem C24_well_formed : forall ins out,
  Forall (fun d => wf_fits d = true) ins -> merge_oi_fits_list ins = Ok out -> wf_fits out = true.
Proof. exact merged_wf. Qed.
Print Assumptions C24_well_formed.

Example C24_case : mergeable m_ins /\ Forall (fun d => wf_fits d = true) m_ins
  /\ Forall (fun d => (1 <= length (o_vis2List d))%nat) m_ins.
Proof.
  split; [exact m_mergeable|]. split; [exact m_wf|]. repeat constructor.
Qed.

(** ** C25: references *)

Theorem C25_vis : forall ins out,
  Forall (fun d => wf_fits d = true) ins -> merge_oi_fits_list ins = Ok out ->
  Forall names_fit ins -> distinct_names out ->
  Forall2 (references_kept vr_target_id out) (from_inputs o_visList ins) (o_visList out).
Proof. exact references_vis. Qed.
Print Assumptions C25_vis.
Theorem C25_vis2 : forall ins out,
  Forall (fun d => wf_fits d = true) ins -> merge_oi_fits_list ins = Ok out ->
  Forall names_fit ins -> distinct_names out ->
  Forall2 (references_kept v2_target_id out) (from_inputs o_vis2List ins) (o_vis2List out).
Proof. exact references_vis2. Qed.
Print Assumptions C25_vis2.
Theorem C25_t3 : forall ins out,
  Forall (fun d => wf_fits d = true) ins -> merge_oi_fits_list ins = Ok out ->
  Forall names_fit ins -> distinct_names out ->
  Forall2 (references_kept t3_target_id out) (from_inputs o_t3List ins) (o_t3List out).
Proof. exact references_t3. Qed.
Print Assumptions C25_t3.
Theorem C25_flux : forall ins out,
  Forall (fun d => wf_fits d = true) ins -> merge_oi_fits_list ins = Ok out ->
  Forall names_fit ins -> distinct_names out ->
  Forall2 (references_kept fr_target_id out) (from_inputs o_fluxList ins) (o_fluxList out).
Proof. exact references_flux. Qed.
Print Assumptions C25_flux.
Theorem C25_inspol : forall ins out,
  Forall (fun d => wf_fits d = true) ins -> merge_oi_fits_list ins = Ok out ->
  Forall names_fit ins -> distinct_names out ->
  Forall2 (inspol_references_kept out) (from_inputs o_inspolList ins) (o_inspolList out).
Proof. exact references_inspol. Qed.
Print Assumptions C25_inspol.
(** The OI_ARRAY and OI_WAVELENGTH tables of the output are tables of the inputs,
    their name and revision aside. *)
Theorem C25_arrays : forall ins out,
  Forall (fun d => wf_fits d = true) ins -> merge_oi_fits_list ins = Ok out ->
  Forall (fun a' => exists d a, In d ins /\ In a (o_arrayList d)
    /\ ar_set_arrname (ar_arrname a) a'
       = ar_set_revision (if ar_revision a =? 1 then 2 else ar_revision a) a) (o_arrayList out).
Proof. exact arrays_from_inputs. Qed.
Print Assumptions C25_arrays.
Theorem C25_wavelengths : forall ins out,
  Forall (fun d => wf_fits d = true) ins -> merge_oi_fits_list ins = Ok out ->
  Forall (fun w' => exists d w, In d ins /\ In w (o_wavelengthList d)
    /\ wv_set_insname (wv_insname w) w'
       = wv_set_revision (if wv_revision w =? 1 then 2 else wv_revision w) w) (o_wavelengthList out).
Proof. exact waves_from_inputs. Qed.
Print Assumptions C25_wavelengths.
(** Distinct names in each input are not enough. *)
Theorem C25_refuted : exists ins out,
  Forall (fun d => wf_fits d = true) ins /\ Forall names_fit ins /\ Forall distinct_names ins
  /\ merge_oi_fits_list ins = Ok out
  /\ ~ Forall2 (references_kept v2_target_id out) (from_inputs o_vis2List ins) (o_vis2List out).
Proof. exact references_counterexample. Qed.
Print Assumptions C25_refuted.

Example C25_case : exists out, merge_oi_fits_list m_ins = Ok out /\ distinct_names out
  /\ refs2 out = [("CHARA", "PIONIER", "", [1; 2; 2]);
       ("VLTI_003", "GRAVITY_003", "CORR1_002", [2; 3])]%string.
Proof.
  destruct m_result as (o & E & _ & _ & R & _). exists o. split; [exact E|].
  split; [|exact R]. exact (merged_distinct m_ins o m_wf E m_fit m_plain).
Qed.

(** ** C26: targets *)

Theorem C26_targets : forall ins out,
  Forall (fun d => wf_fits d = true) ins -> merge_oi_fits_list ins = Ok out ->
  map tg_target_id (ot_targ (o_targets out))
     = map (fun i => 1 + Z.of_nat i) (seq 0 (length (ot_targ (o_targets out))))
  /\ NoDup (map tg_target (ot_targ (o_targets out)))
  /\ (forall n, In n (map tg_target (ot_targ (o_targets out)))
                <-> In n (map tg_target (all_targets ins)))
  /\ (forall t', In t' (ot_targ (o_targets out)) -> exists t,
        first_match (fun x => tg_target x = tg_target t') (all_targets ins) t
        /\ t' = tg_set_target_id (tg_target_id t') t).
Proof. exact targets_facts. Qed.
Print Assumptions C26_targets.
(** In order of first appearance *)
Theorem C26_order : forall ins out,
  Forall (fun d => wf_fits d = true) ins -> merge_oi_fits_list ins = Ok out ->
  ot_targ (o_targets out) = renumber 1 (first_rows [] (all_targets ins)).
Proof. exact targets_order. Qed.
Print Assumptions C26_order.

Example C26_case : exists out, merge_oi_fits_list m_ins = Ok out
  /\ map (fun t => (tg_target_id t, tg_target t)) (all_targets m_ins)
     = [(4, "alpha"); (9, "beta"); (7, "beta"); (3, "gamma")]%string
  /\ targets_of out = [(1, "alpha"); (2, "beta"); (3, "gamma")]%string.
Proof. destruct m_result as (o & E & _ & T & _). exists o. auto. Qed.

(** ** C27: names *)

Theorem C27_distinct : forall ins out,
  Forall (fun d => wf_fits d = true) ins -> merge_oi_fits_list ins = Ok out ->
  Forall names_fit ins -> plain_names ins -> distinct_names out.
Proof. exact merged_distinct. Qed.
Print Assumptions C27_distinct.
(** The names fit the buffers. *)
Theorem C27_fit : forall ins out,
  Forall (fun d => wf_fits d = true) ins -> merge_oi_fits_list ins = Ok out ->
  Forall names_fit ins -> names_fit out.
Proof. exact merged_names_fit. Qed.
Print Assumptions C27_fit.
(** An input that has a name of the generated form can clash. *)
Theorem C27_refuted : exists ins out,
  Forall (fun d => wf_fits d = true) ins /\ Forall names_fit ins /\ Forall distinct_names ins
  /\ merge_oi_fits_list ins = Ok out /\ ~ distinct_names out.
Proof. exact names_counterexample. Qed.
Print Assumptions C27_refuted.

Example C27_case : plain_names m_ins /\ Forall names_fit m_ins
  /\ exists out, merge_oi_fits_list m_ins = Ok out
  /\ names_of out = (["VLTI"; "CHARA"; "VLTI_003"], ["GRAVITY"; "PIONIER"; "GRAVITY_003"],
       ["CORR1"; "CORR1_002"])%string.
Proof.
  split; [exact m_plain|]. split; [exact m_fit|]. destruct m_result as (o & E & N & _). eauto.
Qed.

(** ** C28: header *)

Theorem C28_header : forall ins out, Forall header_fits ins -> merge_oi_fits_list ins = Ok out ->
  header_merged ins (o_header out).
Proof. exact header_ok. Qed.
Print Assumptions C28_header.
(** [dates] are the dates of observation of the inputs that have one. *)
Theorem C28_earliest : forall ins dates out e0,
  Forall2 observed_on ins dates -> In (Some e0) dates -> merge_oi_fits_list ins = Ok out ->
  exists y m d, h_date_obs (o_header out) = iso_date y m d /\ In (Some (y, m, d)) dates
    /\ forall e, In (Some e) dates -> not_later (y, m, d) e.
Proof. exact date_obs_earliest. Qed.
Print Assumptions C28_earliest.
(** Without any, the result is a made-up date. *)
Theorem C28_undated : forall ins out,
  Forall (fun d => observed_on d None) ins -> merge_oi_fits_list ins = Ok out ->
  h_date_obs (o_header out) = "2132-09-01"%string.
Proof. exact date_obs_none. Qed.
Print Assumptions C28_undated.
(** A date before 1901 aborts the program. *)
Theorem C28_old_date : exists d, wf_fits d = true /\ tables_nonempty d /\ targets_listed d
  /\ h_date_obs (o_header d) = "1893-05-01"%string /\ merge_oi_fits_list [d] = Abort.
Proof. exact old_date_counterexample. Qed.
Print Assumptions C28_old_date.

Example C28_case : Forall header_fits m_ins
  /\ Forall2 observed_on m_ins [Some (2019, 12, 31); Some (2018, 2, 3)]
  /\ exists o, merge_oi_fits_list m_ins = Ok o
     /\ h_origin (o_header o) = "MULTIPLE"%string /\ h_telescop (o_header o) = "VLTI"%string
     /\ h_author (o_header o) = "AB"%string /\ h_date_obs (o_header o) = "2018-02-03"%string.
Proof.
  split; [exact m_header_fits|]. split; [exact m_dates|].
  destruct m_result as (o & E & _ & _ & _ & R). exists o. auto.
Qed.

(** ** C29: version *)

Theorem C29_version2 : forall ins out,
  Forall (fun d => wf_fits d = true) ins -> merge_oi_fits_list ins = Ok out ->
  Forall standard_revisions ins -> version2_revisions out /\ is_oi_fits_two out = true.
Proof. exact merged_version2. Qed.
Print Assumptions C29_version2.
Theorem C29_times : forall ins out,
  Forall (fun d => wf_fits d = true) ins -> merge_oi_fits_list ins = Ok out ->
  Forall2 (fun p t' => tb_revision (snd p) = 1 -> Forall (fun r => vr_time r = f64_zero) (tb_record t'))
    (from_inputs o_visList ins) (o_visList out)
  /\ Forall2 (fun p t' => tb_revision (snd p) = 1 -> Forall (fun r => v2_time r = f64_zero) (tb_record t'))
    (from_inputs o_vis2List ins) (o_vis2List out)
  /\ Forall2 (fun p t' => tb_revision (snd p) = 1 -> Forall (fun r => t3_time r = f64_zero) (tb_record t'))
    (from_inputs o_t3List ins) (o_t3List out).
Proof. exact merged_times. Qed.
Print Assumptions C29_times.

Example C29_case : Forall standard_revisions m_ins
  /\ (exists d t, In d m_ins /\ In t (o_vis2List d) /\ tb_revision t = 1)
  /\ exists out, merge_oi_fits_list m_ins = Ok out.
Proof.
  split; [exact m_standard|]. split.
  - exists m_fits, m_vis2. cbn. auto.
  - destruct m_result as (o & E & _). eauto.
Qed.

(** ** C30: no duplicates *)

Theorem C30_copies : forall d n o1 o2,
  wf_fits d = true -> Forall distinct_stations (o_arrayList d) ->
  merge_oi_fits_list [d] = Ok o1 -> merge_oi_fits_list (repeat d (S n)) = Ok o2 ->
  o_arrayList o2 = o_arrayList o1 /\ o_wavelengthList o2 = o_wavelengthList o1
  /\ o_targets o2 = o_targets o1.
Proof. exact merge_copies. Qed.
Print Assumptions C30_copies.
(** No table of the output could have been replaced by an earlier one. *)
Theorem C30_arrays : forall ins out,
  Forall (fun d => wf_fits d = true) ins -> merge_oi_fits_list ins = Ok out ->
  forall l1 b l2 c, o_arrayList out = (l1 ++ b :: l2)%list -> distinct_stations b -> In c l1 ->
  ~ same_stations b c.
Proof. exact no_duplicate_arrays. Qed.
Print Assumptions C30_arrays.
Theorem C30_wavelengths : forall ins out,
  Forall (fun d => wf_fits d = true) ins -> merge_oi_fits_list ins = Ok out ->
  forall l1 b l2 c, o_wavelengthList out = (l1 ++ b :: l2)%list -> In c l1 -> ~ same_wavebands b c.
Proof. exact no_duplicate_waves. Qed.
Print Assumptions C30_wavelengths.
(** An array in which two stations share a STA_INDEX is duplicated. *)
Theorem C30_refuted : exists d o1 o2, wf_fits d = true
  /\ merge_oi_fits_list [d] = Ok o1 /\ merge_oi_fits_list [d; d] = Ok o2
  /\ o_numArray o1 < o_numArray o2.
Proof. exact copies_counterexample. Qed.
Print Assumptions C30_refuted.

Example C30_case : wf_fits s_fits = true /\ Forall distinct_stations (o_arrayList s_fits)
  /\ (exists o1, merge_oi_fits_list [s_fits] = Ok o1)
  /\ exists o2, merge_oi_fits_list (repeat s_fits 3) = Ok o2 /\ o_numArray o2 = 2
       /\ o_numWavelength o2 = 2 /\ o_numVis2 o2 = 3.
Proof. exact copies_case. Qed.

(** ** C20: counters *)

Theorem C20_merge : forall ins out,
  Forall (fun d => wf_fits d = true) ins -> merge_oi_fits_list ins = Ok out -> counters_agree out.
Proof. exact merged_counters. Qed.
Print Assumptions C20_merge.
Example C20_merge_case : exists out, merge_oi_fits_list m_ins = Ok out.
Proof. destruct m_result as (o & E & _). eauto. Qed.

(** ** C43: CATEGORY is always lost *)

Theorem C43_merge_refuted : exists ins out, Forall (fun d => wf_fits d = true) ins
  /\ Forall (fun d => ot_usecategory (o_targets d) = true) ins
  /\ merge_oi_fits_list ins = Ok out /\ ot_usecategory (o_targets out) = false.
Proof. exact category_counterexample. Qed.
Print Assumptions C43_merge_refuted.
