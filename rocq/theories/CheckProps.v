(** Properties C31-C34: oicheck.c. *)
From Verif Require Import Base Sample FileModel FileSpec MergeModel MergeSpec MergeMain CheckModel
  CheckSpec CheckRules CheckWhole CheckMain.
Open Scope Z_scope.

(** ** C31: each check decides its rule *)

Theorem C31_header : forall o, decides (check_header o) (header_rule o) 2.
Proof. exact header_decides. Qed.
Print Assumptions C31_header.
Theorem C31_keywords : forall o, decides (check_keywords o) (keyword_rule o) 2.
Proof. exact keywords_decides. Qed.
Print Assumptions C31_keywords.
Theorem C31_visrefmap : forall o, exists r, check_visrefmap o = Ok r
  /\ (cr_level r = 0 <-> forall t, In t (o_visList o) -> ~ refmap_missing t /\ ~ refmap_surplus t)
  /\ (cr_level r = 2 <-> exists t, In t (o_visList o) /\ refmap_missing t)
  /\ (cr_level r = 0 \/ cr_level r = 1 \/ cr_level r = 2).
Proof. exact visrefmap_level. Qed.
Print Assumptions C31_visrefmap.
Theorem C31_unique_targets : forall o, wf_fits o = true ->
  decides (check_unique_targets o) (NoDup (map tg_target (ot_targ (o_targets o)))) 1.
Proof. exact unique_decides. Qed.
Print Assumptions C31_unique_targets.
Theorem C31_targets_present : forall o, wf_fits o = true ->
  decides (check_targets_present o) (targets_present o) 2.
Proof. exact targets_decides. Qed.
Print Assumptions C31_targets_present.
Theorem C31_arrname : forall o, decides (check_arrname o) (arrname_rule o) 2.
Proof. exact arrname_decides. Qed.
Print Assumptions C31_arrname.
Theorem C31_flagging : forall o, wf_fits o = true -> decides (check_flagging o) (flagging_rule o) 2.
Proof. exact flagging_decides. Qed.
Print Assumptions C31_flagging.
Theorem C31_t3amp : forall o, wf_fits o = true -> decides (check_t3amp o) (t3amp_rule o) 2.
Proof. exact t3amp_decides. Qed.
Print Assumptions C31_t3amp.
Theorem C31_waveorder : forall o, wf_fits o = true -> decides (check_waveorder o) (order_rule o) 1.
Proof. exact waveorder_decides. Qed.
Print Assumptions C31_waveorder.
Theorem C31_time : forall o, wf_fits o = true -> decides (check_time o) (time_rule o) 1.
Proof. exact time_decides. Qed.
Print Assumptions C31_time.
(** Missing: datasets in which the index disagrees with the list of OI_CORR tables. *)
Theorem C31_corr_present_partial : forall o, corrs_found o -> decides (check_corr_present o) (corr_rule o) 2.
Proof. exact corr_decides. Qed.
Print Assumptions C31_corr_present_partial.
(** As read from a file: CORRNAME used only by an OI_FLUX table is reported missing. *)
Theorem C31_corr_present_refuted : exists h tg arrays waves corrs flux o r,
  assemble h tg arrays waves corrs [] [] [] [] flux = Ok o /\ wf_fits o = true
  /\ corr_rule o /\ check_corr_present o = Ok r /\ cr_level r = 2.
Proof. exact corr_counterexample. Qed.
Print Assumptions C31_corr_present_refuted.
(** Missing: OI_FLUX tables without records or with STA_INDEX in some records only. *)
Theorem C31_flux_partial : forall o, fluxes_nonempty o -> uniform_stations o ->
  decides (check_flux o) (flux_rule o) 2.
Proof. exact flux_decides. Qed.
Print Assumptions C31_flux_partial.
(** Only the first record is examined. *)
Theorem C31_flux_refuted : exists o r, wf_fits o = true /\ fluxes_nonempty o /\ check_flux o = Ok r
  /\ cr_level r = 0 /\ ~ flux_rule o.
Proof. exact flux_counterexample. Qed.
Print Assumptions C31_flux_refuted.
(** A table without records is read out of bounds. *)
Theorem C31_flux_empty_refuted : exists o, wf_fits o = true /\ check_flux o = UB.
Proof. exact flux_empty_counterexample. Qed.
Print Assumptions C31_flux_empty_refuted.

(** Both outcomes of each check occur. *)
Example C31_case_bad : wf_fits k_fits = true /\ corrs_found k_fits /\ fluxes_nonempty k_fits
  /\ uniform_stations k_fits
  /\ map summary
      [check_header k_fits; check_keywords k_fits; check_visrefmap k_fits;
       check_unique_targets k_fits; check_targets_present k_fits; check_arrname k_fits;
       check_corr_present k_fits; check_flagging k_fits; check_t3amp k_fits;
       check_waveorder k_fits; check_time k_fits; check_flux k_fits]
     = [Some (2, 2); Some (2, 1); Some (2, 1); Some (1, 1); Some (2, 11); Some (2, 1); Some (2, 1);
        Some (2, 11); Some (2, 1); Some (1, 2); Some (1, 11); Some (2, 2)].
Proof.
  split; [exact k_wf|]. split; [exact k_corrs|]. split; [exact k_nonempty|]. split; [exact k_uniform|].
  vm_compute. reflexivity.
Qed.
Example C31_case_good : wf_fits s_fits = true /\ corrs_found s_fits
  /\ fluxes_nonempty (with_flux k_flux_ok) /\ uniform_stations (with_flux k_flux_ok)
  /\ map summary
      [check_header s_fits; check_keywords s_fits; check_visrefmap s_fits;
       check_unique_targets s_fits; check_targets_present s_fits; check_arrname s_fits;
       check_corr_present s_fits; check_flagging s_fits; check_t3amp s_fits;
       check_waveorder s_fits; check_time s_fits; check_flux (with_flux k_flux_ok)]
     = repeat (Some (0, 0)) 12.
Proof.
  destruct k_flux_case as (F1 & F2 & _). split; [exact s_wf|]. split; [exact s_corrs|].
  split; [exact F1|]. split; [exact F2|]. vm_compute. reflexivity.
Qed.

(** ** C32: counts, levels, descriptions and locations *)

Theorem C32_header : forall o, 
  reports (check_header o) (header_violations o).
Proof. exact header_reports. Qed.
Print Assumptions C32_header.
Theorem C32_keywords : forall o, 
  reports (check_keywords o) (keyword_violations o).
Proof. exact keywords_reports. Qed.
Print Assumptions C32_keywords.
Theorem C32_visrefmap : forall o, 
  reports (check_visrefmap o) (visrefmap_violations o).
Proof. exact visrefmap_reports. Qed.
Print Assumptions C32_visrefmap.
Theorem C32_unique_targets : forall o, wf_fits o = true -> 
  reports (check_unique_targets o) (duplicate_violations o).
Proof. exact unique_reports. Qed.
Print Assumptions C32_unique_targets.
Theorem C32_targets_present : forall o, wf_fits o = true -> 
  reports (check_targets_present o) (target_violations o).
Proof. exact targets_reports. Qed.
Print Assumptions C32_targets_present.
Theorem C32_arrname : forall o, 
  reports (check_arrname o) (arrname_violations o).
Proof. exact arrname_reports. Qed.
Print Assumptions C32_arrname.
Theorem C32_corr_present : forall o, corrs_found o -> 
  reports (check_corr_present o) (corr_violations o).
Proof. exact corr_reports. Qed.
Print Assumptions C32_corr_present.
Theorem C32_flagging : forall o, wf_fits o = true -> 
  reports (check_flagging o) (flagging_violations o).
Proof. exact flagging_reports. Qed.
Print Assumptions C32_flagging.
Theorem C32_t3amp : forall o, wf_fits o = true -> 
  reports (check_t3amp o) (t3amp_violations o).
Proof. exact t3amp_reports. Qed.
Print Assumptions C32_t3amp.
Theorem C32_waveorder : forall o, wf_fits o = true -> 
  reports (check_waveorder o) (order_violations o).
Proof. exact waveorder_reports. Qed.
Print Assumptions C32_waveorder.
Theorem C32_time : forall o, wf_fits o = true -> 
  reports (check_time o) (time_violations o).
Proof. exact time_reports. Qed.
Print Assumptions C32_time.
Theorem C32_flux : forall o, fluxes_nonempty o -> 
  reports (check_flux o) (flux_violations o).
Proof. exact flux_reports. Qed.
Print Assumptions C32_flux.
Theorem C32_tables : forall o, wf_fits o = true -> tables_present o \/ revisions_ok o ->
  reports (check_tables o) (missing_tables o ++ revision_violations o).
Proof. exact tables_reports. Qed.
Print Assumptions C32_tables.
Theorem C32_elements_present : forall o, wf_fits o = true -> arrays_found o ->
  inspol_named o \/ elements_present o -> reports (check_elements_present o) (element_violations o).
Proof. exact elements_reports. Qed.
Print Assumptions C32_elements_present.
(** The formatted report *)
Theorem C32_format : forall vs r v, reported vs r -> levels_ok vs -> hd_error vs = Some v ->
  format_check_result r = Ok (Some (report_text vs (v_desc v) (cr_level r))).
Proof. exact format_level. Qed.
Print Assumptions C32_format.
(** Nothing to report: printing the report passes NULL to printf. *)
Theorem C32_format_none : forall r, reported [] r ->
  format_check_result r = Ok None /\ print_check_result r = UB.
Proof. exact format_none. Qed.
Print Assumptions C32_format_none.
(** An OI_INSPOL table without ARRNAME is located at number 0 whatever its position. *)
Theorem C32_inspol_location_refuted : exists o r, wf_fits o = true
  /\ (exists t1 t2, o_inspolList o = [t1; t2] /\ is_arrname t1 <> ""%string /\ is_arrname t2 = ""%string)
  /\ check_arrname o = Ok r /\ hd None (cr_location r) = Some "OI_INSPOL #0"%string.
Proof. exact location_counterexample. Qed.
Print Assumptions C32_inspol_location_refuted.

Example C32_case : exists r, check_targets_present k_fits = Ok r /\ cr_numBreach r = 11
  /\ cr_location r = map Some
    ["OI_VIS2 #1 record 1"; "OI_VIS2 #1 record 2"; "OI_VIS2 #1 record 3"; "OI_VIS2 #1 record 4";
     "OI_VIS2 #1 record 5"; "OI_VIS2 #1 record 6"; "OI_VIS2 #1 record 7"; "OI_VIS2 #1 record 8";
     "OI_VIS2 #1 record 9"; "[List truncated]"]%string.
Proof. eexists. split; [vm_compute; reflexivity|]. split; vm_compute; reflexivity. Qed.
Example C32_text_case : exists r, check_unique_targets k_fits = Ok r /\ format_check_result r = Ok (Some
  ("*** Valid OIFITS, but may cause problems for some reading software:" ++ nl
   ++ "Duplicate value in TARGET column of OI_TARGET, 1 occurrences:-" ++ nl
   ++ "    TARGET_ID=5  TARGET='alpha'" ++ nl)%string).
Proof. exact k_text. Qed.

(** ** C33: checks that may abort *)

(** Missing: datasets with both a missing table and a wrong OI_REVN. *)
Theorem C33_tables_partial : forall o, wf_fits o = true -> tables_present o \/ revisions_ok o ->
  decides (check_tables o) (tables_present o /\ revisions_ok o) 2.
Proof. exact tables_decides. Qed.
Print Assumptions C33_tables_partial.
(** Those abort. *)
Theorem C33_tables_aborts : forall o, wf_fits o = true ->
  ~ tables_present o -> ~ revisions_ok o -> check_tables o = Abort.
Proof. exact tables_abort. Qed.
Print Assumptions C33_tables_aborts.
Theorem C33_tables_refuted : exists o, wf_fits o = true /\ check_tables o = Abort.
Proof. exact tables_counterexample. Qed.
Print Assumptions C33_tables_refuted.
(** Missing: datasets with both an OI_INSPOL table without ARRNAME and a missing station, and
    those in which the index disagrees with the list of OI_ARRAY tables. *)
Theorem C33_elements_partial : forall o, wf_fits o = true -> arrays_found o ->
  inspol_named o \/ elements_present o ->
  decides (check_elements_present o) (elements_present o /\ inspol_named o) 2.
Proof. exact elements_decides. Qed.
Print Assumptions C33_elements_partial.
Theorem C33_elements_aborts : forall o, wf_fits o = true -> arrays_found o ->
  ~ inspol_named o -> ~ elements_present o -> check_elements_present o = Abort.
Proof. exact elements_abort. Qed.
Print Assumptions C33_elements_aborts.
Theorem C33_elements_refuted : exists o, wf_fits o = true /\ arrays_found o
  /\ check_elements_present o = Abort.
Proof. exact elements_counterexample. Qed.
Print Assumptions C33_elements_refuted.
(** As read from a file: the stations of an array named only by an OI_INSPOL table are
    reported missing. *)
Theorem C33_inspol_refuted : exists h tg arrays waves inspols o r,
  assemble h tg arrays waves [] inspols [] [] [] [] = Ok o /\ wf_fits o = true
  /\ elements_present o /\ inspol_named o /\ check_elements_present o = Ok r /\ cr_level r = 2.
Proof. exact spurious_counterexample. Qed.
Print Assumptions C33_inspol_refuted.

Example C33_case : tables_present s_fits /\ revisions_ok s_fits /\ wf_fits s_fits = true
  /\ arrays_found k_fits /\ inspol_named k_fits /\ ~ elements_present k_fits
  /\ summary (check_elements_present k_fits) = Some (2, 12).
Proof.
  destruct tables_case as [T1 T2]. destruct elements_case as [E1 E2].
  split; [exact T1|]. split; [exact T2|]. split; [exact s_wf|]. split; [exact k_arrays|].
  split; [exact E1|]. split; [exact E2|]. vm_compute. reflexivity.
Qed.
Example C33_abort_case : ~ tables_present x_tables /\ ~ revisions_ok x_tables
  /\ wf_fits x_tables = true /\ arrays_found x_elements /\ ~ inspol_named x_elements
  /\ ~ elements_present x_elements.
Proof.
  destruct tables_bad_case as (T1 & T2 & T3). destruct elements_bad_case as [E1 E2].
  split; [exact T1|]. split; [exact T2|]. split; [exact T3|]. split; [exact x_arrays|]. split; assumption.
Qed.

(** ** C34: merged datasets *)

Theorem C34_merged : forall ins out,
  Forall (fun d => wf_fits d = true) ins -> merge_oi_fits_list ins = Ok out ->
  exists r1 r2, check_targets_present out = Ok r1 /\ cr_level r1 = OI_BREACH_NONE
    /\ check_unique_targets out = Ok r2 /\ cr_level r2 = OI_BREACH_NONE.
Proof. exact merged_checks. Qed.
Print Assumptions C34_merged.

Example C34_case : exists out, Forall (fun d => wf_fits d = true) m_ins
  /\ merge_oi_fits_list m_ins = Ok out /\ (2 <= length m_ins)%nat.
Proof.
  destruct m_result as (o & E & _). exists o. split; [exact m_wf|]. split; [exact E|].
  cbn. repeat constructor.
Qed.

