(** Property C71: filtering a merged dataset, and merging filtered datasets.  [pow_half] stands for the C
    library's square root (FilterModel); it may be any function. *)
From Verif Require Import Base FilterModel MergeModel FilterMain MergeMain CommuteSpec CommuteData CommuteMain
  CommuteCases Sample.
Open Scope string_scope.
Open Scope list_scope.
Open Scope Z_scope.

(** The order does not matter to targets and data; only names differ *)
Theorem C71_given : forall pow_half f ins ins' m f1 fm mf,
  Forall suitable ins -> ins <> [] -> fresh_filter f -> by_data f ->
  exact wv_eff_wave ins -> exact wv_eff_band ins ->
  merge_oi_fits_list ins = Ok m -> apply_oi_filter pow_half m f = Ok (f1, fm) ->
  Forall2 (fun d d' => exists f', apply_oi_filter pow_half d f = Ok (f', d')) ins ins' ->
  merge_oi_fits_list ins' = Ok mf -> distinct_names m -> distinct_names mf ->
  same_data ins fm mf.
Proof. exact commute_given. Qed.
Print Assumptions C71_given.

(** Neither order fails, and the names come out distinct *)
Theorem C71_defined : forall pow_half f ins,
  Forall suitable ins -> ins <> [] -> fresh_filter f -> by_data f ->
  exact wv_eff_wave ins -> exact wv_eff_band ins -> mergeable ins -> plain_names ins ->
  exists m fm ins' mf, merge_oi_fits_list ins = Ok m /\ apply_oi_filter pow_half m f = Ok (f, fm)
    /\ Forall2 (fun d d' => apply_oi_filter pow_half d f = Ok (f, d')) ins ins'
    /\ merge_oi_fits_list ins' = Ok mf /\ same_data ins fm mf.
Proof. exact commute_defined. Qed.
Print Assumptions C71_defined.

Example C71_case : Forall suitable m_ins /\ fresh_filter c_filter /\ by_data c_filter
  /\ exact wv_eff_wave m_ins /\ exact wv_eff_band m_ins /\ mergeable m_ins /\ plain_names m_ins.
Proof.
  exact (conj m_ins_suitable (conj c_fresh (conj c_by_data (conj (proj1 m_exact) (conj (proj2 m_exact)
    (conj m_mergeable m_plain)))))).
Qed.
Example C71_case_results : exists fm mf, first_then m_ins c_filter = Ok fm /\ each_then m_ins c_filter = Ok mf
  /\ facts_of fm = ([("VLTI", "GRAVITY", "CORR1")], [("VLTI_003", "GRAVITY_003", "CORR1_002")],
       (["VLTI"; "VLTI_003"], ["GRAVITY"; "GRAVITY_003"], ["CORR1"; "CORR1_002"]))
  /\ facts_of mf = ([("VLTI", "GRAVITY", "CORR1")], [("VLTI_002", "GRAVITY_002", "CORR1_002")],
       (["VLTI"; "VLTI_002"], ["GRAVITY"; "GRAVITY_002"], ["CORR1"; "CORR1_002"])).
Proof. exact c_results. Qed.

(** What merging returns can be filtered *)
Theorem C71_consistent : forall ins m,
  Forall consistent ins -> ins <> [] -> Forall names_fit ins -> Forall complete ins ->
  merge_oi_fits_list ins = Ok m -> distinct_names m -> consistent m.
Proof. exact merged_consistent. Qed.
Print Assumptions C71_consistent.

(** The names themselves may differ *)
Theorem C71_equal_refuted : exists ins f fm mf, Forall suitable ins /\ ins <> [] /\ fresh_filter f /\ by_data f
  /\ exact wv_eff_wave ins /\ exact wv_eff_band ins /\ mergeable ins /\ plain_names ins
  /\ merged_then_filtered sqrt64 ins f fm /\ filtered_then_merged sqrt64 ins f mf /\ fm <> mf.
Proof. exact equal_counterexample. Qed.
Print Assumptions C71_equal_refuted.

(** OI_INSPOL tables are lost when the data that use them are in another dataset *)
Theorem C71_inspol_refuted : exists ins f fm mf, Forall suitable ins /\ ins <> [] /\ fresh_filter f /\ by_data f
  /\ exact wv_eff_wave ins /\ exact wv_eff_band ins /\ mergeable ins /\ plain_names ins
  /\ merged_then_filtered sqrt64 ins f fm /\ filtered_then_merged sqrt64 ins f mf
  /\ (length (o_inspolList mf) < length (o_inspolList fm))%nat.
Proof. exact i_inspol_counterexample. Qed.
Print Assumptions C71_inspol_refuted.

(** Wavelengths that merging takes for the same may be on two sides of a limit *)
Theorem C71_inexact_refuted : exists ins f fm mf, Forall suitable ins /\ ins <> [] /\ fresh_filter f /\ by_data f
  /\ exact wv_eff_band ins /\ mergeable ins /\ plain_names ins
  /\ merged_then_filtered sqrt64 ins f fm /\ filtered_then_merged sqrt64 ins f mf
  /\ (length (o_vis2List mf) < length (o_vis2List fm))%nat.
Proof. exact exact_counterexample. Qed.
Print Assumptions C71_inexact_refuted.

(** A pattern for INSNAME misses tables that merging renamed *)
Theorem C71_by_name_refuted : exists ins f fm mf, Forall suitable ins /\ ins <> [] /\ fresh_filter f
  /\ f_arrname f = "*" /\ f_corrname f = "*" /\ f_target_id f < 0
  /\ exact wv_eff_wave ins /\ exact wv_eff_band ins /\ mergeable ins /\ plain_names ins
  /\ merged_then_filtered sqrt64 ins f fm /\ filtered_then_merged sqrt64 ins f mf
  /\ (length (o_vis2List fm) < length (o_vis2List mf))%nat.
Proof. exact by_name_counterexample. Qed.
Print Assumptions C71_by_name_refuted.

(** So does a TARGET_ID *)
Theorem C71_by_target_refuted : exists ins f fm mf, Forall suitable ins /\ ins <> [] /\ fresh_filter f
  /\ f_arrname f = "*" /\ f_insname f = "*" /\ f_corrname f = "*"
  /\ exact wv_eff_wave ins /\ exact wv_eff_band ins /\ mergeable ins /\ plain_names ins
  /\ merged_then_filtered sqrt64 ins f fm /\ filtered_then_merged sqrt64 ins f mf
  /\ (length (o_vis2List fm) < length (o_vis2List mf))%nat.
Proof. exact by_target_counterexample. Qed.
Print Assumptions C71_by_target_refuted.
