(** Property C67: the storage of check results, and the string shared by the functions that format
    text. *)
From Verif Require Import CheckModel CheckSpec ToolModel ToolSpec ToolMain IOMain ReportModel ReportSpec ReportProofs ReportWhole ReportMain.
Open Scope string_scope.
Open Scope list_scope.
Open Scope nat_scope.

(** ** C67: reports can be held, shown and released *)

(** every sequence of calls that keeps to the rules: it shows what it should, and every result
    initialised and not released, and nothing else, keeps a chunk *)
Theorem C67_safe : forall moves fmt l, proper fmt l -> exists m ps, run_calls moves fmt l = Ok (m, ps, shown fmt l)
  /\ live m + frees l = inits l /\ List.length ps = List.length (answers fmt l).
Proof. exact run_ok. Qed.
Print Assumptions C67_safe.
Theorem C67_agrees : forall moves fmt k vs,
  (s <- run_calls moves fmt (CInit k :: set_calls k vs ++ [CFormat k; CPrint 0]) ;; Ok (snd s))
  = (r <- foreach vs (fun v => set_result (v_level v) (v_desc v) (v_text v)) init_check_result ;;
     t <- print_check_result r ;; Ok [t]).
Proof. exact agrees. Qed.
Print Assumptions C67_agrees.

(** each rule is needed *)
Theorem C67_free : forall moves fmt l k, proper fmt l -> (forall vs, status_of k l <> Holding vs) ->
  run_calls moves fmt (l ++ [CFree k]) = UB.
Proof. exact free_misuse. Qed.
Print Assumptions C67_free.
Theorem C67_format : forall moves fmt l k, proper fmt l ->
  status_of k l = Never \/ (exists v vs, status_of k l = Released (v :: vs)) -> run_calls moves fmt (l ++ [CFormat k]) = UB.
Proof. exact format_misuse. Qed.
Print Assumptions C67_format.
Theorem C67_set : forall moves fmt l k level d t, proper fmt l -> (forall vs, status_of k l <> Holding vs) ->
  run_calls moves fmt (l ++ [CSet k level d t]) = UB.
Proof. exact set_misuse. Qed.
Print Assumptions C67_set.
Theorem C67_set_other : forall moves fmt l k level d t v vs, proper fmt l -> status_of k l = Holding (v :: vs) ->
  (0 <= level)%Z -> d <> v_desc v -> run_calls moves fmt (l ++ [CSet k level d t]) = Abort.
Proof. exact set_other. Qed.
Print Assumptions C67_set_other.
Theorem C67_print_null : forall moves fmt l i, proper fmt l -> (forall t, nth_error (answers fmt l) i <> Some (Some t)) ->
  run_calls moves fmt (l ++ [CPrint i]) = UB.
Proof. exact print_null. Qed.
Print Assumptions C67_print_null.
Theorem C67_print_stale : forall moves fmt l i j t, proper fmt l -> newest (answers fmt l) j t -> i <> j ->
  run_calls moves fmt (l ++ [CPrint i]) = UB
  \/ exists m ps, run_calls moves fmt (l ++ [CPrint i]) = Ok (m, ps, shown fmt l ++ [t]).
Proof. exact print_stale. Qed.
Print Assumptions C67_print_stale.

(** a string that was returned does not stay as it was *)
Theorem C67_shared_refuted : forall fmt f o t, format_oi_fits_summary fmt o = Ok t ->
  t <> format_oi_filter fmt f
  /\ (exists m ps, run_calls (fun _ => false) fmt [CCriteria f; CSummary o; CPrint 0] = Ok (m, ps, [t]))
  /\ run_calls (fun _ => true) fmt [CCriteria f; CSummary o; CPrint 0] = UB.
Proof. exact shared. Qed.
Print Assumptions C67_shared_refuted.

(** a result used again without being released: its chunk is never released, whatever follows *)
Theorem C67_leaks : forall moves fmt l k vs after m ps out, proper fmt l -> status_of k l = Holding vs ->
  run_calls moves fmt (l ++ CInit k :: after) = Ok (m, ps, out) -> 1 <= live m.
Proof. exact leaks. Qed.
Print Assumptions C67_leaks.

(** oifits-check keeps to the rules, prints what ToolModel.v says it prints, and releases all *)
Theorem C67_program : forall moves fmt E name d o,
  String.length name <= 1024 -> reads E name d o -> named_elsewhere o -> checkable o ->
  proper fmt (program_calls o) /\ exists m ps texts, run_calls moves fmt (program_calls o) = Ok (m, ps, texts) /\ live m = 0
    /\ oifits_check E fmt [name] d = Ok (mk_outcome 0 (fold_right String.append EmptyString texts ++ passed o)%string d).
Proof. exact program_run. Qed.
Print Assumptions C67_program.

Example C67_case : forall fmt, proper fmt j_calls /\ shown fmt j_calls =
  [("*** Does not conform to the OIFITS standard:" ++ nl ++ "Invalid OI_REVN, 2 occurrences:-" ++ nl ++ "    OI_VIS #1" ++ nl
      ++ "    OI_T3 #1" ++ nl)%string;
   ("*** Valid OIFITS, but may cause problems for some reading software:" ++ nl ++ "Rows not in order, 1 occurrences:-" ++ nl
      ++ "    OI_T3 #2" ++ nl)%string].
Proof. intros fmt. split; [apply j_proper|apply j_shown]. Qed.
(** struct 0 was released with two breaches, struct 2 with none, struct 3 was never used *)
Example C67_misuse_case : status_of 0 j_calls = Released [mk_violation 2 "Invalid OI_REVN" "OI_VIS #1"; mk_violation 2 "Invalid OI_REVN" "OI_T3 #1"]
  /\ status_of 2 j_calls = Released [] /\ status_of 3 j_calls = Never.
Proof. repeat split; reflexivity. Qed.
Example C67_stale_case : forall fmt, exists t, newest (answers fmt j_calls) 2 t /\ (exists u, nth_error (answers fmt j_calls) 0 = Some (Some u) /\ u <> t).
Proof.
  intros fmt. exists (finding_text [mk_violation 1 "Rows not in order" "OI_T3 #2"]).
  split; [|eexists; split; [reflexivity|vm_compute; discriminate]].
  exists [Some (finding_text [mk_violation 2 "Invalid OI_REVN" "OI_VIS #1"; mk_violation 2 "Invalid OI_REVN" "OI_T3 #1"]); None], 1.
  split; reflexivity.
Qed.
Example C67_leaks_case : forall fmt, proper fmt j_again /\ status_of 0 j_again = Holding [mk_violation 2 "d" "a"]
  /\ exists m ps out, run_calls (fun _ => false) fmt (j_again ++ [CInit 0; CFree 0]) = Ok (m, ps, out).
Proof. exact j_again_case. Qed.
Example C67_program_case : reads e0 "a" t_disk t_a /\ named_elsewhere t_a /\ checkable t_a.
Proof. split; [exact a_reads|]. split; [exact a_named|exact a_checkable]. Qed.
