(** Concrete sequences of calls. *)
From Verif Require Import FileModel CheckModel CheckSpec ToolModel ToolSpec ReportModel ReportSpec ReportProofs ReportWhole.
From Coq Require Import Lia.
Open Scope string_scope.
Open Scope list_scope.
Open Scope nat_scope.

(** two results in use at once *)
Definition j_calls : list api_call :=
  [CInit 0; CSet 0 2 "Invalid OI_REVN" "OI_VIS #1"; CInit 1; CSet 1 1 "Rows not in order" "OI_T3 #2";
   CSet 0 2 "Invalid OI_REVN" "OI_T3 #1"; CFormat 0; CInit 2; CFormat 2; CPrint 0; CFree 0; CFormat 1; CPrint 2; CFree 1; CFormat 2; CFree 2].

Section Proper.
Variable fmt : string -> f64 -> string.
Fixpoint in_turn (h l : list api_call) : Prop :=
  match l with [] => True | c :: l' => may_call fmt h c /\ in_turn (h ++ [c]) l' end.
Lemma in_turn_proper l : forall h, proper fmt h -> in_turn h l -> proper fmt (h ++ l).
Proof.
  induction l as [|c l IH]; intros h H M; [now rewrite app_nil_r|]. destruct M as (M & Ml).
  change (h ++ c :: l) with (h ++ [c] ++ l). rewrite app_assoc. apply IH; [now apply proper_snoc|exact Ml].
Qed.
End Proper.
Lemma j_proper fmt : proper fmt j_calls.
Proof.
  apply (in_turn_proper fmt j_calls []); [intros b c a X; now destruct b|].
  cbn [in_turn j_calls app]. repeat match goal with |- _ /\ in_turn _ _ _ => split | |- _ /\ (_ /\ _) => split | |- _ /\ True => split end.
  all: cbn [may_call].
  all: try exact I.
  all: try (left; eexists; reflexivity).
  all: try (eexists; reflexivity).
  all: try (split; [auto|]; eexists; split; [reflexivity|]; repeat constructor).
  all: eexists.
  - exists [], 1. split; reflexivity.
  - exists [Some (finding_text [mk_violation 2 "Invalid OI_REVN" "OI_VIS #1"; mk_violation 2 "Invalid OI_REVN" "OI_T3 #1"]); None], 0.
    split; reflexivity.
Qed.
Lemma j_shown fmt : shown fmt j_calls =
  [("*** Does not conform to the OIFITS standard:" ++ nl ++ "Invalid OI_REVN, 2 occurrences:-" ++ nl ++ "    OI_VIS #1" ++ nl
      ++ "    OI_T3 #1" ++ nl)%string;
   ("*** Valid OIFITS, but may cause problems for some reading software:" ++ nl ++ "Rows not in order, 1 occurrences:-" ++ nl
      ++ "    OI_T3 #2" ++ nl)%string].
Proof. vm_compute. reflexivity. Qed.

(** the second of two strings takes the place of the first *)
Lemma shared fmt f o t : format_oi_fits_summary fmt o = Ok t ->
  t <> format_oi_filter fmt f
  /\ (exists m ps, run_calls (fun _ => false) fmt [CCriteria f; CSummary o; CPrint 0] = Ok (m, ps, [t]))
  /\ run_calls (fun _ => true) fmt [CCriteria f; CSummary o; CPrint 0] = UB.
Proof.
  intros H. split; [|split].
  - intros ->. unfold format_oi_fits_summary, format_oi_filter in H. cbv zeta in H.
    repeat match type of H with (bind ?x _) = _ => destruct x as [?s| |]; cbn [bind] in H; [|discriminate|discriminate] end.
    destruct (is_oi_fits_two o); discriminate.
  - unfold run_calls. cbn [foreach call_step write_text bind m_start m_pGStr m_chunks m_results]. rewrite H. cbn [bind].
    do 2 eexists. reflexivity.
  - unfold run_calls. cbn [foreach call_step write_text bind m_start m_pGStr m_chunks m_results]. rewrite H. cbn [bind]. reflexivity.
Qed.

(** a second check into a result that was not released *)
Definition j_again : list api_call := [CInit 0; CFree 0; CInit 0; CSet 0 2 "d" "a"].
Lemma j_again_case fmt : proper fmt j_again /\ status_of 0 j_again = Holding [mk_violation 2 "d" "a"]
  /\ exists m ps out, run_calls (fun _ => false) fmt (j_again ++ [CInit 0; CFree 0]) = Ok (m, ps, out).
Proof.
  split; [|split; [reflexivity|do 3 eexists; reflexivity]].
  apply (proper_snoc fmt [CInit 0; CFree 0; CInit 0]).
  - apply (proper_snoc fmt [CInit 0; CFree 0]); [|exact I]. apply (proper_snoc fmt [CInit 0]); [|now eexists].
    apply (proper_snoc fmt []); [|exact I]. intros b c a X. now destruct b.
  - split; [now right|]. eexists. split; [reflexivity|constructor].
Qed.
