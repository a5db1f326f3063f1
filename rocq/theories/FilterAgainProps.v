(** Property C19, completed: which OI_INSPOL tables a second application of a filter keeps. *)
From Verif Require Import Base FilterModel FilterSpec FilterMain FilterFinal FilterAgain.
Open Scope Z_scope.

(** Exactly those all of whose rows are for instruments in use *)
Theorem C19_again : forall pow_half d f d1 f1,
  consistent d -> fresh_filter f -> f_target_id f < 0 ->
  apply_oi_filter pow_half d f = Ok (f1, d1) ->
  exists d2, apply_oi_filter pow_half d1 f = Ok (f, d2)
    /\ same_data d1 d2 /\ same_config d1 d2 /\ same_lookups d1 d2
    /\ kept (fun t => forall r, In r (is_record t) -> uses_insname d1 (ip_insname r)) eq
         (o_inspolList d1) (o_inspolList d2).
Proof. exact filter_again. Qed.
Print Assumptions C19_again.

(** A third application changes nothing. *)
Theorem C19_third : forall pow_half d f d1 f1 d2 f2,
  consistent d -> fresh_filter f -> f_target_id f < 0 ->
  apply_oi_filter pow_half d f = Ok (f1, d1) -> apply_oi_filter pow_half d1 f = Ok (f2, d2) ->
  exists d3, apply_oi_filter pow_half d2 f = Ok (f, d3)
    /\ same_data d2 d3 /\ same_config d2 d3 /\ same_lookups d2 d3 /\ o_inspolList d3 = o_inspolList d2.
Proof. exact filter_thrice. Qed.
Print Assumptions C19_third.

(** Hypotheses, with an OI_INSPOL that the first application keeps and the second drops *)
Example C19_again_case : exists d f d1 d2,
  consistent d /\ fresh_filter f /\ f_target_id f < 0
  /\ apply_oi_filter sqrt64 d f = Ok (f, d1) /\ apply_oi_filter sqrt64 d1 f = Ok (f, d2)
  /\ o_inspolList d1 <> [] /\ o_inspolList d2 = [].
Proof. exact final_not_idempotent. Qed.
