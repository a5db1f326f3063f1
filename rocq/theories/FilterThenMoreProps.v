(** C60, completed: which OI_INSPOL tables two filters in turn keep.  [pow_half] stands for the C
    library's pow(x, 0.5). *)
From Verif Require Import Base Types FilterModel FilterSpec FilterThenSpec FilterMain FilterThenMain FilterThenMore FilterThenMoreMain Sample.
Open Scope Z_scope.
Open Scope string_scope.

(** Of those the joint filter keeps, exactly the ones all of whose rows are for instruments that
    still have data after the first filter *)
Theorem C60_inspols : forall pow_half d f g h f1 d1,
  consistent d -> fresh_filter f -> fresh_filter g -> fresh_filter h -> joint f g h ->
  (f_target_id f < 0 \/ exists x, In x (ot_targ (o_targets d)) /\ tg_target_id x = f_target_id f) ->
  apply_oi_filter pow_half d f = Ok (f1, d1) ->
  exists d2 d3, apply_oi_filter pow_half d1 g = Ok (g, d2) /\ apply_oi_filter pow_half d h = Ok (h, d3)
    /\ same_data d2 d3 /\ same_config d2 d3 /\ same_lookups d2 d3
    /\ kept (fun t => forall r, In r (is_record t) -> uses_insname d1 (ip_insname r)) eq
         (o_inspolList d3) (o_inspolList d2).
Proof. exact filter_then_inspols. Qed.
Print Assumptions C60_inspols.
(** Hypotheses, with a table that the joint filter keeps and the filters in turn do not *)
Example C60_inspols_case : exists d f g h d1 d2 d3,
  consistent d /\ fresh_filter f /\ fresh_filter g /\ fresh_filter h
  /\ f_target_id f < 0 /\ joint f g h
  /\ apply_oi_filter sqrt64 d f = Ok (f, d1) /\ apply_oi_filter sqrt64 d1 g = Ok (g, d2)
  /\ apply_oi_filter sqrt64 d h = Ok (h, d3)
  /\ List.length (o_inspolList d3) = 1%nat /\ o_inspolList d2 = [].
Proof. exact inspol_later. Qed.

(** In either order, the tables come from one list, each order keeping those whose instruments
    still have data after its first filter. *)
Theorem C60_order_inspols : forall pow_half d f g df dfg dg dgf,
  consistent d -> fresh_filter f -> fresh_filter g -> joinable f g -> joinable g f ->
  (f_target_id f < 0 \/ exists x, In x (ot_targ (o_targets d)) /\ tg_target_id x = f_target_id f) ->
  (f_target_id g < 0 \/ exists x, In x (ot_targ (o_targets d)) /\ tg_target_id x = f_target_id g) ->
  apply_oi_filter pow_half d f = Ok (f, df) -> apply_oi_filter pow_half df g = Ok (g, dfg) ->
  apply_oi_filter pow_half d g = Ok (g, dg) -> apply_oi_filter pow_half dg f = Ok (f, dgf) ->
  exists l,
    kept (fun t => forall r, In r (is_record t) -> uses_insname df (ip_insname r)) eq l (o_inspolList dfg)
    /\ kept (fun t => forall r, In r (is_record t) -> uses_insname dg (ip_insname r)) eq l (o_inspolList dgf).
Proof. exact order_inspols. Qed.
Print Assumptions C60_order_inspols.
Example C60_order_inspols_case : consistent s_lone /\ fresh_filter init_oi_filter /\ joinable init_oi_filter init_oi_filter
  /\ f_target_id init_oi_filter < 0
  /\ apply_oi_filter sqrt64 s_lone init_oi_filter = Ok (init_oi_filter, s_lone1)
  /\ apply_oi_filter sqrt64 s_lone1 init_oi_filter = Ok (init_oi_filter, s_lone2)
  /\ List.length (o_inspolList s_lone1) = 1%nat /\ o_inspolList s_lone2 = [].
Proof. exact order_case. Qed.

(** The same filter again, for the target it selected *)
Theorem C60_again_inspols : forall pow_half d f f1 d1, consistent d -> fresh_filter f -> 0 <= f_target_id f ->
  (exists x, In x (ot_targ (o_targets d)) /\ tg_target_id x = f_target_id f) ->
  apply_oi_filter pow_half d f = Ok (f1, d1) ->
  exists d2, apply_oi_filter pow_half d1 (set_target 1 f) = Ok (set_target 1 f, d2)
    /\ kept (fun t => forall r, In r (is_record t) -> uses_insname d1 (ip_insname r)) eq
         (o_inspolList d1) (o_inspolList d2).
Proof. exact again_inspols. Qed.
Print Assumptions C60_again_inspols.
Example C60_again_inspols_case : consistent s_fits /\ fresh_filter t_first /\ f_target_id t_first = 4
  /\ In (s_target 4 "alpha") (ot_targ (o_targets s_fits))
  /\ apply_oi_filter sqrt64 s_fits t_first = Ok (t_first, t_fits1)
  /\ List.length (o_inspolList t_fits1) = 1%nat
  /\ (forall t r, In t (o_inspolList t_fits1) -> In r (is_record t) -> uses_insname t_fits1 (ip_insname r)).
Proof. exact again_case. Qed.
