(** The laws for two filters in turn, with the OI_INSPOL tables. *)
From Verif Require Import Base Types FileModel FilterModel FilterSpec FilterThenSpec FilterMain FilterApply FilterThenWhole FilterAgain FilterThenMain FilterThenMore Sample.
From Coq Require Import String List.
Import ListNotations.
Open Scope string_scope.
Open Scope Z_scope.
Open Scope list_scope.

Lemma order_inspols pow_half d f g df dfg dg dgf : consistent d -> fresh_filter f -> fresh_filter g ->
  joinable f g -> joinable g f ->
  (f_target_id f < 0 \/ exists x, In x (ot_targ (o_targets d)) /\ tg_target_id x = f_target_id f) ->
  (f_target_id g < 0 \/ exists x, In x (ot_targ (o_targets d)) /\ tg_target_id x = f_target_id g) ->
  apply_oi_filter pow_half d f = Ok (f, df) -> apply_oi_filter pow_half df g = Ok (g, dfg) ->
  apply_oi_filter pow_half d g = Ok (g, dg) -> apply_oi_filter pow_half dg f = Ok (f, dgf) ->
  exists l, kept (in_use df) eq l (o_inspolList dfg) /\ kept (in_use dg) eq l (o_inspolList dgf).
Proof.
  intros C Ff Fg Jn Jn' Tf Tg E1 E2 E3 E4.
  destruct (joint_exists f g Jn) as (h & Fh & J). assert (J' := joint_comm f g h Jn' J).
  destruct (filter_then_inspols pow_half d f g h _ _ C Ff Fg Fh J Tf E1) as (d2 & d3 & X1 & X2 & _ & _ & _ & K).
  destruct (filter_then_inspols pow_half d g f h _ _ C Fg Ff Fh J' Tg E3) as (d2' & d3' & Y1 & Y2 & _ & _ & _ & K').
  rewrite E2 in X1. rewrite E4 in Y1. rewrite Y2 in X2. injection X1 as ->. injection Y1 as ->. injection X2 as ->.
  exists (o_inspolList d3). auto.
Qed.

Lemma again_inspols pow_half d f f1 d1 : consistent d -> fresh_filter f -> 0 <= f_target_id f ->
  (exists x, In x (ot_targ (o_targets d)) /\ tg_target_id x = f_target_id f) ->
  apply_oi_filter pow_half d f = Ok (f1, d1) ->
  exists d2, apply_oi_filter pow_half d1 (set_target 1 f) = Ok (set_target 1 f, d2)
    /\ kept (in_use d1) eq (o_inspolList d1) (o_inspolList d2).
Proof.
  intros C F H X E.
  destruct (filter_then_inspols pow_half d f (set_target 1 f) f f1 d1 C F F F (joint_again f H) (or_intror X) E)
    as (d2 & d3 & E2 & E3 & _ & _ & _ & K).
  rewrite E in E3. injection E3 as -> <-. exists d2. auto.
Qed.

Lemma order_case : consistent s_lone /\ fresh_filter init_oi_filter /\ joinable init_oi_filter init_oi_filter
  /\ f_target_id init_oi_filter < 0
  /\ apply_oi_filter sqrt64 s_lone init_oi_filter = Ok (init_oi_filter, s_lone1)
  /\ apply_oi_filter sqrt64 s_lone1 init_oi_filter = Ok (init_oi_filter, s_lone2)
  /\ List.length (o_inspolList s_lone1) = 1%nat /\ o_inspolList s_lone2 = [].
Proof.
  split; [exact s_lone_consistent|]. split; [repeat split|].
  split; [split; try (left; reflexivity); try (right; left; reflexivity); right; right; split; auto|].
  split; [reflexivity|]. split; [vm_compute; reflexivity|]. split; [vm_compute; reflexivity|]. split; reflexivity.
Qed.
Lemma again_case : consistent s_fits /\ fresh_filter t_first /\ f_target_id t_first = 4
  /\ In (s_target 4 "alpha") (ot_targ (o_targets s_fits))
  /\ apply_oi_filter sqrt64 s_fits t_first = Ok (t_first, t_fits1)
  /\ List.length (o_inspolList t_fits1) = 1%nat
  /\ (forall t r, In t (o_inspolList t_fits1) -> In r (is_record t) -> uses_insname t_fits1 (ip_insname r)).
Proof.
  split; [exact s_fits_consistent|]. split; [repeat split|]. split; [reflexivity|].
  split; [now left|]. split; [vm_compute; reflexivity|]. split; [reflexivity|]. apply t_case.
Qed.
