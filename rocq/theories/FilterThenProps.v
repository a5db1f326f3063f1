(** C60: applying one filter after another.  [pow_half] stands for the C library's
    pow(x, 0.5); the theorems hold whatever it computes. *)
From Verif Require Import FilterModel FilterSpec FilterThenSpec FilterMain FilterThenMain FilterThenWhole Sample.
Open Scope Z_scope.

(** Filtering with [f] and then with [g] gives what the single filter [h] gives that asks for
    what both ask for.  Polarisation tables agree too if each instrument named in one still has
    data after [f]. *)
Theorem C60_then : forall pow_half d f g h f1 d1,
  consistent d -> fresh_filter f -> fresh_filter g -> fresh_filter h -> joint f g h ->
  (f_target_id f < 0 \/ exists x, In x (ot_targ (o_targets d)) /\ tg_target_id x = f_target_id f) ->
  apply_oi_filter pow_half d f = Ok (f1, d1) ->
  exists d2 d3, apply_oi_filter pow_half d1 g = Ok (g, d2) /\ apply_oi_filter pow_half d h = Ok (h, d3)
    /\ same_data d2 d3 /\ same_config d2 d3 /\ same_lookups d2 d3
    /\ ((forall t r, In t (o_inspolList d1) -> In r (is_record t) -> uses_insname d1 (ip_insname r)) ->
        o_inspolList d3 = o_inspolList d2).
Proof. exact filter_then. Qed.
Print Assumptions C60_then.
Example C60_then_case : consistent s_fits /\ fresh_filter t_first /\ fresh_filter t_second /\ fresh_filter t_both
  /\ joint t_first t_second t_both /\ In (s_target 4 "alpha") (ot_targ (o_targets s_fits))
  /\ apply_oi_filter sqrt64 s_fits t_first = Ok (t_first, t_fits1)
  /\ apply_oi_filter sqrt64 t_fits1 t_second = Ok (t_second, t_fits2)
  /\ map (fun t => map vr_flag (tb_record t)) (o_visList s_fits) = [[[false; false; true]; [false; true; false]]]
  /\ map (fun t => map vr_flag (tb_record t)) (o_visList t_fits1) = [[[true; false; true]]]
  /\ map (fun t => map vr_flag (tb_record t)) (o_visList t_fits2) = [[[false; true]]]
  /\ List.length (o_t3List s_fits) = 1%nat /\ List.length (o_t3List t_fits1) = 1%nat /\ o_t3List t_fits2 = []
  /\ (forall t r, In t (o_inspolList t_fits1) -> In r (is_record t) -> uses_insname t_fits1 (ip_insname r))
  /\ List.length (o_inspolList t_fits2) = 1%nat.
Proof.
  split; [exact s_fits_consistent|]. split; [repeat split|]. split; [repeat split|]. split; [repeat split|].
  exact t_case.
Qed.

(** Such an [h] exists when the filters' name patterns do not conflict and at most one chooses a
    target, or the second chooses the one chosen before. *)
Theorem C60_exists : forall f g, joinable f g -> exists h, fresh_filter h /\ joint f g h.
Proof. exact joint_exists. Qed.
Print Assumptions C60_exists.
Example C60_exists_case : joinable t_first t_second.
Proof. split; try (left; reflexivity); try (right; left; reflexivity). right; right. split; [auto|reflexivity]. Qed.

(** The order of two filters does not matter if they can be joined in either order (so that they
    treat flagged data and closure quantities alike). *)
Theorem C60_order : forall pow_half d f g, consistent d -> fresh_filter f -> fresh_filter g ->
  joinable f g -> joinable g f ->
  (f_target_id f < 0 \/ exists x, In x (ot_targ (o_targets d)) /\ tg_target_id x = f_target_id f) ->
  (f_target_id g < 0 \/ exists x, In x (ot_targ (o_targets d)) /\ tg_target_id x = f_target_id g) ->
  exists df dfg dg dgf,
    apply_oi_filter pow_half d f = Ok (f, df) /\ apply_oi_filter pow_half df g = Ok (g, dfg)
    /\ apply_oi_filter pow_half d g = Ok (g, dg) /\ apply_oi_filter pow_half dg f = Ok (f, dgf)
    /\ same_data dfg dgf /\ same_config dfg dgf /\ same_lookups dfg dgf.
Proof. exact filter_order. Qed.
Print Assumptions C60_order.
Example C60_order_case : joinable t_first (set_flagged true t_second)
  /\ joinable (set_flagged true t_second) t_first.
Proof.
  split; split; try (left; reflexivity); try (right; left; reflexivity); right; right; split; auto.
Qed.

(** Once a target has been selected its id is 1, and the same filter with that id changes nothing
    more.  (C19 has the filters that select no target.) *)
Theorem C60_again : forall pow_half d f f1 d1, consistent d -> fresh_filter f -> 0 <= f_target_id f ->
  (exists x, In x (ot_targ (o_targets d)) /\ tg_target_id x = f_target_id f) ->
  apply_oi_filter pow_half d f = Ok (f1, d1) ->
  exists d2, apply_oi_filter pow_half d1 (set_target 1 f) = Ok (set_target 1 f, d2)
    /\ same_data d1 d2 /\ same_config d1 d2 /\ same_lookups d1 d2
    /\ ((forall t r, In t (o_inspolList d1) -> In r (is_record t) -> uses_insname d1 (ip_insname r)) ->
        o_inspolList d2 = o_inspolList d1).
Proof. exact filter_again. Qed.
Print Assumptions C60_again.
Example C60_again_case : consistent s_fits /\ fresh_filter t_first /\ f_target_id t_first = 4
  /\ In (s_target 4 "alpha") (ot_targ (o_targets s_fits))
  /\ apply_oi_filter sqrt64 s_fits t_first = Ok (t_first, t_fits1)
  /\ map (fun t => map vr_flag (tb_record t)) (o_visList t_fits1) = [[[true; false; true]]]
  /\ apply_oi_filter sqrt64 t_fits1 (set_target 1 t_first) = Ok (set_target 1 t_first, t_fits1)
  /\ apply_oi_filter sqrt64 t_fits1 t_first <> Ok (t_first, t_fits1).
Proof.
  split; [exact s_fits_consistent|]. split; [repeat split|]. split; [reflexivity|]. split; [now left|].
  split; [vm_compute; reflexivity|]. split; [reflexivity|]. split; [vm_compute; reflexivity|].
  vm_compute. discriminate.
Qed.

(** The conditions are needed.  If [f] drops the records without good data and [g] keeps those
    that it leaves without, then neither setting of accept_flagged makes [h] do what both do. *)
Theorem C60_drop_first : exists d f g h d1 d2 d3 d4,
  consistent d /\ fresh_filter f /\ fresh_filter g /\ fresh_filter h
  /\ f_target_id f < 0 /\ joint_core f g h /\ agree_t3 f g /\ ~ drops_after f g
  /\ apply_oi_filter sqrt64 d f = Ok (f, d1) /\ apply_oi_filter sqrt64 d1 g = Ok (g, d2)
  /\ apply_oi_filter sqrt64 d h = Ok (h, d3)
  /\ apply_oi_filter sqrt64 d (set_flagged false h) = Ok (set_flagged false h, d4)
  /\ o_vis2List d3 <> o_vis2List d2 /\ o_vis2List d4 <> o_vis2List d2.
Proof. exact drop_first. Qed.
Print Assumptions C60_drop_first.
(** A filter that accepts closure phases flags a channel for the phase's SNR; one that does not
    accept them does not look at it. *)
Theorem C60_phases_later : exists d f g h d1 d2 d3,
  consistent d /\ fresh_filter f /\ fresh_filter g /\ fresh_filter h
  /\ f_target_id f < 0 /\ joint_core f g h /\ ~ agree_t3 f g /\ drops_after f g
  /\ apply_oi_filter sqrt64 d f = Ok (f, d1) /\ apply_oi_filter sqrt64 d1 g = Ok (g, d2)
  /\ apply_oi_filter sqrt64 d h = Ok (h, d3) /\ o_t3List d3 <> o_t3List d2.
Proof. exact phases_later. Qed.
Print Assumptions C60_phases_later.
(** One that accepts closure amplitudes flags a channel for the amplitude's SNR. *)
Theorem C60_amps_later : exists d f g h d1 d2 d3,
  consistent d /\ fresh_filter f /\ fresh_filter g /\ fresh_filter h
  /\ f_target_id f < 0 /\ joint_core f g h /\ ~ agree_t3 f g /\ drops_after f g
  /\ f_accept_t3phi f = f_accept_t3phi g
  /\ apply_oi_filter sqrt64 d f = Ok (f, d1) /\ apply_oi_filter sqrt64 d1 g = Ok (g, d2)
  /\ apply_oi_filter sqrt64 d h = Ok (h, d3) /\ o_t3List d3 <> o_t3List d2.
Proof. exact amps_later. Qed.
Print Assumptions C60_amps_later.
(** A polarisation table whose instrument has no data left is kept by one filter and dropped by
    the next. *)
Theorem C60_inspol_later : exists d f g h d1 d2 d3,
  consistent d /\ fresh_filter f /\ fresh_filter g /\ fresh_filter h
  /\ f_target_id f < 0 /\ joint f g h
  /\ apply_oi_filter sqrt64 d f = Ok (f, d1) /\ apply_oi_filter sqrt64 d1 g = Ok (g, d2)
  /\ apply_oi_filter sqrt64 d h = Ok (h, d3)
  /\ List.length (o_inspolList d3) = 1%nat /\ o_inspolList d2 = [].
Proof. exact inspol_later. Qed.
Print Assumptions C60_inspol_later.
