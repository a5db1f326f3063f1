(** Two filters in turn: the order, concrete cases, and why the conditions are needed. *)
From Verif Require Import Base FloatModel FloatLemmas Types FileModel FileSpec FilterModel FilterSpec FilterThenSpec FilterLemmas FilterFix FilterMain FilterApply FilterProofs FilterThenWhole Sample.
From Coq Require Import Lia.
Local Open Scope Z_scope.

Lemma joint_range_comm a b c d e f : joint_range a b c d e f -> joint_range c d a b e f.
Proof. intros H x. destruct (H x) as [H1 H2]. tauto. Qed.
Lemma joint_pattern_comm a b c : joint_pattern a b c -> joint_pattern b a c.
Proof. intros H x. specialize (H x). tauto. Qed.
Lemma joint_comm f g h : joinable g f -> joint f g h -> joint g f h.
Proof.
  intros [_ _ _ T T3' Dr'] [[] T3 Dr].
  assert (E : f_accept_flagged f = f_accept_flagged g).
  { destruct Dr, Dr'; try congruence. }
  split.
  - split; try (apply joint_pattern_comm; assumption); try (apply joint_range_comm; assumption);
      try (rewrite andb_comm; assumption); [lia|congruence].
  - exact T3'.
  - exact Dr'.
Qed.

Lemma filter_order pow_half d f g : consistent d -> fresh_filter f -> fresh_filter g ->
  joinable f g -> joinable g f ->
  (f_target_id f < 0 \/ exists x, In x (ot_targ (o_targets d)) /\ tg_target_id x = f_target_id f) ->
  (f_target_id g < 0 \/ exists x, In x (ot_targ (o_targets d)) /\ tg_target_id x = f_target_id g) ->
  exists df dfg dg dgf,
    apply_oi_filter pow_half d f = Ok (f, df) /\ apply_oi_filter pow_half df g = Ok (g, dfg)
    /\ apply_oi_filter pow_half d g = Ok (g, dg) /\ apply_oi_filter pow_half dg f = Ok (f, dgf)
    /\ same_data dfg dgf /\ same_config dfg dgf /\ same_lookups dfg dgf.
Proof.
  intros C Ff Fg Jn Jn' Tf Tg.
  destruct (joint_exists f g Jn) as (h & Fh & J). assert (J' := joint_comm f g h Jn' J).
  destruct (apply_oi_filter_ok pow_half d f C Ff) as (a1 & a2 & a3 & Ef & _).
  destruct (apply_oi_filter_ok pow_half d g C Fg) as (b1 & b2 & b3 & Eg & _).
  destruct (filter_then pow_half d f g h _ _ C Ff Fg Fh J Tf Ef) as (d2 & d3 & X1 & X2 & (A1 & A2 & A3 & A4 & A5 & A6) & (B1 & B2 & B3) & L & _).
  destruct (filter_then pow_half d g f h _ _ C Fg Ff Fh J' Tg Eg) as (d2' & d3' & Y1 & Y2 & (A1' & A2' & A3' & A4' & A5' & A6') & (B1' & B2' & B3') & L' & _).
  rewrite X2 in Y2. injection Y2 as <-.
  eexists _, d2, _, d2'. split; [exact Ef|]. split; [exact X1|]. split; [exact Eg|]. split; [exact Y1|].
  split; [repeat split; congruence|]. split; [repeat split; congruence|].
  intros n. destruct (L n) as (L1 & L2 & L3), (L' n) as (L1' & L2' & L3'). repeat split; congruence.
Qed.

(** ** The same filter again, for the target it selected *)

Lemma joint_again f : 0 <= f_target_id f -> joint f (set_target 1 f) f.
Proof.
  intros H. split.
  - split; try (intros x; cbn; tauto); try (symmetry; apply andb_diag); try reflexivity. right. cbn. auto.
  - right; right. cbn. auto.
  - unfold drops_after. cbn. destruct (f_accept_flagged f); auto.
Qed.
Lemma filter_again pow_half d f f1 d1 : consistent d -> fresh_filter f -> 0 <= f_target_id f ->
  (exists x, In x (ot_targ (o_targets d)) /\ tg_target_id x = f_target_id f) ->
  apply_oi_filter pow_half d f = Ok (f1, d1) ->
  exists d2, apply_oi_filter pow_half d1 (set_target 1 f) = Ok (set_target 1 f, d2)
    /\ same_data d1 d2 /\ same_config d1 d2 /\ same_lookups d1 d2
    /\ ((forall t r, In t (o_inspolList d1) -> In r (is_record t) -> uses_insname d1 (ip_insname r)) ->
        o_inspolList d2 = o_inspolList d1).
Proof.
  intros C F H X E.
  destruct (filter_then pow_half d f (set_target 1 f) f f1 d1 C F F F (joint_again f H) (or_intror X) E)
    as (d2 & d3 & E2 & E3 & (A1 & A2 & A3 & A4 & A5 & A6) & (B1 & B2 & B3) & L & I).
  rewrite E in E3. injection E3 as -> <-. exists d2. split; [exact E2|].
  split; [repeat split; congruence|]. split; [repeat split; congruence|].
  split; [|intros K; symmetry; exact (I K)].
  intros n. destruct (L n) as (L1 & L2 & L3). repeat split; congruence.
Qed.

(** ** Joint ranges for given bounds *)

Lemma joint_same a b : joint_range a b a b a b.
Proof. intros x; tauto. Qed.
(** The second range lies within the first *)
Lemma joint_narrower a b c d : (a = c \/ flt a c = true) -> (b = d \/ flt d b = true) ->
  joint_range a b c d c d.
Proof.
  intros H1 H2 x. change SFltb with flt. split.
  - destruct H1 as [H1|H1]; [subst; tauto|]. split; [auto|]. intros [H|H]; [exact (flt_trans x a c H H1)|exact H].
  - destruct H2 as [H2|H2]; [subst; tauto|]. split; [auto|]. intros [H|H]; [exact (flt_trans d b x H2 H)|exact H].
Qed.
Lemma joint_wider a b c d : (a = c \/ flt c a = true) -> (b = d \/ flt b d = true) ->
  joint_range a b c d a b.
Proof.
  intros H1 H2. apply joint_range_comm. apply joint_narrower; [destruct H1|destruct H2]; auto.
Qed.
Lemma pattern_same p : joint_pattern p p p.
Proof. intros s; tauto. Qed.
Lemma pattern_star p : joint_pattern p "*" p.
Proof. intros s. assert (glob_match "*" s) by apply glob_star. tauto. Qed.

(** ** Concrete cases *)

(** Target 4, instruments named G..., SNR up to 40 *)
Definition t_first : filter_spec :=
  mk_filter "*" "G*" "*" 4 (f64_of_Z 0) (f64_of_Z 10000000)
    (to_f32 (f64_of_Z 0)) (to_f32 (f64_ratio 1 10000)) (f64_of_Z 0) (f64_of_Z 10000)
    (f64_of_Z 0) (f64_of_Z 100000000000) (to_f32 (f64_of_Z (-5))) (fl32 40 1)
    true true true true true true None None None.
(** Wavelengths from 2.05 to 2.5 microns, no OI_VIS2, records with good data only *)
Definition t_second : filter_spec :=
  mk_filter "*" "*" "*" (-1) (f64_of_Z 0) (f64_of_Z 10000000)
    (fl32 205 100000000) (fl32 250 100000000) (f64_of_Z 0) (f64_of_Z 10000)
    (f64_of_Z 0) (f64_of_Z 100000000000) (to_f32 (f64_of_Z (-5))) (to_f32 (f64_of_Z 10000000000))
    true false true true true false None None None.
Definition t_both : filter_spec :=
  mk_filter "*" "G*" "*" 4 (f64_of_Z 0) (f64_of_Z 10000000)
    (fl32 205 100000000) (fl32 250 100000000) (f64_of_Z 0) (f64_of_Z 10000)
    (f64_of_Z 0) (f64_of_Z 100000000000) (to_f32 (f64_of_Z (-5))) (fl32 40 1)
    true false true true true false None None None.

Ltac ranges := first [apply joint_same | apply joint_narrower; solve [left; reflexivity | right; reflexivity]
                     | apply joint_wider; solve [left; reflexivity | right; reflexivity]].
Ltac core := split; first [reflexivity | apply pattern_same | apply pattern_star | ranges | idtac].

Lemma t_joint : joint t_first t_second t_both.
Proof.
  split.
  - core. right. split; [left|]; reflexivity.
  - right; right. split; [auto|reflexivity].
  - left. reflexivity.
Qed.
Definition t_fits1 : oi_fits := Eval vm_compute in out_of (apply_oi_filter sqrt64 s_fits t_first).
Definition t_fits2 : oi_fits := Eval vm_compute in out_of (apply_oi_filter sqrt64 t_fits1 t_second).
Lemma t_case : joint t_first t_second t_both /\ In (s_target 4 "alpha") (ot_targ (o_targets s_fits))
  /\ apply_oi_filter sqrt64 s_fits t_first = Ok (t_first, t_fits1)
  /\ apply_oi_filter sqrt64 t_fits1 t_second = Ok (t_second, t_fits2)
  /\ map (fun t => map vr_flag (tb_record t)) (o_visList s_fits) = [[[false; false; true]; [false; true; false]]]
  /\ map (fun t => map vr_flag (tb_record t)) (o_visList t_fits1) = [[[true; false; true]]]
  /\ map (fun t => map vr_flag (tb_record t)) (o_visList t_fits2) = [[[false; true]]]
  /\ List.length (o_t3List s_fits) = 1%nat /\ List.length (o_t3List t_fits1) = 1%nat /\ o_t3List t_fits2 = []
  /\ (forall t r, In t (o_inspolList t_fits1) -> In r (is_record t) -> uses_insname t_fits1 (ip_insname r))
  /\ List.length (o_inspolList t_fits2) = 1%nat.
Proof.
  split; [exact t_joint|]. split; [now left|]. split; [vm_compute; reflexivity|]. split; [vm_compute; reflexivity|].
  repeat (split; [vm_compute; reflexivity|]). split; [|reflexivity].
  intros t r [<-|[]] [<-|[]]. left. eexists. split; [now left|reflexivity].
Qed.

(** ** The conditions are needed *)

Definition set_flagged (b : bool) (f : filter_spec) : filter_spec :=
  mk_filter (f_arrname f) (f_insname f) (f_corrname f) (f_target_id f) (f_mjd_lo f) (f_mjd_hi f)
    (f_wave_lo f) (f_wave_hi f) (f_bas_lo f) (f_bas_hi f) (f_uvrad_lo f) (f_uvrad_hi f)
    (f_snr_lo f) (f_snr_hi f) (f_accept_vis f) (f_accept_vis2 f) (f_accept_t3amp f)
    (f_accept_t3phi f) (f_accept_flux f) b (f_arrname_pttn f) (f_insname_pttn f) (f_corrname_pttn f).
(** The default filter with another upper limit on the SNR *)
Definition snr_up_to (hi : f32) (phi : bool) : filter_spec :=
  mk_filter "*" "*" "*" (-1) (f64_of_Z 0) (f64_of_Z 10000000)
    (to_f32 (f64_of_Z 0)) (to_f32 (f64_ratio 1 10000)) (f64_of_Z 0) (f64_of_Z 10000)
    (f64_of_Z 0) (f64_of_Z 100000000000) (to_f32 (f64_of_Z (-5))) hi
    true true true phi true true None None None.

(** The default filter with another lower limit on the SNR *)
Definition snr_from (lo : f32) (amp : bool) : filter_spec :=
  mk_filter "*" "*" "*" (-1) (f64_of_Z 0) (f64_of_Z 10000000)
    (to_f32 (f64_of_Z 0)) (to_f32 (f64_ratio 1 10000)) (f64_of_Z 0) (f64_of_Z 10000)
    (f64_of_Z 0) (f64_of_Z 100000000000) lo (to_f32 (f64_of_Z 10000000000))
    true true amp true true true None None None.

Lemma drop_first : exists d f g h d1 d2 d3 d4,
  consistent d /\ fresh_filter f /\ fresh_filter g /\ fresh_filter h
  /\ f_target_id f < 0 /\ joint_core f g h /\ agree_t3 f g /\ ~ drops_after f g
  /\ apply_oi_filter sqrt64 d f = Ok (f, d1) /\ apply_oi_filter sqrt64 d1 g = Ok (g, d2)
  /\ apply_oi_filter sqrt64 d h = Ok (h, d3)
  /\ apply_oi_filter sqrt64 d (set_flagged false h) = Ok (set_flagged false h, d4)
  /\ o_vis2List d3 <> o_vis2List d2 /\ o_vis2List d4 <> o_vis2List d2.
Proof.
  pose (f := set_flagged false init_oi_filter). pose (g := snr_up_to (fl32 1 1) true).
  exists s_fits, f, g, g.
  eexists _, _, _, _. split; [exact s_fits_consistent|]. split; [repeat split|]. split; [repeat split|].
  split; [repeat split|]. split; [reflexivity|]. split; [core; left; split; reflexivity|].
  split; [right; right; split; [auto|reflexivity]|]. split; [intros [H|H]; discriminate H|].
  split; [vm_compute; reflexivity|]. split; [vm_compute; reflexivity|]. split; [vm_compute; reflexivity|].
  split; [vm_compute; reflexivity|]. split; discriminate.
Qed.

Lemma phases_later : exists d f g h d1 d2 d3,
  consistent d /\ fresh_filter f /\ fresh_filter g /\ fresh_filter h
  /\ f_target_id f < 0 /\ joint_core f g h /\ ~ agree_t3 f g /\ drops_after f g
  /\ apply_oi_filter sqrt64 d f = Ok (f, d1) /\ apply_oi_filter sqrt64 d1 g = Ok (g, d2)
  /\ apply_oi_filter sqrt64 d h = Ok (h, d3) /\ o_t3List d3 <> o_t3List d2.
Proof.
  pose (f := snr_up_to (fl32 55 1) true).
  pose (g := snr_up_to (to_f32 (f64_of_Z 10000000000)) false).
  pose (h := snr_up_to (fl32 55 1) false).
  exists s_fits, f, g, h.
  eexists _, _, _. split; [exact s_fits_consistent|]. split; [repeat split|]. split; [repeat split|].
  split; [repeat split|]. split; [reflexivity|]. split; [core; left; split; reflexivity|].
  split; [intros [[H _]|[[H _]|[_ H]]]; discriminate H|]. split; [left; reflexivity|].
  split; [vm_compute; reflexivity|]. split; [vm_compute; reflexivity|]. split; [vm_compute; reflexivity|].
  discriminate.
Qed.

Lemma amps_later : exists d f g h d1 d2 d3,
  consistent d /\ fresh_filter f /\ fresh_filter g /\ fresh_filter h
  /\ f_target_id f < 0 /\ joint_core f g h /\ ~ agree_t3 f g /\ drops_after f g
  /\ f_accept_t3phi f = f_accept_t3phi g
  /\ apply_oi_filter sqrt64 d f = Ok (f, d1) /\ apply_oi_filter sqrt64 d1 g = Ok (g, d2)
  /\ apply_oi_filter sqrt64 d h = Ok (h, d3) /\ o_t3List d3 <> o_t3List d2.
Proof.
  pose (f := snr_from (fl32 30 1) true).
  pose (g := snr_from (to_f32 (f64_of_Z (-5))) false).
  pose (h := snr_from (fl32 30 1) false).
  exists s_fits, f, g, h.
  eexists _, _, _. split; [exact s_fits_consistent|]. split; [repeat split|]. split; [repeat split|].
  split; [repeat split|]. split; [reflexivity|]. split; [core; left; split; reflexivity|].
  split; [intros [[H _]|[[_ H]|[H _]]]; [discriminate H|discriminate H|discriminate (H eq_refl)]|].
  split; [left; reflexivity|]. split; [reflexivity|].
  split; [vm_compute; reflexivity|]. split; [vm_compute; reflexivity|]. split; [vm_compute; reflexivity|].
  discriminate.
Qed.

Lemma inspol_later : exists d f g h d1 d2 d3,
  consistent d /\ fresh_filter f /\ fresh_filter g /\ fresh_filter h
  /\ f_target_id f < 0 /\ joint f g h
  /\ apply_oi_filter sqrt64 d f = Ok (f, d1) /\ apply_oi_filter sqrt64 d1 g = Ok (g, d2)
  /\ apply_oi_filter sqrt64 d h = Ok (h, d3)
  /\ List.length (o_inspolList d3) = 1%nat /\ o_inspolList d2 = [].
Proof.
  exists s_lone, init_oi_filter, init_oi_filter, init_oi_filter, s_lone1, s_lone2, s_lone1.
  split; [exact s_lone_consistent|]. split; [repeat split|]. split; [repeat split|]. split; [repeat split|].
  split; [reflexivity|].
  split; [split; [core; left; split; reflexivity|right; right; split; [auto|reflexivity]|left; reflexivity]|].
  split; [vm_compute; reflexivity|]. split; [vm_compute; reflexivity|]. split; [vm_compute; reflexivity|].
  split; reflexivity.
Qed.
