(** Statements about apply_oi_filter in the form of the properties. *)
From Verif Require Import Base BaseLemmas FloatModel Types FileModel FileSpec FileProofs FilterModel FilterSpec FilterLemmas FilterProofs FilterRecords FilterTables FilterApply FilterFacts FilterResults FilterOutput FilterFix FilterWhole FilterMain Sample.
From Coq Require Import Lia.
Local Open Scope string_scope.
Local Open Scope Z_scope.

Section Final.
Variables (pow_half : f64 -> f64) (d : oi_fits) (f f' : filter_spec) (d' : oi_fits).
Hypothesis C : consistent d.
Hypothesis HF : fresh_filter f.
Hypothesis E : apply_oi_filter pow_half d f = Ok (f', d').

Lemma final_nwave :
  (forall t, In t (o_visList d') -> exists w, instrument d' (tb_insname t) w /\ wv_nwave w = tb_nwave t)
  /\ (forall t, In t (o_vis2List d') -> exists w, instrument d' (tb_insname t) w /\ wv_nwave w = tb_nwave t)
  /\ (forall t, In t (o_t3List d') -> exists w, instrument d' (tb_insname t) w /\ wv_nwave w = tb_nwave t)
  /\ (forall t, In t (o_fluxList d') -> exists w, instrument d' (tb_insname t) w /\ wv_nwave w = tb_nwave t).
Proof.
  destruct (main_ready _ _ _ _ _ C HF E) as (H1 & H2 & H3 & H4).
  split; [|split; [|split]]; intros t Ht.
  - apply (main_nwave _ _ _ _ _ C HF E o_visList); [|exact Ht]. intros t' Ht'. split; [now apply H1|left; eauto].
  - apply (main_nwave _ _ _ _ _ C HF E o_vis2List); [|exact Ht]. intros t' Ht'. split; [now apply H2|right; left; eauto].
  - apply (main_nwave _ _ _ _ _ C HF E o_t3List); [|exact Ht]. intros t' Ht'. split; [now apply H3|right; right; left; eauto].
  - apply (main_nwave _ _ _ _ _ C HF E o_fluxList); [|exact Ht]. intros t' Ht'. split; [now apply H4|right; right; right; eauto].
Qed.

Lemma final_vis_data : filtered_tables (kind_vis pow_half) f d
    (fun _ w r r' => exists idx, accepted_channels f w idx
       /\ vis_data_kept f (length (wv_eff_wave w)) idx r r') (o_visList d) (o_visList d').
Proof. generalize (main_vis _ _ _ _ _ C HF E). apply filtered_impl. intros t w r r' _ (idx & H1 & H2 & _). eauto. Qed.
Lemma final_vis2_data : filtered_tables (kind_vis2 pow_half) f d
    (fun _ w r r' => exists idx, accepted_channels f w idx /\ vis2_data_kept f idx r r')
    (o_vis2List d) (o_vis2List d').
Proof. generalize (main_vis2 _ _ _ _ _ C HF E). apply filtered_impl. intros t w r r' _ (idx & H1 & H2 & _). eauto. Qed.
Lemma final_t3_data : filtered_tables (kind_t3 pow_half) f d
    (fun _ w r r' => exists idx, accepted_channels f w idx /\ t3_data_kept f idx r r')
    (o_t3List d) (o_t3List d').
Proof. generalize (main_t3 _ _ _ _ _ C HF E). apply filtered_impl. intros t w r r' _ (idx & H1 & H2 & _). eauto. Qed.
Lemma final_flux_data : filtered_tables kind_flux f d
    (fun _ w r r' => exists idx, accepted_channels f w idx /\ flux_data_kept f idx r r')
    (o_fluxList d) (o_fluxList d').
Proof. generalize (main_flux _ _ _ _ _ C HF E). apply filtered_impl. intros t w r r' _ (idx & H1 & H2 & _). eauto. Qed.

Lemma final_vis_flags : filtered_tables (kind_vis pow_half) f d
    (fun _ w r r' => exists idx, accepted_channels f w idx
       /\ flags_updated (kind_vis pow_half) f w idx r r') (o_visList d) (o_visList d').
Proof. generalize (main_vis _ _ _ _ _ C HF E). apply filtered_impl. intros t w r r' _ (idx & H1 & _ & H2). eauto. Qed.
Lemma final_vis2_flags : filtered_tables (kind_vis2 pow_half) f d
    (fun _ w r r' => exists idx, accepted_channels f w idx
       /\ flags_updated (kind_vis2 pow_half) f w idx r r') (o_vis2List d) (o_vis2List d').
Proof. generalize (main_vis2 _ _ _ _ _ C HF E). apply filtered_impl. intros t w r r' _ (idx & H1 & _ & H2). eauto. Qed.
Lemma final_t3_flags : filtered_tables (kind_t3 pow_half) f d
    (fun _ w r r' => exists idx, accepted_channels f w idx
       /\ flags_updated (kind_t3 pow_half) f w idx r r') (o_t3List d) (o_t3List d').
Proof. generalize (main_t3 _ _ _ _ _ C HF E). apply filtered_impl. intros t w r r' _ (idx & H1 & _ & H2). eauto. Qed.
Lemma final_flux_flags : filtered_tables kind_flux f d
    (fun _ w r r' => exists idx, accepted_channels f w idx /\ flags_updated kind_flux f w idx r r')
    (o_fluxList d) (o_fluxList d').
Proof. generalize (main_flux _ _ _ _ _ C HF E). apply filtered_impl. intros t w r r' _ (idx & H1 & _ & H2). eauto. Qed.

Lemma final_vis_records : filtered_tables (kind_vis pow_half) f d
  (fun _ _ => same_observation (kind_vis pow_half)) (o_visList d) (o_visList d').
Proof.
  generalize final_vis_data. apply filtered_impl. intros t w r r' _ (idx & _ & _ & S & _).
  destruct S as (_ & H1 & _ & _ & _ & _ & _ & H2 & H3 & _). split; cbn; [exact H1|].
  unfold vis_bas. now rewrite H2, H3.
Qed.
Lemma final_vis2_records : filtered_tables (kind_vis2 pow_half) f d
  (fun _ _ => same_observation (kind_vis2 pow_half)) (o_vis2List d) (o_vis2List d').
Proof.
  generalize final_vis2_data. apply filtered_impl. intros t w r r' _ (idx & _ & _ & S).
  destruct S as (_ & H1 & _ & _ & H2 & H3 & _). split; cbn; [exact H1|].
  unfold vis2_bas. now rewrite H2, H3.
Qed.
Lemma final_t3_records : filtered_tables (kind_t3 pow_half) f d
  (fun _ _ => same_observation (kind_t3 pow_half)) (o_t3List d) (o_t3List d').
Proof.
  generalize final_t3_data. apply filtered_impl. intros t w r r' _ (idx & _ & _ & S).
  destruct S as (_ & H1 & _ & _ & _ & H2 & H3 & H4 & H5 & _). split; cbn; [exact H1|].
  unfold t3_bases. now rewrite H2, H3, H4, H5.
Qed.
Lemma final_flux_records : filtered_tables kind_flux f d
  (fun _ _ => same_observation kind_flux) (o_fluxList d) (o_fluxList d').
Proof.
  generalize final_flux_data. apply filtered_impl. intros t w r r' _ (idx & _ & _ & S).
  destruct S as (H1 & _). split; cbn; [exact H1|reflexivity].
Qed.

Lemma final_referenced :
  (forall a, In a (o_arrayList d') -> uses_arrname d' (ar_arrname a))
  /\ (forall w, In w (o_wavelengthList d') -> uses_insname d' (wv_insname w))
  /\ (forall c, In c (o_corrList d') -> uses_corrname d' (co_corrname c)).
Proof.
  split; [|split].
  - intros a Ha. destruct (kept_true _ _ _ _ (main_arrays _ _ _ _ _ C HF E) a Ha) as (b & _ & [_ H] & <-). exact H.
  - intros a Ha. destruct (kept_true _ _ _ _ (main_waves _ _ _ _ _ C HF E) a Ha) as (b & _ & (_ & _ & H) & Q).
    destruct Q as (_ & -> & _). exact H.
  - intros a Ha. destruct (kept_true _ _ _ _ (main_corrs _ _ _ _ _ C HF E) a Ha) as (b & _ & [_ H] & <-). exact H.
Qed.

Lemma final_inspol_array t a : In t (o_inspolList d') -> In a (o_arrayList d) -> ar_arrname a = is_arrname t ->
    exists a', oi_fits_lookup_array d' (is_arrname t) = Some a' /\ In a' (o_arrayList d').
Proof.
  intros Ht Ha Hn. destruct (kept_true _ _ _ _ (main_inspol _ _ _ _ _ C HF E) t Ht) as (b & _ & (_ & _ & H) & Q).
  destruct Q as (_ & _ & _ & Q & _). rewrite <- Q in H.
  destruct (main_resolve_arr _ _ _ _ _ C HF E _ a H Ha Hn) as (a' & H1 & H2 & _). eauto.
Qed.

Lemma final_target_revision : ot_revision (o_targets d') = ot_revision (o_targets d).
Proof.
  rewrite (main_targets pow_half d f f' d' C HF E). unfold target_out.
  destruct (0 <=? f_target_id (compiled f)); [|reflexivity]. now destruct (rev _).
Qed.
Lemma final_one_target x : 0 <= f_target_id f -> In x (ot_targ (o_targets d)) -> tg_target_id x = f_target_id f ->
  (forall y, In y (ot_targ (o_targets d)) -> tg_target_id y = f_target_id f -> y = x) ->
  ot_ntarget (o_targets d') = 1 /\ ot_targ (o_targets d') = [tg_set_target_id 1 x].
Proof.
  intros H1 H2 H3 H4. rewrite (main_targets _ _ _ _ _ C HF E).
  destruct (target_out_single (compiled f) (o_targets d) x H1 H2 H3 H4) as (_ & G1 & G2 & _). auto.
Qed.
Lemma final_no_target : 0 <= f_target_id f ->
  (forall y, In y (ot_targ (o_targets d)) -> tg_target_id y <> f_target_id f) ->
  ot_ntarget (o_targets d') = 0 /\ ot_targ (o_targets d') = [].
Proof.
  intros H1 H2. rewrite (main_targets _ _ _ _ _ C HF E). now apply target_out_absent.
Qed.

(** The origin of a record's target id *)
Lemma final_origin id' : record_target d' id' ->
  exists id, record_target d id /\ target_accepted f id /\ new_id f id id'.
Proof.
  intros [H|[H|[H|[H|H]]]]; destruct H as (t' & r' & Ht & Hr & <-).
  - destruct (filtered_records _ _ _ _ _ _ _ _ final_vis_data Ht Hr) as (t & w & r & H1 & H2 & [HA _] & idx & _ & HN & _).
    exists (vr_target_id r). split; [left; eauto|auto].
  - destruct (filtered_records _ _ _ _ _ _ _ _ final_vis2_data Ht Hr) as (t & w & r & H1 & H2 & [HA _] & idx & _ & HN & _).
    exists (v2_target_id r). split; [right; left; eauto|auto].
  - destruct (filtered_records _ _ _ _ _ _ _ _ final_t3_data Ht Hr) as (t & w & r & H1 & H2 & [HA _] & idx & _ & HN & _).
    exists (t3_target_id r). split; [right; right; left; eauto|auto].
  - destruct (filtered_records _ _ _ _ _ _ _ _ final_flux_data Ht Hr) as (t & w & r & H1 & H2 & [HA _] & idx & _ & HN & _).
    exists (fr_target_id r). split; [right; right; right; left; eauto|auto].
  - destruct (kept_true _ _ _ _ (main_inspol _ _ _ _ _ C HF E) t' Ht) as (t & Ht0 & _ & Q).
    destruct Q as (_ & _ & _ & _ & _ & _ & _ & K). destruct (kept_true _ _ _ _ K r' Hr) as (r & H1 & [HA _] & HN & _).
    exists (ip_target_id r). split; [right; right; right; right; eauto|auto].
Qed.
Lemma final_renumbered : 0 <= f_target_id f -> forall id, record_target d' id -> id = 1.
Proof. intros H id' Hid. destruct (final_origin _ Hid) as (id & _ & _ & HN). eapply new_id_one; eauto. Qed.
Lemma final_selected : 0 <= f_target_id f -> (exists id, record_target d' id) -> record_target d (f_target_id f).
Proof.
  intros H [id' Hid]. destruct (final_origin _ Hid) as (id & H1 & H2 & _). now rewrite <- (accepted_id f id H H2).
Qed.
Lemma final_targets_same : f_target_id f < 0 -> o_targets d' = o_targets d.
Proof.
  intros H. rewrite (main_targets _ _ _ _ _ C HF E). unfold target_out.
  change (f_target_id (compiled f)) with (f_target_id f). destruct (Z.leb_spec 0 (f_target_id f)); [lia|].
  reflexivity.
Qed.
Lemma final_all_targets : f_target_id f < 0 ->
  o_targets d' = o_targets d /\ forall id, record_target d' id -> record_target d id.
Proof.
  intros H. split; [now apply final_targets_same|]. intros id' Hid.
  destruct (final_origin _ Hid) as (id & H1 & _ & HN). now rewrite (new_id_same _ _ _ H HN).
Qed.
Lemma final_category : f_target_id f < 0 -> ot_usecategory (o_targets d') = ot_usecategory (o_targets d).
Proof. intros H. now rewrite final_targets_same. Qed.
End Final.

Lemma final_open pow_half d f :
  consistent d -> fresh_filter f -> open_filter f -> within pow_half f d ->
  exists d', apply_oi_filter pow_half d f = Ok (f, d') /\ same_data d d'
    /\ kept (fun a => uses_arrname d (ar_arrname a)) eq (o_arrayList d) (o_arrayList d')
    /\ kept (fun w => uses_insname d (wv_insname w)) eq (o_wavelengthList d) (o_wavelengthList d')
    /\ kept (fun c => uses_corrname d (co_corrname c)) eq (o_corrList d) (o_corrList d')
    /\ kept (fun t => uses_arrname d (is_arrname t)) eq (o_inspolList d) (o_inspolList d').
Proof. apply filter_open. Qed.
Lemma final_twice pow_half d f d1 f1 :
  consistent d -> fresh_filter f -> f_target_id f < 0 ->
  apply_oi_filter pow_half d f = Ok (f1, d1) ->
  exists d2, apply_oi_filter pow_half d1 f = Ok (f, d2)
    /\ same_data d1 d2 /\ same_config d1 d2 /\ same_lookups d1 d2
    /\ ((forall t r, In t (o_inspolList d1) -> In r (is_record t) -> uses_insname d1 (ip_insname r)) ->
        o_inspolList d2 = o_inspolList d1).
Proof. apply filter_twice. Qed.

Lemma final_default : fresh_filter init_oi_filter /\ open_filter init_oi_filter
  /\ f_mjd_lo init_oi_filter = f64_of_Z 0 /\ f_mjd_hi init_oi_filter = f64_of_Z (10 ^ 7)
  /\ f_wave_lo init_oi_filter = to_f32 (f64_of_Z 0)
  /\ f_wave_hi init_oi_filter = to_f32 (f64_ratio 1 (10 ^ 4))
  /\ f_bas_lo init_oi_filter = f64_of_Z 0 /\ f_bas_hi init_oi_filter = f64_of_Z (10 ^ 4)
  /\ f_uvrad_lo init_oi_filter = f64_of_Z 0 /\ f_uvrad_hi init_oi_filter = f64_of_Z (10 ^ 11)
  /\ f_snr_lo init_oi_filter = to_f32 (f64_of_Z (-5))
  /\ f_snr_hi init_oi_filter = to_f32 (f64_of_Z (10 ^ 10)).
Proof. repeat split. Qed.

Lemma final_no_crash pow_half d f : consistent d -> fresh_filter f ->
  exists d', apply_oi_filter pow_half d f = Ok (f, d').
Proof. intros C HF. destruct (apply_oi_filter_ok pow_half d f C HF) as (h1 & h2 & h3 & E1 & _). eauto. Qed.

Lemma final_inspol_dangling : exists d f d1 t r,
  consistent d /\ fresh_filter f /\ apply_oi_filter sqrt64 d f = Ok (f, d1)
  /\ In t (o_inspolList d1) /\ In r (is_record t)
  /\ (exists w, instrument d (ip_insname r) w) /\ (forall w, ~ instrument d1 (ip_insname r) w).
Proof.
  destruct lone_counterexample as (d & f & d1 & d2 & t & r & H1 & H2 & _ & H3 & _ & H4 & H5 & H6 & H7 & _).
  exists d, f, d1, t, r. auto 10.
Qed.
Lemma final_not_idempotent : exists d f d1 d2,
  consistent d /\ fresh_filter f /\ f_target_id f < 0
  /\ apply_oi_filter sqrt64 d f = Ok (f, d1) /\ apply_oi_filter sqrt64 d1 f = Ok (f, d2)
  /\ o_inspolList d1 <> [] /\ o_inspolList d2 = [].
Proof.
  destruct lone_counterexample as (d & f & d1 & d2 & t & r & H1 & H2 & H3 & H4 & H5 & H6 & _ & _ & _ & H7).
  exists d, f, d1, d2. split; [exact H1|]. split; [exact H2|]. split; [exact H3|]. split; [exact H4|].
  split; [exact H5|]. split; [|exact H7]. intros G. now rewrite G in H6.
Qed.

Lemma final_star s : glob "*" s = true.
Proof. apply glob_spec, glob_star. Qed.
Lemma final_literal p s :
  (forall c, InString c p -> c <> "*"%char /\ c <> "?"%char) -> (glob p s = true <-> s = p).
Proof.
  revert s. induction p as [|c p IH]; intros s H.
  - cbn [glob]. destruct s; cbn; split; congruence.
  - destruct (H c (or_introl eq_refl)) as [N1 N2]. apply Ascii.eqb_neq in N1, N2.
    cbn [glob]. rewrite N1, N2. destruct s as [|c' s]; [split; discriminate|]. cbn [orb].
    rewrite andb_true_iff, Ascii.eqb_eq, IH by (intros; apply H; now right).
    split; [intros [-> ->]; reflexivity|intros [=]; auto].
Qed.

Lemma s_filter_fresh : fresh_filter s_filter.
Proof. repeat split. Qed.
Lemma s_fits1_effect : exists d', apply_oi_filter sqrt64 s_fits s_filter = Ok (s_filter, d')
  /\ map (fun t => (tb_nwave t, map vr_target_id (tb_record t), map vr_flag (tb_record t))) (o_visList d')
     = [(2, [1], [[false; true]])]
  /\ o_vis2List d' = []
  /\ o_t3List d' = []
  /\ map (fun t => map (fun r => map is_nan (fr_fluxdata r)) (tb_record t)) (o_fluxList d')
     = [[[true; true]]]
  /\ map ar_arrname (o_arrayList d') = ["VLTI"%string]
  /\ map wv_insname (o_wavelengthList d') = ["GRAVITY"%string].
Proof.
  exists s_fits1. split; [exact s_fits1_ok|].
  repeat split.
Qed.
