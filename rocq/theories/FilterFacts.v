(** The pure description of the filter meets the specification. *)
From Verif Require Import Base BaseLemmas FloatModel Types FileModel FileSpec FileProofs FilterModel FilterSpec FilterLemmas FilterProofs FilterRecords FilterTables FilterApply.
From Coq Require Import Lia.

(** ** Channels *)

Lemma use_nth f w j x : nth_error (wv_eff_wave w) j = Some x -> nth_error (use_of f w) j = Some (in_rangeb f x).
Proof. intros H. unfold use_of. now rewrite nth_error_map, H. Qed.

Lemma in_rangeb_spec f x : in_rangeb f x = true <-> ~ beyond (f_wave_lo f) (f_wave_hi f) x.
Proof. unfold in_rangeb. rewrite negb_true_iff. apply outside_false. Qed.

Lemma chan_accepted_spec f w j : nth_error (use_of f w) j = Some true <-> chan_accepted f w j.
Proof.
  unfold chan_accepted, use_of. rewrite nth_error_map. split.
  - destruct (nth_error (wv_eff_wave w) j) as [x|]; [|discriminate]. cbn. intros [= H].
    exists x. split; [reflexivity|]. now apply in_rangeb_spec.
  - intros (x & -> & H). cbn. f_equal. now apply in_rangeb_spec.
Qed.

Lemma use_length f w : length (use_of f w) = length (wv_eff_wave w).
Proof. unfold use_of. apply map_length. Qed.

Lemma idx_of_accepted f w : accepted_channels f w (idx_of (use_of f w)).
Proof.
  unfold accepted_channels. rewrite idx_of_filter, use_length. apply kept_seq_filter.
  intros j _. rewrite <- chan_accepted_spec. destruct (nth_error (use_of f w) j) as [[]|]; intuition congruence.
Qed.

Lemma kept_fun {A} (P : A -> Prop) l m1 m2 : kept P eq l m1 -> kept P eq l m2 -> m1 = m2.
Proof.
  intros H. revert m2. induction H as [|a b l m HP HQ H IH|a l m HP H IH]; intros m2 K; inversion K; subst; auto.
  - f_equal; auto.
  - contradiction.
  - contradiction.
Qed.
Lemma accepted_channels_idx f w idx : accepted_channels f w idx -> idx = idx_of (use_of f w).
Proof. intros H. eapply kept_fun; [exact H|apply idx_of_accepted]. Qed.

Lemma cnt_pos_spec use : (0 <? cnt use)%nat = true <-> exists j, nth_error use j = Some true.
Proof.
  rewrite Nat.ltb_lt. rewrite <- idx_of_length. split.
  - intros H. destruct (idx_of use) as [|j idx] eqn:E; [cbn in H; lia|].
    exists j. apply idx_of_in. rewrite E. now left.
  - intros (j & H). apply idx_of_in in H. destruct (idx_of use); [contradiction|]. cbn. lia.
Qed.
Lemma cnt_pos_chan f w : (0 <? cnt (use_of f w))%nat = true <-> exists j, chan_accepted f w j.
Proof.
  rewrite cnt_pos_spec. split; intros (j & H); exists j; now apply chan_accepted_spec.
Qed.

(** ** Records *)

Definition kind_okb {R} (k : kind R) (f : filter_spec) (use : list bool) (badb : R -> nat -> bool) (r : R) : bool :=
  negb (skip_target f (k_target k r)) && negb (skip_mjd f (k_mjd k r))
  && negb (existsb (skip_bas f) (k_baselines k r))
  && (negb (k_drops_flagged k) || f_accept_flagged f || some_ok use (k_flag k r) (badb r)).

(** [badb] decides [k_bad] *)
Definition bad_decides {R} (k : kind R) (f : filter_spec) (w : oi_wavelength) (badb : R -> nat -> bool) (r : R) : Prop :=
  forall j x, nth_error (wv_eff_wave w) j = Some x -> (badb r j = true <-> k_bad k f x r j).

Lemma skip_target_spec f id : negb (skip_target f id) = true <-> target_accepted f id.
Proof.
  unfold skip_target, target_accepted. destruct (Z.leb_spec 0 (f_target_id f)); cbn [andb negb].
  - rewrite negb_involutive, Z.eqb_eq. lia.
  - intuition lia.
Qed.

Lemma some_ok_spec {R} (k : kind R) f w badb r : length (k_flag k r) = length (wv_eff_wave w) ->
  bad_decides k f w badb r ->
  (some_ok (use_of f w) (k_flag k r) (badb r) = true <-> has_good_channel k f w r).
Proof.
  intros HL HB. unfold some_ok, has_good_channel. rewrite existsb_sel. split.
  - intros (j & a & H1 & H2 & H3).
    assert (Hj : (j < length (wv_eff_wave w))%nat) by (rewrite <- (use_length f w); apply nth_error_Some; congruence).
    destruct (some_nth (k_flag k r) j) as [fl Hfl]; [lia|]. destruct (some_nth (wv_eff_wave w) j Hj) as [x Hx].
    rewrite (flagcol_nth _ _ _ _ Hfl) in H2. injection H2 as <-.
    apply negb_true_iff, orb_false_iff in H3 as [H3 H4]. subst fl.
    exists j, x. split; [exact Hx|]. split; [now apply chan_accepted_spec|]. split; [exact Hfl|].
    rewrite <- (HB j x Hx). congruence.
  - intros (j & x & Hx & HC & Hfl & HBad). exists j, (false || badb r j).
    split; [now apply chan_accepted_spec|]. split; [now apply flagcol_nth|]. cbn [orb].
    rewrite negb_true_iff. rewrite <- (HB j x Hx) in HBad. now destruct (badb r j).
Qed.

Lemma kind_okb_spec {R} (k : kind R) f w badb r :
  (k_drops_flagged k = true -> length (k_flag k r) = length (wv_eff_wave w) /\ bad_decides k f w badb r) ->
  (kind_okb k f (use_of f w) badb r = true <-> record_accepted k f w r).
Proof.
  intros H. unfold kind_okb, record_accepted.
  rewrite !andb_true_iff, !orb_true_iff, skip_target_spec, !negb_true_iff.
  unfold skip_mjd. rewrite outside_false.
  assert (EB : existsb (skip_bas f) (k_baselines k r) = false <->
               (forall b, In b (k_baselines k r) -> ~ beyond (f_bas_lo f) (f_bas_hi f) b)).
  { split.
    - intros E b Hb G. apply outside_spec in G.
      assert (existsb (skip_bas f) (k_baselines k r) = true); [|congruence].
      apply existsb_exists. exists b. auto.
    - intros G. destruct (existsb (skip_bas f) (k_baselines k r)) eqn:E; [|reflexivity].
      apply existsb_exists in E as (b & Hb & E). exfalso. apply (G b Hb). now apply outside_spec. }
  rewrite EB. destruct (k_drops_flagged k) eqn:D.
  - destruct (H eq_refl) as [H1 H2]. rewrite (some_ok_spec k f w badb r H1 H2). intuition congruence.
  - intuition.
Qed.

Lemma snr_spec f value err j a e : nth_error value j = Some a -> nth_error err j = Some e ->
  (outside_snr f (ratio_f32 (nthf value j) (nthf err j)) = true <-> snr_beyond f value err j).
Proof.
  intros Ha He. rewrite (nthf_eq _ _ _ Ha), (nthf_eq _ _ _ He). unfold outside_snr. rewrite outside_spec.
  unfold snr_beyond, ratio_f32. split.
  - intros H. exists a, e. auto.
  - intros (a' & e' & Ha' & He' & H). congruence.
Qed.
Lemma phase_snr_spec f err j e : nth_error err j = Some e ->
  (outside_snr f (ratio_f32 c_rad2deg (nthf err j)) = true <-> phase_snr_beyond f err j).
Proof.
  intros He. rewrite (nthf_eq _ _ _ He). unfold outside_snr. rewrite outside_spec.
  unfold phase_snr_beyond, ratio_f32. split.
  - intros H. exists e. auto.
  - intros (e' & He' & H). congruence.
Qed.
Lemma nth_wave_eq w j x : nth_error (wv_eff_wave w) j = Some x -> nth_wave w j = x.
Proof. intros H. unfold nth_wave. now rewrite H. Qed.

Section Pow.
Variable pow_half : f64 -> f64.

Lemma vis_bad_decides f w r : length (vr_visamp r) = length (wv_eff_wave w) ->
  length (vr_visamperr r) = length (wv_eff_wave w) -> length (vr_visphierr r) = length (wv_eff_wave w) ->
  bad_decides (kind_vis pow_half) f w (vis_badb pow_half f w) r.
Proof.
  intros L1 L2 L3 j x Hx. assert (j < length (wv_eff_wave w))%nat by (apply nth_error_Some; congruence).
  destruct (some_nth (vr_visamp r) j) as [a Ha]; [lia|]. destruct (some_nth (vr_visamperr r) j) as [e He]; [lia|].
  destruct (some_nth (vr_visphierr r) j) as [p Hp]; [lia|].
  unfold vis_badb. cbn [k_bad kind_vis]. rewrite !orb_true_iff, (snr_spec f _ _ _ a e Ha He), (phase_snr_spec f _ _ p Hp).
  unfold outside_uvrad, uvrad_beyond. rewrite outside_spec, (nth_wave_eq _ _ _ Hx). tauto.
Qed.
Lemma vis2_bad_decides f w r : length (v2_vis2data r) = length (wv_eff_wave w) ->
  length (v2_vis2err r) = length (wv_eff_wave w) ->
  bad_decides (kind_vis2 pow_half) f w (vis2_badb pow_half f w) r.
Proof.
  intros L1 L2 j x Hx. assert (j < length (wv_eff_wave w))%nat by (apply nth_error_Some; congruence).
  destruct (some_nth (v2_vis2data r) j) as [a Ha]; [lia|]. destruct (some_nth (v2_vis2err r) j) as [e He]; [lia|].
  unfold vis2_badb. cbn [k_bad kind_vis2]. rewrite !orb_true_iff, (snr_spec f _ _ _ a e Ha He).
  unfold outside_uvrad, uvrad_beyond. rewrite outside_spec, (nth_wave_eq _ _ _ Hx). tauto.
Qed.
Lemma t3_bad_decides f w r : length (t3_t3amp r) = length (wv_eff_wave w) ->
  length (t3_t3amperr r) = length (wv_eff_wave w) -> length (t3_t3phierr r) = length (wv_eff_wave w) ->
  bad_decides (kind_t3 pow_half) f w (t3_badb pow_half f w) r.
Proof.
  intros L1 L2 L3 j x Hx. assert (j < length (wv_eff_wave w))%nat by (apply nth_error_Some; congruence).
  destruct (some_nth (t3_t3amp r) j) as [a Ha]; [lia|]. destruct (some_nth (t3_t3amperr r) j) as [e He]; [lia|].
  destruct (some_nth (t3_t3phierr r) j) as [p Hp]; [lia|].
  unfold t3_badb. cbn [k_bad kind_t3].
  rewrite !orb_true_iff, !andb_true_iff, (snr_spec f _ _ _ a e Ha He), (phase_snr_spec f _ _ p Hp).
  rewrite existsb_exists. unfold outside_uvrad, uvrad_beyond. rewrite (nth_wave_eq _ _ _ Hx).
  assert (E : (exists x0, In x0 (t3_bases pow_half r) /\ outside (f_uvrad_lo f) (f_uvrad_hi f) (waves_of x0 x) = true)
    <-> (exists b, In b (t3_bases pow_half r) /\ beyond (f_uvrad_lo f) (f_uvrad_hi f) (waves_of b x))).
  { split; intros (b & Hb & G); exists b; (split; [exact Hb|now apply outside_spec]). }
  rewrite E. tauto.
Qed.

Lemma vis_okb_kind f w use r : vis_okb pow_half f w use r = kind_okb (kind_vis pow_half) f use (vis_badb pow_half f w) r.
Proof. unfold vis_okb, kind_okb. cbn. now rewrite orb_false_r. Qed.
Lemma vis2_okb_kind f w use r : vis2_okb pow_half f w use r = kind_okb (kind_vis2 pow_half) f use (vis2_badb pow_half f w) r.
Proof. unfold vis2_okb, kind_okb. cbn. now rewrite orb_false_r. Qed.
Lemma t3_okb_kind f w use r : t3_okb pow_half f w use r = kind_okb (kind_t3 pow_half) f use (t3_badb pow_half f w) r.
Proof. reflexivity. Qed.
Lemma flux_okb_kind f use badb r : flux_okb f r = kind_okb kind_flux f use badb r.
Proof. unfold flux_okb, kind_okb. cbn. now rewrite !andb_true_r. Qed.

End Pow.

(** ** Flags *)

Lemma flags_updated_sel {R} (k : kind R) f w badb r r' :
  length (k_flag k r) = length (wv_eff_wave w) -> bad_decides k f w badb r ->
  k_flag k r' = sel (use_of f w) (flagcol (k_flag k r) (badb r)) ->
  flags_updated k f w (idx_of (use_of f w)) r r'.
Proof.
  intros HL HB HE. unfold flags_updated.
  assert (HU : length (use_of f w) = length (flagcol (k_flag k r) (badb r))) by (rewrite use_length, flagcol_length; lia).
  pose proof (picks_sel _ _ HU) as HP. rewrite <- HE in HP.
  split; [now apply picks_length in HP|]. intros m j x Hm Hx.
  assert (Hj : (j < length (wv_eff_wave w))%nat) by (apply nth_error_Some; congruence).
  destruct (some_nth (k_flag k r) j) as [b Hb]; [lia|].
  exists b, (b || badb r j). split; [exact Hb|]. split.
  - rewrite (picks_nth _ _ _ m j HP Hm). now apply flagcol_nth.
  - rewrite orb_true_iff, (HB j x Hx). tauto.
Qed.

(** ** Contents *)

Lemma new_id_spec f id : new_id f id (new_target_id f id).
Proof. unfold new_id, new_target_id. destruct (Z.leb_spec 0 (f_target_id f)); split; intros; try lia; reflexivity. Qed.

Lemma picks_opt_sel {A} use (c : option (list A)) : opt_col (length use) c ->
  picks_opt (idx_of use) c (option_map (sel use) c).
Proof. destruct c as [l|]; cbn; [|auto]. intros H. apply picks_sel. lia. Qed.

Lemma nth_error_mat {A} use (l : list A) idx k m j :
  (forall j, In j idx -> (j < length use)%nat) -> length l = (length use * length use)%nat ->
  nth_error idx k = Some j -> (m < cnt use)%nat ->
  nth_error (mat_rows use l idx) (k * cnt use + m) = nth_error (sel use (row (length use) l j)) m.
Proof.
  intros HI HL. revert k. induction idx as [|i idx IH]; intros k Hk Hm; [destruct k; discriminate|].
  unfold mat_rows. cbn [map concat]. fold (mat_rows use l idx).
  assert (SL : length (sel use (row (length use) l i)) = cnt use).
  { apply sel_length. symmetry. apply row_length; [apply HI; now left|exact HL]. }
  destruct k as [|k].
  - injection Hk as ->. cbn [Nat.mul Nat.add]. apply nth_error_app1. lia.
  - rewrite nth_error_app2 by lia. cbn in Hk.
    replace (S k * cnt use + m - length (sel use (row (length use) l i)))%nat with (k * cnt use + m)%nat by lia.
    apply IH; auto. intros; apply HI; now right.
Qed.

Lemma picks_matrix_mat {A} use (c : option (list A)) : opt_col (length use * length use) c ->
  picks_matrix (length use) (idx_of use) c (option_map (fun l => mat_rows use l (idx_of use)) c).
Proof.
  destruct c as [l|]; [|cbn; auto]. intros HL. cbn in HL. unfold picks_matrix. cbn [option_map].
  assert (HB : forall j, In j (idx_of use) -> (j < length use)%nat).
  { intros j Hj. apply idx_of_in in Hj. apply nth_error_Some. congruence. }
  split.
  - rewrite mat_rows_length by auto. now rewrite idx_of_length.
  - intros k m j l0 Hk Hm.
    assert (Hj : (j < length use)%nat) by (apply HB; eapply nth_error_In; eauto).
    assert (Hl : (l0 < length use)%nat) by (apply HB; eapply nth_error_In; eauto).
    assert (Hm' : (m < cnt use)%nat) by (rewrite <- idx_of_length; apply nth_error_Some; congruence).
    rewrite idx_of_length, (nth_error_mat _ _ _ _ _ j) by auto.
    assert (HR : length use = length (row (length use) l j)) by (symmetry; apply row_length; auto).
    rewrite (picks_nth _ _ _ m l0 (picks_sel use _ HR) Hm), row_nth by exact Hl.
    split; [reflexivity|]. apply nth_error_Some. nia.
Qed.

Lemma sel_const {A B} (c : B) use (l : list A) : length use = length l ->
  sel use (map (fun _ => c) l) = map (fun _ => c) (idx_of use).
Proof.
  intros H. rewrite sel_map. unfold idx_of.
  assert (G : forall s (l : list A), length use = length l ->
     map (fun _ => c) (sel use l) = map (fun _ => c) (sel use (seq s (length use)))).
  { clear. induction use as [|u us IH]; intros s [|a l] H; try discriminate; [reflexivity|].
    cbn [length seq sel]. injection H as H. destruct u; cbn [map]; now rewrite (IH (S s) l H). }
  now apply G.
Qed.

Lemma picks_or_nan_sel acc use col : length use = length col ->
  picks_or_nan acc (idx_of use) col (sel use (col_or_nan acc col)).
Proof.
  intros H. unfold picks_or_nan, col_or_nan. destruct acc; [now apply picks_sel|now apply sel_const].
Qed.

Section Pow.
Variable pow_half : f64 -> f64.

Lemma vis_data_kept_out f w x r n : wf_vis_record x n r = true -> 0 <= n ->
  length (wv_eff_wave w) = Z.to_nat n ->
  vis_data_kept f (Z.to_nat n) (idx_of (use_of f w)) r (vis_out pow_half f w (use_of f w) r).
Proof.
  intros Hwf H0 HW. apply wf_vis_record_parts in Hwf as (L1 & L2 & L3 & L4 & L5 & M & C1 & C2 & C3 & C4); [|exact H0].
  pose proof (use_length f w) as HU. set (use := use_of f w) in *.
  assert (OC : forall A (b : bool) (c : option (list A)), (if b then opt_len_is n c else is_none c) = true ->
             opt_col (length use) c).
  { intros A b [c|]; cbn; [|auto]. destruct b; [|discriminate]. intros G. apply len_is_eq in G. lia. }
  unfold vis_data_kept, vis_out, vis_scalars_same. cbn.
  split; [apply new_id_spec|]. split; [repeat split|].
  do 4 (split; [apply picks_sel; lia|]).
  split.
  { rewrite <- HW, <- HU. apply picks_matrix_mat.
    destruct (vr_visrefmap r) as [m|]; [|exact I]. cbn. destruct (vx_usevisrefmap x); [|discriminate].
    cbn in M. apply len_is_eq in M. rewrite HU, HW. nia. }
  split; [apply picks_opt_sel; eapply OC; eassumption|].
  split; [apply picks_opt_sel; eapply OC; eassumption|].
  split; apply picks_opt_sel; eapply OC; eassumption.
Qed.

Lemma vis2_data_kept_out f w r n : wf_vis2_record n r = true ->
  length (wv_eff_wave w) = Z.to_nat n ->
  vis2_data_kept f (idx_of (use_of f w)) r (vis2_out pow_half f w (use_of f w) r).
Proof.
  intros Hwf HW. unfold wf_vis2_record in Hwf. len_eqs.
  pose proof (use_length f w) as HU.
  unfold vis2_data_kept, vis2_out. cbn.
  split; [apply new_id_spec|]. repeat (split; [reflexivity|]). split; apply picks_sel; lia.
Qed.

Lemma t3_data_kept_out f w r n : wf_t3_record n r = true ->
  length (wv_eff_wave w) = Z.to_nat n ->
  t3_data_kept f (idx_of (use_of f w)) r (t3_out pow_half f w (use_of f w) r).
Proof.
  intros Hwf HW. unfold wf_t3_record in Hwf. len_eqs.
  pose proof (use_length f w) as HU.
  unfold t3_data_kept, t3_out. cbn.
  split; [apply new_id_spec|]. repeat (split; [reflexivity|]).
  split; [apply picks_or_nan_sel; lia|]. split; [apply picks_sel; lia|].
  split; [apply picks_or_nan_sel; lia|]. apply picks_sel; lia.
Qed.

End Pow.

Lemma flux_data_kept_out f w r n : wf_flux_record n r = true ->
  length (wv_eff_wave w) = Z.to_nat n ->
  flux_data_kept f (idx_of (use_of f w)) r (flux_out f (use_of f w) r).
Proof.
  intros Hwf HW. unfold wf_flux_record in Hwf. len_eqs.
  pose proof (use_length f w) as HU.
  unfold flux_data_kept, flux_out. cbn.
  assert (LC : length (use_of f w) = length (flux_col f r)).
  { unfold flux_col. rewrite map_length, combine_length. lia. }
  split; [apply new_id_spec|]. repeat (split; [reflexivity|]).
  split; [apply picks_sel; lia|]. split; [rewrite sel_length by exact LC; now rewrite idx_of_length|].
  intros k j Hk. rewrite (picks_nth _ _ _ k j (picks_sel _ _ LC) Hk).
  assert (Hj : (j < length (use_of f w))%nat).
  { apply nth_error_In, idx_of_in in Hk. apply nth_error_Some. congruence. }
  destruct (some_nth (fr_fluxdata r) j) as [a Ha]; [lia|]. destruct (some_nth (fr_fluxerr r) j) as [e He]; [lia|].
  pose proof (snr_spec f _ _ _ a e Ha He) as HS. rewrite (nthf_eq _ _ _ Ha), (nthf_eq _ _ _ He) in HS.
  unfold flux_col. rewrite nth_error_map, (nth_error_combine _ _ _ _ _ Ha He). cbn [option_map].
  split; intros G.
  - apply HS in G. now rewrite G.
  - destruct (outside_snr f (ratio_f32 a e)); [exfalso; apply G; now apply HS|]. now rewrite Ha.
Qed.

(** ** Flag columns that do not change *)

Lemma nth_error_eq {A} (l m : list A) : (forall i, nth_error l i = nth_error m i) -> l = m.
Proof.
  revert m. induction l as [|a l IH]; intros [|b m] H; auto.
  - specialize (H 0%nat). discriminate.
  - specialize (H 0%nat). discriminate.
  - f_equal; [specialize (H 0%nat); now injection H|]. apply IH. intros i. apply (H (S i)).
Qed.
Lemma flagcol_id flag badb : (forall j, nth_error flag j = Some false -> badb j = false) -> flagcol flag badb = flag.
Proof.
  intros H. apply nth_error_eq. intros j. destruct (nth_error flag j) as [b|] eqn:E.
  - rewrite (flagcol_nth _ _ _ _ E). destruct b; [reflexivity|]. now rewrite (H j E).
  - apply nth_error_None in E. apply nth_error_None. now rewrite flagcol_length.
Qed.
