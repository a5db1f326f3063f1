(** Filtering in steps: records of each kind. *)
From Verif Require Import Base BaseLemmas FloatModel Types FileModel FileSpec FileProofs FilterModel FilterSpec FilterLemmas FilterProofs FilterRecords FilterTables FilterApply FilterFacts FilterResults FilterOutput FilterFix FilterStepsSpec FilterStepsProofs.
From Coq Require Import Lia.

Section Pow.
Variable pow_half : f64 -> f64.
Section Steps.
Variables f1 f2 g : filter_spec.
Hypothesis ST : in_steps f1 f2 g.
Variable w : oi_wavelength.
Let w1 := wave_out f1 w.
Let u1 := use_of f1 w.

Lemma opt_then {A} (c : option (list A)) :
  option_map (sel (use_of f2 w1)) (option_map (sel u1) c) = option_map (sel (use_of g w)) c.
Proof. destruct c as [l|]; [|reflexivity]. cbn. f_equal. apply (sel_then f1 f2 g ST). Qed.

(** Accepting a record: the parts *)
Lemma okb_then a1 m1 b1 s1 a2 m2 b2 s2 a m b :
  negb a = negb a1 && negb a2 -> m = m1 || m2 -> b = b1 || b2 -> (s2 = true -> s1 = true) ->
  (negb a1 && negb m1 && negb b1 && (f_accept_flagged f1 || s1))
  && (negb a2 && negb m2 && negb b2 && (f_accept_flagged f2 || s2))
  = negb a && negb m && negb b && (f_accept_flagged g || s2).
Proof.
  intros -> -> -> HS. rewrite <- (flagged_then f1 f2 g ST s1 s2 HS).
  destruct a1, a2, m1, m2, b1, b2; cbn; rewrite ?andb_false_r; reflexivity.
Qed.

Lemma vis_bad_then x n r : wf_vis_record x n r = true -> 0 <= n -> length (wv_eff_wave w) = Z.to_nat n ->
  forall m j, nth_error (idx_of u1) m = Some j -> (j < length (vr_flag r))%nat ->
  vis_badb pow_half f1 w r j || vis_badb pow_half f2 w1 (vis_out pow_half f1 w u1 r) m = vis_badb pow_half g w r j.
Proof.
  intros Wf P LW m j Hm _. apply wf_vis_record_parts in Wf as (L1 & L2 & L3 & L4 & L5 & _); [|exact P].
  unfold vis_badb. cbn [vr_visamp vr_visamperr vr_visphierr vis_out].
  change (vis_bas pow_half (vis_out pow_half f1 w u1 r)) with (vis_bas pow_half r).
  unfold w1, u1 in *. rewrite (bad_wave f1 w m j Hm), !(bad_nthf f1 w _ m j) by (congruence || exact Hm).
  rewrite (uvrad_then _ _ _ ST), !(snr_then _ _ _ ST).
  repeat match goal with |- context [outside_uvrad ?a ?b] => destruct (outside_uvrad a b)
    | |- context [outside_snr ?a ?b] => destruct (outside_snr a b) end; reflexivity.
Qed.
Lemma vis_then x n r : wf_vis_record x n r = true -> 0 <= n -> length (wv_eff_wave w) = Z.to_nat n ->
  vis_okb pow_half f1 w u1 r && vis_okb pow_half f2 w1 (use_of f2 w1) (vis_out pow_half f1 w u1 r)
    = vis_okb pow_half g w (use_of g w) r
  /\ vis_out pow_half f2 w1 (use_of f2 w1) (vis_out pow_half f1 w u1 r) = vis_out pow_half g w (use_of g w) r.
Proof.
  intros Wf P LW. assert (HB := vis_bad_then x n r Wf P LW).
  apply wf_vis_record_parts in Wf as (L1 & L2 & L3 & L4 & L5 & M & _); [|exact P].
  assert (LF : length (vr_flag r) = length (wv_eff_wave w)) by congruence.
  split.
  - unfold vis_okb. cbn [vr_target_id vr_mjd vr_flag vis_out].
    change (vis_bas pow_half (vis_out pow_half f1 w u1 r)) with (vis_bas pow_half r).
    rewrite <- (some_then f1 f2 g ST w _ _ _ _ LF HB).
    apply okb_then; [apply (target_then _ _ _ ST)|apply (mjd_then _ _ _ ST)|apply (bas_then _ _ _ ST)|apply some_first].
  - unfold vis_out at 1 3. remember (vis_badb pow_half f2 w1 (vis_out pow_half f1 w u1 r)) as b2 eqn:Eb.
    cbn [vr_target_id vr_time vr_mjd vr_int_time vr_visamp vr_visamperr vr_corrindx_visamp
      vr_visphi vr_visphierr vr_corrindx_visphi vr_visrefmap vr_rvis vr_rviserr vr_corrindx_rvis vr_ivis vr_iviserr
      vr_corrindx_ivis vr_ucoord vr_vcoord vr_sta_index vr_flag vis_out].
    rewrite (new_id_then _ _ _ ST), !opt_then. unfold w1, u1 in *.
    rewrite (flags_then f1 f2 g ST w _ _ _ _ LF HB), !(sel_then f1 f2 g ST).
    f_equal. destruct (vr_visrefmap r) as [l|] eqn:E; [|reflexivity]. cbn [option_map]. f_equal. apply (mat_then f1 f2 g ST).
    destruct (vx_usevisrefmap x); [|discriminate]. cbn in M. apply len_is_eq in M. nia.
Qed.

Lemma vis2_bad_then n r : wf_vis2_record n r = true -> length (wv_eff_wave w) = Z.to_nat n ->
  forall m j, nth_error (idx_of u1) m = Some j -> (j < length (v2_flag r))%nat ->
  vis2_badb pow_half f1 w r j || vis2_badb pow_half f2 w1 (vis2_out pow_half f1 w u1 r) m = vis2_badb pow_half g w r j.
Proof.
  intros Wf LW m j Hm _. unfold wf_vis2_record in Wf. len_eqs.
  unfold vis2_badb. cbn [v2_vis2data v2_vis2err vis2_out].
  change (vis2_bas pow_half (vis2_out pow_half f1 w u1 r)) with (vis2_bas pow_half r).
  unfold w1, u1 in *. rewrite (bad_wave f1 w m j Hm), !(bad_nthf f1 w _ m j) by (lia || exact Hm).
  rewrite (uvrad_then _ _ _ ST), !(snr_then _ _ _ ST).
  repeat match goal with |- context [outside_uvrad ?a ?b] => destruct (outside_uvrad a b)
    | |- context [outside_snr ?a ?b] => destruct (outside_snr a b) end; reflexivity.
Qed.
Lemma vis2_then n r : wf_vis2_record n r = true -> length (wv_eff_wave w) = Z.to_nat n ->
  vis2_okb pow_half f1 w u1 r && vis2_okb pow_half f2 w1 (use_of f2 w1) (vis2_out pow_half f1 w u1 r)
    = vis2_okb pow_half g w (use_of g w) r
  /\ vis2_out pow_half f2 w1 (use_of f2 w1) (vis2_out pow_half f1 w u1 r) = vis2_out pow_half g w (use_of g w) r.
Proof.
  intros Wf LW. assert (HB := vis2_bad_then n r Wf LW). unfold wf_vis2_record in Wf. len_eqs.
  assert (LF : length (v2_flag r) = length (wv_eff_wave w)) by lia.
  split.
  - unfold vis2_okb. cbn [v2_target_id v2_mjd v2_flag vis2_out].
    change (vis2_bas pow_half (vis2_out pow_half f1 w u1 r)) with (vis2_bas pow_half r).
    rewrite <- (some_then f1 f2 g ST w _ _ _ _ LF HB).
    apply okb_then; [apply (target_then _ _ _ ST)|apply (mjd_then _ _ _ ST)|apply (bas_then _ _ _ ST)|apply some_first].
  - unfold vis2_out at 1 3. remember (vis2_badb pow_half f2 w1 (vis2_out pow_half f1 w u1 r)) as b2 eqn:Eb.
    cbn [v2_target_id v2_time v2_mjd v2_int_time v2_vis2data v2_vis2err v2_corrindx_vis2data
      v2_ucoord v2_vcoord v2_sta_index v2_flag vis2_out].
    rewrite (new_id_then _ _ _ ST). unfold w1, u1 in *.
    now rewrite (flags_then f1 f2 g ST w _ _ _ _ LF HB), !(sel_then f1 f2 g ST).
Qed.

(** OI_T3: when neither filter drops the tables *)
Hypothesis HT : f_accept_t3phi f1 = f_accept_t3phi f2 /\ (f_accept_t3amp f1 = true -> f_accept_t3amp f2 = true).

Lemma nan_inside f e : outside_snr f (ratio_f32 f64_nan e) = false.
Proof. unfold outside_snr, outside, flt, fgt, SFltb. destruct (f_snr_lo f), (f_snr_hi f); reflexivity. Qed.
Lemma nthf_nan (col : list f64) m : nthf (map (fun _ => f64_nan) col) m = f64_nan.
Proof. unfold nthf. rewrite nth_error_map. now destruct (nth_error col m). Qed.
Lemma or_nan_then a1 a2 (col : list f64) :
  sel (use_of f2 w1) (col_or_nan a2 (sel u1 (col_or_nan a1 col))) = sel (use_of g w) (col_or_nan (a1 && a2) col).
Proof.
  destruct a1, a2; cbn [col_or_nan andb]; rewrite ?sel_map, ?map_map, <- ?(sel_then f1 f2 g ST w), ?sel_map; reflexivity.
Qed.
Lemma t3_bad_then n r : wf_t3_record n r = true -> length (wv_eff_wave w) = Z.to_nat n ->
  forall m j, nth_error (idx_of u1) m = Some j -> (j < length (t3_flag r))%nat ->
  t3_badb pow_half f1 w r j || t3_badb pow_half f2 w1 (t3_out pow_half f1 w u1 r) m = t3_badb pow_half g w r j.
Proof.
  intros Wf LW m j Hm _. unfold wf_t3_record in Wf. len_eqs. destruct HT as [HT1 HT2].
  unfold t3_badb. cbn [t3_t3amp t3_t3amperr t3_t3phierr t3_out].
  change (t3_bases pow_half (t3_out pow_half f1 w u1 r)) with (t3_bases pow_half r).
  unfold w1, u1 in *. rewrite (bad_wave f1 w m j Hm), (bad_nthf f1 w (t3_t3amperr r) m j), (bad_nthf f1 w (t3_t3phierr r) m j)
    by (lia || exact Hm).
  rewrite (st_t3amp _ _ _ ST), (st_t3phi _ _ _ ST), <- HT1, !(snr_then _ _ _ ST).
  assert (EU : existsb (fun b => outside_uvrad g (waves_of b (nth_wave w j))) (t3_bases pow_half r)
    = existsb (fun b => outside_uvrad f1 (waves_of b (nth_wave w j))) (t3_bases pow_half r)
      || existsb (fun b => outside_uvrad f2 (waves_of b (nth_wave w j))) (t3_bases pow_half r)).
  { generalize (t3_bases pow_half r). induction l as [|b l IH]; [reflexivity|]. cbn. rewrite IH, (uvrad_then _ _ _ ST).
    repeat match goal with |- context [outside_uvrad ?a ?b] => destruct (outside_uvrad a b) end; cbn;
      rewrite ?orb_true_r; reflexivity. }
  rewrite EU.
  set (e1 := existsb (fun b => outside_uvrad f1 _) _). set (e2 := existsb (fun b => outside_uvrad f2 _) _).
  destruct (f_accept_t3amp f1) eqn:A.
  - rewrite (HT2 eq_refl). cbn [col_or_nan]. rewrite (bad_nthf f1 w (t3_t3amp r) m j) by (lia || exact Hm). cbn [andb].
    destruct e1, e2, (f_accept_t3phi f1);
    repeat match goal with |- context [outside_snr ?a ?b] => destruct (outside_snr a b) end; reflexivity.
  - cbn [col_or_nan andb]. rewrite sel_map, nthf_nan, nan_inside. rewrite andb_false_r. cbn [orb].
    destruct e1, e2, (f_accept_t3phi f1);
    repeat match goal with |- context [outside_snr ?a ?b] => destruct (outside_snr a b) end; reflexivity.
Qed.
Lemma existsb_bas_then l : existsb (skip_bas g) l = existsb (skip_bas f1) l || existsb (skip_bas f2) l.
Proof.
  induction l as [|b l IH]; [reflexivity|]. cbn. rewrite IH, (bas_then _ _ _ ST).
  destruct (skip_bas f1 b), (skip_bas f2 b); cbn; rewrite ?orb_true_r; reflexivity.
Qed.
Lemma t3_then n r : wf_t3_record n r = true -> length (wv_eff_wave w) = Z.to_nat n ->
  t3_okb pow_half f1 w u1 r && t3_okb pow_half f2 w1 (use_of f2 w1) (t3_out pow_half f1 w u1 r)
    = t3_okb pow_half g w (use_of g w) r
  /\ t3_out pow_half f2 w1 (use_of f2 w1) (t3_out pow_half f1 w u1 r) = t3_out pow_half g w (use_of g w) r.
Proof.
  intros Wf LW. assert (HB := t3_bad_then n r Wf LW). unfold wf_t3_record in Wf. len_eqs.
  assert (LF : length (t3_flag r) = length (wv_eff_wave w)) by lia.
  split.
  - unfold t3_okb. cbn [t3_target_id t3_mjd t3_flag t3_out].
    change (t3_bases pow_half (t3_out pow_half f1 w u1 r)) with (t3_bases pow_half r).
    rewrite <- (some_then f1 f2 g ST w _ _ _ _ LF HB).
    apply okb_then; [apply (target_then _ _ _ ST)|apply (mjd_then _ _ _ ST)|apply existsb_bas_then|apply some_first].
  - unfold t3_out at 1 3. remember (t3_badb pow_half f2 w1 (t3_out pow_half f1 w u1 r)) as b2 eqn:Eb.
    cbn [t3_target_id t3_time t3_mjd t3_int_time t3_t3amp t3_t3amperr t3_corrindx_t3amp
      t3_t3phi t3_t3phierr t3_corrindx_t3phi t3_u1coord t3_v1coord t3_u2coord t3_v2coord t3_sta_index t3_flag t3_out].
    rewrite (new_id_then _ _ _ ST), !or_nan_then, (st_t3amp _ _ _ ST), (st_t3phi _ _ _ ST). unfold w1, u1 in *.
    now rewrite (flags_then f1 f2 g ST w _ _ _ _ LF HB), !(sel_then f1 f2 g ST).
Qed.

Lemma flux_col_then r : length (fr_fluxdata r) = length (fr_fluxerr r) -> length u1 = length (fr_fluxdata r) ->
  flux_col f2 (flux_out f1 u1 r) = sel u1 (flux_col g r).
Proof.
  unfold flux_col. cbn [fr_fluxdata fr_fluxerr flux_out]. unfold flux_col.
  generalize u1 (fr_fluxdata r) (fr_fluxerr r).
  intros use. induction use as [|u us IH]; intros [|a l] [|e m] L1 L2; try discriminate; try reflexivity.
  injection L1 as L1. injection L2 as L2. cbn [combine map sel].
  destruct u; [|now apply IH]. cbn [combine map]. rewrite (IH l m L1 L2). f_equal.
  rewrite (snr_then _ _ _ ST). destruct (outside_snr f1 (ratio_f32 a e)) eqn:E; [now rewrite nan_inside|reflexivity].
Qed.
Lemma flux_then n r : wf_flux_record n r = true -> length (wv_eff_wave w) = Z.to_nat n ->
  flux_okb f1 r && flux_okb f2 (flux_out f1 u1 r) = flux_okb g r
  /\ flux_out f2 (use_of f2 w1) (flux_out f1 u1 r) = flux_out g (use_of g w) r.
Proof.
  intros Wf LW. unfold wf_flux_record in Wf. len_eqs. split.
  - unfold flux_okb. cbn [fr_target_id fr_mjd flux_out]. rewrite (target_then _ _ _ ST), (mjd_then _ _ _ ST).
    destruct (skip_target f1 (fr_target_id r)), (skip_mjd f1 (fr_mjd r)), (skip_mjd f2 (fr_mjd r)),
      (skip_target f2 (new_target_id f1 (fr_target_id r))); reflexivity.
  - unfold flux_out at 1. rewrite flux_col_then by (unfold u1; rewrite ?use_length; lia).
    unfold flux_out. cbn [fr_target_id fr_mjd fr_int_time fr_fluxerr fr_corrindx_fluxdata fr_sta_index fr_flag].
    rewrite (new_id_then _ _ _ ST). unfold w1, u1. now rewrite !(sel_then f1 f2 g ST).
Qed.
End Steps.
End Pow.
