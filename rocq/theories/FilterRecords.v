(** Refinement of the record-level filter functions to pure list functions. *)
From Verif Require Import Base BaseLemmas FloatModel Types FileModel FileSpec FileProofs FilterModel FilterSpec FilterLemmas FilterProofs.
From Coq Require Import Lia.

Definition nthb (l : list bool) (j : nat) : bool :=
  match nth_error l j with Some b => b | None => false end.

(** The new flag column (all channels) *)
Definition flagcol (flag : list bool) (badb : nat -> bool) : list bool :=
  map (fun j => nthb flag j || badb j) (seq 0 (length flag)).

Lemma flagcol_length flag badb : length (flagcol flag badb) = length flag.
Proof. unfold flagcol. now rewrite map_length, seq_length. Qed.
Lemma nth_error_seq0 n j : (j < n)%nat -> nth_error (seq 0 n) j = Some j.
Proof.
  intros H. rewrite (nth_error_nth' (seq 0 n) 0%nat) by (rewrite seq_length; lia).
  rewrite seq_nth by lia. reflexivity.
Qed.
Lemma flagcol_nth flag badb j fl : nth_error flag j = Some fl ->
  nth_error (flagcol flag badb) j = Some (fl || badb j).
Proof.
  intros H. assert (j < length flag)%nat by (apply nth_error_Some; congruence).
  unfold flagcol. rewrite nth_error_map, nth_error_seq0 by lia. cbn [option_map].
  unfold nthb. now rewrite H.
Qed.

Lemma existsb_app {A} (p : A -> bool) l m : existsb p (l ++ m) = existsb p l || existsb p m.
Proof. induction l as [|a l IH]; [reflexivity|]. cbn. rewrite IH. apply orb_assoc. Qed.

Lemma existsb_sel {A} (p : A -> bool) use (l : list A) :
  existsb p (sel use l) = true <->
  exists j a, nth_error use j = Some true /\ nth_error l j = Some a /\ p a = true.
Proof.
  revert l. induction use as [|u us IH]; intros l.
  - cbn. split; [discriminate|]. intros (j & a & H & _). now destruct j.
  - destruct l as [|b l].
    + cbn. split; [discriminate|]. intros (j & a & _ & H & _). now destruct j.
    + cbn [sel].
      assert (T : (exists j a, nth_error (u :: us) j = Some true /\ nth_error (b :: l) j = Some a /\ p a = true)
        <-> (u = true /\ p b = true) \/
            exists j a, nth_error us j = Some true /\ nth_error l j = Some a /\ p a = true).
      { split.
        - intros (j & a & H1 & H2 & H3). destruct j as [|j].
          + left. cbn in H1, H2. split; congruence.
          + right. exists j, a. auto.
        - intros [[-> Hp]|(j & a & H)]; [exists 0%nat, b; auto|exists (S j), a; auto]. }
      rewrite T. destruct u.
      * cbn [existsb]. rewrite orb_true_iff, IH. intuition.
      * rewrite IH. intuition congruence.
Qed.

Lemma selu_len_all {A} use (l : list A) : length use = length l -> selu (length use) use l = sel use l.
Proof. intros H. apply selu_all; lia. Qed.

Lemma contents_sel {A} use (l : list A) cap : length use = length l -> cap = cnt use ->
  contents (fill cap (selu (length use) use l)) = Ok (sel use l).
Proof.
  intros H ->. rewrite selu_len_all by exact H. apply contents_fill. now apply sel_length.
Qed.

(** Some accepted channel stays unflagged *)
Definition some_ok (use flag : list bool) (badb : nat -> bool) : bool :=
  existsb negb (sel use (flagcol flag badb)).

Lemma any_some_ok (body : Z -> res bool) use flag badb n :
  length use = Z.to_nat n -> length flag = Z.to_nat n ->
  (forall k u fl, nth_error use k = Some u -> nth_error flag k = Some fl ->
     body (Z.of_nat k) = Ok (u && negb (fl || badb k))) ->
  any_ n body = Ok (some_ok use flag badb).
Proof.
  intros HU HF H.
  rewrite (any_spec n body (fun k => nthb use k && negb (nthb flag k || badb k))).
  - f_equal. apply eq_true_iff_eq. unfold some_ok. rewrite existsb_sel, existsb_exists. split.
    + intros (k & Hk & E). apply in_seq in Hk. apply andb_true_iff in E as [E1 E2].
      destruct (some_nth flag k) as [fl Hfl]; [lia|].
      exists k, (fl || badb k). split; [|split].
      * unfold nthb in E1. destruct (nth_error use k); congruence.
      * now apply flagcol_nth.
      * unfold nthb in E2. now rewrite Hfl in E2.
    + intros (k & a & H1 & H2 & H3).
      assert (k < length use)%nat by (apply nth_error_Some; congruence).
      exists k. split; [apply in_seq; lia|]. unfold nthb at 1. rewrite H1. cbn [andb].
      destruct (some_nth flag k) as [fl Hfl]; [lia|].
      rewrite (flagcol_nth _ _ _ _ Hfl) in H2. injection H2 as <-.
      unfold nthb. now rewrite Hfl.
  - intros k Hk. destruct (some_nth use k) as [u Hu]; [lia|].
    destruct (some_nth flag k) as [fl Hfl]; [lia|].
    rewrite (H _ _ _ Hu Hfl). unfold nthb. now rewrite Hu, Hfl.
Qed.

Ltac len_eqs := repeat match goal with
  | H : _ && _ = true |- _ => apply andb_true_iff in H; destruct H
  | H : len_is _ _ = true |- _ => apply len_is_eq in H
  end.

Lemma bind_eq {A B} (e : res A) a (k : A -> res B) : e = Ok a -> bind e k = k a.
Proof. intros ->. reflexivity. Qed.

Section Pow.
Variable pow_half : f64 -> f64.

(** Common facts about the OI_WAVELENGTH used for a table with [n] channels *)
Definition wave_fits (w : oi_wavelength) (use : list bool) (n : Z) : Prop :=
  length (wv_eff_wave w) = Z.to_nat n /\ length use = Z.to_nat n /\ 0 <= n.

Definition nth_wave (w : oi_wavelength) (j : nat) : f32 :=
  match nth_error (wv_eff_wave w) j with Some x => x | None => S754_nan end.

Lemma bad_uvrad_ok f w bas j x : nth_error (wv_eff_wave w) j = Some x ->
  bad_uvrad f (Some w) bas (Z.of_nat j) = Ok (outside_uvrad f (waves_of bas (nth_wave w j))).
Proof.
  intros H. unfold bad_uvrad, uv_radius. rewrite (get_nth_error _ _ _ H). cbn [bind].
  unfold nth_wave. rewrite H. reflexivity.
Qed.

Definition nthf (l : list f64) (j : nat) : f64 :=
  match nth_error l j with Some x => x | None => S754_nan end.
Lemma nthf_eq l j x : nth_error l j = Some x -> nthf l j = x.
Proof. intros H. unfold nthf. now rewrite H. Qed.

Ltac nth_of l k x H := destruct (some_nth l k) as [x H]; [lia|].

(** *** OI_VIS2 *)

Definition vis2_badb (f : filter_spec) (w : oi_wavelength) (r : vis2_record) (j : nat) : bool :=
  outside_uvrad f (waves_of (vis2_bas pow_half r) (nth_wave w j))
  || outside_snr f (ratio_f32 (nthf (v2_vis2data r) j) (nthf (v2_vis2err r) j)).

Lemma vis2_any f w r use n : wave_fits w use n -> wf_vis2_record n r = true ->
  any_vis2_chan_ok pow_half r f (Some w) use n = Ok (some_ok use (v2_flag r) (vis2_badb f w r)).
Proof.
  intros (HW & HU & H0) Hwf. unfold wf_vis2_record in Hwf. len_eqs.
  unfold any_vis2_chan_ok. apply any_some_ok; [exact HU|lia|].
  intros k u fl Hu Hfl. rewrite (get_nth_error _ _ _ Hu), (get_nth_error _ _ _ Hfl). cbn [bind].
  assert (k < length use)%nat by (apply nth_error_Some; congruence).
  destruct u; [|reflexivity]. cbn [negb andb]. destruct fl; [reflexivity|]. cbn [orb].
  nth_of (wv_eff_wave w) k x Hx. nth_of (v2_vis2data r) k a Ha. nth_of (v2_vis2err r) k e He.
  rewrite (bad_uvrad_ok f w _ k x Hx). cbn [bind].
  unfold vis2_bad_snr. rewrite (get_nth_error _ _ _ Ha), (get_nth_error _ _ _ He). cbn [bind].
  unfold vis2_badb. fold (vis2_bas pow_half r). rewrite (nthf_eq _ _ _ Ha), (nthf_eq _ _ _ He).
  change (baseline pow_half (v2_ucoord r) (v2_vcoord r)) with (vis2_bas pow_half r).
  destruct (outside_uvrad f (waves_of (vis2_bas pow_half r) (nth_wave w k))); reflexivity.
Qed.

Definition vis2_out (f : filter_spec) (w : oi_wavelength) (use : list bool) (r : vis2_record) : vis2_record :=
  mk_vis2_record (new_target_id f (v2_target_id r)) (v2_time r) (v2_mjd r) (v2_int_time r)
    (sel use (v2_vis2data r)) (sel use (v2_vis2err r)) (v2_corrindx_vis2data r)
    (v2_ucoord r) (v2_vcoord r) (v2_sta_index r) (sel use (flagcol (v2_flag r) (vis2_badb f w r))).

Definition vis2_traj f w use r i :=
  let cap := cnt use in
  mk_vis2_bufs (Z.of_nat (cntu i use)) (existsb negb (selu i use (flagcol (v2_flag r) (vis2_badb f w r))))
    (fill cap (selu i use (v2_vis2data r))) (fill cap (selu i use (v2_vis2err r)))
    (fill cap (selu i use (flagcol (v2_flag r) (vis2_badb f w r)))).

Lemma vis2_record_filter f w r use n : wave_fits w use n -> wf_vis2_record n r = true ->
  (0 < cnt use)%nat -> f_accept_flagged f || some_ok use (v2_flag r) (vis2_badb f w r) = true ->
  filter_oi_vis2_record pow_half f (Some w) use n (Z.of_nat (cnt use)) r = Ok (vis2_out f w use r).
Proof.
  intros (HW & HU & H0) Hwf Hc Hok. unfold wf_vis2_record in Hwf. len_eqs.
  unfold filter_oi_vis2_record. rewrite !alloc_ok by lia. cbn [bind]. rewrite Nat2Z.id.
  set (fc := flagcol (v2_flag r) (vis2_badb f w r)) in *.
  assert (HFC : length fc = length (v2_flag r)) by apply flagcol_length.
  rewrite (for_det _ (vis2_traj f w use r) n _ (vis2_traj f w use r (Z.to_nat n))); [|reflexivity|reflexivity|].
  - cbn [bind]. unfold vis2_traj. fold fc. rewrite <- HU. cbn [v2b_some v2b_data v2b_err v2b_flag].
    rewrite selu_len_all by lia. unfold some_ok in Hok. fold fc in Hok. rewrite Hok. cbn [assert_ bind].
    rewrite <- (selu_len_all use fc) by lia.
    rewrite !contents_sel by lia. reflexivity.
  - intros k Hk. unfold vis2_traj. fold fc. unfold vis2_channel.
    nth_of use k u Hu. nth_of (v2_flag r) k fl Hfl.
    nth_of (wv_eff_wave w) k x Hx. nth_of (v2_vis2data r) k a Ha. nth_of (v2_vis2err r) k e He.
    pose proof (flagcol_nth _ (vis2_badb f w r) _ _ Hfl) as Hfc. fold fc in Hfc.
    rewrite (get_nth_error _ _ _ Hu). cbn [bind]. cbv zeta. cbn [v2b_k v2b_some v2b_data v2b_err v2b_flag].
    destruct u; cbn [negb].
    + rewrite (get_nth_error _ _ _ Ha). cbn [bind]. rewrite (write_sel k use _ a) by (auto; lia). cbn [bind].
      rewrite (get_nth_error _ _ _ He). cbn [bind]. rewrite (write_sel k use _ e) by (auto; lia). cbn [bind].
      rewrite (get_nth_error _ _ _ Hfl). cbn [bind].
      match goal with |- bind ?e _ = _ => assert (EF : e = Ok (fl || vis2_badb f w r k)) end.
      { destruct fl; [reflexivity|]. rewrite (bad_uvrad_ok f w _ k x Hx). cbn [bind].
        unfold vis2_bad_snr. rewrite (get_nth_error _ _ _ Ha), (get_nth_error _ _ _ He). cbn [bind orb].
        unfold vis2_badb. rewrite (nthf_eq _ _ _ Ha), (nthf_eq _ _ _ He). reflexivity. }
      rewrite EF. cbn [bind]. rewrite (write_sel k use fc _ _ ltac:(lia) eq_refl Hu Hfc). cbn [bind].
      rewrite (cntu_step _ _ _ Hu).
      rewrite (selu_step k use fc _ _ ltac:(lia) Hu Hfc), existsb_app. cbn [existsb]. rewrite orb_false_r.
      f_equal. f_equal. lia.
    + rewrite (cntu_step _ _ _ Hu), Nat.add_0_r.
      rewrite (selu_skip k use _ a), (selu_skip k use _ e), (selu_skip k use fc _ ltac:(lia) Hu Hfc) by (auto; lia).
      reflexivity.
Qed.

Definition vis2_okb (f : filter_spec) (w : oi_wavelength) (use : list bool) (r : vis2_record) : bool :=
  negb (skip_target f (v2_target_id r)) && negb (skip_mjd f (v2_mjd r))
  && negb (skip_bas f (vis2_bas pow_half r))
  && (f_accept_flagged f || some_ok use (v2_flag r) (vis2_badb f w r)).

Lemma vis2_record_ok_ok f w r use n : wave_fits w use n -> wf_vis2_record n r = true ->
  vis2_record_ok pow_half f (Some w) use n r = Ok (vis2_okb f w use r).
Proof.
  intros HW Hwf. unfold vis2_record_ok, vis2_okb.
  destruct (skip_target f (v2_target_id r)); [reflexivity|].
  destruct (skip_mjd f (v2_mjd r)); [reflexivity|].
  change (baseline pow_half (v2_ucoord r) (v2_vcoord r)) with (vis2_bas pow_half r).
  destruct (skip_bas f (vis2_bas pow_half r)); [reflexivity|].
  destruct (f_accept_flagged f); [reflexivity|]. cbn [negb andb orb].
  now apply vis2_any.
Qed.

(** *** OI_FLUX *)

Definition flux_col (f : filter_spec) (r : flux_record) : list f64 :=
  map (fun '(a, e) => if outside_snr f (ratio_f32 a e) then f64_nan else a)
    (combine (fr_fluxdata r) (fr_fluxerr r)).
Definition flux_out (f : filter_spec) (use : list bool) (r : flux_record) : flux_record :=
  mk_flux_record (new_target_id f (fr_target_id r)) (fr_mjd r) (fr_int_time r)
    (sel use (flux_col f r)) (sel use (fr_fluxerr r)) (fr_corrindx_fluxdata r) (fr_sta_index r)
    (sel use (fr_flag r)).
Definition flux_traj f use r i :=
  let cap := cnt use in
  mk_flux_bufs (Z.of_nat (cntu i use)) (fill cap (selu i use (flux_col f r)))
    (fill cap (selu i use (fr_fluxerr r))) (fill cap (selu i use (fr_flag r))).

Lemma nth_error_combine {A B} (l : list A) (m : list B) i a b :
  nth_error l i = Some a -> nth_error m i = Some b -> nth_error (combine l m) i = Some (a, b).
Proof.
  revert l m. induction i as [|i IH]; intros [|x l] [|y m]; cbn; try discriminate; auto.
  congruence.
Qed.

Lemma flux_record_filter f r use n : length use = Z.to_nat n -> wf_flux_record n r = true ->
  (0 < cnt use)%nat ->
  filter_oi_flux_record f use n (Z.of_nat (cnt use)) r = Ok (flux_out f use r).
Proof.
  intros HU Hwf Hc. unfold wf_flux_record in Hwf. len_eqs.
  unfold filter_oi_flux_record. rewrite !alloc_ok by lia. cbn [bind]. rewrite Nat2Z.id.
  assert (HFC : length (flux_col f r) = length use).
  { unfold flux_col. rewrite map_length, combine_length. lia. }
  rewrite (for_det _ (flux_traj f use r) n _ (flux_traj f use r (Z.to_nat n))); [|reflexivity|reflexivity|].
  - cbn [bind]. unfold flux_traj. rewrite <- HU. cbn [fb_data fb_err fb_flag].
    rewrite !contents_sel by lia. reflexivity.
  - intros k Hk. unfold flux_traj. unfold flux_channel.
    nth_of use k u Hu. nth_of (fr_flag r) k fl Hfl.
    nth_of (fr_fluxdata r) k a Ha. nth_of (fr_fluxerr r) k e He.
    assert (Hfc : nth_error (flux_col f r) k = Some (if outside_snr f (ratio_f32 a e) then f64_nan else a)).
    { unfold flux_col. rewrite nth_error_map, (nth_error_combine _ _ _ _ _ Ha He). reflexivity. }
    rewrite (get_nth_error _ _ _ Hu). cbn [bind]. cbv zeta. cbn [fb_k fb_data fb_err fb_flag].
    destruct u; cbn [negb].
    + rewrite (get_nth_error _ _ _ Ha), (get_nth_error _ _ _ He). cbn [bind].
      rewrite (write_sel k use (flux_col f r) _ _ ltac:(lia) eq_refl Hu Hfc). cbn [bind].
      rewrite (write_sel k use _ e) by (auto; lia). cbn [bind].
      rewrite (get_nth_error _ _ _ Hfl). cbn [bind]. rewrite (write_sel k use _ fl) by (auto; lia). cbn [bind].
      rewrite (cntu_step _ _ _ Hu). f_equal. f_equal. lia.
    + rewrite (cntu_step _ _ _ Hu), Nat.add_0_r.
      rewrite (selu_skip k use (flux_col f r) _ ltac:(lia) Hu Hfc), (selu_skip k use _ e), (selu_skip k use _ fl) by (auto; lia).
      reflexivity.
Qed.

Definition flux_okb (f : filter_spec) (r : flux_record) : bool :=
  negb (skip_target f (fr_target_id r)) && negb (skip_mjd f (fr_mjd r)).

(** *** OI_T3 *)

Definition t3_badb (f : filter_spec) (w : oi_wavelength) (r : t3_record) (j : nat) : bool :=
  existsb (fun b => outside_uvrad f (waves_of b (nth_wave w j))) (t3_bases pow_half r)
  || (f_accept_t3amp f && outside_snr f (ratio_f32 (nthf (t3_t3amp r) j) (nthf (t3_t3amperr r) j))
      || f_accept_t3phi f && outside_snr f (ratio_f32 c_rad2deg (nthf (t3_t3phierr r) j))).

Lemma t3_bad_uvrad_ok f w r j x : nth_error (wv_eff_wave w) j = Some x ->
  t3_bad_uvrad pow_half f w r (Z.of_nat j)
  = Ok (existsb (fun b => outside_uvrad f (waves_of b (nth_wave w j))) (t3_bases pow_half r)).
Proof.
  intros H. unfold t3_bad_uvrad, uv_radius. rewrite (get_nth_error _ _ _ H). cbn [bind].
  unfold t3_bases, nth_wave. rewrite H. cbn [existsb]. rewrite orb_false_r, <- orb_assoc. reflexivity.
Qed.
Lemma t3_bad_snr_ok f r j a ae pe : nth_error (t3_t3amp r) j = Some a ->
  nth_error (t3_t3amperr r) j = Some ae -> nth_error (t3_t3phierr r) j = Some pe ->
  t3_bad_snr f r (Z.of_nat j) =
  Ok (f_accept_t3amp f && outside_snr f (ratio_f32 (nthf (t3_t3amp r) j) (nthf (t3_t3amperr r) j))
      || f_accept_t3phi f && outside_snr f (ratio_f32 c_rad2deg (nthf (t3_t3phierr r) j))).
Proof.
  intros Ha Hae Hpe. unfold t3_bad_snr.
  rewrite (get_nth_error _ _ _ Ha), (get_nth_error _ _ _ Hae), (get_nth_error _ _ _ Hpe). cbn [bind].
  rewrite (nthf_eq _ _ _ Ha), (nthf_eq _ _ _ Hae), (nthf_eq _ _ _ Hpe). reflexivity.
Qed.

Lemma t3_any f w r use n : wave_fits w use n -> wf_t3_record n r = true ->
  any_t3_chan_ok pow_half r f (Some w) use n = Ok (some_ok use (t3_flag r) (t3_badb f w r)).
Proof.
  intros (HW & HU & H0) Hwf. unfold wf_t3_record in Hwf. len_eqs.
  unfold any_t3_chan_ok. apply any_some_ok; [exact HU|lia|].
  intros k u fl Hu Hfl. rewrite (get_nth_error _ _ _ Hu), (get_nth_error _ _ _ Hfl). cbn [bind].
  assert (k < length use)%nat by (apply nth_error_Some; congruence).
  destruct u; [|reflexivity]. cbn [negb andb]. destruct fl; [reflexivity|]. cbn [orb].
  nth_of (wv_eff_wave w) k x Hx. nth_of (t3_t3amp r) k a Ha. nth_of (t3_t3amperr r) k ae Hae.
  nth_of (t3_t3phierr r) k pe Hpe.
  rewrite (t3_bad_uvrad_ok f w _ k x Hx). cbn [bind].
  rewrite (t3_bad_snr_ok f r k a ae pe Ha Hae Hpe). cbn [bind].
  unfold t3_badb.
  destruct (existsb (fun b => outside_uvrad f (waves_of b (nth_wave w k))) (t3_bases pow_half r)); reflexivity.
Qed.

Definition col_or_nan (acc : bool) (l : list f64) : list f64 :=
  if acc then l else map (fun _ => f64_nan) l.
Lemma col_or_nan_length acc l : length (col_or_nan acc l) = length l.
Proof. destruct acc; [reflexivity|apply map_length]. Qed.
Lemma col_or_nan_nth acc l k x : nth_error l k = Some x ->
  nth_error (col_or_nan acc l) k = Some (if acc then x else f64_nan).
Proof. intros H. destruct acc; [exact H|]. cbn. now rewrite nth_error_map, H. Qed.

Definition t3_out (f : filter_spec) (w : oi_wavelength) (use : list bool) (r : t3_record) : t3_record :=
  mk_t3_record (new_target_id f (t3_target_id r)) (t3_time r) (t3_mjd r) (t3_int_time r)
    (sel use (col_or_nan (f_accept_t3amp f) (t3_t3amp r))) (sel use (t3_t3amperr r)) (t3_corrindx_t3amp r)
    (sel use (col_or_nan (f_accept_t3phi f) (t3_t3phi r))) (sel use (t3_t3phierr r)) (t3_corrindx_t3phi r)
    (t3_u1coord r) (t3_v1coord r) (t3_u2coord r) (t3_v2coord r) (t3_sta_index r)
    (sel use (flagcol (t3_flag r) (t3_badb f w r))).
Definition t3_traj f w use r i :=
  let cap := cnt use in
  mk_t3_bufs (Z.of_nat (cntu i use)) (existsb negb (selu i use (flagcol (t3_flag r) (t3_badb f w r))))
    (fill cap (selu i use (col_or_nan (f_accept_t3amp f) (t3_t3amp r))))
    (fill cap (selu i use (t3_t3amperr r)))
    (fill cap (selu i use (col_or_nan (f_accept_t3phi f) (t3_t3phi r))))
    (fill cap (selu i use (t3_t3phierr r)))
    (fill cap (selu i use (flagcol (t3_flag r) (t3_badb f w r)))).

Lemma t3_record_filter f w r use n : wave_fits w use n -> wf_t3_record n r = true ->
  (0 < cnt use)%nat -> f_accept_flagged f || some_ok use (t3_flag r) (t3_badb f w r) = true ->
  filter_oi_t3_record pow_half f (Some w) use n (Z.of_nat (cnt use)) r = Ok (t3_out f w use r).
Proof.
  intros (HW & HU & H0) Hwf Hc Hok. unfold wf_t3_record in Hwf. len_eqs.
  unfold filter_oi_t3_record. rewrite !alloc_ok by lia. cbn [bind]. rewrite Nat2Z.id.
  set (fc := flagcol (t3_flag r) (t3_badb f w r)) in *.
  set (ca := col_or_nan (f_accept_t3amp f) (t3_t3amp r)) in *.
  set (cp := col_or_nan (f_accept_t3phi f) (t3_t3phi r)) in *.
  assert (HFC : length fc = length (t3_flag r)) by apply flagcol_length.
  assert (HCA : length ca = length (t3_t3amp r)) by apply col_or_nan_length.
  assert (HCP : length cp = length (t3_t3phi r)) by apply col_or_nan_length.
  rewrite (for_det _ (t3_traj f w use r) n _ (t3_traj f w use r (Z.to_nat n))); [|reflexivity|reflexivity|].
  - cbn [bind]. unfold t3_traj. fold fc ca cp. rewrite <- HU. cbn [tb_some tb_amp tb_amperr tb_phi tb_phierr tb_flag].
    rewrite selu_len_all by lia. unfold some_ok in Hok. fold fc in Hok. rewrite Hok. cbn [assert_ bind].
    rewrite <- (selu_len_all use fc) by lia.
    rewrite !contents_sel by lia. reflexivity.
  - intros k Hk. unfold t3_traj. fold fc ca cp. unfold t3_channel.
    nth_of use k u Hu. nth_of (t3_flag r) k fl Hfl.
    nth_of (wv_eff_wave w) k x Hx. nth_of (t3_t3amp r) k a Ha. nth_of (t3_t3amperr r) k ae Hae.
    nth_of (t3_t3phi r) k p Hp. nth_of (t3_t3phierr r) k pe Hpe.
    pose proof (flagcol_nth _ (t3_badb f w r) _ _ Hfl) as Hfc. fold fc in Hfc.
    pose proof (col_or_nan_nth (f_accept_t3amp f) _ _ _ Ha) as Hca. fold ca in Hca.
    pose proof (col_or_nan_nth (f_accept_t3phi f) _ _ _ Hp) as Hcp. fold cp in Hcp.
    rewrite (get_nth_error _ _ _ Hu). cbn [bind]. cbv zeta.
    cbn [tb_k tb_some tb_amp tb_amperr tb_phi tb_phierr tb_flag].
    destruct u; cbn [negb].
    + match goal with |- bind ?e _ = _ =>
        assert (E1 : e = Ok (if f_accept_t3amp f then a else f64_nan)) end.
      { rewrite (get_nth_error _ _ _ Ha). destruct (f_accept_t3amp f); reflexivity. }
      rewrite E1. cbn [bind]. rewrite (write_sel k use ca _ _ ltac:(lia) eq_refl Hu Hca). cbn [bind].
      rewrite (get_nth_error _ _ _ Hae). cbn [bind]. rewrite (write_sel k use _ ae) by (auto; lia). cbn [bind].
      match goal with |- bind ?e _ = _ =>
        assert (E2 : e = Ok (if f_accept_t3phi f then p else f64_nan)) end.
      { rewrite (get_nth_error _ _ _ Hp). destruct (f_accept_t3phi f); reflexivity. }
      rewrite E2. cbn [bind]. rewrite (write_sel k use cp _ _ ltac:(lia) eq_refl Hu Hcp). cbn [bind].
      rewrite (get_nth_error _ _ _ Hpe). cbn [bind]. rewrite (write_sel k use _ pe) by (auto; lia). cbn [bind].
      rewrite (get_nth_error _ _ _ Hfl). cbn [bind].
      match goal with |- bind ?e _ = _ => assert (EF : e = Ok (fl || t3_badb f w r k)) end.
      { destruct fl; [reflexivity|]. rewrite (t3_bad_uvrad_ok f w _ k x Hx). cbn [bind].
        rewrite (t3_bad_snr_ok f r k a ae pe Ha Hae Hpe). reflexivity. }
      rewrite EF. cbn [bind]. rewrite (write_sel k use fc _ _ ltac:(lia) eq_refl Hu Hfc). cbn [bind].
      rewrite (cntu_step _ _ _ Hu).
      rewrite (selu_step k use fc _ _ ltac:(lia) Hu Hfc), existsb_app. cbn [existsb]. rewrite orb_false_r.
      f_equal. f_equal. lia.
    + rewrite (cntu_step _ _ _ Hu), Nat.add_0_r.
      rewrite (selu_skip k use ca _ ltac:(lia) Hu Hca), (selu_skip k use _ ae), (selu_skip k use cp _ ltac:(lia) Hu Hcp),
        (selu_skip k use _ pe), (selu_skip k use fc _ ltac:(lia) Hu Hfc) by (auto; lia).
      reflexivity.
Qed.

Definition t3_okb (f : filter_spec) (w : oi_wavelength) (use : list bool) (r : t3_record) : bool :=
  negb (skip_target f (t3_target_id r)) && negb (skip_mjd f (t3_mjd r))
  && negb (existsb (skip_bas f) (t3_bases pow_half r))
  && (f_accept_flagged f || some_ok use (t3_flag r) (t3_badb f w r)).

Lemma t3_record_ok_ok f w r use n : wave_fits w use n -> wf_t3_record n r = true ->
  t3_record_ok pow_half f (Some w) use n r = Ok (t3_okb f w use r).
Proof.
  intros HW Hwf. unfold t3_record_ok, t3_okb.
  destruct (skip_target f (t3_target_id r)); [reflexivity|].
  destruct (skip_mjd f (t3_mjd r)); [reflexivity|].
  unfold t3_bases. cbn [existsb].
  fold (t3_ab pow_half r) (t3_bc pow_half r) (t3_ac pow_half r).
  change (length_uv pow_half (t3_u1coord r) (t3_v1coord r)) with (t3_ab pow_half r).
  change (length_uv pow_half (t3_u2coord r) (t3_v2coord r)) with (t3_bc pow_half r).
  change (length_uv pow_half (f64_add (t3_u1coord r) (t3_u2coord r)) (f64_add (t3_v1coord r) (t3_v2coord r)))
    with (t3_ac pow_half r).
  destruct (skip_bas f (t3_ab pow_half r)); [reflexivity|].
  destruct (skip_bas f (t3_bc pow_half r)); [reflexivity|].
  destruct (skip_bas f (t3_ac pow_half r)); [reflexivity|].
  destruct (f_accept_flagged f); [reflexivity|]. cbn [negb andb orb].
  now apply t3_any.
Qed.

(** *** OI_VIS *)

Lemma nth_error_firstn_lt {A} (l : list A) n i : (i < n)%nat -> nth_error (firstn n l) i = nth_error l i.
Proof.
  revert l n. induction i as [|i IH]; intros [|a l] [|n] H; try reflexivity; try lia.
  cbn. apply IH. lia.
Qed.
Lemma nth_error_skipn_add {A} (l : list A) n i : nth_error (skipn n l) i = nth_error l (n + i).
Proof.
  revert l. induction n as [|n IH]; intros l; [reflexivity|].
  destruct l as [|a l]; [now destruct i|]. cbn. apply IH.
Qed.

Definition row {A} (n : nat) (l : list A) (j : nat) : list A := firstn n (skipn (j * n) l).
Lemma row_length {A} n (l : list A) j : (j < n)%nat -> length l = (n * n)%nat -> length (row n l j) = n.
Proof. intros Hj HL. unfold row. rewrite firstn_length, skipn_length, HL. nia. Qed.
Lemma row_nth {A} n (l : list A) j i : (i < n)%nat -> nth_error (row n l j) i = nth_error l (j * n + i).
Proof. intros H. unfold row. rewrite nth_error_firstn_lt by exact H. apply nth_error_skipn_add. Qed.

Lemma refmap_row_ok use inmap n j k pre : length use = n -> length inmap = (n * n)%nat -> (j < n)%nat ->
  (k < cnt use)%nat -> length pre = (k * cnt use)%nat ->
  refmap_row use inmap (Z.of_nat n) (Z.of_nat (cnt use)) (Z.of_nat j) (Z.of_nat k)
    (fill (cnt use * cnt use) pre)
  = Ok (fill (cnt use * cnt use) (pre ++ sel use (row n inmap j))).
Proof.
  intros HU HI Hj Hk Hpre. unfold refmap_row.
  assert (HR : length (row n inmap j) = n) by now apply row_length.
  set (traj := fun i => (Z.of_nat (cntu i use), fill (cnt use * cnt use) (pre ++ selu i use (row n inmap j)))).
  rewrite (for_det _ traj (Z.of_nat n) _ (traj n)).
  - unfold traj. cbn [bind snd]. rewrite selu_all by lia. reflexivity.
  - unfold traj. cbn. rewrite app_nil_r. reflexivity.
  - rewrite Nat2Z.id. reflexivity.
  - intros i Hi. rewrite Nat2Z.id in Hi. unfold traj.
    nth_of use i u Hu. nth_of (row n inmap j) i x Hx.
    rewrite (get_nth_error _ _ _ Hu). cbn [bind].
    rewrite (cntu_step _ _ _ Hu), (selu_step i use (row n inmap j) _ _ ltac:(lia) Hu Hx).
    destruct u.
    + assert (Hx' := Hx). rewrite row_nth in Hx' by lia.
      replace (Z.of_nat i + Z.of_nat j * Z.of_nat n) with (Z.of_nat (j * n + i)) by lia.
      rewrite (get_nth_error _ _ _ Hx'). cbn [bind].
      rewrite (write_fill (cnt use * cnt use) (pre ++ selu i use (row n inmap j))).
      * cbn [bind]. rewrite <- app_assoc. do 3 f_equal. lia.
      * rewrite app_length, selu_length by lia. lia.
      * rewrite app_length, selu_length by lia. pose proof (cntu_lt i use Hu). nia.
    + rewrite Nat.add_0_r, app_nil_r. reflexivity.
Qed.

(** Filtered matrix *)
Definition mat_rows {A} (use : list bool) (l : list A) (idx : list nat) : list A :=
  concat (map (fun j => sel use (row (length use) l j)) idx).
Lemma mat_rows_length {A} use (l : list A) idx : (forall j, In j idx -> (j < length use)%nat) ->
  length l = (length use * length use)%nat -> length (mat_rows use l idx) = (length idx * cnt use)%nat.
Proof.
  intros HI HL. induction idx as [|j idx IH]; [reflexivity|].
  unfold mat_rows. cbn [map concat]. rewrite app_length.
  fold (mat_rows use l idx). rewrite IH by (intros; apply HI; now right).
  rewrite sel_length by (symmetry; apply row_length; [apply HI; now left|exact HL]). reflexivity.
Qed.
Lemma mat_rows_app {A} use (l : list A) i1 i2 :
  mat_rows use l (i1 ++ i2) = mat_rows use l i1 ++ mat_rows use l i2.
Proof. unfold mat_rows. now rewrite map_app, concat_app. Qed.

(** Optional columns *)
Definition opt_col {A} (n : nat) (c : option (list A)) : Prop :=
  match c with None => True | Some l => length l = n end.
Definition fopt {A} (use : list bool) (i : nat) (c : option (list A)) : option (buffer A) :=
  option_map (fun l => fill (cnt use) (selu i use l)) c.
Definition fmat (use : list bool) (i : nat) (c : option (list bool)) : option (buffer bool) :=
  option_map (fun l => fill (cnt use * cnt use) (mat_rows use l (selu i use (seq 0 (length use))))) c.

Lemma alloc_if_opt {A} (b : bool) n use (c : option (list A)) : (0 < cnt use)%nat ->
  (if b then opt_len_is n c else is_none c) = true ->
  alloc_if b (Z.of_nat (cnt use)) = Ok (fopt use 0 c) /\ opt_col (Z.to_nat n) c.
Proof.
  intros Hc H. unfold alloc_if. destruct b.
  - destruct c as [l|]; [|discriminate]. cbn [opt_len_is] in H. apply len_is_eq in H.
    rewrite alloc_ok by lia. rewrite Nat2Z.id. cbn. split; [reflexivity|lia].
  - destruct c; [discriminate|]. split; reflexivity || exact I.
Qed.

Lemma copy_opt_ok {A} use i (c : option (list A)) : opt_col (length use) c -> nth_error use i = Some true ->
  copy_opt (fopt use i c) (Z.of_nat (cntu i use)) c (Z.of_nat i) = Ok (fopt use (1 + i) c).
Proof.
  intros Hc Hu. destruct c as [l|]; [|reflexivity]. cbn [fopt option_map copy_opt].
  assert (i < length use)%nat by (apply nth_error_Some; congruence). cbn [opt_col] in Hc.
  nth_of l i a Ha. rewrite (get_nth_error _ _ _ Ha). cbn [bind].
  rewrite (write_sel i use l a) by (auto; lia). reflexivity.
Qed.
Lemma fopt_skip {A} use i (c : option (list A)) : opt_col (length use) c -> nth_error use i = Some false ->
  fopt use (1 + i) c = fopt use i c.
Proof.
  intros Hc Hu. destruct c as [l|]; [|reflexivity]. cbn [fopt option_map].
  assert (i < length use)%nat by (apply nth_error_Some; congruence). cbn [opt_col] in Hc.
  nth_of l i a Ha. rewrite (selu_skip i use l a) by (auto; lia). reflexivity.
Qed.
Lemma contents_fopt {A} use (c : option (list A)) : opt_col (length use) c ->
  contents_opt (fopt use (length use) c) = Ok (option_map (sel use) c).
Proof.
  intros Hc. destruct c as [l|]; [|reflexivity]. cbn [fopt option_map contents_opt].
  cbn [opt_col] in Hc. rewrite contents_sel by lia. reflexivity.
Qed.

Lemma selu_seq_bound use i j : In j (selu i use (seq 0 (length use))) -> (j < length use)%nat.
Proof.
  intros H. assert (G : In j (seq 0 (length use))); [|apply in_seq in G; lia].
  unfold selu in H. revert H. generalize (seq 0 (length use)) as l. intros l H.
  assert (S : forall u (m : list nat), In j (sel u m) -> In j m).
  { induction u as [|b u IH]; intros [|a m] K; cbn in K; try contradiction.
    destruct b; [destruct K as [->|K]|]; [now left|right; auto|right; auto]. }
  apply S in H. rewrite <- (firstn_skipn i l). apply in_or_app. now left.
Qed.

Definition vis_badb (f : filter_spec) (w : oi_wavelength) (r : vis_record) (j : nat) : bool :=
  outside_uvrad f (waves_of (vis_bas pow_half r) (nth_wave w j))
  || (outside_snr f (ratio_f32 (nthf (vr_visamp r) j) (nthf (vr_visamperr r) j))
      || outside_snr f (ratio_f32 c_rad2deg (nthf (vr_visphierr r) j))).

Lemma vis_bad_snr_ok f r j a ae pe : nth_error (vr_visamp r) j = Some a ->
  nth_error (vr_visamperr r) j = Some ae -> nth_error (vr_visphierr r) j = Some pe ->
  vis_bad_snr f r (Z.of_nat j) =
  Ok (outside_snr f (ratio_f32 (nthf (vr_visamp r) j) (nthf (vr_visamperr r) j))
      || outside_snr f (ratio_f32 c_rad2deg (nthf (vr_visphierr r) j))).
Proof.
  intros Ha Hae Hpe. unfold vis_bad_snr.
  rewrite (get_nth_error _ _ _ Ha), (get_nth_error _ _ _ Hae), (get_nth_error _ _ _ Hpe). cbn [bind].
  rewrite (nthf_eq _ _ _ Ha), (nthf_eq _ _ _ Hae), (nthf_eq _ _ _ Hpe). reflexivity.
Qed.

Lemma wf_vis_record_parts x n r : wf_vis_record x n r = true -> 0 <= n ->
  length (vr_visamp r) = Z.to_nat n /\ length (vr_visamperr r) = Z.to_nat n
  /\ length (vr_visphi r) = Z.to_nat n /\ length (vr_visphierr r) = Z.to_nat n
  /\ length (vr_flag r) = Z.to_nat n
  /\ (if vx_usevisrefmap x then opt_len_is (n * n) (vr_visrefmap r) else is_none (vr_visrefmap r)) = true
  /\ (if vx_usecomplex x then opt_len_is n (vr_rvis r) else is_none (vr_rvis r)) = true
  /\ (if vx_usecomplex x then opt_len_is n (vr_rviserr r) else is_none (vr_rviserr r)) = true
  /\ (if vx_usecomplex x then opt_len_is n (vr_ivis r) else is_none (vr_ivis r)) = true
  /\ (if vx_usecomplex x then opt_len_is n (vr_iviserr r) else is_none (vr_iviserr r)) = true.
Proof.
  intros H H0. unfold wf_vis_record in H.
  apply andb_true_iff in H as [H HC]. apply andb_true_iff in H as [H HM]. len_eqs.
  repeat (split; [lia|]). split; [exact HM|].
  destruct (vx_usecomplex x); len_eqs; auto.
Qed.

Lemma vis_any f w x r use n : wave_fits w use n -> wf_vis_record x n r = true ->
  any_vis_chan_ok pow_half r f (Some w) use n = Ok (some_ok use (vr_flag r) (vis_badb f w r)).
Proof.
  intros (HW & HU & H0) Hwf. apply wf_vis_record_parts in Hwf as (L1 & L2 & L3 & L4 & L5 & _); [|exact H0].
  unfold any_vis_chan_ok. apply any_some_ok; [exact HU|lia|].
  intros k u fl Hu Hfl. rewrite (get_nth_error _ _ _ Hu), (get_nth_error _ _ _ Hfl). cbn [bind].
  assert (k < length use)%nat by (apply nth_error_Some; congruence).
  destruct u; [|reflexivity]. cbn [negb andb]. destruct fl; [reflexivity|]. cbn [orb].
  nth_of (wv_eff_wave w) k y Hx. nth_of (vr_visamp r) k a Ha. nth_of (vr_visamperr r) k ae Hae.
  nth_of (vr_visphierr r) k pe Hpe.
  rewrite (bad_uvrad_ok f w _ k y Hx). cbn [bind].
  rewrite (vis_bad_snr_ok f r k a ae pe Ha Hae Hpe). cbn [bind].
  change (baseline pow_half (vr_ucoord r) (vr_vcoord r)) with (vis_bas pow_half r).
  unfold vis_badb.
  destruct (outside_uvrad f (waves_of (vis_bas pow_half r) (nth_wave w k))); reflexivity.
Qed.

Definition vis_out (f : filter_spec) (w : oi_wavelength) (use : list bool) (r : vis_record) : vis_record :=
  mk_vis_record (new_target_id f (vr_target_id r)) (vr_time r) (vr_mjd r) (vr_int_time r)
    (sel use (vr_visamp r)) (sel use (vr_visamperr r)) (vr_corrindx_visamp r)
    (sel use (vr_visphi r)) (sel use (vr_visphierr r)) (vr_corrindx_visphi r)
    (option_map (fun l => mat_rows use l (idx_of use)) (vr_visrefmap r))
    (option_map (sel use) (vr_rvis r)) (option_map (sel use) (vr_rviserr r)) (vr_corrindx_rvis r)
    (option_map (sel use) (vr_ivis r)) (option_map (sel use) (vr_iviserr r)) (vr_corrindx_ivis r)
    (vr_ucoord r) (vr_vcoord r) (vr_sta_index r) (sel use (flagcol (vr_flag r) (vis_badb f w r))).

Definition vis_traj f w use r i :=
  let cap := cnt use in
  mk_vis_bufs (Z.of_nat (cntu i use)) (existsb negb (selu i use (flagcol (vr_flag r) (vis_badb f w r))))
    (fill cap (selu i use (vr_visamp r))) (fill cap (selu i use (vr_visamperr r)))
    (fill cap (selu i use (vr_visphi r))) (fill cap (selu i use (vr_visphierr r)))
    (fill cap (selu i use (flagcol (vr_flag r) (vis_badb f w r))))
    (fmat use i (vr_visrefmap r)) (fopt use i (vr_rvis r)) (fopt use i (vr_rviserr r))
    (fopt use i (vr_ivis r)) (fopt use i (vr_iviserr r)).

Lemma vis_record_filter f w x r use n : wave_fits w use n -> wf_vis_record x n r = true ->
  (0 < cnt use)%nat -> f_accept_flagged f || some_ok use (vr_flag r) (vis_badb f w r) = true ->
  filter_oi_vis_record pow_half x f (Some w) use n (Z.of_nat (cnt use)) r = Ok (vis_out f w use r).
Proof.
  intros (HW & HU & H0) Hwf Hc Hok.
  apply wf_vis_record_parts in Hwf as (L1 & L2 & L3 & L4 & L5 & M & C1 & C2 & C3 & C4); [|exact H0].
  unfold filter_oi_vis_record. rewrite !alloc_ok by lia. cbn [bind]. rewrite Nat2Z.id.
  assert (AM : alloc_if (vx_usevisrefmap x) (Z.of_nat (cnt use) * Z.of_nat (cnt use))
               = Ok (fmat use 0 (vr_visrefmap r)) /\ opt_col (Z.to_nat n * Z.to_nat n) (vr_visrefmap r)).
  { unfold alloc_if. destruct (vx_usevisrefmap x); destruct (vr_visrefmap r) as [m|]; try discriminate.
    - cbn [opt_len_is] in M. apply len_is_eq in M. rewrite alloc_ok by nia. cbn [bind fmat option_map].
      replace (Z.to_nat (Z.of_nat (cnt use) * Z.of_nat (cnt use))) with (cnt use * cnt use)%nat by nia.
      split; [reflexivity|]. cbn. nia.
    - split; reflexivity || exact I. }
  destruct AM as [AM OM]. rewrite AM. cbn [bind].
  destruct (alloc_if_opt _ _ use _ Hc C1) as [A1 O1]. rewrite (bind_eq _ _ _ A1).
  destruct (alloc_if_opt _ _ use _ Hc C2) as [A2 O2]. rewrite (bind_eq _ _ _ A2).
  destruct (alloc_if_opt _ _ use _ Hc C3) as [A3 O3]. rewrite (bind_eq _ _ _ A3).
  destruct (alloc_if_opt _ _ use _ Hc C4) as [A4 O4]. rewrite (bind_eq _ _ _ A4).
  rewrite <- HU in O1, O2, O3, O4, OM.
  set (fc := flagcol (vr_flag r) (vis_badb f w r)) in *.
  assert (HFC : length fc = length (vr_flag r)) by apply flagcol_length.
  rewrite (for_det _ (vis_traj f w use r) n _ (vis_traj f w use r (Z.to_nat n))); [|reflexivity|reflexivity|].
  - cbn [bind]. unfold vis_traj. fold fc. rewrite <- HU.
    cbn [vb_some vb_visamp vb_visamperr vb_visphi vb_visphierr vb_flag vb_visrefmap vb_rvis vb_rviserr vb_ivis vb_iviserr].
    rewrite selu_len_all by lia. unfold some_ok in Hok. fold fc in Hok. rewrite Hok. cbn [assert_ bind].
    rewrite <- (selu_len_all use fc) by lia.
    rewrite !contents_sel by lia. cbn [bind].
    assert (CM : contents_opt (fmat use (length use) (vr_visrefmap r))
                 = Ok (option_map (fun l => mat_rows use l (idx_of use)) (vr_visrefmap r))).
    { destruct (vr_visrefmap r) as [m|]; [|reflexivity]. cbn [fmat option_map contents_opt].
      rewrite selu_len_all by (now rewrite seq_length). fold (idx_of use).
      rewrite contents_fill; [reflexivity|].
      rewrite mat_rows_length by (cbn in OM; auto; intros j Hj; apply idx_of_in in Hj; apply nth_error_Some; congruence).
      now rewrite idx_of_length. }
    rewrite CM. cbn [bind]. rewrite !contents_fopt by assumption. reflexivity.
  - intros k Hk. unfold vis_traj. fold fc. unfold vis_channel.
    nth_of use k u Hu. nth_of (vr_flag r) k fl Hfl.
    nth_of (wv_eff_wave w) k y Hx. nth_of (vr_visamp r) k a Ha. nth_of (vr_visamperr r) k ae Hae.
    nth_of (vr_visphi r) k p Hp. nth_of (vr_visphierr r) k pe Hpe.
    pose proof (flagcol_nth _ (vis_badb f w r) _ _ Hfl) as Hfc. fold fc in Hfc.
    rewrite (get_nth_error _ _ _ Hu). cbn [bind]. cbv zeta.
    cbn [vb_k vb_some vb_visamp vb_visamperr vb_visphi vb_visphierr vb_flag vb_visrefmap vb_rvis vb_rviserr vb_ivis vb_iviserr].
    assert (Hseq : nth_error (seq 0 (length use)) k = Some k) by (apply nth_error_seq0; lia).
    assert (Lseq : length use = length (seq 0 (length use))) by (now rewrite seq_length).
    destruct u; cbn [negb].
    + rewrite (get_nth_error _ _ _ Ha). cbn [bind]. rewrite (write_sel k use _ a) by (auto; lia). cbn [bind].
      rewrite (get_nth_error _ _ _ Hae). cbn [bind]. rewrite (write_sel k use _ ae) by (auto; lia). cbn [bind].
      rewrite (get_nth_error _ _ _ Hp). cbn [bind]. rewrite (write_sel k use _ p) by (auto; lia). cbn [bind].
      rewrite (get_nth_error _ _ _ Hpe). cbn [bind]. rewrite (write_sel k use _ pe) by (auto; lia). cbn [bind].
      rewrite (get_nth_error _ _ _ Hfl). cbn [bind].
      match goal with |- bind ?e _ = _ => assert (EF : e = Ok (fl || vis_badb f w r k)) end.
      { destruct fl; [reflexivity|]. rewrite (bad_uvrad_ok f w _ k y Hx). cbn [bind].
        rewrite (vis_bad_snr_ok f r k a ae pe Ha Hae Hpe). reflexivity. }
      rewrite EF. cbn [bind]. rewrite (write_sel k use fc _ _ ltac:(lia) eq_refl Hu Hfc). cbn [bind].
      match goal with |- bind ?e _ = _ => assert (EM : e = Ok (fmat use (1 + k) (vr_visrefmap r))) end.
      { destruct (vr_visrefmap r) as [m|]; [|reflexivity]. cbn [fmat option_map].
        cbn [opt_col] in OM.
        rewrite (selu_step k use (seq 0 (length use)) _ _ Lseq Hu Hseq), mat_rows_app.
        replace n with (Z.of_nat (length use)) by lia.
        rewrite refmap_row_ok; [|reflexivity|exact OM|lia|now apply cntu_lt|].
        - cbn [bind]. change (mat_rows use m [k]) with (sel use (row (length use) m k) ++ []). rewrite app_nil_r. reflexivity.
        - rewrite mat_rows_length by (auto; apply selu_seq_bound).
          rewrite selu_length by exact Lseq. reflexivity. }
      rewrite EM. cbn [bind]. rewrite !copy_opt_ok by assumption. cbn [bind].
      rewrite (cntu_step _ _ _ Hu).
      rewrite (selu_step k use fc _ _ ltac:(lia) Hu Hfc), existsb_app. cbn [existsb]. rewrite orb_false_r.
      f_equal. f_equal. lia.
    + rewrite (cntu_step _ _ _ Hu), Nat.add_0_r.
      rewrite (selu_skip k use _ a), (selu_skip k use _ ae), (selu_skip k use _ p), (selu_skip k use _ pe),
        (selu_skip k use fc _ ltac:(lia) Hu Hfc) by (auto; lia).
      rewrite !fopt_skip by assumption.
      replace (fmat use (1 + k) (vr_visrefmap r)) with (fmat use k (vr_visrefmap r)); [reflexivity|].
      unfold fmat. rewrite (selu_skip k use (seq 0 (length use)) k Lseq Hu Hseq). reflexivity.
Qed.

Definition vis_okb (f : filter_spec) (w : oi_wavelength) (use : list bool) (r : vis_record) : bool :=
  negb (skip_target f (vr_target_id r)) && negb (skip_mjd f (vr_mjd r))
  && negb (skip_bas f (vis_bas pow_half r))
  && (f_accept_flagged f || some_ok use (vr_flag r) (vis_badb f w r)).

Lemma vis_record_ok_ok f w x r use n : wave_fits w use n -> wf_vis_record x n r = true ->
  vis_record_ok pow_half f (Some w) use n r = Ok (vis_okb f w use r).
Proof.
  intros HW Hwf. unfold vis_record_ok, vis_okb.
  destruct (skip_target f (vr_target_id r)); [reflexivity|].
  destruct (skip_mjd f (vr_mjd r)); [reflexivity|].
  change (baseline pow_half (vr_ucoord r) (vr_vcoord r)) with (vis_bas pow_half r).
  destruct (skip_bas f (vis_bas pow_half r)); [reflexivity|].
  destruct (f_accept_flagged f); [reflexivity|]. cbn [negb andb orb].
  now apply (vis_any f w x).
Qed.

End Pow.
