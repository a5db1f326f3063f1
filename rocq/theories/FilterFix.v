(** Datasets the filter leaves alone; filtering twice. *)
From Verif Require Import Base BaseLemmas FloatModel Types FileModel FileSpec FileProofs FilterModel FilterSpec FilterLemmas FilterProofs FilterRecords FilterTables FilterApply FilterFacts FilterResults FilterOutput.
From Coq Require Import Lia.

Lemma sel_true {A} n (l : list A) : length l = n -> sel (repeat true n) l = l.
Proof. intros <-. induction l as [|a l IH]; [reflexivity|]. cbn. now rewrite IH. Qed.
Lemma cnt_true n : cnt (repeat true n) = n.
Proof. induction n as [|n IH]; [reflexivity|]. unfold cnt in *. cbn. now rewrite IH. Qed.
Lemma idx_true n : idx_of (repeat true n) = seq 0 n.
Proof. unfold idx_of. rewrite repeat_length. apply sel_true, seq_length. Qed.
Lemma opt_sel_true {A} n (c : option (list A)) : opt_col n c -> option_map (sel (repeat true n)) c = c.
Proof. destruct c as [l|]; [|reflexivity]. cbn. intros H. now rewrite sel_true. Qed.

Lemma skipn_add {A} a b (l : list A) : skipn a (skipn b l) = skipn (b + a) l.
Proof. revert l. induction b as [|b IH]; intros l; [reflexivity|]. destruct l as [|x l]; [now destruct a|apply IH]. Qed.
Lemma rows_all {A} k n (l : list A) : length l = (k * n)%nat -> concat (map (row n l) (seq 0 k)) = l.
Proof.
  revert l. induction k as [|k IH]; intros l H; [destruct l; [reflexivity|discriminate]|].
  cbn [seq map concat]. rewrite <- seq_shift, map_map.
  assert (E : map (fun x => row n l (S x)) (seq 0 k) = map (row n (skipn n l)) (seq 0 k)).
  { apply map_ext. intros j. unfold row. now rewrite skipn_add. }
  rewrite E, IH by (rewrite skipn_length, H; nia).
  unfold row. rewrite Nat.mul_0_l. cbn [skipn]. apply firstn_skipn.
Qed.
Lemma mat_true {A} n (l : list A) : length l = (n * n)%nat -> mat_rows (repeat true n) l (idx_of (repeat true n)) = l.
Proof.
  intros H. rewrite idx_true. unfold mat_rows. rewrite repeat_length.
  rewrite (map_ext_in _ (row n l)); [now apply rows_all|].
  intros j Hj. apply in_seq in Hj. apply sel_true. apply row_length; [lia|exact H].
Qed.

(** All channels of [w] are in range *)
Definition all_used (f : filter_spec) (w : oi_wavelength) : Prop :=
  use_of f w = repeat true (length (wv_eff_wave w)).
Lemma all_used_spec f w : (forall x, In x (wv_eff_wave w) -> ~ beyond (f_wave_lo f) (f_wave_hi f) x) -> all_used f w.
Proof.
  intros H. unfold all_used, use_of. induction (wv_eff_wave w) as [|x l IH]; [reflexivity|].
  cbn. rewrite IH by (intros; apply H; now right). f_equal. apply in_rangeb_spec. apply H. now left.
Qed.
Lemma wave_out_used f w : length (wv_eff_band w) = length (wv_eff_wave w) -> all_used f (wave_out f w).
Proof.
  intros _. apply all_used_spec. intros x Hx. cbn in Hx. unfold use_of in Hx.
  apply in_rangeb_spec. induction (wv_eff_wave w) as [|y l IH]; [contradiction|].
  cbn in Hx. destruct (in_rangeb f y) eqn:E; [destruct Hx as [->|Hx]|]; auto.
Qed.
Lemma wave_out_fix f w : wf_wavelength w = true -> all_used f w -> wave_out f w = w.
Proof.
  intros W A. destruct (wf_wavelength_len w W) as (L1 & L2 & P). unfold wave_out. rewrite A, cnt_true.
  rewrite !sel_true by congruence. rewrite L1, Z2Nat.id by exact P. destruct w; reflexivity.
Qed.

Section Pow.
Variable pow_half : f64 -> f64.

(** ** Records left alone *)

Lemma new_id_fix f id : f_target_id f < 0 -> new_target_id f id = id.
Proof. intros H. unfold new_target_id. destruct (Z.leb_spec 0 (f_target_id f)); [lia|reflexivity]. Qed.

Lemma vis_fix f w x n r : wf_vis_record x n r = true -> 0 <= n -> length (wv_eff_wave w) = Z.to_nat n ->
  all_used f w -> f_target_id f < 0 ->
  (forall j, nth_error (vr_flag r) j = Some false -> vis_badb pow_half f w r j = false) ->
  vis_out pow_half f w (use_of f w) r = r.
Proof.
  intros Wf P LW A T HB. apply wf_vis_record_parts in Wf as (L1 & L2 & L3 & L4 & L5 & M & C1 & C2 & C3 & C4); [|exact P].
  assert (OC : forall A (b : bool) (c : option (list A)), (if b then opt_len_is n c else is_none c) = true -> opt_col (Z.to_nat n) c).
  { intros B b [c|]; cbn; [|auto]. destruct b; [|discriminate]. intros G. apply len_is_eq in G. lia. }
  unfold vis_out. rewrite A, LW, (new_id_fix f _ T), flagcol_id by exact HB.
  rewrite !sel_true by assumption. apply OC in C1, C2, C3, C4. rewrite !opt_sel_true by assumption.
  assert (EM : option_map (fun l => mat_rows (use_of f w) l (idx_of (use_of f w))) (vr_visrefmap r) = vr_visrefmap r).
  { destruct (vr_visrefmap r) as [m|]; [|reflexivity]. cbn [option_map]. rewrite A, LW, mat_true; [reflexivity|].
    destruct (vx_usevisrefmap x); [|discriminate]. cbn in M. apply len_is_eq in M. nia. }
  rewrite EM. destruct r; reflexivity.
Qed.
Lemma vis2_fix f w n r : wf_vis2_record n r = true -> length (wv_eff_wave w) = Z.to_nat n ->
  all_used f w -> f_target_id f < 0 ->
  (forall j, nth_error (v2_flag r) j = Some false -> vis2_badb pow_half f w r j = false) ->
  vis2_out pow_half f w (use_of f w) r = r.
Proof.
  intros Wf LW A T HB. unfold wf_vis2_record in Wf. len_eqs.
  unfold vis2_out. rewrite A, LW, (new_id_fix f _ T), flagcol_id by exact HB.
  rewrite !sel_true by lia. destruct r; reflexivity.
Qed.
Lemma t3_fix f w n r : wf_t3_record n r = true -> length (wv_eff_wave w) = Z.to_nat n ->
  all_used f w -> f_target_id f < 0 ->
  (forall j, nth_error (t3_flag r) j = Some false -> t3_badb pow_half f w r j = false) ->
  col_or_nan (f_accept_t3amp f) (t3_t3amp r) = t3_t3amp r ->
  col_or_nan (f_accept_t3phi f) (t3_t3phi r) = t3_t3phi r ->
  t3_out pow_half f w (use_of f w) r = r.
Proof.
  intros Wf LW A T HB N1 N2. unfold wf_t3_record in Wf. len_eqs.
  unfold t3_out. rewrite A, LW, (new_id_fix f _ T), flagcol_id, N1, N2 by exact HB.
  rewrite !sel_true by lia. destruct r; reflexivity.
Qed.
Lemma flux_fix f w n r : wf_flux_record n r = true -> length (wv_eff_wave w) = Z.to_nat n ->
  all_used f w -> f_target_id f < 0 -> flux_col f r = fr_fluxdata r ->
  flux_out f (use_of f w) r = r.
Proof.
  intros Wf LW A T HB. unfold wf_flux_record in Wf. len_eqs.
  unfold flux_out. rewrite A, LW, (new_id_fix f _ T), HB.
  rewrite !sel_true by lia. destruct r; reflexivity.
Qed.
Lemma flux_col_fix f r : length (fr_fluxdata r) = length (fr_fluxerr r) ->
  (forall j, ~ snr_beyond f (fr_fluxdata r) (fr_fluxerr r) j) -> flux_col f r = fr_fluxdata r.
Proof.
  intros HL H. apply nth_error_eq. intros j.
  destruct (nth_error (fr_fluxdata r) j) as [a|] eqn:Ha.
  - assert (j < length (fr_fluxdata r))%nat by (apply nth_error_Some; congruence).
    destruct (some_nth (fr_fluxerr r) j) as [e He]; [lia|]. unfold flux_col.
    rewrite nth_error_map, (nth_error_combine _ _ _ _ _ Ha He). cbn [option_map].
    specialize (H j). rewrite <- (snr_spec f _ _ _ a e Ha He), (nthf_eq _ _ _ Ha), (nthf_eq _ _ _ He) in H.
    now destruct (outside_snr f (ratio_f32 a e)).
  - apply nth_error_None in Ha. apply nth_error_None. now rewrite flux_col_length.
Qed.

(** ** Tables left alone *)

Lemma filter_all {A} (p : A -> bool) l : (forall a, In a l -> p a = true) -> filter p l = l.
Proof.
  induction l as [|a l IH]; intros H; [reflexivity|]. cbn. rewrite (H a) by now left. f_equal. apply IH.
  intros; apply H; now right.
Qed.
Lemma map_fix {A} (g : A -> A) l : (forall a, In a l -> g a = a) -> map g l = l.
Proof. intros H. rewrite (map_ext_in g (fun x => x)) by exact H. apply map_id. Qed.

Lemma dtabs_fix {X R} (okb : oi_wavelength -> list bool -> R -> bool) g d f (acc : bool) (l : list (dtab X R)) wfr :
  NoDup (map wv_insname (o_wavelengthList d)) ->
  (acc = false -> l = []) ->
  (forall t, In t l -> wf_dtab (wfr t) t = true /\ 0 < tb_numrec t /\ 0 < tb_nwave t
     /\ accept_insname f (tb_insname t) = true /\ accept_arrname f (tb_arrname t) = true
     /\ accept_corrname f (tb_corrname t) = true
     /\ exists w, instrument d (tb_insname t) w /\ all_used f w /\ length (wv_eff_wave w) = Z.to_nat (tb_nwave t)
        /\ forall r, In r (tb_record t) -> okb w (use_of f w) r = true /\ g w (use_of f w) r = r) ->
  (if acc then map (dtab_new okb g d f) (filter (dtab_kept okb d f) l) else []) = l.
Proof.
  intros HN HA H. destruct acc; [|now rewrite HA].
  assert (K : forall t, In t l -> dtab_kept okb d f t = true /\ dtab_new okb g d f t = t).
  { intros t Ht. destruct (H t Ht) as (Wf & Hn & Hw & A1 & A2 & A3 & w & Ew & HU & LW & HR).
    apply (wv_of_instrument _ _ _ HN) in Ew. unfold dtab_kept, dtab_new. rewrite A1, A2, A3, Ew. cbn [andb].
    unfold wf_dtab in Wf. rewrite !andb_true_iff in Wf. destruct Wf as ((WL & _) & _). apply len_is_eq in WL.
    split.
    - rewrite andb_true_iff. split.
      + rewrite HU, cnt_true. apply Nat.ltb_lt. lia.
      + destruct (tb_record t) as [|r rs] eqn:E; [cbn in WL; lia|]. apply existsb_exists. exists r.
        split; [now left|]. apply HR. now left.
    - unfold dtab_out. rewrite (filter_all (okb w (use_of f w))) by (intros r Hr; now apply HR).
      rewrite map_fix by (intros r Hr; now apply HR). rewrite HU, cnt_true, LW.
      rewrite Z2Nat.id by lia. rewrite <- WL. destruct t; reflexivity. }
  rewrite filter_all by (intros t Ht; now apply K). apply map_fix. intros t Ht. now apply K.
Qed.

(** ** Filtering a record again *)

Section Again.
Variables (f : filter_spec) (w : oi_wavelength).
Let use := use_of f w.
Let w' := wave_out f w.
Hypothesis LB : length (wv_eff_band w) = length (wv_eff_wave w).

Lemma again_used : use_of f w' = repeat true (cnt use).
Proof.
  unfold w'. rewrite (wave_out_used f w LB). f_equal. cbn. apply sel_length, use_length.
Qed.
Lemma again_nth {A} (col : list A) m j : length col = length (wv_eff_wave w) -> nth_error (idx_of use) m = Some j ->
  nth_error (sel use col) m = nth_error col j.
Proof. intros HL Hm. apply (picks_nth (idx_of use) _ _ m j); [|exact Hm]. apply picks_sel. unfold use. rewrite use_length. auto. Qed.
Lemma again_nthf col m j : length col = length (wv_eff_wave w) -> nth_error (idx_of use) m = Some j ->
  nthf (sel use col) m = nthf col j.
Proof. intros HL Hm. unfold nthf. now rewrite (again_nth col m j HL Hm). Qed.
Lemma again_wave m j : nth_error (idx_of use) m = Some j -> nth_wave w' m = nth_wave w j.
Proof. intros Hm. unfold nth_wave, w'. cbn [wv_eff_wave wave_out]. fold use. now rewrite (again_nth _ m j eq_refl Hm). Qed.

(** No unflagged channel is bad the second time *)
Lemma again_flags flag badb badb' : length flag = length (wv_eff_wave w) ->
  (forall m j, nth_error (idx_of use) m = Some j -> badb' m = badb j) ->
  forall m, nth_error (sel use (flagcol flag badb)) m = Some false -> badb' m = false.
Proof.
  intros HL HB m Hm.
  assert (LC : length (flagcol flag badb) = length (wv_eff_wave w)) by (rewrite flagcol_length; exact HL).
  assert (Hlt : (m < length (idx_of use))%nat).
  { rewrite idx_of_length, <- (sel_length use (flagcol flag badb)) by (unfold use; rewrite use_length; auto).
    apply nth_error_Some. congruence. }
  destruct (some_nth _ m Hlt) as [j Hj]. rewrite (again_nth _ m j LC Hj) in Hm. rewrite (HB m j Hj).
  destruct (nth_error flag j) as [b|] eqn:E.
  - rewrite (flagcol_nth _ _ _ _ E) in Hm. injection Hm as Hm. now apply orb_false_iff in Hm.
  - apply nth_error_None in E. assert (nth_error (flagcol flag badb) j = None); [|congruence].
    apply nth_error_None. rewrite flagcol_length. exact E.
Qed.
Lemma again_some_ok flag badb badb' : length flag = length (wv_eff_wave w) ->
  (forall m j, nth_error (idx_of use) m = Some j -> badb' m = badb j) ->
  some_ok use flag badb = true -> some_ok (use_of f w') (sel use (flagcol flag badb)) badb' = true.
Proof.
  intros HL HB H. unfold some_ok in *. rewrite flagcol_id by (eapply again_flags; eauto).
  rewrite again_used, sel_true; [exact H|]. apply sel_length. unfold use. rewrite use_length, flagcol_length. auto.
Qed.

Lemma vis_again x n r : wf_vis_record x n r = true -> 0 <= n -> length (wv_eff_wave w) = Z.to_nat n ->
  f_target_id f < 0 -> vis_okb pow_half f w use r = true ->
  vis_okb pow_half f w' (use_of f w') (vis_out pow_half f w use r) = true
  /\ vis_out pow_half f w' (use_of f w') (vis_out pow_half f w use r) = vis_out pow_half f w use r.
Proof.
  intros Wf P LW T Hok. assert (W := Wf).
  apply wf_vis_record_parts in Wf as (L1 & L2 & L3 & L4 & L5 & _); [|exact P].
  assert (HB : forall m j, nth_error (idx_of use) m = Some j ->
     vis_badb pow_half f w' (vis_out pow_half f w use r) m = vis_badb pow_half f w r j).
  { intros m j Hm. unfold vis_badb. cbn [vr_visamp vr_visamperr vr_visphierr vis_out].
    rewrite (again_wave m j Hm), !(again_nthf _ m j) by (congruence || exact Hm). reflexivity. }
  split.
  - unfold vis_okb in *. cbn [vr_target_id vr_mjd vr_flag vis_out]. rewrite (new_id_fix f _ T).
    change (vis_bas pow_half (vis_out pow_half f w use r)) with (vis_bas pow_half r).
    rewrite !andb_true_iff in *. destruct Hok as [H1 H2]. split; [exact H1|].
    apply orb_true_iff in H2 as [H2|H2]; apply orb_true_iff; [now left|right].
    apply again_some_ok; [congruence|exact HB|exact H2].
  - apply (vis_fix f w' x (Z.of_nat (cnt use))).
    + now apply (vis_out_wf pow_half f x w r n).
    + lia.
    + unfold w'. cbn. rewrite sel_length by apply use_length. unfold use. lia.
    + unfold w'. now apply wave_out_used.
    + exact T.
    + cbn [vr_flag vis_out]. eapply again_flags; [congruence|exact HB].
Qed.
Lemma vis2_again n r : wf_vis2_record n r = true -> length (wv_eff_wave w) = Z.to_nat n ->
  f_target_id f < 0 -> vis2_okb pow_half f w use r = true ->
  vis2_okb pow_half f w' (use_of f w') (vis2_out pow_half f w use r) = true
  /\ vis2_out pow_half f w' (use_of f w') (vis2_out pow_half f w use r) = vis2_out pow_half f w use r.
Proof.
  intros Wf LW T Hok. assert (W := Wf). unfold wf_vis2_record in Wf. len_eqs.
  assert (HB : forall m j, nth_error (idx_of use) m = Some j ->
     vis2_badb pow_half f w' (vis2_out pow_half f w use r) m = vis2_badb pow_half f w r j).
  { intros m j Hm. unfold vis2_badb. cbn [v2_vis2data v2_vis2err vis2_out].
    rewrite (again_wave m j Hm), !(again_nthf _ m j) by (lia || exact Hm). reflexivity. }
  split.
  - unfold vis2_okb in *. cbn [v2_target_id v2_mjd v2_flag vis2_out]. rewrite (new_id_fix f _ T).
    change (vis2_bas pow_half (vis2_out pow_half f w use r)) with (vis2_bas pow_half r).
    rewrite !andb_true_iff in *. destruct Hok as [H4 H5]. split; [exact H4|].
    apply orb_true_iff in H5 as [H5|H5]; apply orb_true_iff; [now left|right].
    apply again_some_ok; [lia|exact HB|exact H5].
  - apply (vis2_fix f w' (Z.of_nat (cnt use))).
    + now apply (vis2_out_wf pow_half f w r n).
    + unfold w'. cbn. rewrite sel_length by apply use_length. unfold use. lia.
    + unfold w'. now apply wave_out_used.
    + exact T.
    + cbn [v2_flag vis2_out]. eapply again_flags; [lia|exact HB].
Qed.
Lemma col_or_nan_again acc col : length col = length (wv_eff_wave w) ->
  col_or_nan acc (sel use (col_or_nan acc col)) = sel use (col_or_nan acc col).
Proof.
  intros HL. destruct acc; [reflexivity|]. cbn. rewrite sel_map, map_map. reflexivity.
Qed.
Lemma t3_again n r : wf_t3_record n r = true -> length (wv_eff_wave w) = Z.to_nat n ->
  f_target_id f < 0 -> t3_okb pow_half f w use r = true ->
  t3_okb pow_half f w' (use_of f w') (t3_out pow_half f w use r) = true
  /\ t3_out pow_half f w' (use_of f w') (t3_out pow_half f w use r) = t3_out pow_half f w use r.
Proof.
  intros Wf LW T Hok. assert (W := Wf). unfold wf_t3_record in Wf. len_eqs.
  assert (HB : forall m j, nth_error (idx_of use) m = Some j ->
     t3_badb pow_half f w' (t3_out pow_half f w use r) m = t3_badb pow_half f w r j).
  { intros m j Hm. unfold t3_badb. cbn [t3_t3amp t3_t3amperr t3_t3phierr t3_out].
    change (t3_bases pow_half (t3_out pow_half f w use r)) with (t3_bases pow_half r).
    rewrite (again_wave m j Hm), (again_nthf (t3_t3amperr r) m j), (again_nthf (t3_t3phierr r) m j) by (lia || exact Hm).
    destruct (f_accept_t3amp f) eqn:E; cbn [col_or_nan andb]; [|reflexivity].
    rewrite (again_nthf (t3_t3amp r) m j) by (lia || exact Hm). reflexivity. }
  split.
  - unfold t3_okb in *. cbn [t3_target_id t3_mjd t3_flag t3_out]. rewrite (new_id_fix f _ T).
    change (t3_bases pow_half (t3_out pow_half f w use r)) with (t3_bases pow_half r).
    rewrite !andb_true_iff in *. destruct Hok as [H6 H7]. split; [exact H6|].
    apply orb_true_iff in H7 as [H7|H7]; apply orb_true_iff; [now left|right].
    apply again_some_ok; [lia|exact HB|exact H7].
  - apply (t3_fix f w' (Z.of_nat (cnt use))).
    + now apply (t3_out_wf pow_half f w r n).
    + unfold w'. cbn. rewrite sel_length by apply use_length. unfold use. lia.
    + unfold w'. now apply wave_out_used.
    + exact T.
    + cbn [t3_flag t3_out]. eapply again_flags; [lia|exact HB].
    + cbn [t3_t3amp t3_out]. apply col_or_nan_again. lia.
    + cbn [t3_t3phi t3_out]. apply col_or_nan_again. lia.
Qed.
Lemma nan_snr_inside e : outside_snr f (ratio_f32 f64_nan e) = false.
Proof. unfold outside_snr, outside, flt, fgt, SFltb. destruct (f_snr_lo f), (f_snr_hi f); reflexivity. Qed.
Lemma flux_again n r : wf_flux_record n r = true -> length (wv_eff_wave w) = Z.to_nat n ->
  f_target_id f < 0 -> flux_okb f r = true ->
  flux_okb f (flux_out f use r) = true /\ flux_out f (use_of f w') (flux_out f use r) = flux_out f use r.
Proof.
  intros Wf LW T Hok. assert (W := Wf). unfold wf_flux_record in Wf. len_eqs.
  split.
  - unfold flux_okb in *. cbn [fr_target_id fr_mjd flux_out]. rewrite (new_id_fix f _ T). exact Hok.
  - apply (flux_fix f w' (Z.of_nat (cnt use))).
    + now apply (flux_out_wf f w r n).
    + unfold w'. cbn. rewrite sel_length by apply use_length. unfold use. lia.
    + unfold w'. now apply wave_out_used.
    + exact T.
    + assert (LU : length use = length (fr_fluxdata r)) by (unfold use; rewrite use_length; lia).
      assert (LE : length (fr_fluxerr r) = length (fr_fluxdata r)) by lia.
      unfold flux_col. cbn [fr_fluxdata fr_fluxerr flux_out]. unfold flux_col.
      clear - LU LE. revert LU LE. generalize use (fr_fluxdata r) (fr_fluxerr r).
      induction use0 as [|u us IH]; intros [|a l] [|e m] L1 L2; try discriminate; try reflexivity.
      injection L1 as L1. injection L2 as L2. cbn [combine map sel].
      destruct u; [|now apply IH]. cbn [combine map]. rewrite (IH l m L1 L2). f_equal.
      destruct (outside_snr f (ratio_f32 a e)) eqn:E; [now rewrite nan_snr_inside|now rewrite E].
Qed.
End Again.

End Pow.
