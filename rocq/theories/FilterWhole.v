(** Whole datasets: filtering twice; a filter whose ranges contain everything. *)
From Verif Require Import Base BaseLemmas FloatModel Types FileModel FileSpec FileProofs FilterModel FilterSpec FilterLemmas FilterProofs FilterRecords FilterTables FilterApply FilterFacts FilterResults FilterOutput FilterFix.
From Coq Require Import Lia.

Section Pow.
Variable pow_half : f64 -> f64.

(** When the data tables are left alone, so are the tables they refer to *)
Section Fixed.
Variables (d : oi_fits) (f : filter_spec).
Hypothesis C : consistent d.
Hypothesis HP : pats f.
Hypothesis F1 : vis_list pow_half d f = o_visList d.
Hypothesis F2 : vis2_list pow_half d f = o_vis2List d.
Hypothesis F3 : t3_list pow_half d f = o_t3List d.
Hypothesis F4 : flux_list d f = o_fluxList d.

Lemma names_fixed : (forall n, listed (insnames pow_half d f) n = true <-> uses_insname d n)
  /\ (forall n, listed (arrnames pow_half d f) n = true <-> uses_arrname d n)
  /\ (forall n, listed (corrnames pow_half d f) n = true <-> uses_corrname d n).
Proof.
  unfold insnames, arrnames, corrnames. rewrite F1, F2, F3, F4.
  split; [|split]; intros n; [rewrite insname_list_spec|rewrite arrname_list_spec|rewrite corrname_list_spec]; reflexivity.
Qed.

Lemma arrays_fixed : (forall a, In a (o_arrayList d) -> accept_arrname f (ar_arrname a) = true) ->
  kept (fun a => uses_arrname d (ar_arrname a)) eq (o_arrayList d) (array_list pow_half d f).
Proof.
  intros HA. unfold array_list. rewrite (filter_all (fun a => accept_arrname f (ar_arrname a))) by exact HA.
  rewrite <- (map_id (filter _ _)). apply kept_filter; [|reflexivity]. intros a Ha. apply names_fixed.
Qed.
Lemma corrs_fixed : (forall a, In a (o_corrList d) -> accept_corrname f (co_corrname a) = true) ->
  kept (fun a => uses_corrname d (co_corrname a)) eq (o_corrList d) (corr_list pow_half d f).
Proof.
  intros HA. unfold corr_list. rewrite (filter_all (fun a => accept_corrname f (co_corrname a))) by exact HA.
  rewrite <- (map_id (filter _ _)). apply kept_filter; [|reflexivity]. intros a Ha. apply names_fixed.
Qed.
Lemma waves_fixed :
  (forall w, In w (o_wavelengthList d) -> accept_insname f (wv_insname w) = true /\ all_used f w) ->
  kept (fun w => uses_insname d (wv_insname w)) eq (o_wavelengthList d) (wave_list pow_half d f).
Proof.
  intros HA. unfold wave_list. rewrite (filter_all (wave_kept f)).
  2:{ intros w Hw. destruct (HA w Hw) as [H1 H2]. destruct (wave_wf d w C Hw) as (Wf & Hp & _).
      destruct (wf_wavelength_len w Wf) as (L & _). unfold wave_kept. rewrite H1, H2, cnt_true, L.
      apply Nat.ltb_lt. lia. }
  rewrite map_fix.
  2:{ intros w Hw. apply wave_out_fix; [now apply (wave_wf d w C)|now apply HA]. }
  rewrite <- (map_id (filter _ _)). apply kept_filter; [|reflexivity]. intros a Ha. apply names_fixed.
Qed.
Lemma inspols_fixed : f_target_id f < 0 ->
  (forall w, In w (o_wavelengthList d) -> all_used f w) ->
  (forall t, In t (o_inspolList d) -> accept_arrname f (is_arrname t) = true /\
     forall r, In r (is_record t) -> inspol_okb d f r = true) ->
  kept (fun t => uses_arrname d (is_arrname t)) eq (o_inspolList d) (inspol_list pow_half d f).
Proof.
  intros T HU HA. unfold inspol_list.
  destruct (wf_fits_parts d (cs_wf d C)) as (_&_&_&_&W&_).
  rewrite (filter_all (inspol_keptb d f)).
  2:{ intros t Ht. unfold inspol_keptb. destruct (HA t Ht) as [H1 H2]. rewrite H1. cbn [andb].
      pose proof (forallb_in _ _ _ W Ht) as Wt. apply andb_true_iff in Wt as [WL _]. apply len_is_eq in WL.
      destruct (cs_inspol d C t Ht) as [P _]. destruct (is_record t) as [|r rs] eqn:E; [cbn in WL; lia|].
      cbn. rewrite (H2 r) by now left. reflexivity. }
  rewrite map_fix.
  2:{ intros t Ht. destruct (HA t Ht) as [_ H2]. destruct (cs_inspol d C t Ht) as (P & name & N1 & N2).
      pose proof (forallb_in _ _ _ W Ht) as Wt. apply andb_true_iff in Wt as [WL Wr]. apply len_is_eq in WL.
      unfold inspol_out. rewrite (filter_all (inspol_okb d f)) by exact H2. rewrite map_fix.
      - destruct (is_record t) as [|r rs] eqn:E; [cbn in WL; lia|].
        pose proof (forallb_in _ _ _ Wr (or_introl eq_refl)) as Wr0. unfold wf_inspol_record in Wr0. len_eqs.
        replace (Z.of_nat (length (r :: rs))) with (is_numrec t) by (rewrite WL; reflexivity).
        replace (Z.of_nat (length (ip_jxx r))) with (is_nwave t) by congruence. rewrite <- E.
        destruct t; reflexivity.
      - intros r Hr. pose proof (H2 r Hr) as Hok. apply inspol_okb_spec in Hok; [|apply (cs_unique d C)|exact HP].
        destruct Hok as (_&_&_&_&w&j&Hw&_). assert (E := Hw). apply wv_of_instrument in E; [|apply (cs_unique d C)].
        unfold inspol_rec_out. rewrite E. rewrite (HU w (proj1 Hw)), (new_id_fix f _ T).
        pose proof (forallb_in _ _ _ Wr Hr) as Wr0. unfold wf_inspol_record in Wr0. len_eqs.
        rewrite (N1 r Hr) in Hw. destruct (wave_wf d w C (proj1 Hw)) as (Wf & _).
        destruct (wf_wavelength_len w Wf) as (L & _). rewrite (N2 w Hw) in L.
        rewrite !sel_true by lia. destruct r; reflexivity. }
  rewrite <- (map_id (filter _ _)). apply kept_filter; [|reflexivity]. intros a Ha. apply names_fixed.
Qed.
End Fixed.

Lemma kept_all {A} (P : A -> Prop) l m : kept P eq l m -> (forall a, In a l -> P a) -> m = l.
Proof.
  intros K. induction K as [|a b l m HP HQ K IH|a l m HP K IH]; intros H; [reflexivity| |].
  - rewrite HQ, IH; auto. intros; apply H; now right.
  - exfalso. apply HP, H. now left.
Qed.

(** ** Twice *)

Section Twice.
Variables (d : oi_fits) (f : filter_spec) (arrh : hash oi_array)
  (wavh : hash oi_wavelength) (corh : hash oi_corr).
Hypothesis C : consistent d.
Hypothesis HP : pats f.
Hypothesis T : f_target_id f < 0.
Hypothesis IA : indexes ar_arrname (array_list pow_half d f) arrh.
Hypothesis IW : indexes wv_insname (wave_list pow_half d f) wavh.
Hypothesis IC : indexes co_corrname (corr_list pow_half d f) corh.
Let D := filter_image pow_half d f arrh wavh corh.

Lemma CD : consistent D.
Proof. apply output_consistent; auto. now left. Qed.

Lemma wave_band w : In w (o_wavelengthList d) -> length (wv_eff_band w) = length (wv_eff_wave w).
Proof. intros H. destruct (wave_wf d w C H) as (Wf & _). destruct (wf_wavelength_len w Wf) as (L1 & L2 & _). congruence. Qed.

Lemma wave_out_in {X R} (t : dtab X R) w : instrument d (tb_insname t) w -> uses_insname D (tb_insname t) ->
  instrument D (tb_insname t) (wave_out f w).
Proof.
  intros Hw HU. destruct (uses_insname_accepted pow_half d f arrh wavh corh C HP IW _ HU) as (w' & Hw' & _).
  fold D in Hw'. destruct Hw' as [H1 H2]. assert (G := H1).
  apply wave_in in H1 as (w0 & H3 & -> & _). cbn in H2.
  rewrite (instrument_unique d (tb_insname t) w w0); [split; auto|apply (cs_unique d C)|exact Hw|split; auto].
Qed.

Lemma again_tables {X R} (okb : oi_wavelength -> list bool -> R -> bool) g (acc : bool) (l : list (dtab X R)) wfr :
  let l' := if acc then map (dtab_new okb g d f) (filter (dtab_kept okb d f) l) else [] in
  (forall t, In t l' -> wf_dtab (wfr t) t = true /\ table_ready D t /\ uses_insname D (tb_insname t)) ->
  (forall t w r, In t l -> instrument d (tb_insname t) w -> In r (tb_record t) -> okb w (use_of f w) r = true ->
     okb (wave_out f w) (use_of f (wave_out f w)) (g w (use_of f w) r) = true
     /\ g (wave_out f w) (use_of f (wave_out f w)) (g w (use_of f w) r) = g w (use_of f w) r) ->
  (if acc then map (dtab_new okb g D f) (filter (dtab_kept okb D f) l') else []) = l'.
Proof.
  intros l' H1 H2. apply dtabs_fix with (wfr := wfr).
  - apply (cs_unique D CD).
  - intros ->. reflexivity.
  - intros t' Ht'. destruct (H1 t' Ht') as (Wf & [Hn Hrdy] & HU).
    destruct (dtab_in d f C okb g acc l t' Ht') as (t & w & Ht & Hw & HC & HE & A1 & A2 & A3 & E).
    assert (Hw' : instrument D (tb_insname t') (wave_out f w)) by (subst t'; apply (wave_out_in t w); auto).
    assert (HN : tb_nwave t' = Z.of_nat (cnt (use_of f w))) by (subst t'; reflexivity).
    split; [exact Wf|]. split; [exact Hn|]. split; [rewrite HN; lia|].
    split; [subst t'; exact A1|]. split; [subst t'; exact A2|]. split; [subst t'; exact A3|].
    exists (wave_out f w). split; [exact Hw'|]. split; [apply wave_out_used, wave_band, Hw|].
    split; [rewrite HN, Nat2Z.id; cbn; apply sel_length, use_length|].
    intros r' Hr'. subst t'. cbn in Hr'. apply in_map_iff in Hr' as (r & <- & Hr). apply filter_In in Hr as [Hr Hok].
    now apply (H2 t w r).
Qed.

Lemma twice_vis : vis_list pow_half D f = o_visList D.
Proof.
  apply (again_tables (vis_okb pow_half f) (vis_out pow_half f) (f_accept_vis f) (o_visList d) (fun t => wf_vis_record (tb_x t))).
  - intros t Ht. destruct (vis_ready pow_half d f arrh wavh corh C t Ht) as [H1 H2].
    split; [exact H1|]. split; [exact H2|]. now apply uses_vis.
  - intros t w r Ht Hw Hr Hok. destruct (vis_facts pow_half d f t w r C Ht Hw Hr) as (Wf & LW & P & _).
    apply (vis_again pow_half f w (wave_band w (proj1 Hw)) (tb_x t) (tb_nwave t)); auto.
Qed.
Lemma twice_vis2 : vis2_list pow_half D f = o_vis2List D.
Proof.
  apply (again_tables (vis2_okb pow_half f) (vis2_out pow_half f) (f_accept_vis2 f) (o_vis2List d) (fun t => wf_vis2_record)).
  - intros t Ht. destruct (vis2_ready pow_half d f arrh wavh corh C t Ht) as [H1 H2].
    split; [exact H1|]. split; [exact H2|]. now apply uses_vis2.
  - intros t w r Ht Hw Hr Hok. destruct (vis2_facts pow_half d f t w r C Ht Hw Hr) as (Wf & LW & P & _).
    apply (vis2_again pow_half f w (wave_band w (proj1 Hw)) (tb_nwave t)); auto.
Qed.
Lemma twice_t3 : t3_list pow_half D f = o_t3List D.
Proof.
  apply (again_tables (t3_okb pow_half f) (t3_out pow_half f) (f_accept_t3amp f || f_accept_t3phi f) (o_t3List d) (fun t => wf_t3_record)).
  - intros t Ht. destruct (t3_ready pow_half d f arrh wavh corh C t Ht) as [H1 H2].
    split; [exact H1|]. split; [exact H2|]. now apply uses_t3.
  - intros t w r Ht Hw Hr Hok. destruct (t3_facts pow_half d f t w r C Ht Hw Hr) as (Wf & LW & P & _).
    apply (t3_again pow_half f w (wave_band w (proj1 Hw)) (tb_nwave t)); auto.
Qed.
Lemma twice_flux : flux_list D f = o_fluxList D.
Proof.
  apply (again_tables (fun _ _ => flux_okb f) (fun _ => flux_out f) (f_accept_flux f) (o_fluxList d) (fun t => wf_flux_record)).
  - intros t Ht. destruct (flux_ready pow_half d f arrh wavh corh C t Ht) as [H1 H2].
    split; [exact H1|]. split; [exact H2|]. now apply uses_flux.
  - intros t w r Ht Hw Hr Hok. destruct (flux_facts d f t w r C Ht Hw Hr) as (Wf & LW & P & _).
    apply (flux_again f w (wave_band w (proj1 Hw)) (tb_nwave t)); auto.
Qed.

Lemma twice_arrays : array_list pow_half D f = o_arrayList D.
Proof.
  apply (kept_all _ _ _ (arrays_fixed D f twice_vis twice_vis2 twice_t3 twice_flux
    ltac:(intros a Ha; unfold D in Ha; cbn in Ha; unfold array_list in Ha; apply filter_In in Ha as [Ha _];
      now apply filter_In in Ha))).
  intros a Ha. unfold D in Ha. cbn in Ha. unfold array_list in Ha. apply filter_In in Ha as [_ Ha].
  now apply (uses_arrname_D pow_half d f arrh wavh corh).
Qed.
Lemma twice_corrs : corr_list pow_half D f = o_corrList D.
Proof.
  apply (kept_all _ _ _ (corrs_fixed D f twice_vis twice_vis2 twice_t3 twice_flux
    ltac:(intros a Ha; unfold D in Ha; cbn in Ha; unfold corr_list in Ha; apply filter_In in Ha as [Ha _];
      now apply filter_In in Ha))).
  intros a Ha. unfold D in Ha. cbn in Ha. unfold corr_list in Ha. apply filter_In in Ha as [_ Ha].
  now apply (uses_corrname_D pow_half d f arrh wavh corh).
Qed.
Lemma D_waves w : In w (o_wavelengthList D) -> accept_insname f (wv_insname w) = true /\ all_used f w
  /\ uses_insname D (wv_insname w).
Proof.
  intros Hw. apply wave_in in Hw as (w0 & H1 & -> & H2 & H3). cbn [wv_insname wave_out].
  apply andb_true_iff in H2 as [H2 _]. split; [exact H2|]. split; [apply wave_out_used, wave_band, H1|exact H3].
Qed.
Lemma twice_waves : wave_list pow_half D f = o_wavelengthList D.
Proof.
  apply (kept_all _ _ _ (waves_fixed D f CD twice_vis twice_vis2 twice_t3 twice_flux
    (fun w Hw => conj (proj1 (D_waves w Hw)) (proj1 (proj2 (D_waves w Hw)))))).
  intros w Hw. now apply D_waves.
Qed.
Lemma twice_inspols : (forall t r, In t (o_inspolList D) -> In r (is_record t) -> uses_insname D (ip_insname r)) ->
  inspol_list pow_half D f = o_inspolList D.
Proof.
  intros HI.
  assert (G : forall t', In t' (o_inspolList D) -> exists t, t' = inspol_out d f t /\ In t (o_inspolList d)
     /\ accept_arrname f (is_arrname t) = true /\ uses_arrname D (is_arrname t)).
  { intros t' Ht'. unfold D in Ht'. cbn in Ht'. unfold inspol_list in Ht'. apply filter_In in Ht' as [H1 H2].
    apply in_map_iff in H1 as (t & <- & H1). apply filter_In in H1 as [H1 H3]. apply andb_true_iff in H3 as [H3 _].
    exists t. split; [reflexivity|]. split; [exact H1|]. split; [exact H3|].
    now apply (uses_arrname_D pow_half d f arrh wavh corh) in H2. }
  assert (H2 : forall t, In t (o_inspolList D) -> accept_arrname f (is_arrname t) = true /\
     forall r, In r (is_record t) -> inspol_okb D f r = true).
  { intros t' Ht'. destruct (G t' Ht') as (t & E & Ht & HA & _). split; [subst t'; exact HA|].
    intros r' Hr'. assert (HU := HI t' r' Ht' Hr'). subst t'. cbn in Hr'. apply in_map_iff in Hr' as (r & <- & Hr).
    apply filter_In in Hr as [Hr Hok]. assert (HN := cs_unique d C).
    apply inspol_okb_spec in Hok; auto. destruct Hok as (K1 & K2 & K3 & K4 & w & j & Hw & Hj).
    assert (E := Hw). apply (wv_of_instrument _ _ _ HN) in E. unfold inspol_rec_out in *. rewrite E in *.
    cbn [ip_insname] in HU.
    apply inspol_okb_spec; [apply (cs_unique D CD)|exact HP|].
    split; [left; exact T|]. split; [exact K2|]. split; [exact K3|]. split; [exact K4|]. cbn [ip_insname].
    destruct (uses_insname_accepted pow_half d f arrh wavh corh C HP IW _ HU) as (w' & Hw' & _). fold D in Hw'.
    exists w'. destruct Hw' as [Hin En]. assert (Hd := Hin). apply wave_in in Hd as (w0 & Hw0 & -> & Hk & _).
    apply wave_kept_spec in Hk as [_ _]; [|exact HP].
    assert (0 < wv_nwave (wave_out f w0) /\ True) as [Hp _] by (split; [apply (cs_waves D CD _ Hin)|exact I]).
    cbn in Hp. exists 0%nat. split; [split; auto|]. apply chan_accepted_spec.
    rewrite again_used by (now apply wave_band). destruct (cnt (use_of f w0)); [lia|reflexivity]. }
  apply (kept_all _ _ _ (inspols_fixed D f CD HP twice_vis twice_vis2 twice_t3 twice_flux T
    (fun w Hw => proj1 (proj2 (D_waves w Hw))) H2)).
  intros t' Ht'. destruct (G t' Ht') as (t & -> & _ & _ & HU). exact HU.
Qed.
End Twice.

Lemma pats_ok f : pats (compiled f).
Proof. repeat split. Qed.
Lemma target_fix f t : f_target_id f < 0 -> target_out f t = t.
Proof. intros H. unfold target_out. destruct (Z.leb_spec 0 (f_target_id f)); [lia|reflexivity]. Qed.

Theorem filter_twice d f d1 f1 : consistent d -> fresh_filter f -> f_target_id f < 0 ->
  apply_oi_filter pow_half d f = Ok (f1, d1) ->
  exists d2, apply_oi_filter pow_half d1 f = Ok (f, d2)
    /\ same_data d1 d2 /\ same_config d1 d2 /\ same_lookups d1 d2
    /\ ((forall t r, In t (o_inspolList d1) -> In r (is_record t) -> uses_insname d1 (ip_insname r)) ->
        o_inspolList d2 = o_inspolList d1).
Proof.
  intros C HF T E. destruct (apply_oi_filter_ok pow_half d f C HF) as (h1 & h2 & h3 & E1 & I1 & I2 & I3).
  rewrite E1 in E. injection E as <- <-.
  assert (C1 : consistent (filter_image pow_half d (compiled f) h1 h2 h3)).
  { apply output_consistent; auto; try apply pats_ok. now left. }
  destruct (apply_oi_filter_ok pow_half _ f C1 HF) as (k1 & k2 & k3 & E2 & J1 & J2 & J3).
  exists (filter_image pow_half (filter_image pow_half d (compiled f) h1 h2 h3) (compiled f) k1 k2 k3).
  split; [exact E2|].
  assert (P := pats_ok f). assert (T' : f_target_id (compiled f) < 0) by exact T.
  pose proof (twice_vis d (compiled f) h1 h2 h3 C P T' I2) as V1.
  pose proof (twice_vis2 d (compiled f) h1 h2 h3 C P T' I2) as V2.
  pose proof (twice_t3 d (compiled f) h1 h2 h3 C P T' I2) as V3.
  pose proof (twice_flux d (compiled f) h1 h2 h3 C P T' I2) as V4.
  pose proof (twice_arrays d (compiled f) h1 h2 h3 C P T' I2) as V5.
  pose proof (twice_waves d (compiled f) h1 h2 h3 C P T' I2) as V6.
  pose proof (twice_corrs d (compiled f) h1 h2 h3 C P T' I2) as V7.
  split; [|split; [|split]].
  - split; [reflexivity|]. split; [apply target_fix, T'|]. repeat split; assumption.
  - repeat split; assumption.
  - intros n. cbn. rewrite (J1 n), (J2 n), (J3 n), (I1 n), (I2 n), (I3 n), V5, V6, V7. auto.
  - intros HI. exact (twice_inspols d (compiled f) h1 h2 h3 C P T' I2 HI).
Qed.

(** ** Everything in range *)

Lemma open_accepts f n : open_filter f -> accept_arrname (compiled f) n = true
  /\ accept_insname (compiled f) n = true /\ accept_corrname (compiled f) n = true.
Proof.
  intros (H1 & H2 & H3 & _). unfold accept_arrname, accept_insname, accept_corrname, compiled. cbn.
  rewrite H1, H2, H3. repeat split; apply glob_spec, glob_star.
Qed.

Section Open.
Variables (d : oi_fits) (f : filter_spec).
Hypothesis C : consistent d.
Hypothesis O : open_filter f.
Hypothesis WI : within pow_half f d.

Lemma open_used w : In w (o_wavelengthList d) -> all_used (compiled f) w.
Proof. intros Hw. apply all_used_spec. intros x Hx. now apply (wi_waves _ _ _ WI w). Qed.

Lemma open_tables {X R} (k : kind R) (okb : oi_wavelength -> list bool -> R -> bool) g (acc : bool) (l : list (dtab X R)) wfr :
  acc = true ->
  (forall t, In t l -> wf_dtab (wfr t) t = true /\ table_ready d t /\ table_within k f d t) ->
  (forall t w r, In t l -> instrument d (tb_insname t) w -> In r (tb_record t) ->
     (okb w (use_of (compiled f) w) r = true <-> record_accepted k f w r)
     /\ ((forall j x, nth_error (wv_eff_wave w) j = Some x -> ~ k_bad k f x r j) ->
         g w (use_of (compiled f) w) r = r)) ->
  (if acc then map (dtab_new okb g d (compiled f)) (filter (dtab_kept okb d (compiled f)) l) else []) = l.
Proof.
  intros HA H1 H2. apply dtabs_fix with (wfr := wfr); [apply (cs_unique d C)|congruence|].
  intros t Ht. destruct (H1 t Ht) as (Wf & [Hn Hr] & w & Hw & HW).
  destruct (open_accepts f (tb_insname t) O) as (_ & A1 & _). destruct (open_accepts f (tb_arrname t) O) as (A2 & _ & _).
  destruct (open_accepts f (tb_corrname t) O) as (_ & _ & A3).
  destruct (wave_wf d w C (proj1 Hw)) as (Ww & Wp & _). destruct (wf_wavelength_len w Ww) as (L & _).
  rewrite (Hr w Hw) in *.
  repeat (split; [assumption|]). exists w. split; [exact Hw|]. split; [apply open_used, Hw|]. split; [exact L|].
  intros r Hrr. destruct (HW r Hrr) as (M & B & K). destruct (H2 t w r Ht Hw Hrr) as [K1 K2]. split; [|now apply K2].
  apply K1. split; [left; apply O|]. split; [exact M|]. split; [exact B|]. right. left. apply O.
Qed.

Lemma good_flags {R} (k : kind R) (w : oi_wavelength) badb r : length (k_flag k r) = length (wv_eff_wave w) ->
  bad_decides k (compiled f) w badb r -> (forall j x, nth_error (wv_eff_wave w) j = Some x -> ~ k_bad k (compiled f) x r j) ->
  forall j, nth_error (k_flag k r) j = Some false -> badb r j = false.
Proof.
  intros LF HB HG j Hj. assert (Hlt : (j < length (wv_eff_wave w))%nat) by (rewrite <- LF; apply nth_error_Some; congruence).
  destruct (some_nth _ _ Hlt) as [x Hx]. specialize (HB j x Hx). specialize (HG j x Hx).
  destruct (badb r j); [|reflexivity]. exfalso. apply HG. now apply HB.
Qed.

Lemma open_vis : vis_list pow_half d (compiled f) = o_visList d.
Proof.
  apply (open_tables (kind_vis pow_half) _ _ _ _ (fun t => wf_vis_record (tb_x t))); [apply O| |].
  - intros t Ht. split; [now apply (wf_of_vis d)|]. split; [now apply (cs_vis d C)|now apply (wi_vis _ _ _ WI)].
  - intros t w r Ht Hw Hr. split; [now apply (vis_okb_spec pow_half d (compiled f) t)|]. intros HG.
    destruct (vis_facts pow_half d (compiled f) t w r C Ht Hw Hr) as (Wf & LW & P & _ & LF & HB).
    apply (vis_fix pow_half (compiled f) w (tb_x t) (tb_nwave t)); auto.
    + apply open_used, Hw.
    + apply O.
    + now apply (good_flags (kind_vis pow_half) w (vis_badb pow_half (compiled f) w)).
Qed.
Lemma open_vis2 : vis2_list pow_half d (compiled f) = o_vis2List d.
Proof.
  apply (open_tables (kind_vis2 pow_half) _ _ _ _ (fun t => wf_vis2_record)); [apply O| |].
  - intros t Ht. split; [now apply (wf_of_vis2 d)|]. split; [now apply (cs_vis2 d C)|now apply (wi_vis2 _ _ _ WI)].
  - intros t w r Ht Hw Hr. split; [now apply (vis2_okb_spec pow_half d (compiled f) t)|]. intros HG.
    destruct (vis2_facts pow_half d (compiled f) t w r C Ht Hw Hr) as (Wf & LW & P & _ & LF & HB).
    apply (vis2_fix pow_half (compiled f) w (tb_nwave t)); auto.
    + apply open_used, Hw.
    + apply O.
    + now apply (good_flags (kind_vis2 pow_half) w (vis2_badb pow_half (compiled f) w)).
Qed.
Lemma open_t3 : t3_list pow_half d (compiled f) = o_t3List d.
Proof.
  apply (open_tables (kind_t3 pow_half) _ _ _ _ (fun t => wf_t3_record)).
  - apply orb_true_iff. left. apply O.
  - intros t Ht. split; [now apply (wf_of_t3 d)|]. split; [now apply (cs_t3 d C)|now apply (wi_t3 _ _ _ WI)].
  - intros t w r Ht Hw Hr. split; [now apply (t3_okb_spec pow_half d (compiled f) t)|]. intros HG.
    destruct (t3_facts pow_half d (compiled f) t w r C Ht Hw Hr) as (Wf & LW & P & _ & LF & HB).
    assert (A1 : f_accept_t3amp (compiled f) = true) by apply O. assert (A2 : f_accept_t3phi (compiled f) = true) by apply O.
    apply (t3_fix pow_half (compiled f) w (tb_nwave t)); auto.
    + apply open_used, Hw.
    + apply O.
    + now apply (good_flags (kind_t3 pow_half) w (t3_badb pow_half (compiled f) w)).
    + rewrite A1. reflexivity.
    + rewrite A2. reflexivity.
Qed.
Lemma open_flux : flux_list d (compiled f) = o_fluxList d.
Proof.
  apply (open_tables kind_flux (fun _ _ => flux_okb (compiled f)) (fun _ => flux_out (compiled f)) _ _ (fun t => wf_flux_record)); [apply O| |].
  - intros t Ht. split; [now apply (wf_of_flux d)|]. split; [now apply (cs_flux d C)|now apply (wi_flux _ _ _ WI)].
  - intros t w r Ht Hw Hr. split; [apply (flux_okb_spec (compiled f))|]. intros HG.
    destruct (flux_facts d (compiled f) t w r C Ht Hw Hr) as (Wf & LW & P & _ & LF).
    apply (flux_fix (compiled f) w (tb_nwave t)); auto.
    + apply open_used, Hw.
    + apply O.
    + destruct (wi_flux _ _ _ WI t Ht) as [_ HS]. assert (W := Wf). unfold wf_flux_record in W. len_eqs.
      apply (flux_col_fix pow_half); [lia|]. intros j. now apply HS.
Qed.
End Open.

Theorem filter_open d f : consistent d -> fresh_filter f -> open_filter f -> within pow_half f d ->
  exists d', apply_oi_filter pow_half d f = Ok (f, d') /\ same_data d d'
    /\ kept (fun a => uses_arrname d (ar_arrname a)) eq (o_arrayList d) (o_arrayList d')
    /\ kept (fun w => uses_insname d (wv_insname w)) eq (o_wavelengthList d) (o_wavelengthList d')
    /\ kept (fun c => uses_corrname d (co_corrname c)) eq (o_corrList d) (o_corrList d')
    /\ kept (fun t => uses_arrname d (is_arrname t)) eq (o_inspolList d) (o_inspolList d').
Proof.
  intros C HF O WI. destruct (apply_oi_filter_ok pow_half d f C HF) as (h1 & h2 & h3 & E1 & _).
  exists (filter_image pow_half d (compiled f) h1 h2 h3). split; [exact E1|].
  pose proof (open_vis d f C O WI) as V1. pose proof (open_vis2 d f C O WI) as V2.
  pose proof (open_t3 d f C O WI) as V3. pose proof (open_flux d f C O WI) as V4.
  assert (T : f_target_id (compiled f) < 0) by apply O. assert (OA := fun n => open_accepts f n O).
  split; [|split; [|split; [|split]]].
  - split; [reflexivity|]. split; [now apply target_fix|]. repeat split; assumption.
  - apply arrays_fixed; auto. intros; apply OA.
  - apply waves_fixed; auto. intros w Hw. split; [apply OA|now apply (open_used d f WI)].
  - apply corrs_fixed; auto. intros; apply OA.
  - apply inspols_fixed; auto; [apply pats_ok|intros w Hw; now apply (open_used d f WI)|].
    intros t Ht. split; [apply OA|]. intros r Hr. destruct (wi_inspol _ _ _ WI t r Ht Hr) as (M1 & M2 & w & Hw).
    apply inspol_okb_spec; [apply (cs_unique d C)|apply pats_ok|].
    split; [left; exact T|]. split.
    { destruct O as (_ & O2 & _). cbn. rewrite O2. apply glob_star. }
    split; [exact M1|]. split; [exact M2|]. exists w, 0%nat. split; [exact Hw|]. apply chan_accepted_spec.
    rewrite (open_used d f WI w (proj1 Hw)). destruct (wave_wf d w C (proj1 Hw)) as (Ww & Wp & _).
    destruct (wf_wavelength_len w Ww) as (L & _). rewrite L. destruct (Z.to_nat (wv_nwave w)) eqn:E; [lia|reflexivity].
Qed.
End Pow.
