(** Filtering and merging commute: when both orders succeed, and concrete cases. *)
From Verif Require Import Base BaseLemmas FloatModel Types FileModel FileSpec FileProofs FilterModel FilterSpec FilterLemmas
  FilterProofs FilterRecords FilterTables FilterApply FilterResults FilterMain
  MergeModel MergeSpec MergeProofs MergeNames MergeNamed MergeTables MergeTargets MergeHeader MergeData MergeWhole MergeFacts
  CommuteSpec CommuteData CommuteWhole.
From Coq Require Import Lia.
Open Scope list_scope.
Open Scope Z_scope.

Section Defined.
Variables (pow_half : f64 -> f64) (f0 : filter_spec) (ins : list oi_fits).
Hypothesis C : Forall consistent ins.
Hypothesis HF : fresh_filter f0.
Hypothesis BD : by_data f0.
Notation f := (compiled f0).
Notation image := (image pow_half f0).

Lemma image_intro d : consistent d -> exists d', apply_oi_filter pow_half d f0 = Ok (f0, d') /\ image d d'.
Proof using HF.
  intros Cd. destruct (apply_oi_filter_ok pow_half d f0 Cd HF) as (h1 & h2 & h3 & E & I1 & I2 & I3).
  eexists. split; [exact E|]. split; [exact Cd|]. exists h1, h2, h3. auto.
Qed.
Lemma all_filtered : exists ins', Forall2 (fun d d' => apply_oi_filter pow_half d f0 = Ok (f0, d')) ins ins'
  /\ Forall2 image ins ins'.
Proof using C HF.
  pose proof C as C0. clear C. induction C0 as [|d l Cd Cl IH].
  - exists []. split; constructor.
  - destruct IH as (l' & I1 & I2). destruct (image_intro d Cd) as (d' & E & I).
    exists (d' :: l'). split; constructor; auto.
Qed.

Lemma image_consistent d d' : image d d' -> consistent d'.
Proof using HF BD.
  intros (Cd & h1 & h2 & h3 & -> & I1 & I2 & I3).
  apply FilterOutput.output_consistent; auto; try apply FilterWhole.pats_ok. left. exact (no_target f0 BD).
Qed.

Lemma kept_nwave {X R} okb g d (b : bool) (l : list (dtab X R)) : 
  Forall (fun t => 0 < tb_nwave t) (if b then map (dtab_new okb g d f) (filter (dtab_kept okb d f) l) else []).
Proof using.
  destruct b; [|constructor]. apply Forall_forall. intros t' H. apply in_map_iff in H as (t0 & <- & H).
  apply filter_In in H as [Hin K]. unfold dtab_kept in K.
  unfold dtab_new. destruct (wv_of d (tb_insname t0)) as [w|]; [|rewrite andb_false_r in K; discriminate].
  apply andb_true_iff in K as [_ K]. apply andb_true_iff in K as [K _]. apply Nat.ltb_lt in K. cbn. lia.
Qed.
Lemma kept_ids {X R} (id : R -> Z) okb g d (b : bool) (l : list (dtab X R)) (ok : Z -> Prop) :
  (forall w use r, id (g w use r) = id r) ->
  Forall (fun t => Forall (fun r => ok (id r)) (tb_record t)) l ->
  Forall (fun t => Forall (fun r => ok (id r)) (tb_record t))
    (if b then map (dtab_new okb g d f) (filter (dtab_kept okb d f) l) else []).
Proof using.
  intros Hid F. destruct b; [|constructor]. rewrite Forall_forall in F. apply Forall_forall. intros t' H.
  apply in_map_iff in H as (t0 & <- & H). apply filter_In in H as [Hin K]. specialize (F t0 Hin).
  unfold dtab_new. destruct (wv_of d (tb_insname t0)) as [w|]; [|exact F].
  rewrite Forall_forall in F. apply Forall_forall. intros r Hr. cbn in Hr.
  apply in_map_iff in Hr as (r0 & <- & Hr). apply filter_In in Hr as [Hr _]. rewrite Hid. auto.
Qed.
Lemma image_inspol d d' t' : image d d' -> In t' (o_inspolList d') ->
  exists t, In t (o_inspolList d) /\ t' = inspol_out d f t /\ inspol_keptb d f t = true.
Proof using.
  intros (_ & h1 & h2 & h3 & -> & _) H. cbn [o_inspolList filter_image] in H. unfold inspol_list in H.
  apply filter_In in H as [H _]. apply in_map_iff in H as (t & <- & H). apply filter_In in H as [H1 H2]. eauto.
Qed.
Lemma image_mergeable d d' : image d d' ->
  wf_fits d = true /\ tables_nonempty d /\ targets_listed d /\ dated d ->
  wf_fits d' = true /\ tables_nonempty d' /\ targets_listed d' /\ dated d'.
Proof using HF BD.
  intros I (_ & (T1 & T2 & T3 & T4 & _) & (L1 & L2 & L3 & L4 & L5) & Da).
  pose proof (image_consistent d d' I) as C'. pose proof (no_target f0 BD) as NT.
  assert (Ht : o_targets d' = o_targets d) by (eapply image_targets; eauto).
  pose proof I as (Cd & h1 & h2 & h3 & E & _).
  split; [exact (cs_wf d' C')|]. split; [|split].
  - unfold tables_nonempty.
    split; [apply Forall_forall, (cs_arrays d' C')|].
    split; [apply Forall_forall; intros w Hw; apply (cs_waves d' C' w Hw)|].
    split; [apply Forall_forall, (cs_corrs d' C')|]. split.
    { apply Forall_forall. intros t' H. split; [apply (cs_inspol d' C' t' H)|].
      destruct (image_inspol d d' t' I H) as (t & Hin & -> & K).
      unfold inspol_keptb in K. apply andb_true_iff in K as [_ K]. apply existsb_exists in K as (r & Hr & K).
      pose proof (cs_wf d Cd) as W. apply wf_fits_parts in W as (_ & _ & _ & _ & W & _).
      pose proof (forallb_in _ _ _ W Hin) as W0.
      destruct (cs_inspol d Cd t Hin) as (_ & name & Hn & Hw).
      unfold inspol_out. cbn [is_nwave].
      destruct (map (inspol_rec_out d f) (filter (inspol_okb d f) (is_record t))) as [|r1 l] eqn:El.
      { exfalso. apply map_eq_nil in El. assert (In r []); [rewrite <- El; now apply filter_In|contradiction]. }
      assert (H1 : In r1 (map (inspol_rec_out d f) (filter (inspol_okb d f) (is_record t)))) by (rewrite El; now left).
      apply in_map_iff in H1 as (r0 & <- & H1). apply filter_In in H1 as [H1 K1].
      unfold inspol_okb in K1. apply andb_true_iff in K1 as [_ K1]. unfold inspol_rec_out.
      destruct (wv_of d (ip_insname r0)) as [w|] eqn:Ew; [|discriminate]. cbn [ip_jxx]. apply Nat.ltb_lt in K1.
      enough (length (sel (use_of f w) (ip_jxx r0)) = cnt (use_of f w)) by lia.
      apply wv_of_instrument in Ew; [|apply (cs_unique d Cd)].
      rewrite (Hn r0 H1) in Ew. pose proof (Hw w Ew) as Nw.
      unfold wf_inspol in W0. apply andb_true_iff in W0 as [_ W0].
      pose proof (forallb_in _ _ _ W0 H1) as Wr. unfold wf_inspol_record in Wr.
      repeat (apply andb_true_iff in Wr as [Wr _]). apply len_is_eq in Wr.
      destruct Ew as [Hw1 _]. destruct (wave_wf d w Cd Hw1) as (Ww & Wp & _).
      destruct (wf_wavelength_len w Ww) as (Lw & _).
      apply sel_length. unfold use_of. rewrite map_length. lia. }
    assert (R : forall X R (l : list (dtab X R)), (forall t, In t l -> table_ready d' t) -> Forall (fun t => 0 < tb_nwave t) l ->
      Forall (fun t => 0 < tb_numrec t /\ 0 < tb_nwave t) l).
    { intros X R l H1 H2. rewrite Forall_forall in H2. apply Forall_forall. intros t Ht'. split; [apply (H1 t Ht')|auto]. }
    split; [apply R; [apply (cs_vis d' C')|rewrite E; apply kept_nwave]|].
    split; [apply R; [apply (cs_vis2 d' C')|rewrite E; apply kept_nwave]|].
    split; [apply R; [apply (cs_t3 d' C')|rewrite E; apply kept_nwave]|].
    apply R; [apply (cs_flux d' C')|rewrite E; apply kept_nwave].
  - unfold targets_listed. rewrite Ht. set (ok := fun i : Z => In i (map tg_target_id (ot_targ (o_targets d)))). split.
    { rewrite Forall_forall in L1. apply Forall_forall. intros t' H.
      destruct (image_inspol d d' t' I H) as (t & Hin & -> & K). specialize (L1 t Hin). rewrite Forall_forall in L1.
      apply Forall_forall. intros r' Hr. cbn in Hr. apply in_map_iff in Hr as (r & <- & Hr).
      apply filter_In in Hr as [Hr _]. unfold inspol_rec_out. destruct (wv_of d (ip_insname r)); [|auto].
      cbn [ip_target_id]. rewrite no_new by exact NT. auto. }
    split; [rewrite E; apply (kept_ids vr_target_id (vis_okb pow_half f) (vis_out pow_half f) d (f_accept_vis f) (o_visList d) ok); [apply (sd_id _ _ _ _ _ _ (vis_steady pow_half f NT))|exact L2]|].
    split; [rewrite E; apply (kept_ids v2_target_id (vis2_okb pow_half f) (vis2_out pow_half f) d (f_accept_vis2 f) (o_vis2List d) ok); [apply (sd_id _ _ _ _ _ _ (vis2_steady pow_half f NT))|exact L3]|].
    split; [rewrite E; apply (kept_ids t3_target_id (t3_okb pow_half f) (t3_out pow_half f) d (f_accept_t3amp f || f_accept_t3phi f) (o_t3List d) ok); [apply (sd_id _ _ _ _ _ _ (t3_steady pow_half f NT))|exact L4]|].
    rewrite E. apply (kept_ids fr_target_id (fun _ _ => flux_okb f) (fun _ => flux_out f) d (f_accept_flux f) (o_fluxList d) ok); [apply (sd_id _ _ _ _ _ _ (flux_steady f NT))|exact L5].
  - unfold dated, observed_on in *. rewrite E. exact Da.
Qed.

Lemma images_mergeable ins' : Forall2 image ins ins' -> mergeable ins -> mergeable ins'.
Proof using HF BD.
  intros I [M N]. split.
  - clear N C. revert M. induction I as [|d d' l l' H F IH]; intros M; constructor; inversion M; subst.
    + apply (image_mergeable d d' H). assumption.
    + auto.
  - replace (all_targets ins') with (all_targets ins); [exact N|]. clear -I BD.
    induction I as [|d d' l l' H F IH]; [reflexivity|]. unfold all_targets in *. cbn [flat_map].
    rewrite IH. f_equal. symmetry. f_equal. eapply image_targets; eauto.
Qed.
Lemma filter_le {A} (p : A -> bool) l : (length (filter p l) <= length l)%nat.
Proof. induction l as [|a l IH]; cbn; [lia|]. destruct (p a); cbn; lia. Qed.
Lemma flat_le {A} (l : oi_fits -> list A) ins' : (forall d d', image d d' -> (length (l d') <= length (l d))%nat) ->
  Forall2 image ins ins' -> (length (flat_map l ins') <= length (flat_map l ins))%nat.
Proof using.
  clear C. intros K I. induction I as [|d d' x x' H F IH]; [cbn; lia|]. cbn [flat_map]. rewrite !app_length.
  pose proof (K d d' H). lia.
Qed.
Lemma images_plain ins' : Forall2 image ins ins' -> plain_names ins -> plain_names ins'.
Proof using.
  intros I (P1 & P2 & P3 & L1 & L2 & L3).
  assert (B : forall d', In d' ins' -> exists d, In d ins /\ image d d').
  { intros d' Hd. destruct (Forall2_in_r _ _ _ d' I Hd) as (d & H1 & H2). eauto. }
  split; [|split; [|split; [|split; [|split]]]].
  - intros d' a Hd Ha. destruct (B d' Hd) as (d & H1 & H2). apply (P1 d a H1). eapply image_array; eauto.
  - intros d' w Hd Ha. destruct (B d' Hd) as (d & H1 & H2). destruct (image_wave _ _ _ _ _ H2 Ha) as (v & Hv & ->).
    apply (P2 d v H1 Hv).
  - intros d' a Hd Ha. destruct (B d' Hd) as (d & H1 & H2). apply (P3 d a H1). eapply image_corr; eauto.
  - assert ((length (flat_map o_arrayList ins') <= length (flat_map o_arrayList ins))%nat); [|lia].
    apply flat_le; [|exact I]. intros d d' (_ & h1 & h2 & h3 & -> & _). cbn [o_arrayList filter_image]. unfold array_list.
    etransitivity; apply filter_le.
  - assert ((length (flat_map o_wavelengthList ins') <= length (flat_map o_wavelengthList ins))%nat); [|lia].
    apply flat_le; [|exact I]. intros d d' (_ & h1 & h2 & h3 & -> & _). cbn [o_wavelengthList filter_image]. unfold wave_list.
    etransitivity; [apply filter_le|]. rewrite map_length. apply filter_le.
  - assert ((length (flat_map o_corrList ins') <= length (flat_map o_corrList ins))%nat); [|lia].
    apply flat_le; [|exact I]. intros d d' (_ & h1 & h2 & h3 & -> & _). cbn [o_corrList filter_image]. unfold corr_list.
    etransitivity; apply filter_le.
Qed.
End Defined.

Lemma suitable_parts ins : Forall suitable ins ->
  Forall consistent ins /\ Forall names_fit ins /\ Forall distinct_names ins /\ Forall complete ins /\ Forall named ins.
Proof.
  intros S. rewrite Forall_forall in S. repeat (split; [apply Forall_forall; intros d Hd; apply (S d Hd)|]).
  apply Forall_forall; intros d Hd; apply (S d Hd).
Qed.

(** The general statement, given the results *)
Lemma commute_given pow_half f ins ins' m f1 fm mf : Forall suitable ins -> ins <> [] -> fresh_filter f -> by_data f ->
  exact wv_eff_wave ins -> exact wv_eff_band ins ->
  merge_oi_fits_list ins = Ok m -> apply_oi_filter pow_half m f = Ok (f1, fm) ->
  Forall2 (fun d d' => exists f', apply_oi_filter pow_half d f = Ok (f', d')) ins ins' ->
  merge_oi_fits_list ins' = Ok mf ->
  distinct_names m -> distinct_names mf -> same_data ins fm mf.
Proof.
  intros S Ne HF BD Ew Eb Hm Hfm Hf Hmf Dm Dmf. destruct (suitable_parts ins S) as (C & Fit & Dn & Cm & Nm).
  eapply (commute_all pow_half f f1 ins ins' m fm mf); eauto.
Qed.

(** Both orders succeed. *)
Lemma commute_defined pow_half f ins : Forall suitable ins -> ins <> [] -> fresh_filter f -> by_data f ->
  exact wv_eff_wave ins -> exact wv_eff_band ins -> mergeable ins -> plain_names ins ->
  exists m fm ins' mf,
    merge_oi_fits_list ins = Ok m /\ apply_oi_filter pow_half m f = Ok (f, fm)
    /\ Forall2 (fun d d' => apply_oi_filter pow_half d f = Ok (f, d')) ins ins'
    /\ merge_oi_fits_list ins' = Ok mf /\ same_data ins fm mf.
Proof.
  intros S Ne HF BD Ew Eb M P. destruct (suitable_parts ins S) as (C & Fit & Dn & Cm & Nm).
  destruct (merge_defined ins M) as (m & Hm).
  assert (W : Forall (fun d => wf_fits d = true) ins) by (apply wf_all, C).
  pose proof (merged_distinct ins m W Hm Fit P) as Dm.
  pose proof (merged_consistent ins m C Ne Fit Cm Hm Dm) as Cmerged.
  destruct (image_intro pow_half f HF m Cmerged) as (fm & Hfm & _).
  destruct (all_filtered pow_half f ins C HF) as (ins' & Hf & I).
  destruct (merge_defined ins' (images_mergeable pow_half f ins HF BD ins' I M)) as (mf & Hmf).
  assert (Hf' : Forall2 (fun d d' => exists f', apply_oi_filter pow_half d f = Ok (f', d')) ins ins').
  { eapply Forall2_impl'; [|exact Hf]. intros d d' E. exists f. exact E. }
  assert (C' : Forall consistent ins') by exact (images_consistent pow_half f ins ins' C HF BD Hf').
  assert (Fit' : Forall names_fit ins') by exact (images_fit pow_half f ins ins' C HF Fit Hf').
  assert (Dmf : distinct_names mf).
  { eapply merged_distinct; [apply wf_all, C'|exact Hmf|exact Fit'|]. eapply images_plain; eauto. }
  exists m, fm, ins', mf. split; [exact Hm|]. split; [exact Hfm|]. split; [exact Hf|]. split; [exact Hmf|].
  eapply commute_given; eauto.
Qed.
