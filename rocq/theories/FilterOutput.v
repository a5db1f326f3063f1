(** The tables other than data tables, references, and consistency of the output. *)
From Verif Require Import Base BaseLemmas FloatModel Types FileModel FileSpec FileProofs FilterModel FilterSpec FilterLemmas FilterProofs FilterRecords FilterTables FilterApply FilterFacts FilterResults.
From Coq Require Import Lia.

Lemma filter_map {A B} (p : B -> bool) (g : A -> B) l : filter p (map g l) = map g (filter (fun a => p (g a)) l).
Proof. induction l as [|a l IH]; [reflexivity|]. cbn. destruct (p (g a)); cbn; now rewrite IH. Qed.
Lemma filter_filter {A} (p q : A -> bool) l : filter p (filter q l) = filter (fun a => q a && p a) l.
Proof. induction l as [|a l IH]; [reflexivity|]. cbn. destruct (q a); cbn; [destruct (p a)|]; now rewrite IH. Qed.

Lemma find_by_in {A} (nm : A -> string) l k : In k (map nm l) -> exists a, find_by nm l k = Some a.
Proof. intros H. destruct (find_by nm l k) eqn:E; [eauto|]. apply find_by_None in E. contradiction. Qed.
Lemma indexes_found {A} (nm : A -> string) l h k : indexes nm l h -> In k (map nm l) ->
  exists a, hash_lookup h k = Some a /\ In a l /\ nm a = k.
Proof.
  intros HI Hk. destruct (find_by_in nm (rev l) k) as [a E].
  { rewrite map_rev. now apply -> in_rev. }
  exists a. rewrite HI. split; [exact E|]. apply find_by_Some in E as [Ha E]. split; [now apply in_rev|exact E].
Qed.

Lemma wave_filtered_out f w : wf_wavelength w = true -> wave_filtered f w (wave_out f w).
Proof.
  intros W. destruct (wf_wavelength_len w W) as (L1 & L2 & _). pose proof (use_length f w) as LU.
  split; [reflexivity|]. split; [reflexivity|]. exists (idx_of (use_of f w)). split; [apply idx_of_accepted|].
  split; [apply picks_sel; lia|]. split; [apply picks_sel; cbn; lia|]. cbn. now rewrite idx_of_length.
Qed.
Lemma wave_kept_spec f w : pats f -> (wave_kept f w = true <->
  glob_match (f_insname f) (wv_insname w) /\ exists j, chan_accepted f w j).
Proof. intros HP. unfold wave_kept. now rewrite andb_true_iff, (accept_insname_spec f _ HP), cnt_pos_chan. Qed.

Lemma inspol_okb_spec d f r : NoDup (map wv_insname (o_wavelengthList d)) -> pats f ->
  (inspol_okb d f r = true <-> inspol_record_accepted f d r).
Proof.
  intros HN HP. unfold inspol_okb, inspol_record_accepted.
  rewrite !andb_true_iff, skip_target_spec, (accept_insname_spec f _ HP), negb_true_iff, orb_false_iff.
  unfold fgt, flt. rewrite <- !not_true_iff_false.
  assert (E : match wv_of d (ip_insname r) with Some w => (0 <? cnt (use_of f w))%nat | None => false end = true
    <-> exists w j, instrument d (ip_insname r) w /\ chan_accepted f w j).
  { destruct (wv_of d (ip_insname r)) as [w|] eqn:E.
    - apply (wv_of_instrument _ _ _ HN) in E. rewrite cnt_pos_chan. split.
      + intros (j & H). eauto.
      + intros (w' & j & H1 & H2). exists j. now rewrite (instrument_unique _ _ _ _ HN E H1).
    - split; [discriminate|]. intros (w & j & H & _). apply (wv_of_instrument _ _ _ HN) in H. congruence. }
  rewrite E. tauto.
Qed.

Lemma inspol_rec_kept d f t r name : consistent d -> In t (o_inspolList d) -> In r (is_record t) ->
  one_instrument d t name -> pats f -> inspol_okb d f r = true ->
  inspol_record_kept f d r (inspol_rec_out d f r)
  /\ (forall w, instrument d name w -> wf_inspol_record (Z.of_nat (cnt (use_of f w))) (inspol_rec_out d f r) = true).
Proof.
  intros C Ht Hr [H1 H2] HP Hok. assert (HN := cs_unique d C).
  apply inspol_okb_spec in Hok; auto. destruct Hok as (_ & _ & _ & _ & w & j & Hw & _).
  assert (E := Hw). apply (wv_of_instrument _ _ _ HN) in E. unfold inspol_rec_out. rewrite E.
  destruct (wf_fits_parts d (cs_wf d C)) as (_&_&_&_&W&_). pose proof (forallb_in _ _ _ W Ht) as Wt.
  apply andb_true_iff in Wt as [_ Wt]. pose proof (forallb_in _ _ _ Wt Hr) as Wr. unfold wf_inspol_record in Wr. len_eqs.
  destruct (wave_wf d w C (proj1 Hw)) as (Ww & _). destruct (wf_wavelength_len w Ww) as (LW & _ & P).
  rewrite (H1 r Hr) in Hw. rewrite (H2 w Hw) in *. pose proof (use_length f w) as LU.
  split.
  - split; [apply new_id_spec|]. repeat (split; [reflexivity|]). exists w, (idx_of (use_of f w)).
    rewrite (H1 r Hr). split; [exact Hw|]. split; [apply idx_of_accepted|].
    repeat split; apply picks_sel; lia.
  - intros w' Hw'. rewrite <- (instrument_unique _ _ _ _ HN Hw Hw'). unfold wf_inspol_record. cbn.
    unfold len_is. rewrite !sel_length by lia. now rewrite Z.eqb_refl.
Qed.

Section Image.
Variables (pow_half : f64 -> f64) (d : oi_fits) (f : filter_spec) (arrh : hash oi_array)
  (wavh : hash oi_wavelength) (corh : hash oi_corr).
Hypothesis C : consistent d.
Hypothesis HP : pats f.
Hypothesis IA : indexes ar_arrname (array_list pow_half d f) arrh.
Hypothesis IW : indexes wv_insname (wave_list pow_half d f) wavh.
Hypothesis IC : indexes co_corrname (corr_list pow_half d f) corh.
Let D := filter_image pow_half d f arrh wavh corh.

Lemma uses_insname_D n : listed (insnames pow_half d f) n = true <-> uses_insname D n.
Proof. unfold insnames. rewrite insname_list_spec. reflexivity. Qed.
Lemma uses_arrname_D n : listed (arrnames pow_half d f) n = true <-> uses_arrname D n.
Proof. unfold arrnames. rewrite arrname_list_spec. reflexivity. Qed.
Lemma uses_corrname_D n : listed (corrnames pow_half d f) n = true <-> uses_corrname D n.
Proof. unfold corrnames. rewrite corrname_list_spec. reflexivity. Qed.

Lemma waves_kept : kept (fun w => glob_match (f_insname f) (wv_insname w) /\ (exists j, chan_accepted f w j)
    /\ uses_insname D (wv_insname w)) (wave_filtered f) (o_wavelengthList d) (o_wavelengthList D).
Proof.
  unfold D. cbn [o_wavelengthList filter_image]. unfold wave_list. rewrite filter_map, filter_filter. apply kept_filter.
  - intros w Hw. cbn [wv_insname wave_out]. rewrite andb_true_iff, (wave_kept_spec f w HP), uses_insname_D. tauto.
  - intros w Hw _. apply wave_filtered_out. now apply (wave_wf d w C).
Qed.
Lemma arrays_kept : kept (fun a => glob_match (f_arrname f) (ar_arrname a) /\ uses_arrname D (ar_arrname a)) eq
  (o_arrayList d) (o_arrayList D).
Proof.
  unfold D. cbn [o_arrayList filter_image]. unfold array_list. rewrite filter_filter, <- (map_id (filter _ _)).
  apply kept_filter; [|reflexivity]. intros a Ha. rewrite andb_true_iff, (accept_arrname_spec f _ HP), uses_arrname_D. tauto.
Qed.
Lemma corrs_kept : kept (fun a => glob_match (f_corrname f) (co_corrname a) /\ uses_corrname D (co_corrname a)) eq
  (o_corrList d) (o_corrList D).
Proof.
  unfold D. cbn [o_corrList filter_image]. unfold corr_list. rewrite filter_filter, <- (map_id (filter _ _)).
  apply kept_filter; [|reflexivity]. intros a Ha. rewrite andb_true_iff, (accept_corrname_spec f _ HP), uses_corrname_D. tauto.
Qed.
Lemma inspols_kept : kept (inspol_accepted f d D) (inspol_filtered f d) (o_inspolList d) (o_inspolList D).
Proof.
  unfold D. cbn [o_inspolList filter_image]. unfold inspol_list. rewrite filter_map, filter_filter. apply kept_filter.
  - intros t Ht. cbn [is_arrname inspol_out]. unfold inspol_keptb, inspol_accepted.
    rewrite !andb_true_iff, (accept_arrname_spec f _ HP), uses_arrname_D, existsb_exists.
    split.
    + intros ((H1 & r & H2 & H3) & H4). split; [exact H1|]. split; [|exact H4]. exists r. split; [exact H2|].
      apply inspol_okb_spec; [apply (cs_unique d C)|exact HP|exact H3].
    + intros (H1 & (r & H2 & H3) & H4). split; [|exact H4]. split; [exact H1|]. exists r. split; [exact H2|].
      apply inspol_okb_spec; [apply (cs_unique d C)|exact HP|exact H3].
  - intros t Ht _. repeat (split; [reflexivity|]). cbn [is_record inspol_out]. apply kept_filter.
    + intros r Hr. apply inspol_okb_spec; [apply (cs_unique d C)|exact HP].
    + intros r Hr Hok. destruct (cs_inspol d C t Ht) as (_ & name & H1 & H2).
      apply (inspol_rec_kept d f t r name C Ht Hr (conj H1 H2) HP Hok).
Qed.

(** ** References *)

Lemma wave_list_unique : NoDup (map wv_insname (wave_list pow_half d f)).
Proof.
  unfold wave_list. rewrite filter_map, filter_filter, map_map. cbn [wv_insname wave_out].
  apply NoDup_map_filter, (cs_unique d C).
Qed.

Lemma table_wave_kept {X R} (k : kind R) (t : dtab X R) : table_accepted k f d t -> uses_insname D (tb_insname t) ->
  exists w, instrument d (tb_insname t) w /\ instrument D (tb_insname t) (wave_out f w)
    /\ oi_fits_lookup_wavelength D (tb_insname t) = Some (wave_out f w).
Proof.
  intros (_ & _ & HI & _ & w & Hw & Hj & _) HU. exists w. split; [exact Hw|].
  assert (G : In (wave_out f w) (wave_list pow_half d f)).
  { unfold wave_list. apply filter_In. split.
    - apply in_map. apply filter_In. split; [apply Hw|]. apply wave_kept_spec; [exact HP|].
      destruct Hw as [_ ->]. auto.
    - cbn [wv_insname wave_out]. apply uses_insname_D. destruct Hw as [_ ->]. exact HU. }
  split; [split; [exact G|apply Hw]|].
  unfold oi_fits_lookup_wavelength, D. cbn [o_wavelengthHash filter_image].
  destruct (indexes_found _ _ _ (tb_insname t) IW) as (w' & E & H1 & H2).
  { apply in_map_iff. exists (wave_out f w). split; [apply Hw|exact G]. }
  rewrite E. f_equal. apply (NoDup_map_inj wv_insname _ _ _ wave_list_unique); auto. rewrite H2. symmetry. apply Hw.
Qed.

Lemma filtered_in {X R} (k : kind R) Q (l l' : list (dtab X R)) t' : filtered_tables k f d Q l l' -> In t' l' ->
  exists t, In t l /\ table_accepted k f d t /\ same_keywords t t'.
Proof.
  intros H Ht. destruct (kept_true _ _ _ _ H t' Ht) as (t & H1 & H2 & H3 & _). eauto.
Qed.

Lemma arr_resolves a n : In a (o_arrayList d) -> ar_arrname a = n -> glob_match (f_arrname f) n ->
  uses_arrname D n -> exists a', oi_fits_lookup_array D n = Some a' /\ In a' (o_arrayList D) /\ ar_arrname a' = n.
Proof.
  intros Ha En HM HU. apply (indexes_found _ _ _ n IA). apply in_map_iff. exists a. split; [exact En|].
  unfold array_list. apply filter_In. rewrite En. split; [|now apply uses_arrname_D].
  apply filter_In. rewrite En. split; [exact Ha|]. now apply accept_arrname_spec.
Qed.
Lemma corr_resolves a n : In a (o_corrList d) -> co_corrname a = n -> glob_match (f_corrname f) n ->
  uses_corrname D n -> exists a', oi_fits_lookup_corr D n = Some a' /\ In a' (o_corrList D) /\ co_corrname a' = n.
Proof.
  intros Ha En HM HU. apply (indexes_found _ _ _ n IC). apply in_map_iff. exists a. split; [exact En|].
  unfold corr_list. apply filter_In. rewrite En. split; [|now apply uses_corrname_D].
  apply filter_In. rewrite En. split; [exact Ha|]. now apply accept_corrname_spec.
Qed.

(** Names in use satisfy the patterns, and the instrument in use is present *)
Lemma uses_insname_accepted n : uses_insname D n -> exists w, instrument D n w /\ oi_fits_lookup_wavelength D n = Some w.
Proof.
  intros HU. assert (G := HU).
  destruct HU as [(t & Ht & <-)|[(t & Ht & <-)|[(t & Ht & <-)|(t & Ht & <-)]]];
    [destruct (filtered_in _ _ _ _ _ (vis_filtered pow_half d f C HP) Ht) as (t0 & _ & HA & (_&_&_&E&_))
    |destruct (filtered_in _ _ _ _ _ (vis2_filtered pow_half d f C HP) Ht) as (t0 & _ & HA & (_&_&_&E&_))
    |destruct (filtered_in _ _ _ _ _ (t3_filtered pow_half d f C HP) Ht) as (t0 & _ & HA & (_&_&_&E&_))
    |destruct (filtered_in _ _ _ _ _ (flux_filtered pow_half d f C HP) Ht) as (t0 & _ & HA & (_&_&_&E&_))];
    rewrite E in *; destruct (table_wave_kept _ _ HA G) as (w & _ & H1 & H2); eauto.
Qed.
Lemma uses_arrname_accepted n : uses_arrname D n -> glob_match (f_arrname f) n.
Proof.
  intros [_ [(t & Ht & <-)|[(t & Ht & <-)|[(t & Ht & <-)|(t & Ht & <-)]]]];
    [destruct (filtered_in _ _ _ _ _ (vis_filtered pow_half d f C HP) Ht) as (t0 & _ & HA & (_&_&E&_))
    |destruct (filtered_in _ _ _ _ _ (vis2_filtered pow_half d f C HP) Ht) as (t0 & _ & HA & (_&_&E&_))
    |destruct (filtered_in _ _ _ _ _ (t3_filtered pow_half d f C HP) Ht) as (t0 & _ & HA & (_&_&E&_))
    |destruct (filtered_in _ _ _ _ _ (flux_filtered pow_half d f C HP) Ht) as (t0 & _ & HA & (_&_&E&_))];
    rewrite E; apply HA.
Qed.
Lemma uses_corrname_accepted n : uses_corrname D n -> glob_match (f_corrname f) n.
Proof.
  intros [_ [(t & Ht & <-)|[(t & Ht & <-)|[(t & Ht & <-)|(t & Ht & <-)]]]];
    [destruct (filtered_in _ _ _ _ _ (vis_filtered pow_half d f C HP) Ht) as (t0 & _ & HA & (_&_&_&_&E&_))
    |destruct (filtered_in _ _ _ _ _ (vis2_filtered pow_half d f C HP) Ht) as (t0 & _ & HA & (_&_&_&_&E&_))
    |destruct (filtered_in _ _ _ _ _ (t3_filtered pow_half d f C HP) Ht) as (t0 & _ & HA & (_&_&_&_&E&_))
    |destruct (filtered_in _ _ _ _ _ (flux_filtered pow_half d f C HP) Ht) as (t0 & _ & HA & (_&_&_&_&E&_))];
    rewrite E; apply HA.
Qed.

(** ** The output is consistent *)

(** A table of the output *)
Lemma dtab_in {X R} (okb : oi_wavelength -> list bool -> R -> bool) g (acc : bool) (l : list (dtab X R)) t' :
  In t' (if acc then map (dtab_new okb g d f) (filter (dtab_kept okb d f) l) else []) ->
  exists t w, In t l /\ instrument d (tb_insname t) w /\ (0 < cnt (use_of f w))%nat
    /\ existsb (okb w (use_of f w)) (tb_record t) = true
    /\ accept_insname f (tb_insname t) = true /\ accept_arrname f (tb_arrname t) = true
    /\ accept_corrname f (tb_corrname t) = true
    /\ t' = dtab_out (okb w (use_of f w)) (g w (use_of f w)) (use_of f w) t.
Proof.
  destruct acc; [|contradiction]. intros H. apply in_map_iff in H as (t & <- & H). apply filter_In in H as [Ht Hk].
  unfold dtab_kept in Hk. unfold dtab_new. destruct (wv_of d (tb_insname t)) as [w|] eqn:E.
  - apply wv_of_instrument in E; [|apply (cs_unique d C)]. rewrite !andb_true_iff in Hk.
    destruct Hk as (((H1 & H2) & H3) & H4 & H5). apply Nat.ltb_lt in H4. exists t, w. auto 9.
  - rewrite andb_false_r in Hk. discriminate.
Qed.

Lemma dtab_out_ready {X R} okb g wfr (t : dtab X R) w :
  instrument d (tb_insname t) w -> (0 < cnt (use_of f w))%nat -> existsb okb (tb_record t) = true ->
  (forall r, In r (tb_record t) -> okb r = true -> wfr (Z.of_nat (cnt (use_of f w))) (g r) = true) ->
  wf_dtab wfr (dtab_out okb g (use_of f w) t) = true /\ table_ready D (dtab_out okb g (use_of f w) t).
Proof.
  intros Hw HC HE HR. split; [|split].
  - unfold wf_dtab. cbn. unfold len_is. rewrite Z.eqb_refl. cbn [andb].
    apply andb_true_iff. split; [apply Z.leb_le; lia|]. apply forallb_forall.
    intros r Hr. apply in_map_iff in Hr as (r0 & <- & H). apply filter_In in H as [H1 H2]. auto.
  - cbn. rewrite map_length. rewrite existsb_filter in HE. apply negb_true_iff, Nat.eqb_neq in HE. lia.
  - cbn [tb_insname dtab_out tb_nwave]. intros w' [Hw' E]. unfold D in Hw'. cbn [o_wavelengthList filter_image] in Hw'.
    unfold wave_list in Hw'. apply filter_In in Hw' as [Hw' _]. apply in_map_iff in Hw' as (w0 & <- & Hw0).
    apply filter_In in Hw0 as [Hw0 _]. cbn in E |- *. rewrite (instrument_unique d (tb_insname t) w0 w); auto.
    + apply (cs_unique d C).
    + split; auto.
Qed.

Lemma len_sel {A} w n (c : list A) : length (wv_eff_wave w) = Z.to_nat n -> length c = Z.to_nat n ->
  len_is (Z.of_nat (cnt (use_of f w))) (sel (use_of f w) c) = true.
Proof. intros H1 H2. unfold len_is. rewrite sel_length by (rewrite use_length; congruence). apply Z.eqb_refl. Qed.

Lemma vis_out_wf x w r n : wf_vis_record x n r = true -> 0 <= n -> length (wv_eff_wave w) = Z.to_nat n ->
  wf_vis_record x (Z.of_nat (cnt (use_of f w))) (vis_out pow_half f w (use_of f w) r) = true.
Proof.
  intros Hwf P LW. assert (W := Hwf).
  apply wf_vis_record_parts in Hwf as (L1 & L2 & L3 & L4 & L5 & M & C1 & C2 & C3 & C4); [|exact P].
  assert (OC : forall A (b : bool) (c : option (list A)), (if b then opt_len_is n c else is_none c) = true ->
      (if b then opt_len_is (Z.of_nat (cnt (use_of f w))) (option_map (sel (use_of f w)) c)
       else is_none (option_map (sel (use_of f w)) c)) = true).
  { intros A [] [c|] G; cbn in *; try congruence. apply len_is_eq in G. apply (len_sel w n); [exact LW|lia]. }
  unfold wf_vis_record. cbn.
  rewrite !(len_sel w n) by (exact LW || rewrite ?flagcol_length; congruence). cbn [andb].
  assert (HM : (if vx_usevisrefmap x
     then opt_len_is (Z.of_nat (cnt (use_of f w)) * Z.of_nat (cnt (use_of f w)))
            (option_map (fun l => mat_rows (use_of f w) l (idx_of (use_of f w))) (vr_visrefmap r))
     else is_none (option_map (fun l => mat_rows (use_of f w) l (idx_of (use_of f w))) (vr_visrefmap r))) = true).
  { destruct (vx_usevisrefmap x), (vr_visrefmap r) as [m|]; cbn in *; try congruence. apply len_is_eq in M.
    unfold len_is. rewrite mat_rows_length.
    - rewrite idx_of_length. apply Z.eqb_eq. lia.
    - intros j Hj. apply idx_of_in in Hj. apply nth_error_Some. congruence.
    - rewrite use_length. nia. }
  rewrite HM. apply OC in C1, C2, C3, C4. destruct (vx_usecomplex x); rewrite C1, C2, C3, C4; reflexivity.
Qed.
Lemma vis2_out_wf w r n : wf_vis2_record n r = true -> length (wv_eff_wave w) = Z.to_nat n ->
  wf_vis2_record (Z.of_nat (cnt (use_of f w))) (vis2_out pow_half f w (use_of f w) r) = true.
Proof.
  intros Hwf LW. unfold wf_vis2_record in *. len_eqs. cbn.
  rewrite !(len_sel w n) by (exact LW || rewrite ?flagcol_length; lia). reflexivity.
Qed.
Lemma t3_out_wf w r n : wf_t3_record n r = true -> length (wv_eff_wave w) = Z.to_nat n ->
  wf_t3_record (Z.of_nat (cnt (use_of f w))) (t3_out pow_half f w (use_of f w) r) = true.
Proof.
  intros Hwf LW. unfold wf_t3_record in *. len_eqs. cbn.
  rewrite !(len_sel w n) by (exact LW || rewrite ?flagcol_length, ?col_or_nan_length; lia). reflexivity.
Qed.
Lemma flux_col_length r : length (fr_fluxdata r) = length (fr_fluxerr r) -> length (flux_col f r) = length (fr_fluxdata r).
Proof. intros H. unfold flux_col. rewrite map_length, combine_length. lia. Qed.
Lemma flux_out_wf w r n : wf_flux_record n r = true -> length (wv_eff_wave w) = Z.to_nat n ->
  wf_flux_record (Z.of_nat (cnt (use_of f w))) (flux_out f (use_of f w) r) = true.
Proof.
  intros Hwf LW. unfold wf_flux_record in *. len_eqs. cbn.
  rewrite !(len_sel w n) by (exact LW || rewrite ?flux_col_length; lia). reflexivity.
Qed.

Lemma vis_ready t : In t (o_visList D) -> wf_vis t = true /\ table_ready D t.
Proof.
  intros H. apply dtab_in in H as (t0 & w & Ht & Hw & HC & HE & _ & _ & _ & ->).
  apply (dtab_out_ready _ _ (wf_vis_record (tb_x t0))); auto. intros r Hr _.
  destruct (vis_facts pow_half d f t0 w r C Ht Hw Hr) as (Wf & LW & P & _). now apply (vis_out_wf (tb_x t0) w r (tb_nwave t0)).
Qed.
Lemma vis2_ready t : In t (o_vis2List D) -> wf_vis2 t = true /\ table_ready D t.
Proof.
  intros H. apply dtab_in in H as (t0 & w & Ht & Hw & HC & HE & _ & _ & _ & ->).
  apply (dtab_out_ready _ _ wf_vis2_record); auto. intros r Hr _.
  destruct (vis2_facts pow_half d f t0 w r C Ht Hw Hr) as (Wf & LW & P & _). now apply (vis2_out_wf w r (tb_nwave t0)).
Qed.
Lemma t3_ready t : In t (o_t3List D) -> wf_t3 t = true /\ table_ready D t.
Proof.
  intros H. apply dtab_in in H as (t0 & w & Ht & Hw & HC & HE & _ & _ & _ & ->).
  apply (dtab_out_ready _ _ wf_t3_record); auto. intros r Hr _.
  destruct (t3_facts pow_half d f t0 w r C Ht Hw Hr) as (Wf & LW & P & _). now apply (t3_out_wf w r (tb_nwave t0)).
Qed.
Lemma flux_ready t : In t (o_fluxList D) -> wf_flux t = true /\ table_ready D t.
Proof.
  intros H. apply dtab_in in H as (t0 & w & Ht & Hw & HC & HE & _ & _ & _ & ->).
  apply (dtab_out_ready _ _ wf_flux_record); auto. intros r Hr _.
  destruct (flux_facts d f t0 w r C Ht Hw Hr) as (Wf & LW & P & _). now apply (flux_out_wf w r (tb_nwave t0)).
Qed.

Lemma wave_in w' : In w' (o_wavelengthList D) -> exists w, In w (o_wavelengthList d) /\ w' = wave_out f w /\ wave_kept f w = true
  /\ uses_insname D (wv_insname w).
Proof.
  unfold D. cbn [o_wavelengthList filter_image]. unfold wave_list. intros H. apply filter_In in H as [H1 H2].
  apply in_map_iff in H1 as (w & <- & H1). apply filter_In in H1 as [H1 H3]. exists w.
  apply uses_insname_D in H2. auto.
Qed.

Lemma inspol_ready t : In t (o_inspolList D) -> wf_inspol t = true /\ 0 < is_numrec t /\
   exists name, (forall r, In r (is_record t) -> ip_insname r = name) /\
     forall w, instrument D name w -> wv_nwave w = is_nwave t.
Proof.
  unfold D. cbn [o_inspolList filter_image]. unfold inspol_list. intros H. apply filter_In in H as [H _].
  apply in_map_iff in H as (t0 & <- & H). apply filter_In in H as [Ht Hk].
  apply andb_true_iff in Hk as [_ HE]. rewrite existsb_filter in HE. apply negb_true_iff, Nat.eqb_neq in HE.
  destruct (cs_inspol d C t0 Ht) as (_ & name & H1 & H2).
  assert (HR : forall r, In r (map (inspol_rec_out d f) (filter (inspol_okb d f) (is_record t0))) ->
     exists r0, In r0 (is_record t0) /\ inspol_okb d f r0 = true /\ r = inspol_rec_out d f r0).
  { intros r Hr. apply in_map_iff in Hr as (r0 & <- & Hr). apply filter_In in Hr as [? ?]. eauto. }
  assert (EW : exists w, instrument d name w).
  { destruct (filter (inspol_okb d f) (is_record t0)) as [|r0 rs] eqn:E; [cbn in HE; lia|].
    assert (Hr : In r0 (filter (inspol_okb d f) (is_record t0))) by (rewrite E; now left).
    apply filter_In in Hr as [Hr Hok]. apply inspol_okb_spec in Hok; [|apply (cs_unique d C)|exact HP].
    destruct Hok as (_&_&_&_&w&_&Hw&_). exists w. now rewrite <- (H1 r0 Hr). }
  destruct EW as [w Hw].
  assert (NW : is_nwave (inspol_out d f t0) = Z.of_nat (cnt (use_of f w))).
  { cbn. destruct (map (inspol_rec_out d f) (filter (inspol_okb d f) (is_record t0))) as [|r rs] eqn:E.
    - apply (f_equal (@length _)) in E. rewrite map_length in E. cbn in E. lia.
    - destruct (HR r) as (r0 & Hr & Hok & ->); [now left|].
      destruct (inspol_rec_kept d f t0 r0 name C Ht Hr (conj H1 H2) HP Hok) as [_ Wf]. specialize (Wf w Hw).
      unfold wf_inspol_record in Wf. len_eqs. lia. }
  split; [|split].
  - unfold wf_inspol. rewrite NW. cbn. unfold len_is at 1. rewrite Z.eqb_refl. cbn [andb]. apply forallb_forall.
    intros r Hr. destruct (HR r Hr) as (r0 & Hr0 & Hok & ->).
    now apply (inspol_rec_kept d f t0 r0 name C Ht Hr0 (conj H1 H2) HP Hok).
  - cbn. rewrite map_length. lia.
  - exists name. split.
    + intros r Hr. destruct (HR r Hr) as (r0 & Hr0 & Hok & ->). unfold inspol_rec_out. rewrite (H1 r0 Hr0).
      destruct (wv_of d name); cbn; auto.
    + rewrite NW. intros w' [Hw' E]. apply wave_in in Hw' as (w0 & Hw0 & -> & _). cbn in E |- *.
      rewrite (instrument_unique d name w0 w); auto; [apply (cs_unique d C)|split; auto].
Qed.

(** The requested target, if one is requested, is in OI_TARGET *)
Definition target_present : Prop :=
  f_target_id f < 0 \/ exists x, In x (ot_targ (o_targets d)) /\ tg_target_id x = f_target_id f.

Lemma target_out_wf : wf_targets (target_out f (o_targets d)) = true
  /\ (target_present -> 0 < ot_ntarget (target_out f (o_targets d))).
Proof.
  destruct (wf_fits_parts d (cs_wf d C)) as (W & _). unfold target_out.
  destruct (Z.leb_spec 0 (f_target_id f)).
  - destruct (rev (filter (fun x => tg_target_id x =? f_target_id f) (ot_targ (o_targets d)))) as [|x xs] eqn:E.
    + split; [reflexivity|]. intros [G|(x & Hx & G)]; [lia|]. exfalso.
      apply (f_equal (@rev _)) in E. rewrite rev_involutive in E. cbn in E.
      assert (In x []) by (rewrite <- E; apply filter_In; split; [exact Hx|now apply Z.eqb_eq]). contradiction.
    + split; [reflexivity|]. intros _. cbn. lia.
  - split; [exact W|]. intros _. apply (cs_targets d C).
Qed.

Lemma output_consistent : target_present -> consistent D.
Proof.
  intros HT. destruct (wf_fits_parts d (cs_wf d C)) as (_ & W2 & W3 & W4 & _).
  assert (SubA : forall a, In a (o_arrayList D) -> In a (o_arrayList d)).
  { unfold D. cbn. unfold array_list. intros a Ha. apply filter_In in Ha as [Ha _]. now apply filter_In in Ha as [Ha _]. }
  assert (SubC : forall a, In a (o_corrList D) -> In a (o_corrList d)).
  { unfold D. cbn. unfold corr_list. intros a Ha. apply filter_In in Ha as [Ha _]. now apply filter_In in Ha as [Ha _]. }
  assert (WW : forall w, In w (o_wavelengthList D) -> wf_wavelength w = true /\ 0 < wv_nwave w /\ fits_value (wv_insname w) = true).
  { intros w' Hw'. apply wave_in in Hw' as (w & Hw & -> & Hk & _). destruct (wave_wf d w C Hw) as (Wf & Hp & Hf).
    destruct (wf_wavelength_len w Wf) as (L1 & L2 & P). apply andb_true_iff in Hk as [_ Hk]. apply Nat.ltb_lt in Hk.
    split; [|split; [cbn; lia|exact Hf]]. unfold wf_wavelength. cbn.
    now rewrite !(len_sel w (wv_nwave w)) by assumption. }
  split.
  - unfold wf_fits. rewrite !andb_true_iff.
    assert (FA : forall (A : Type) (p : A -> bool) l, (forall x, In x l -> p x = true) -> forallb p l = true)
      by (intros; now apply forallb_forall).
    repeat split; try (apply FA).
    + apply target_out_wf.
    + intros a Ha. now apply (forallb_in _ _ _ W2), SubA.
    + intros w Hw. now apply WW.
    + intros a Ha. now apply (forallb_in _ _ _ W4), SubC.
    + intros t Ht. now apply inspol_ready.
    + intros t Ht. now apply vis_ready.
    + intros t Ht. now apply vis2_ready.
    + intros t Ht. now apply t3_ready.
    + intros t Ht. now apply flux_ready.
    + unfold D, len_is. cbn. apply Z.eqb_refl.
    + unfold D, len_is. cbn. apply Z.eqb_refl.
    + unfold D, len_is. cbn. apply Z.eqb_refl.
    + unfold D, len_is. cbn. apply Z.eqb_refl.
    + unfold D, len_is. cbn. apply Z.eqb_refl.
    + unfold D, len_is. cbn. apply Z.eqb_refl.
    + unfold D, len_is. cbn. apply Z.eqb_refl.
    + unfold D, len_is. cbn. apply Z.eqb_refl.
  - now apply target_out_wf.
  - intros a Ha. now apply (cs_arrays d C), SubA.
  - intros a Ha. now apply (cs_corrs d C), SubC.
  - intros w Hw. now apply WW.
  - exact wave_list_unique.
  - intros w Hw HU. apply uses_insname_accepted in HU as (w' & [H1 H2] & H3).
    unfold oi_fits_lookup_wavelength in H3. rewrite H3. f_equal.
    apply (NoDup_map_inj wv_insname (o_wavelengthList D)); auto. exact wave_list_unique.
  - intros t Ht. now apply vis_ready.
  - intros t Ht. now apply vis2_ready.
  - intros t Ht. now apply t3_ready.
  - intros t Ht. now apply flux_ready.
  - intros t Ht. now apply inspol_ready.
Qed.
End Image.
