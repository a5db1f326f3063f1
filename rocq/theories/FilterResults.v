(** The output of apply_oi_filter, in terms of the specification. *)
From Verif Require Import Base BaseLemmas FloatModel Types FileModel FileSpec FileProofs FilterModel FilterSpec FilterLemmas FilterProofs FilterRecords FilterTables FilterApply FilterFacts.
From Coq Require Import Lia.

(** The patterns have been compiled *)
Definition pats (f : filter_spec) : Prop :=
  f_arrname_pttn f = Some (f_arrname f) /\ f_insname_pttn f = Some (f_insname f)
  /\ f_corrname_pttn f = Some (f_corrname f).
Lemma pats_compiled f : pats (compiled f).
Proof. repeat split. Qed.
Lemma accept_arrname_spec f n : pats f -> (accept_arrname f n = true <-> glob_match (f_arrname f) n).
Proof. intros (H & _). unfold accept_arrname. rewrite H. apply glob_spec. Qed.
Lemma accept_insname_spec f n : pats f -> (accept_insname f n = true <-> glob_match (f_insname f) n).
Proof. intros (_ & H & _). unfold accept_insname. rewrite H. apply glob_spec. Qed.
Lemma accept_corrname_spec f n : pats f -> (accept_corrname f n = true <-> glob_match (f_corrname f) n).
Proof. intros (_ & _ & H). unfold accept_corrname. rewrite H. apply glob_spec. Qed.

Lemma instrument_unique d n w w' : NoDup (map wv_insname (o_wavelengthList d)) ->
  instrument d n w -> instrument d n w' -> w = w'.
Proof. intros HN [H1 H2] [H3 H4]. apply (NoDup_map_inj wv_insname (o_wavelengthList d)); auto. congruence. Qed.

(** ** Data tables *)

Section Tables.
Context {X R : Type}.
Variables (d : oi_fits) (f : filter_spec) (k : kind R) (okb : oi_wavelength -> list bool -> R -> bool)
  (g : oi_wavelength -> list bool -> R -> R) (l : list (dtab X R)).
Hypothesis HN : NoDup (map wv_insname (o_wavelengthList d)).
Hypothesis HP : pats f.
Hypothesis OK : forall t w r, In t l -> instrument d (tb_insname t) w -> In r (tb_record t) ->
  (okb w (use_of f w) r = true <-> record_accepted k f w r).

Lemma dtab_kept_spec t : In t l -> (k_accept k f /\ dtab_kept okb d f t = true <-> table_accepted k f d t).
Proof.
  intros Ht. unfold dtab_kept, table_accepted.
  rewrite !andb_true_iff, (accept_insname_spec f _ HP), (accept_arrname_spec f _ HP), (accept_corrname_spec f _ HP).
  destruct (wv_of d (tb_insname t)) as [w|] eqn:E.
  - apply wv_of_instrument in E; [|exact HN]. rewrite andb_true_iff, cnt_pos_chan, existsb_exists. split.
    + intros (A & ((H1 & H2) & H3) & H4 & r & H5 & H6). repeat (split; [assumption|]).
      exists w. split; [exact E|]. split; [exact H4|]. exists r. split; [exact H5|]. now apply (OK t w r).
    + intros (A & H1 & H2 & H3 & w' & Hw' & H4 & r & H5 & H6).
      rewrite <- (instrument_unique _ _ _ _ HN E Hw') in *.
      repeat (split; [assumption|]). repeat (split; try assumption). exists r. split; [exact H5|]. now apply (OK t w r).
  - split; [intros (_ & _ & [=])|]. intros (_ & _ & _ & _ & w & Hw & _).
    apply (wv_of_instrument _ _ _ HN) in Hw. congruence.
Qed.

Variable (acc : bool).
Hypothesis HA : acc = true <-> k_accept k f.
Variable Q : dtab X R -> oi_wavelength -> R -> R -> Prop.
Hypothesis HQ : forall t w r, In t l -> instrument d (tb_insname t) w -> In r (tb_record t) ->
  Q t w r (g w (use_of f w) r).

Lemma filtered_tables_ok : filtered_tables k f d Q l
  (if acc then map (dtab_new okb g d f) (filter (dtab_kept okb d f) l) else []).
Proof.
  unfold filtered_tables. destruct acc eqn:A.
  - assert (KA : k_accept k f) by now apply HA.
    apply kept_filter.
    + intros t Ht. rewrite <- (dtab_kept_spec t Ht). tauto.
    + intros t Ht Hk. apply (conj KA), (dtab_kept_spec t Ht) in Hk as (_ & _ & _ & _ & w & Hw & _).
      unfold dtab_new. assert (E := Hw). apply (wv_of_instrument _ _ _ HN) in E. rewrite E.
      split; [repeat split|]. exists w. split; [exact Hw|]. split; [|reflexivity]. cbn [dtab_out tb_record].
      apply kept_filter.
      * intros r Hr. now apply (OK t w r).
      * intros r Hr _. now apply HQ.
  - assert (KA : ~ k_accept k f) by (rewrite <- HA; congruence).
    clear OK HQ. induction l as [|t l' IH]; constructor; auto. intros (G & _). contradiction.
Qed.
End Tables.

Lemma kept_true {A B} (P : A -> Prop) (Q : A -> B -> Prop) l m : kept P Q l m ->
  forall b, In b m -> exists a, In a l /\ P a /\ Q a b.
Proof.
  intros H. induction H as [|a b l m HP HQ H IH|a l m HP H IH]; intros x Hx.
  - contradiction.
  - destruct Hx as [->|Hx]; [exists a; cbn; auto|]. destruct (IH x Hx) as (y & ? & ? & ?). exists y; cbn; auto.
  - destruct (IH x Hx) as (y & ? & ? & ?). exists y; cbn; auto.
Qed.

Section Pow.
Variable pow_half : f64 -> f64.
Notation kvis := (kind_vis pow_half). Notation kvis2 := (kind_vis2 pow_half). Notation kt3 := (kind_t3 pow_half).

(** What is known about a record of a table whose instrument is present *)
Lemma rec_facts {X R} wfr d f (t : dtab X R) w r : consistent d -> table_ready d t ->
  wf_dtab wfr t = true -> instrument d (tb_insname t) w -> In r (tb_record t) ->
  wfr (tb_nwave t) r = true /\ length (wv_eff_wave w) = Z.to_nat (tb_nwave t) /\ 0 <= tb_nwave t
  /\ length (use_of f w) = Z.to_nat (tb_nwave t).
Proof.
  intros C [_ HR] Wf Hw Hr. split; [now apply (wf_dtab_records _ _ _ Wf)|].
  destruct (wave_wf d w C (proj1 Hw)) as (Ww & _). destruct (wf_wavelength_len w Ww) as (L & _ & P).
  rewrite (HR w Hw) in *. rewrite use_length. auto.
Qed.

Lemma wf_of_vis d t : consistent d -> In t (o_visList d) -> wf_vis t = true.
Proof. intros C H. destruct (wf_fits_parts d (cs_wf d C)) as (_&_&_&_&_&W&_). now apply (forallb_in _ _ _ W). Qed.
Lemma wf_of_vis2 d t : consistent d -> In t (o_vis2List d) -> wf_vis2 t = true.
Proof. intros C H. destruct (wf_fits_parts d (cs_wf d C)) as (_&_&_&_&_&_&W&_). now apply (forallb_in _ _ _ W). Qed.
Lemma wf_of_t3 d t : consistent d -> In t (o_t3List d) -> wf_t3 t = true.
Proof. intros C H. destruct (wf_fits_parts d (cs_wf d C)) as (_&_&_&_&_&_&_&W&_). now apply (forallb_in _ _ _ W). Qed.
Lemma wf_of_flux d t : consistent d -> In t (o_fluxList d) -> wf_flux t = true.
Proof. intros C H. destruct (wf_fits_parts d (cs_wf d C)) as (_&_&_&_&_&_&_&_&W&_). now apply (forallb_in _ _ _ W). Qed.

Lemma vis_facts d f t w r : consistent d -> In t (o_visList d) -> instrument d (tb_insname t) w -> In r (tb_record t) ->
  wf_vis_record (tb_x t) (tb_nwave t) r = true /\ length (wv_eff_wave w) = Z.to_nat (tb_nwave t) /\ 0 <= tb_nwave t
  /\ length (use_of f w) = Z.to_nat (tb_nwave t) /\ length (vr_flag r) = length (wv_eff_wave w)
  /\ bad_decides kvis f w (vis_badb pow_half f w) r.
Proof.
  intros C Ht Hw Hr.
  destruct (rec_facts _ d f t w r C (cs_vis d C t Ht) (wf_of_vis d t C Ht) Hw Hr) as (H1 & H2 & H3 & H4).
  assert (H := H1). apply wf_vis_record_parts in H as (L1 & L2 & L3 & L4 & L5 & _); [|exact H3].
  repeat (split; [assumption || congruence|]). apply vis_bad_decides; congruence.
Qed.
Lemma vis2_facts d f t w r : consistent d -> In t (o_vis2List d) -> instrument d (tb_insname t) w -> In r (tb_record t) ->
  wf_vis2_record (tb_nwave t) r = true /\ length (wv_eff_wave w) = Z.to_nat (tb_nwave t) /\ 0 <= tb_nwave t
  /\ length (use_of f w) = Z.to_nat (tb_nwave t) /\ length (v2_flag r) = length (wv_eff_wave w)
  /\ bad_decides kvis2 f w (vis2_badb pow_half f w) r.
Proof.
  intros C Ht Hw Hr.
  destruct (rec_facts _ d f t w r C (cs_vis2 d C t Ht) (wf_of_vis2 d t C Ht) Hw Hr) as (H1 & H2 & H3 & H4).
  assert (H := H1). unfold wf_vis2_record in H. len_eqs.
  repeat (split; [assumption || lia|]). apply vis2_bad_decides; lia.
Qed.
Lemma t3_facts d f t w r : consistent d -> In t (o_t3List d) -> instrument d (tb_insname t) w -> In r (tb_record t) ->
  wf_t3_record (tb_nwave t) r = true /\ length (wv_eff_wave w) = Z.to_nat (tb_nwave t) /\ 0 <= tb_nwave t
  /\ length (use_of f w) = Z.to_nat (tb_nwave t) /\ length (t3_flag r) = length (wv_eff_wave w)
  /\ bad_decides kt3 f w (t3_badb pow_half f w) r.
Proof.
  intros C Ht Hw Hr.
  destruct (rec_facts _ d f t w r C (cs_t3 d C t Ht) (wf_of_t3 d t C Ht) Hw Hr) as (H1 & H2 & H3 & H4).
  assert (H := H1). unfold wf_t3_record in H. len_eqs.
  repeat (split; [assumption || lia|]). apply t3_bad_decides; lia.
Qed.
Lemma flux_facts d f t w r : consistent d -> In t (o_fluxList d) -> instrument d (tb_insname t) w -> In r (tb_record t) ->
  wf_flux_record (tb_nwave t) r = true /\ length (wv_eff_wave w) = Z.to_nat (tb_nwave t) /\ 0 <= tb_nwave t
  /\ length (use_of f w) = Z.to_nat (tb_nwave t) /\ length (fr_flag r) = length (wv_eff_wave w).
Proof.
  intros C Ht Hw Hr.
  destruct (rec_facts _ d f t w r C (cs_flux d C t Ht) (wf_of_flux d t C Ht) Hw Hr) as (H1 & H2 & H3 & H4).
  assert (H := H1). unfold wf_flux_record in H. len_eqs.
  repeat (split; [assumption || lia|]). lia.
Qed.

Lemma vis_okb_spec d f t w r : consistent d -> In t (o_visList d) -> instrument d (tb_insname t) w -> In r (tb_record t) ->
  (vis_okb pow_half f w (use_of f w) r = true <-> record_accepted kvis f w r).
Proof.
  intros C Ht Hw Hr. destruct (vis_facts d f t w r C Ht Hw Hr) as (_&_&_&_&HL&HB).
  rewrite vis_okb_kind. apply kind_okb_spec. auto.
Qed.
Lemma vis2_okb_spec d f t w r : consistent d -> In t (o_vis2List d) -> instrument d (tb_insname t) w -> In r (tb_record t) ->
  (vis2_okb pow_half f w (use_of f w) r = true <-> record_accepted kvis2 f w r).
Proof.
  intros C Ht Hw Hr. destruct (vis2_facts d f t w r C Ht Hw Hr) as (_&_&_&_&HL&HB).
  rewrite vis2_okb_kind. apply kind_okb_spec. auto.
Qed.
Lemma t3_okb_spec d f t w r : consistent d -> In t (o_t3List d) -> instrument d (tb_insname t) w -> In r (tb_record t) ->
  (t3_okb pow_half f w (use_of f w) r = true <-> record_accepted kt3 f w r).
Proof.
  intros C Ht Hw Hr. destruct (t3_facts d f t w r C Ht Hw Hr) as (_&_&_&_&HL&HB).
  rewrite t3_okb_kind. apply kind_okb_spec. auto.
Qed.
Lemma flux_okb_spec f w r : (flux_okb f r = true <-> record_accepted kind_flux f w r).
Proof. rewrite (flux_okb_kind f (use_of f w) (fun _ _ => false)). apply kind_okb_spec. discriminate. Qed.

(** Everything a kept record satisfies *)
Definition vis_kept_rec (f : filter_spec) (t : oi_vis) (w : oi_wavelength) (r r' : vis_record) : Prop :=
  exists idx, accepted_channels f w idx /\ vis_data_kept f (length (wv_eff_wave w)) idx r r' /\ flags_updated kvis f w idx r r'.
Definition vis2_kept_rec (f : filter_spec) (t : oi_vis2) (w : oi_wavelength) (r r' : vis2_record) : Prop :=
  exists idx, accepted_channels f w idx /\ vis2_data_kept f idx r r' /\ flags_updated kvis2 f w idx r r'.
Definition t3_kept_rec (f : filter_spec) (t : oi_t3) (w : oi_wavelength) (r r' : t3_record) : Prop :=
  exists idx, accepted_channels f w idx /\ t3_data_kept f idx r r' /\ flags_updated kt3 f w idx r r'.
Definition flux_kept_rec (f : filter_spec) (t : oi_flux) (w : oi_wavelength) (r r' : flux_record) : Prop :=
  exists idx, accepted_channels f w idx /\ flux_data_kept f idx r r' /\ flags_updated kind_flux f w idx r r'.

Lemma vis_filtered d f : consistent d -> pats f ->
  filtered_tables kvis f d (vis_kept_rec f) (o_visList d) (vis_list pow_half d f).
Proof.
  intros C HP. unfold vis_list. apply filtered_tables_ok; [apply (cs_unique d C)|exact HP| |reflexivity|].
  - intros t w r Ht Hw Hr. now apply (vis_okb_spec d f t).
  - intros t w r Ht Hw Hr. destruct (vis_facts d f t w r C Ht Hw Hr) as (Wf & LW & P & LU & LF & HB).
    exists (idx_of (use_of f w)). split; [apply idx_of_accepted|]. split.
    + rewrite LW. now apply (vis_data_kept_out pow_half f w (tb_x t)).
    + apply (flags_updated_sel _ _ _ (vis_badb pow_half f w)); [exact LF|exact HB|reflexivity].
Qed.
Lemma vis2_filtered d f : consistent d -> pats f ->
  filtered_tables kvis2 f d (vis2_kept_rec f) (o_vis2List d) (vis2_list pow_half d f).
Proof.
  intros C HP. unfold vis2_list. apply filtered_tables_ok; [apply (cs_unique d C)|exact HP| |reflexivity|].
  - intros t w r Ht Hw Hr. now apply (vis2_okb_spec d f t).
  - intros t w r Ht Hw Hr. destruct (vis2_facts d f t w r C Ht Hw Hr) as (Wf & LW & P & LU & LF & HB).
    exists (idx_of (use_of f w)). split; [apply idx_of_accepted|]. split.
    + now apply (vis2_data_kept_out pow_half f w r (tb_nwave t)).
    + apply (flags_updated_sel _ _ _ (vis2_badb pow_half f w)); [exact LF|exact HB|reflexivity].
Qed.
Lemma t3_filtered d f : consistent d -> pats f ->
  filtered_tables kt3 f d (t3_kept_rec f) (o_t3List d) (t3_list pow_half d f).
Proof.
  intros C HP. unfold t3_list. apply filtered_tables_ok; [apply (cs_unique d C)|exact HP| |apply orb_true_iff|].
  - intros t w r Ht Hw Hr. now apply (t3_okb_spec d f t).
  - intros t w r Ht Hw Hr. destruct (t3_facts d f t w r C Ht Hw Hr) as (Wf & LW & P & LU & LF & HB).
    exists (idx_of (use_of f w)). split; [apply idx_of_accepted|]. split.
    + now apply (t3_data_kept_out pow_half f w r (tb_nwave t)).
    + apply (flags_updated_sel _ _ _ (t3_badb pow_half f w)); [exact LF|exact HB|reflexivity].
Qed.
Lemma flux_filtered d f : consistent d -> pats f ->
  filtered_tables kind_flux f d (flux_kept_rec f) (o_fluxList d) (flux_list d f).
Proof.
  intros C HP. unfold flux_list. apply filtered_tables_ok; [apply (cs_unique d C)|exact HP| |reflexivity|].
  - intros t w r Ht Hw Hr. apply flux_okb_spec.
  - intros t w r Ht Hw Hr. destruct (flux_facts d f t w r C Ht Hw Hr) as (Wf & LW & P & LU & LF).
    exists (idx_of (use_of f w)). split; [apply idx_of_accepted|]. split.
    + now apply (flux_data_kept_out f w r (tb_nwave t)).
    + apply (flags_updated_sel _ _ _ (fun _ _ => false)); [exact LF| |].
      * intros j x _. cbn. intuition congruence.
      * rewrite flagcol_id by reflexivity. reflexivity.
Qed.
End Pow.
