(** Filtering twice: which OI_INSPOL tables remain. *)
From Verif Require Import Base BaseLemmas FloatModel Types FileModel FileSpec FileProofs FilterModel FilterSpec FilterLemmas FilterProofs FilterRecords FilterTables FilterApply FilterFacts FilterResults FilterOutput FilterFix FilterWhole FilterMain.
From Coq Require Import Lia.

(** All rows are for instruments in use *)
Definition in_use (d : oi_fits) (t : oi_inspol) : Prop :=
  forall r, In r (is_record t) -> uses_insname d (ip_insname r).

Section Pow.
Variable pow_half : f64 -> f64.

Lemma inspol_fix d f t : consistent d -> pats f -> f_target_id f < 0 ->
  (forall w, In w (o_wavelengthList d) -> all_used f w) -> In t (o_inspolList d) ->
  (forall r, In r (is_record t) -> inspol_okb d f r = true) -> inspol_out d f t = t.
Proof.
  intros C HP T HU Ht H2. destruct (wf_fits_parts d (cs_wf d C)) as (_&_&_&_&W&_).
  destruct (cs_inspol d C t Ht) as (P & name & N1 & N2).
  pose proof (forallb_in _ _ _ W Ht) as Wt. apply andb_true_iff in Wt as [WL Wr]. apply len_is_eq in WL.
  unfold inspol_out. rewrite (filter_all (inspol_okb d f)) by exact H2. rewrite map_fix.
  - destruct (is_record t) as [|r rs] eqn:E; [cbn in WL; lia|].
    pose proof (forallb_in _ _ _ Wr (or_introl eq_refl)) as Wr0. unfold wf_inspol_record in Wr0. len_eqs.
    replace (Z.of_nat (length (r :: rs))) with (is_numrec t) by (rewrite WL; reflexivity).
    replace (Z.of_nat (length (ip_jxx r))) with (is_nwave t) by congruence. rewrite <- E.
    destruct t; reflexivity.
  - intros r Hr. pose proof (H2 r Hr) as Hok. apply inspol_okb_spec in Hok; [|apply (cs_unique d C)|exact HP].
    destruct Hok as (_&_&_&_&w&j&Hw&_). assert (E := Hw). apply wv_of_instrument in E; [|apply (cs_unique d C)].
    unfold inspol_rec_out. rewrite E. rewrite (HU w (proj1 Hw)), (new_id_fix f _ T).
    pose proof (forallb_in _ _ _ Wr Hr) as Wr0. unfold wf_inspol_record in Wr0. len_eqs.
    rewrite (N1 r Hr) in Hw. destruct (wave_wf d w C (proj1 Hw)) as (Wf & _).
    destruct (wf_wavelength_len w Wf) as (L & _). rewrite (N2 w Hw) in L.
    rewrite !sel_true by lia. destruct r; reflexivity.
Qed.

Lemma kept_map_filter {A} (P : A -> Prop) (b : A -> bool) (g : A -> A) l :
  (forall a, In a l -> (b a = true <-> P a)) -> (forall a, In a l -> P a -> g a = a) -> kept P eq l (map g (filter b l)).
Proof.
  induction l as [|a l IH]; intros H1 H2; cbn [filter map]; [constructor|].
  assert (K : kept P eq l (map g (filter b l))) by (apply IH; intros; [apply H1|apply H2]; auto; now right).
  destruct (b a) eqn:E; cbn [map].
  - assert (Pa : P a) by (apply H1; [now left|exact E]). constructor; auto. symmetry. apply H2; auto. now left.
  - constructor; auto. intros Pa. apply H1 in Pa; [congruence|now left].
Qed.

Section Twice.
Variables (d : oi_fits) (f : filter_spec) (arrh : hash oi_array)
  (wavh : hash oi_wavelength) (corh : hash oi_corr).
Hypothesis C : consistent d.
Hypothesis HP : pats f.
Hypothesis T : f_target_id f < 0.
Hypothesis IW : indexes wv_insname (wave_list pow_half d f) wavh.
Let D := filter_image pow_half d f arrh wavh corh.

Lemma inspols_again : kept (in_use D) eq (o_inspolList D) (inspol_list pow_half D f).
Proof.
  pose proof (CD pow_half d f arrh wavh corh C HP T IW) as CD0. fold D in CD0.
  pose proof (twice_vis pow_half d f arrh wavh corh C HP T IW) as V1.
  pose proof (twice_vis2 pow_half d f arrh wavh corh C HP T IW) as V2.
  pose proof (twice_t3 pow_half d f arrh wavh corh C HP T IW) as V3.
  pose proof (twice_flux pow_half d f arrh wavh corh C HP T IW) as V4.
  fold D in V1, V2, V3, V4.
  assert (G : forall t', In t' (o_inspolList D) -> exists t, t' = inspol_out d f t /\ In t (o_inspolList d)
     /\ accept_arrname f (is_arrname t) = true /\ uses_arrname D (is_arrname t)).
  { intros t' Ht'. unfold D in Ht'. cbn in Ht'. unfold inspol_list in Ht'. apply filter_In in Ht' as [H1 H2].
    apply in_map_iff in H1 as (t & <- & H1). apply filter_In in H1 as [H1 H3]. apply andb_true_iff in H3 as [H3 _].
    exists t. split; [reflexivity|]. split; [exact H1|]. split; [exact H3|].
    now apply (uses_arrname_D pow_half d f arrh wavh corh) in H2. }
  assert (H2 : forall t r, In t (o_inspolList D) -> In r (is_record t) -> uses_insname D (ip_insname r) ->
     inspol_okb D f r = true).
  { intros t' r' Ht' Hr' HU. destruct (G t' Ht') as (t & E & Ht & HA & _).
    subst t'. cbn in Hr'. apply in_map_iff in Hr' as (r & <- & Hr).
    apply filter_In in Hr as [Hr Hok]. assert (HN := cs_unique d C).
    apply inspol_okb_spec in Hok; auto. destruct Hok as (K1 & K2 & K3 & K4 & w & j & Hw & Hj).
    assert (E := Hw). apply (wv_of_instrument _ _ _ HN) in E. unfold inspol_rec_out in *. rewrite E in *.
    cbn [ip_insname] in HU.
    apply inspol_okb_spec; [apply (cs_unique D CD0)|exact HP|].
    split; [left; exact T|]. split; [exact K2|]. split; [exact K3|]. split; [exact K4|]. cbn [ip_insname].
    destruct (uses_insname_accepted pow_half d f arrh wavh corh C HP IW _ HU) as (w' & Hw' & _). fold D in Hw'.
    exists w'. destruct Hw' as [Hin En]. assert (Hd := Hin). apply wave_in in Hd as (w0 & Hw0 & -> & Hk & _).
    assert (Hp : 0 < wv_nwave (wave_out f w0)) by apply (cs_waves D CD0 _ Hin).
    cbn in Hp. exists 0%nat. split; [split; auto|]. apply chan_accepted_spec.
    rewrite again_used by (now apply (wave_band d C)). destruct (cnt (use_of f w0)); [lia|reflexivity]. }
  unfold inspol_list. rewrite (filter_all (fun t => listed (arrnames pow_half D f) (is_arrname t))).
  - apply kept_map_filter.
    + intros t Ht. destruct (G t Ht) as (t0 & E & _ & HA & _).
      assert (HA' : accept_arrname f (is_arrname t) = true) by (now rewrite E).
      unfold inspol_keptb. rewrite HA'. cbn [andb]. rewrite existsb_exists.
      destruct (cs_inspol D CD0 t Ht) as (P & name & N1 & _). split.
      * intros (r & Hr & Hok). apply inspol_okb_spec in Hok; [|apply (cs_unique D CD0)|exact HP].
        destruct Hok as (_&_&_&_&w&j&[Hw En]&_).
        destruct (D_waves pow_half d f arrh wavh corh C w Hw) as (_ & _ & HU).
        fold D in HU. rewrite En in HU. intros r' Hr'. rewrite (N1 r' Hr'), <- (N1 r Hr). exact HU.
      * intros HU. destruct (wf_fits_parts D (cs_wf D CD0)) as (_&_&_&_&W&_).
        pose proof (forallb_in _ _ _ W Ht) as Wt. apply andb_true_iff in Wt as [WL _]. apply len_is_eq in WL.
        destruct (is_record t) as [|r rs] eqn:Er; [cbn in WL; lia|]. exists r. split; [now left|].
        apply (H2 t r Ht); rewrite ?Er; [now left|]. apply HU. rewrite Er. now left.
    + intros t Ht HU. apply inspol_fix; auto.
      * intros w Hw. now apply (D_waves pow_half d f arrh wavh corh C w Hw).
      * intros r Hr. apply (H2 t r Ht Hr). now apply HU.
  - intros t Ht. apply in_map_iff in Ht as (t0 & <- & Ht0). apply filter_In in Ht0 as [Ht0 _].
    destruct (G t0 Ht0) as (t1 & E & _ & _ & HU). cbn [is_arrname inspol_out].
    apply (names_fixed pow_half D f V1 V2 V3 V4). now rewrite E.
Qed.
End Twice.

Theorem filter_again d f d1 f1 : consistent d -> fresh_filter f -> f_target_id f < 0 ->
  apply_oi_filter pow_half d f = Ok (f1, d1) ->
  exists d2, apply_oi_filter pow_half d1 f = Ok (f, d2)
    /\ same_data d1 d2 /\ same_config d1 d2 /\ same_lookups d1 d2
    /\ kept (in_use d1) eq (o_inspolList d1) (o_inspolList d2).
Proof.
  intros C HF T E. destruct (filter_twice pow_half d f d1 f1 C HF T E) as (d2 & E2 & S1 & S2 & S3 & _).
  exists d2. do 4 (split; [assumption|]).
  destruct (apply_oi_filter_ok pow_half d f C HF) as (h1 & h2 & h3 & E1 & I1 & I2 & I3).
  rewrite E1 in E. injection E as <- <-.
  assert (C1 : consistent (filter_image pow_half d (compiled f) h1 h2 h3)).
  { apply output_consistent; auto; try apply pats_ok. now left. }
  destruct (apply_oi_filter_ok pow_half _ f C1 HF) as (k1 & k2 & k3 & E3 & _).
  rewrite E3 in E2. injection E2 as <-. cbn [o_inspolList filter_image].
  exact (inspols_again d (compiled f) h1 h2 h3 C (pats_ok f) T I2).
Qed.

(** The third time nothing changes *)
Theorem filter_thrice d f d1 f1 d2 f2 : consistent d -> fresh_filter f -> f_target_id f < 0 ->
  apply_oi_filter pow_half d f = Ok (f1, d1) -> apply_oi_filter pow_half d1 f = Ok (f2, d2) ->
  exists d3, apply_oi_filter pow_half d2 f = Ok (f, d3)
    /\ same_data d2 d3 /\ same_config d2 d3 /\ same_lookups d2 d3 /\ o_inspolList d3 = o_inspolList d2.
Proof.
  intros C HF T E1 E2. destruct (filter_again d f d1 f1 C HF T E1) as (d2' & E2' & S1 & _ & _ & K).
  rewrite E2' in E2. injection E2 as <- <-.
  assert (C1 : consistent d1) by (eapply main_consistent; eauto).
  destruct (filter_twice pow_half d1 f d2' f C1 HF T E2') as (d3 & E3 & R1 & R2 & R3 & R4).
  exists d3. do 4 (split; [assumption|]). apply R4. intros t r Ht Hr.
  assert (HU : in_use d1 t).
  { clear -K Ht. induction K as [|a b l m HP HQ K IH|a l m HP K IH]; [contradiction| |auto].
    destruct Ht as [<-|Ht]; [|auto]. now rewrite <- HQ. }
  specialize (HU r Hr). destruct S1 as (_ & _ & V1 & V2 & V3 & V4). unfold uses_insname in *.
  rewrite V1, V2, V3, V4. exact HU.
Qed.
End Pow.
