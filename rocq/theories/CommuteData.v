(** Filtering and merging: the data tables. *)
From Verif Require Import Base BaseLemmas FloatModel Types FileModel FileSpec FileProofs FilterModel FilterSpec FilterLemmas
  FilterProofs FilterRecords FilterTables FilterApply FilterResults FilterMain
  MergeModel MergeSpec MergeProofs MergeNames MergeNamed MergeTables MergeTargets MergeHeader MergeData MergeWhole MergeFacts
  CommuteSpec.
From Coq Require Import Lia.
Open Scope list_scope.
Open Scope Z_scope.

(** ** Records: what merging and filtering make of one *)

Definition v2_set_time (v : f64) (r : vis2_record) : vis2_record :=
  mk_vis2_record (v2_target_id r) v (v2_mjd r) (v2_int_time r) (v2_vis2data r) (v2_vis2err r) (v2_corrindx_vis2data r)
    (v2_ucoord r) (v2_vcoord r) (v2_sta_index r) (v2_flag r).
Definition t3_set_time (v : f64) (r : t3_record) : t3_record :=
  mk_t3_record (t3_target_id r) v (t3_mjd r) (t3_int_time r) (t3_t3amp r) (t3_t3amperr r) (t3_corrindx_t3amp r)
    (t3_t3phi r) (t3_t3phierr r) (t3_corrindx_t3phi r) (t3_u1coord r) (t3_v1coord r) (t3_u2coord r) (t3_v2coord r)
    (t3_sta_index r) (t3_flag r).
Definition vr_set_time (v : f64) (r : vis_record) : vis_record :=
  mk_vis_record (vr_target_id r) v (vr_mjd r) (vr_int_time r) (vr_visamp r) (vr_visamperr r) (vr_corrindx_visamp r)
    (vr_visphi r) (vr_visphierr r) (vr_corrindx_visphi r) (vr_visrefmap r) (vr_rvis r) (vr_rviserr r)
    (vr_corrindx_rvis r) (vr_ivis r) (vr_iviserr r) (vr_corrindx_ivis r) (vr_ucoord r) (vr_vcoord r) (vr_sta_index r) (vr_flag r).

Definition v2_merged (x : unit) (rev : Z) (r : vis2_record) : vis2_record :=
  v2_set_time (if rev =? 1 then f64_zero else v2_time r) r.
Definition t3_merged (x : unit) (rev : Z) (r : t3_record) : t3_record :=
  t3_set_time (if rev =? 1 then f64_zero else t3_time r) r.
Definition vr_merged (x : vis_extra) (rev : Z) (r : vis_record) : vis_record :=
  vr_set_time (if rev =? 1 then f64_zero else vr_time r) (vis_dup_image x r).

Lemma v2_merged_eq x rev r r1 : upgraded_record v2_time same_but_time_vis2 rev r r1 -> r1 = v2_merged x rev r.
Proof.
  intros [(E1 & E2 & E3 & E4 & E5 & E6 & E7 & E8 & E9 & E10) T].
  destruct r1. unfold v2_merged, v2_set_time. cbn in *. now subst.
Qed.
Lemma t3_merged_eq x rev r r1 : upgraded_record t3_time same_but_time_t3 rev r r1 -> r1 = t3_merged x rev r.
Proof.
  intros [(E1 & E2 & E3 & E4 & E5 & E6 & E7 & E8 & E9 & E10 & E11 & E12 & E13 & E14 & E15) T].
  destruct r1. unfold t3_merged, t3_set_time. cbn in *. now subst.
Qed.
Lemma vr_merged_eq x rev r r1 : vis_rel x rev r r1 -> r1 = vr_merged x rev r.
Proof.
  intros [(E1 & E2 & E3 & E4 & E5 & E6 & E7 & E8 & E9 & E10 & E11 & E12 & E13 & E14 & E15 & E16 & E17 & E18 & E19 & E20) T].
  rewrite image_time in T. destruct r1. unfold vr_merged, vr_set_time. cbn in *. now subst.
Qed.

(** The filter's functions on records of a kind do not depend on what merging changes *)
Record steady {X R} (f : filter_spec) (id : R -> Z) (set_id : Z -> R -> R) (mr : X -> Z -> R -> R)
  (okb : oi_wavelength -> list bool -> R -> bool) (g : oi_wavelength -> list bool -> R -> R) : Prop := {
  sd_wave : forall w w', wv_eff_wave w = wv_eff_wave w' -> forall use r, okb w use r = okb w' use r /\ g w use r = g w' use r;
  sd_ok : forall w use n x rev r, okb w use (set_id n (mr x rev r)) = okb w use r;
  sd_out : forall w use n x rev r, g w use (set_id n (mr x rev r)) = set_id n (mr x rev (g w use r));
  sd_id : forall w use r, id (g w use r) = id r }.

Section Steady.
Variable pow_half : f64 -> f64.
Variable f : filter_spec.
Hypothesis T : f_target_id f < 0.

Lemma no_skip id : skip_target f id = false.
Proof. unfold skip_target. destruct (Z.leb_spec 0 (f_target_id f)); [lia|reflexivity]. Qed.
Lemma no_new id : new_target_id f id = id.
Proof. unfold new_target_id. destruct (Z.leb_spec 0 (f_target_id f)); [lia|reflexivity]. Qed.

Lemma vis2_steady : @steady unit _ f v2_target_id v2_set_target_id v2_merged (vis2_okb pow_half f) (vis2_out pow_half f).
Proof.
  constructor.
  - intros w w' E use r. unfold vis2_okb, vis2_out, vis2_badb, nth_wave. rewrite E. auto.
  - intros w use n x rev r. unfold vis2_okb. rewrite !no_skip. reflexivity.
  - intros w use n x rev r. unfold vis2_out. rewrite !no_new. reflexivity.
  - intros w use r. cbn. apply no_new.
Qed.
Lemma t3_steady : @steady unit _ f t3_target_id t3_set_target_id t3_merged (t3_okb pow_half f) (t3_out pow_half f).
Proof.
  constructor.
  - intros w w' E use r. unfold t3_okb, t3_out, t3_badb, nth_wave. rewrite E. auto.
  - intros w use n x rev r. unfold t3_okb. rewrite !no_skip. reflexivity.
  - intros w use n x rev r. unfold t3_out. rewrite !no_new. reflexivity.
  - intros w use r. cbn. apply no_new.
Qed.
Lemma vis_steady : steady f vr_target_id vr_set_target_id vr_merged (vis_okb pow_half f) (vis_out pow_half f).
Proof.
  constructor.
  - intros w w' E use r. unfold vis_okb, vis_out, vis_badb, nth_wave. rewrite E. auto.
  - intros w use n x rev r. unfold vis_okb. rewrite !no_skip. unfold vr_merged, vis_dup_image.
    destruct (vx_usecomplex x); reflexivity.
  - intros w use n x rev r. unfold vis_out. rewrite !no_new. unfold vr_merged, vis_dup_image.
    destruct (vx_usecomplex x); reflexivity.
  - intros w use r. cbn. apply no_new.
Qed.
Lemma flux_steady : steady f fr_target_id fr_set_target_id (fun (_ : flux_extra) (_ : Z) r => r) (fun _ _ => flux_okb f) (fun _ => flux_out f).
Proof.
  constructor.
  - auto.
  - intros w use n x rev r. unfold flux_okb. rewrite !no_skip. reflexivity.
  - intros w use n x rev r. unfold flux_out. rewrite !no_new. reflexivity.
  - intros w use r. cbn. apply no_new.
Qed.
End Steady.

(** ** A merged dataset is one that filtering is specified for *)

Lemma in_the_one {A} (name : A -> string) l a : NoDup (map name l) -> In a l -> the_one name l (name a) a.
Proof.
  intros Nd Ha. apply in_split in Ha as (b & c & ->). exists b, c. split; [reflexivity|]. split; [reflexivity|].
  rewrite map_app in Nd. cbn [map] in Nd. apply NoDup_remove_2 in Nd.
  intros x Hx E. apply Nd. rewrite <- E, <- map_app. now apply in_map.
Qed.
Lemma in_map_name {A} (name : A -> string) l n : In n (map name l) -> exists a, In a l /\ name a = n.
Proof. intros H. apply in_map_iff in H as (a & E & Ha). eauto. Qed.
Lemma latest_in {A} (name : A -> string) l n a : latest_named name l n = Some a -> In a l /\ name a = n.
Proof.
  unfold latest_named. intros E. apply find_some in E as [H E]. apply str_eqb_eq in E.
  split; [now apply in_rev|exact E].
Qed.

(** Merging gives no table the empty name *)
Lemma new_name_nonempty literal name k : literal <> ""%string -> new_name literal name k <> ""%string.
Proof.
  intros Hl. unfold new_name, strlcpy.
  assert (K : forall c s, substring 0 (Z.to_nat (FLEN_VALUE - 1)) (String c s) <> ""%string) by (intros; discriminate).
  destruct (strlen name <? FLEN_VALUE - 5).
  - destruct name as [|c s]; cbn [append];
      (destruct (substring 0 (Z.to_nat (FLEN_VALUE - 1)) (String _ _)) eqn:E; [now apply K in E|apply K]).
  - destruct literal as [|c s]; [congruence|]; cbn [append];
      (destruct (substring 0 (Z.to_nat (FLEN_VALUE - 1)) (String _ _)) eqn:E; [now apply K in E|apply K]).
Qed.

Section Named.
Context {A : Type}.
Variables (name : A -> string) (set_name : string -> A -> A) (literal : string).
Variables (matching : A -> list A -> res (option A)) (copy : A -> res A).
Variables (good : A -> Prop) (same : A -> A -> Prop).
Hypothesis name_set : forall n c, name (set_name n c) = n.
Hypothesis good_set : forall n c, good c -> good (set_name n c).
Hypothesis same_set : forall a n c, same a c -> same a (set_name n c).
Hypothesis matching_sound : forall a l c, good a -> Forall good l ->
  matching a l = Ok (Some c) -> In c l /\ same a c.
Hypothesis copy_sound : forall a c, good a -> copy a = Ok c -> good c /\ name c = name a /\ same a c.
Hypothesis literal_nonempty : literal <> ""%string.

Lemma merge_tables_named lists hs out : Forall (Forall good) lists ->
  Forall (Forall (fun a => name a <> ""%string)) lists ->
  merge_tables name set_name literal matching copy lists empty_tables = Ok (hs, out) ->
  Forall (fun a => name a <> ""%string) (tl_list out).
Proof.
  intros G HQ H. unfold merge_tables in H.
  cbn [tl_list empty_tables assert_ bind] in H.
  apply (foreach_invariant (fun pre (s : list (hash string) * tables A) =>
    tables_inv name good (snd s) /\ Forall (fun a => name a <> ""%string) (tl_list (snd s)))) in H; cbn [fst snd] in *.
  - apply H.
  - split; [apply empty_inv|constructor].
  - intros pre l [hs1 o1] [hs2 o2] (I & F) Hin Hb. cbn [fst snd] in *.
    apply bind_inv in Hb as ([h o] & E & Hb). injection Hb as <- <-.
    rewrite Forall_forall in G, HQ. specialize (G l Hin). specialize (HQ l Hin).
    apply (foreach_invariant (fun pre (s : hash string * tables A) =>
      tables_inv name good (snd s) /\ Forall (fun a => name a <> ""%string) (tl_list (snd s)))) in E; cbn [fst snd] in *; auto.
    intros pre' a [h1 t1] [h2 t2] (J & Fp) Ha Hb. cbn [fst snd] in *.
    rewrite Forall_forall in G, HQ.
    destruct (merge_table_inv name set_name literal matching copy good same name_set good_set same_set matching_sound
      copy_sound a h1 t1 h2 t2 (G a Ha) J Hb) as (c & _ & _ & _ & J' & Hcase).
    split; [exact J'|]. destruct Hcase as [[-> _]|(_ & c0 & Ec & -> & _ & Hn)]; [exact Fp|].
    apply Forall_app. split; [exact Fp|]. constructor; [|constructor].
    destruct (copy_sound a c0 (G a Ha) Ec) as (_ & En & _).
    destruct Hn as [[-> _]| ->]; [rewrite En; auto|]. rewrite name_set. now apply new_name_nonempty.
Qed.
End Named.

Section Merged.
Variables (ins : list oi_fits) (m : oi_fits).
Hypothesis C : Forall consistent ins.
Hypothesis Ne : ins <> [].
Hypothesis Fit : Forall names_fit ins.
Hypothesis Cm : Forall complete ins.
Hypothesis H : merge_oi_fits_list ins = Ok m.
Hypothesis Dm : distinct_names m.

Lemma wf_all : Forall (fun d => wf_fits d = true) ins.
Proof using C. eapply Forall_impl; [|exact C]. intros d. apply cs_wf. Qed.

(** The OI_WAVELENGTH named in [d], and the one its new name refers to *)
Lemma merged_wave d w n n' : In d ins -> instrument d n w -> wavelength_follows d m n n' ->
  exists w', oi_fits_lookup_wavelength m n' = Some w' /\ same_wavebands w w' /\ In w' (o_wavelengthList m)
    /\ forall w2, instrument m n' w2 <-> w2 = w'.
Proof using C H Dm.
  intros Hd [Hw <-] [F _]. pose proof C as C'. rewrite Forall_forall in C'.
  destruct (F w (in_the_one _ _ _ (cs_unique d (C' d Hd)) Hw)) as (w' & E & S).
  exists w'. split; [exact E|]. split; [exact S|].
  destruct (merge_facts ins m wf_all H) as (ids & Fa). destruct (fa_waves _ _ _ Fa) as (_ & _ & Hh).
  unfold oi_fits_lookup_wavelength in E. cbn [tl_hash wave_tables tl_list] in Hh. rewrite Hh in E.
  apply latest_in in E as [Hin En]. split; [exact Hin|]. intros w2. split.
  - intros [H2 E2]. destruct Dm as (_ & Nd & _). eapply (NoDup_map_inj wv_insname); eauto. congruence.
  - intros ->. split; assumption.
Qed.

Lemma merged_ready {X R} (id : R -> Z) (set_id : Z -> R -> R) rv (rel : X -> Z -> R -> R -> Prop) (tabs : oi_fits -> list (dtab X R)) ids :
  (forall d t, In t (tabs d) -> uses_insname d (tb_insname t)) ->
  (forall d t, In d ins -> In t (tabs d) -> table_ready d t) ->
  Forall2 (traced (placed id set_id rv rel ids) tabs ins m) (from_inputs tabs ins) (tabs m) ->
  forall t, In t (tabs m) -> table_ready m t.
Proof using C Fit Cm H Dm.
  intros U T F t Ht. destruct (Forall2_in_r _ _ _ t F Ht) as ([d t0] & _ & Hd & Ht0 & a & i & c & Ra & Ri & Rc & P).
  cbn [fst snd] in *. destruct P as (_ & _ & _ & E1 & E2 & _ & E3 & _).
  destruct (T d t0 Hd Ht0) as [P N]. split; [congruence || (rewrite E1; exact P)|]. intros w Hw.
  pose proof Cm as Cm'. rewrite Forall_forall in Cm'. destruct (Cm' d Hd) as (K & _).
  destruct (in_map_name _ _ _ (K _ (U d t0 Ht0))) as (w0 & Hw0 & En).
  destruct (merged_wave d w0 (tb_insname t0) (tb_insname t) Hd (conj Hw0 En)) as (w' & _ & (S & _) & _ & Q).
  { rewrite E3. apply (wave_ref ins m wf_all H Fit Dm d i Ri). }
  apply Q in Hw as ->. rewrite S, E2. apply N. split; assumption.
Qed.

Lemma merged_named : Forall named ins -> named m.
Proof using C H.
  intros N. pose proof (wf_parts_intro ins wf_all) as P. destruct (merge_inv _ _ H) as [R].
  rewrite Forall_forall in N.
  assert (L : forall A (l : oi_fits -> list A) (name : A -> string), (forall d a, In d ins -> In a (l d) -> name a <> ""%string) ->
    Forall (Forall (fun a => name a <> ""%string)) (map l ins)).
  { intros A l name K. apply Forall_forall. intros x Hx. apply in_map_iff in Hx as (d & <- & Hd).
    apply Forall_forall. intros a Ha. eauto. }
  split.
  - pose proof (merge_tables_named ar_arrname ar_set_arrname "array" match_oi_array copy_oi_array
      array_good same_stations (fun _ _ => eq_refl) array_good_rename same_stations_rename
      array_matching_sound array_copy_sound) as K.
    specialize (K ltac:(discriminate) _ _ _ (wp_arrays _ P) (L _ _ _ (fun d a Hd => proj1 (N d Hd) a)) (mr_arrays _ _ R)).
    cbn [tl_list] in K. rewrite Forall_forall in K. exact K.
  - pose proof (merge_tables_named co_corrname co_set_corrname "ins" (fun _ _ => Ok None) dup_oi_corr
      corr_good merged_corr (fun _ _ => eq_refl) corr_good_rename merged_corr_rename
      corr_matching_sound corr_copy_sound) as K.
    specialize (K ltac:(discriminate) _ _ _ (wp_corrs _ P) (L _ _ _ (fun d a Hd => proj2 (N d Hd) a)) (mr_corrs _ _ R)).
    cbn [tl_list] in K. rewrite Forall_forall in K. exact K.
Qed.

Lemma merged_consistent : consistent m.
Proof using C Ne Fit Cm H Dm.
  destruct (merge_facts ins m wf_all H) as (ids & F). pose proof C as C'. rewrite Forall_forall in C'.
  constructor.
  - eapply merged_wf; [exact wf_all|exact H].
  - rewrite (fa_rev _ _ _ F). cbn [ot_ntarget].
    pose proof (targets_order ins m wf_all H) as E. rewrite E. clear E. rewrite renumber_length.
    destruct ins as [|d l]; [congruence|]. pose proof (C' d (or_introl eq_refl)) as Cd.
    pose proof (cs_targets d Cd) as P. pose proof (cs_wf d Cd) as W. apply wf_fits_parts in W as (W & _).
    unfold wf_targets in W. apply len_is_eq in W.
    unfold all_targets. cbn [flat_map]. destruct (ot_targ (o_targets d)) as [|x r]; [cbn in W; lia|].
    cbn [app first_rows]. destruct (in_dec _ _ _) as [[]|_]. cbn [length]. lia.
  - intros a Ha. pose proof (arrays_from_inputs ins m wf_all H) as K. rewrite Forall_forall in K.
    destruct (K a Ha) as (d & a0 & Hd & Ha0 & E). pose proof (cs_arrays d (C' d Hd) a0 Ha0) as P.
    apply (f_equal ar_nelement) in E. cbn in E. lia.
  - intros c Hc. pose proof (kept_corr ins m wf_all H) as K.
    destruct (Forall2_in_r _ _ _ c K Hc) as (c0 & Hc0 & E). apply in_flat_map in Hc0 as (d & Hd & Hc0).
    pose proof (cs_corrs d (C' d Hd) c0 Hc0) as P. unfold merged_corr in E. apply (f_equal co_ncorr) in E. cbn in E. lia.
  - intros w Hw. split.
    + pose proof (waves_from_inputs ins m wf_all H) as K. rewrite Forall_forall in K.
      destruct (K w Hw) as (d & w0 & Hd & Hw0 & E). destruct (cs_waves d (C' d Hd) w0 Hw0) as [P _].
      apply (f_equal wv_nwave) in E. cbn in E. lia.
    + pose proof (waves_fit ins m wf_all H Fit) as K. rewrite Forall_forall in K. auto.
  - apply Dm.
  - intros w Hw _. destruct (fa_waves _ _ _ F) as (_ & _ & Hh). cbn [tl_hash wave_tables tl_list] in Hh.
    rewrite Hh. apply latest_unique; [apply Dm|exact Hw].
  - eapply (merged_ready vr_target_id _ _ _ o_visList); [apply uses_vis| |apply (fa_vis _ _ _ F)].
    intros d t Hd. apply (cs_vis d (C' d Hd)).
  - eapply (merged_ready v2_target_id _ _ _ o_vis2List); [apply uses_vis2| |apply (fa_vis2 _ _ _ F)].
    intros d t Hd. apply (cs_vis2 d (C' d Hd)).
  - eapply (merged_ready t3_target_id _ _ _ o_t3List); [apply uses_t3| |apply (fa_t3 _ _ _ F)].
    intros d t Hd. apply (cs_t3 d (C' d Hd)).
  - eapply (merged_ready fr_target_id _ _ _ o_fluxList); [apply uses_flux| |apply (fa_flux _ _ _ F)].
    intros d t Hd. apply (cs_flux d (C' d Hd)).
  - intros t Ht. destruct (Forall2_in_r _ _ _ t (fa_inspol _ _ _ F) Ht)
      as ([d t0] & _ & Hd & Ht0 & a & i & c & Ra & Ri & Rc & P).
    cbn [fst snd] in *. destruct P as (_ & _ & _ & _ & _ & E1 & E2 & _ & P9).
    destruct (cs_inspol d (C' d Hd) t0 Ht0) as (Pn & name & Hn & Nw). split; [lia|].
    exists (replace_name i name). split.
    + intros r Hr. destruct (Forall2_in_r _ _ _ r P9 Hr) as (r0 & Hr0 & n & _ & ->). cbn. now rewrite (Hn r0 Hr0).
    + intros w Hw. pose proof (cs_wf d (C' d Hd)) as W. apply wf_fits_parts in W as (_ & _ & _ & _ & W & _).
      pose proof (forallb_in _ _ _ W Ht0) as W0. unfold wf_inspol in W0. apply andb_true_iff in W0 as [Ln _].
      apply len_is_eq in Ln. destruct (is_record t0) as [|r0 rr] eqn:Er; [cbn in Ln; lia|].
      pose proof Cm as Cm'. rewrite Forall_forall in Cm'. destruct (Cm' d Hd) as (_ & _ & _ & K).
      assert (Kr : In (ip_insname r0) (map wv_insname (o_wavelengthList d)))
        by (apply (K t0); [exact Ht0|rewrite Er; now left]).
      rewrite Hn in Kr by (now left). apply in_map_name in Kr as (w0 & Hw0 & En).
      destruct (merged_wave d w0 name (replace_name i name) Hd (conj Hw0 En)) as (w' & _ & (S & _) & _ & Q).
      { apply (wave_ref ins m wf_all H Fit Dm d i Ri). }
      apply Q in Hw as ->. rewrite S, E2. apply Nw. split; assumption.
Qed.
End Merged.
