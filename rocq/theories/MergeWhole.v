(** What a successful merge consists of, for well-formed inputs. *)
From Verif Require Import BaseLemmas FileModel FileSpec FileProofs MergeModel MergeSpec
  MergeProofs MergeNames MergeNamed MergeTables MergeTargets MergeHeader MergeData.
From Coq Require Import Lia.
Open Scope Z_scope.

Definition array_tables (o : oi_fits) := mk_tables (o_arrayList o) (o_arrayHash o) (o_numArray o).
Definition wave_tables (o : oi_fits) :=
  mk_tables (o_wavelengthList o) (o_wavelengthHash o) (o_numWavelength o).
Definition corr_tables (o : oi_fits) := mk_tables (o_corrList o) (o_corrHash o) (o_numCorr o).

Definition renames_a (out d : oi_fits) (h : hash string) : Prop :=
  renames ar_arrname same_stations (o_arrayList d) h (o_arrayList out).
Definition renames_i (out d : oi_fits) (h : hash string) : Prop :=
  renames wv_insname same_wavebands (o_wavelengthList d) h (o_wavelengthList out).
Definition renames_c (out d : oi_fits) (h : hash string) : Prop :=
  renames co_corrname merged_corr (o_corrList d) h (o_corrList out).

Lemma Forall2_map_l {A B C} (f : A -> B) (P : B -> C -> Prop) l m :
  Forall2 P (map f l) m -> Forall2 (fun a c => P (f a) c) l m.
Proof.
  revert m. induction l as [|a l IH]; intros m H; inversion H; subst; constructor; auto.
Qed.
Lemma forallb_Forall {A} (p : A -> bool) l : forallb p l = true -> Forall (fun a => p a = true) l.
Proof. rewrite forallb_forall. intros H. now apply Forall_forall. Qed.
Lemma Forall_map_forallb {A} (f : oi_fits -> list A) (p : A -> bool) ins :
  Forall (fun d => forallb p (f d) = true) ins ->
  Forall (Forall (fun a => p a = true)) (map f ins).
Proof.
  induction 1; constructor; auto. now apply forallb_Forall.
Qed.

Record wf_parts (ins : list oi_fits) : Prop := {
  wp_targets : Forall (fun d => wf_targets (o_targets d) = true) ins;
  wp_arrays : Forall (Forall array_good) (map o_arrayList ins);
  wp_waves : Forall (Forall wave_good) (map o_wavelengthList ins);
  wp_corrs : Forall (Forall corr_good) (map o_corrList ins);
  wp_inspol : forall d t, In d ins -> In t (o_inspolList d) -> wf_inspol t = true;
  wp_vis : forall d t, In d ins -> In t (o_visList d) -> wf_vis t = true;
  wp_vis2 : forall d t, In d ins -> In t (o_vis2List d) -> wf_vis2 t = true;
  wp_t3 : forall d t, In d ins -> In t (o_t3List d) -> wf_t3 t = true;
  wp_flux : forall d t, In d ins -> In t (o_fluxList d) -> wf_flux t = true }.

Lemma wf_parts_intro ins : Forall (fun d => wf_fits d = true) ins -> wf_parts ins.
Proof.
  intros W.
  assert (K : forall d, In d ins -> wf_targets (o_targets d) = true
    /\ forallb wf_array (o_arrayList d) = true
    /\ forallb wf_wavelength (o_wavelengthList d) = true /\ forallb wf_corr (o_corrList d) = true
    /\ forallb wf_inspol (o_inspolList d) = true /\ forallb wf_vis (o_visList d) = true
    /\ forallb wf_vis2 (o_vis2List d) = true /\ forallb wf_t3 (o_t3List d) = true
    /\ forallb wf_flux (o_fluxList d) = true).
  { intros d Hd. rewrite Forall_forall in W. specialize (W d Hd).
    apply wf_fits_parts in W as (?&?&?&?&?&?&?&?&?&_). auto 12. }
  constructor.
  - apply Forall_forall. intros d Hd. now apply K.
  - apply (Forall_map_forallb o_arrayList wf_array), Forall_forall. intros d Hd. now apply K.
  - apply (Forall_map_forallb o_wavelengthList wf_wavelength), Forall_forall. intros d Hd. now apply K.
  - apply (Forall_map_forallb o_corrList wf_corr), Forall_forall. intros d Hd. now apply K.
  - intros d t Hd. destruct (K d Hd) as (_&_&_&_&H&_). rewrite forallb_forall in H. apply H.
  - intros d t Hd. destruct (K d Hd) as (_&_&_&_&_&H&_). rewrite forallb_forall in H. apply H.
  - intros d t Hd. destruct (K d Hd) as (_&_&_&_&_&_&H&_). rewrite forallb_forall in H. apply H.
  - intros d t Hd. destruct (K d Hd) as (_&_&_&_&_&_&_&H&_). rewrite forallb_forall in H. apply H.
  - intros d t Hd. destruct (K d Hd) as (_&_&_&_&_&_&_&_&H). rewrite forallb_forall in H. apply H.
Qed.

(** A data table of the output *)
Definition traced {T} (place : oi_fits -> hash string -> hash string -> hash string -> T -> T -> Prop)
  (tabs : oi_fits -> list T) (ins : list oi_fits) (out : oi_fits) (dt : oi_fits * T) (t' : T) : Prop :=
  In (fst dt) ins /\ In (snd dt) (tabs (fst dt)) /\
  exists a i c, renames_a out (fst dt) a /\ renames_i out (fst dt) i /\ renames_c out (fst dt) c
    /\ place (fst dt) a i c (snd dt) t'.

Record facts (ins : list oi_fits) (out : oi_fits) (ids : hash Z) : Prop := {
  fa_rev : o_targets out = mk_oi_target (all_revisions ins 2)
    (Z.of_nat (length (ot_targ (o_targets out)))) (ot_targ (o_targets out)) false;
  fa_targets : target_inv (all_targets ins) (ot_targ (o_targets out)) ids;
  fa_arrays : tables_inv ar_arrname array_good (array_tables out);
  fa_waves : tables_inv wv_insname wave_good (wave_tables out);
  fa_corrs : tables_inv co_corrname corr_good (corr_tables out);
  fa_inspol : Forall2 (traced (fun d a i _ => inspol_placed ids d a i) o_inspolList ins out)
    (from_inputs o_inspolList ins) (o_inspolList out);
  fa_vis : Forall2 (traced (placed vr_target_id vr_set_target_id rev12 vis_rel ids) o_visList ins out)
    (from_inputs o_visList ins) (o_visList out);
  fa_vis2 : Forall2 (traced (placed v2_target_id v2_set_target_id rev12
      (fun _ => upgraded_record v2_time same_but_time_vis2) ids) o_vis2List ins out)
    (from_inputs o_vis2List ins) (o_vis2List out);
  fa_t3 : Forall2 (traced (placed t3_target_id t3_set_target_id rev12
      (fun _ => upgraded_record t3_time same_but_time_t3) ids) o_t3List ins out)
    (from_inputs o_t3List ins) (o_t3List out);
  fa_flux : Forall2 (traced (placed fr_target_id fr_set_target_id (fun r => r)
      (fun _ _ r r' => r' = r) ids) o_fluxList ins out)
    (from_inputs o_fluxList ins) (o_fluxList out);
  fa_counts : o_numInspol out = Z.of_nat (length (o_inspolList out))
    /\ o_numVis out = Z.of_nat (length (o_visList out))
    /\ o_numVis2 out = Z.of_nat (length (o_vis2List out))
    /\ o_numT3 out = Z.of_nat (length (o_t3List out))
    /\ o_numFlux out = Z.of_nat (length (o_fluxList out)) }.

(** From the loop to traced tables *)
Lemma trace_tables {T} (f : oi_fits -> hash string -> hash string -> hash string -> T -> res T)
  (place : oi_fits -> hash string -> hash string -> hash string -> T -> T -> Prop)
  tabs ins out ha hi hc l n :
  Forall2 (renames_a out) ins ha -> Forall2 (renames_i out) ins hi ->
  Forall2 (fun d h => renames_c out d h) ins hc ->
  (forall d a i c t t', In d ins -> In t (tabs d) -> f d a i c t = Ok t' -> place d a i c t t') ->
  for_inputs ins ha hi hc (fun d a i c s => foreach (tabs d) (step f d a i c) s) ([], 0) = Ok (l, n) ->
  Forall2 (traced place tabs ins out) (from_inputs tabs ins) l /\ n = Z.of_nat (length l).
Proof.
  intros Fa Fi Fc Hp H.
  destruct (all_inputs tabs f (renames_a out) (renames_i out) (renames_c out) ins ha hi hc [] 0 (l, n)
    Fa Fi Fc H) as (l' & E & F).
  injection E as -> ->. cbn [app]. split; [|lia].
  eapply Forall2_impl'; [|exact F]. intros dt t' (H1 & H2 & a & i & c & Ra & Ri & Rc & Hf).
  split; [exact H1|]. split; [exact H2|]. exists a, i, c. auto 6.
Qed.

Lemma merge_facts ins out : Forall (fun d => wf_fits d = true) ins ->
  merge_oi_fits_list ins = Ok out -> exists ids, facts ins out ids.
Proof.
  intros W H. pose proof (wf_parts_intro ins W) as P. apply merge_inv in H as [R].
  exists (mr_ids _ _ R).
  destruct (targets_inv ins _ _ _ (wp_targets _ P) (mr_targets _ _ R)) as [Er It].
  destruct (merge_tables_inv ar_arrname ar_set_arrname "array" match_oi_array copy_oi_array
    array_good same_stations (fun _ _ => eq_refl) array_good_rename same_stations_rename
    array_matching_sound array_copy_sound _ _ _ (wp_arrays _ P) (mr_arrays _ _ R)) as [Ia Ra].
  destruct (merge_tables_inv wv_insname wv_set_insname "ins" match_oi_wavelength copy_oi_wavelength
    wave_good same_wavebands (fun _ _ => eq_refl) wave_good_rename same_wavebands_rename
    wave_matching_sound wave_copy_sound _ _ _ (wp_waves _ P) (mr_waves _ _ R)) as [Iw Rw].
  destruct (merge_tables_inv co_corrname co_set_corrname "ins" (fun _ _ => Ok None) dup_oi_corr
    corr_good merged_corr (fun _ _ => eq_refl) corr_good_rename merged_corr_rename
    corr_matching_sound corr_copy_sound _ _ _ (wp_corrs _ P) (mr_corrs _ _ R)) as [Ic Rc].
  apply Forall2_map_l in Ra, Rw, Rc. cbn [tl_list] in Ra, Rw, Rc.
  destruct (trace_tables (merge_data_table copy_oi_vis vr_target_id vr_set_target_id (mr_ids _ _ R))
    (placed vr_target_id vr_set_target_id rev12 vis_rel (mr_ids _ _ R)) o_visList
    ins out _ _ _ (o_visList out) (o_numVis out) Ra Rw Rc) with (2 := mr_vis _ _ R) as [F1 N1].
  { intros d a i c t t' Hd Ht E. eapply (placed_intro copy_oi_vis _ _ wf_vis); eauto.
    - apply vis_copied.
    - eapply (wp_vis _ P); eauto. }
  destruct (trace_tables (merge_data_table copy_oi_vis2 v2_target_id v2_set_target_id (mr_ids _ _ R))
    (placed v2_target_id v2_set_target_id rev12
      (fun _ => upgraded_record v2_time same_but_time_vis2) (mr_ids _ _ R)) o_vis2List
    ins out _ _ _ (o_vis2List out) (o_numVis2 out) Ra Rw Rc) with (2 := mr_vis2 _ _ R) as [F2 N2].
  { intros d a i c t t' Hd Ht E. eapply (placed_intro copy_oi_vis2 _ _ wf_vis2); eauto.
    - apply vis2_copied.
    - eapply (wp_vis2 _ P); eauto. }
  destruct (trace_tables (merge_data_table copy_oi_t3 t3_target_id t3_set_target_id (mr_ids _ _ R))
    (placed t3_target_id t3_set_target_id rev12
      (fun _ => upgraded_record t3_time same_but_time_t3) (mr_ids _ _ R)) o_t3List
    ins out _ _ _ (o_t3List out) (o_numT3 out) Ra Rw Rc) with (2 := mr_t3 _ _ R) as [F3 N3].
  { intros d a i c t t' Hd Ht E. eapply (placed_intro copy_oi_t3 _ _ wf_t3); eauto.
    - apply t3_copied.
    - eapply (wp_t3 _ P); eauto. }
  destruct (trace_tables (merge_data_table dup_oi_flux fr_target_id fr_set_target_id (mr_ids _ _ R))
    (placed fr_target_id fr_set_target_id (fun r => r)
      (fun _ _ r r' => r' = r) (mr_ids _ _ R)) o_fluxList
    ins out _ _ _ (o_fluxList out) (o_numFlux out) Ra Rw Rc) with (2 := mr_flux _ _ R) as [F4 N4].
  { intros d a i c t t' Hd Ht E. eapply (placed_intro dup_oi_flux _ _ wf_flux); eauto.
    - apply flux_copied.
    - eapply (wp_flux _ P); eauto. }
  (* the list of INSNAME tables stands in for the unused CORRNAME tables *)
  assert (F5 : Forall2 (traced (fun d a i _ => inspol_placed (mr_ids _ _ R) d a i) o_inspolList ins out)
    (from_inputs o_inspolList ins) (o_inspolList out)
    /\ o_numInspol out = Z.of_nat (length (o_inspolList out))).
  { pose proof (mr_inspol _ _ R) as E. unfold merge_all_oi_inspol in E.
    destruct (all_inputs o_inspolList (fun d a i _ => merge_inspol_table (mr_ids _ _ R) d a i)
      (renames_a out) (renames_i out) (renames_i out) ins _ _ _ [] 0 _ Ra Rw Rw E) as (l' & El & F).
    injection El as -> ->. cbn [app]. split; [|lia].
    eapply Forall2_impl'; [|exact F]. intros dt t' (H1 & H2 & a & i & c & Qa & Qi & Qc & Hf).
    split; [exact H1|]. split; [exact H2|].
    destruct (Forall2_in_l _ _ _ _ Rc H1) as (c' & _ & Hc').
    exists a, i, c'. split; [exact Qa|]. split; [exact Qi|]. split; [exact Hc'|].
    apply inspol_placed_intro; [|exact Hf]. eapply (wp_inspol _ P); eauto. }
  destruct F5 as [F5 N5].
  constructor; auto.
  rewrite (mr_target_tab _ _ R) at 1. now rewrite Er.
Qed.

(** ** C24: data are kept *)

Lemma revision_kept r : rev12 r = (if r =? 1 then 2 else r).
Proof. reflexivity. Qed.

Section Kept.
Variables (ins : list oi_fits) (out : oi_fits).
Hypothesis W : Forall (fun d => wf_fits d = true) ins.
Hypothesis H : merge_oi_fits_list ins = Ok out.

Lemma kept_vis2 : Forall2 (fun p t' =>
    merged_data v2_set_target_id v2_target_id v2_time same_but_time_vis2 (snd p) t')
  (from_inputs o_vis2List ins) (o_vis2List out).
Proof using W H.
  destruct (merge_facts ins out W H) as (ids & F). eapply Forall2_impl'; [|apply (fa_vis2 _ _ _ F)].
  intros [d t] t' (_ & _ & a & i & c & _ & _ & _ & P). cbn [fst snd] in *.
  destruct P as (P1 & P2 & P3 & P4 & P5 & _ & _ & _ & P9).
  unfold merged_data. repeat (split; [assumption|]).
  eapply Forall2_impl'; [|exact P9]. cbn. intros r r' (r1 & n & [S T] & _ & _ & ->).
  split; [|exact T]. exact S || (unfold same_but_time_vis2 in *; destruct r, r1; cbn in *; intuition auto).
Qed.
Lemma kept_t3 : Forall2 (fun p t' =>
    merged_data t3_set_target_id t3_target_id t3_time same_but_time_t3 (snd p) t')
  (from_inputs o_t3List ins) (o_t3List out).
Proof using W H.
  destruct (merge_facts ins out W H) as (ids & F). eapply Forall2_impl'; [|apply (fa_t3 _ _ _ F)].
  intros [d t] t' (_ & _ & a & i & c & _ & _ & _ & P). cbn [fst snd] in *.
  destruct P as (P1 & P2 & P3 & P4 & P5 & _ & _ & _ & P9).
  unfold merged_data. repeat (split; [assumption|]).
  eapply Forall2_impl'; [|exact P9]. cbn. intros r r' (r1 & n & [S T] & _ & _ & ->).
  split; [|exact T]. unfold same_but_time_t3 in *; destruct r, r1; cbn in *; intuition auto.
Qed.
Lemma kept_vis_partial : Forall2 (fun p t' =>
    merged_data vr_set_target_id vr_target_id vr_time same_but_time_iviserr (snd p) t')
  (from_inputs o_visList ins) (o_visList out).
Proof using W H.
  destruct (merge_facts ins out W H) as (ids & F). eapply Forall2_impl'; [|apply (fa_vis _ _ _ F)].
  intros [d t] t' (_ & _ & a & i & c & _ & _ & _ & P). cbn [fst snd] in *.
  destruct P as (P1 & P2 & P3 & P4 & P5 & _ & _ & _ & P9).
  unfold merged_data. repeat (split; [assumption|]).
  eapply Forall2_impl'; [|exact P9]. cbn. intros r r' (r1 & n & [S T] & _ & _ & ->).
  rewrite image_time in T. split; [|exact T].
  unfold same_but_time_iviserr, same_but_time_vis, vis_dup_image in *.
  destruct r, r1, (vx_usecomplex (tb_x t)); cbn in *; intuition auto.
Qed.
Lemma kept_vis_plain :
  (forall d t, In d ins -> In t (o_visList d) -> vx_usecomplex (tb_x t) = false) ->
  Forall2 (fun p t' =>
    merged_data vr_set_target_id vr_target_id vr_time same_but_time_vis (snd p) t')
  (from_inputs o_visList ins) (o_visList out).
Proof using W H.
  intros Hc.
  destruct (merge_facts ins out W H) as (ids & F). eapply Forall2_impl'; [|apply (fa_vis _ _ _ F)].
  intros [d t] t' (Hd & Ht & a & i & c & _ & _ & _ & P). cbn [fst snd] in *.
  destruct P as (P1 & P2 & P3 & P4 & P5 & _ & _ & _ & P9).
  unfold merged_data. repeat (split; [assumption|]).
  eapply Forall2_impl'; [|exact P9]. cbn. intros r r' (r1 & n & [S T] & _ & _ & ->).
  rewrite image_time in T. split; [|exact T]. rewrite vis_dup_image_plain in S by eauto.
  unfold same_but_time_vis in *. destruct r, r1; cbn in *; intuition auto.
Qed.
Lemma kept_flux : Forall2 (fun p t' => merged_flux (snd p) t')
  (from_inputs o_fluxList ins) (o_fluxList out).
Proof using W H.
  destruct (merge_facts ins out W H) as (ids & F). eapply Forall2_impl'; [|apply (fa_flux _ _ _ F)].
  intros [d t] t' (_ & _ & a & i & c & _ & _ & _ & P). cbn [fst snd] in *.
  destruct P as (P1 & P2 & P3 & P4 & P5 & _ & _ & _ & P9).
  unfold merged_flux. repeat (split; [assumption|]).
  eapply Forall2_impl'; [|exact P9]. cbn. intros r r' (r1 & n & -> & _ & _ & ->).
  destruct r; reflexivity.
Qed.
Lemma kept_inspol : Forall2 (fun p t' => merged_inspol (snd p) t')
  (from_inputs o_inspolList ins) (o_inspolList out).
Proof using W H.
  destruct (merge_facts ins out W H) as (ids & F). eapply Forall2_impl'; [|apply (fa_inspol _ _ _ F)].
  intros [d t] t' (_ & _ & a & i & c & _ & _ & _ & P). cbn [fst snd] in *.
  destruct P as (P1 & P2 & P3 & P4 & P5 & P6 & P7 & _ & P9).
  unfold merged_inspol. repeat (split; [assumption|]).
  eapply Forall2_impl'; [|exact P9]. cbn. intros r r' (n & _ & ->). destruct r; reflexivity.
Qed.
Lemma kept_corr : Forall2 merged_corr (flat_map o_corrList ins) (o_corrList out).
Proof using W H.
  pose proof (wf_parts_intro ins W) as P. destruct (merge_inv _ _ H) as [R].
  rewrite flat_map_concat_map.
  apply (merge_tables_copied co_corrname co_set_corrname "ins" (fun _ _ => Ok None) dup_oi_corr
    corr_good merged_corr (fun _ _ => eq_refl) corr_good_rename merged_corr_rename
    corr_matching_sound corr_copy_sound _ _ _ (wp_corrs _ P) (fun _ _ => eq_refl) (mr_corrs _ _ R)).
Qed.

(** Output tables of OI_ARRAY and OI_WAVELENGTH are input tables under some name. *)
Lemma in_lists {A} (f : oi_fits -> list A) :
  Forall (Forall (fun a => exists d, In d ins /\ In a (f d))) (map f ins).
Proof.
  apply Forall_forall. intros l Hl. apply in_map_iff in Hl as (d & <- & Hd).
  apply Forall_forall. eauto.
Qed.
Lemma arrays_from_inputs : Forall (fun a' => exists d a, In d ins /\ In a (o_arrayList d)
    /\ ar_set_arrname (ar_arrname a) a' = ar_set_revision (rev12 (ar_revision a)) a) (o_arrayList out).
Proof using W H.
  pose proof (wf_parts_intro ins W) as P. destruct (merge_inv _ _ H) as [R].
  apply (merge_tables_all ar_arrname ar_set_arrname "array" match_oi_array copy_oi_array
    array_good same_stations (fun _ _ => eq_refl) array_good_rename same_stations_rename
    array_matching_sound array_copy_sound
    (fun a => exists d, In d ins /\ In a (o_arrayList d))) with (4 := mr_arrays _ _ R).
  - apply (wp_arrays _ P).
  - apply in_lists.
  - intros a c Ga (d & Hd & Ha) Hc. apply copy_array_inv in Hc as [_ ->]; [|exact Ga].
    unfold upgrade_oi_array, rev12. split.
    + exists d, a. split; [exact Hd|]. split; [exact Ha|].
      destruct (ar_revision a =? 1); destruct a; reflexivity.
    + intros n _. exists d, a. split; [exact Hd|]. split; [exact Ha|].
      destruct (ar_revision a =? 1); destruct a; reflexivity.
Qed.
Lemma waves_from_inputs : Forall (fun w' => exists d w, In d ins /\ In w (o_wavelengthList d)
    /\ wv_set_insname (wv_insname w) w' = wv_set_revision (rev12 (wv_revision w)) w)
  (o_wavelengthList out).
Proof using W H.
  pose proof (wf_parts_intro ins W) as P. destruct (merge_inv _ _ H) as [R].
  apply (merge_tables_all wv_insname wv_set_insname "ins" match_oi_wavelength copy_oi_wavelength
    wave_good same_wavebands (fun _ _ => eq_refl) wave_good_rename same_wavebands_rename
    wave_matching_sound wave_copy_sound
    (fun a => exists d, In d ins /\ In a (o_wavelengthList d))) with (4 := mr_waves _ _ R).
  - apply (wp_waves _ P).
  - apply in_lists.
  - intros a c Ga (d & Hd & Ha) Hc. apply copy_wave_inv in Hc as [_ ->]; [|exact Ga].
    unfold upgrade_oi_wavelength, rev12. split.
    + exists d, a. split; [exact Hd|]. split; [exact Ha|].
      destruct (wv_revision a =? 1); destruct a; reflexivity.
    + intros n _. exists d, a. split; [exact Hd|]. split; [exact Ha|].
      destruct (wv_revision a =? 1); destruct a; reflexivity.
Qed.

(** ** Names fit *)
Hypothesis Fit : Forall names_fit ins.

Lemma fit_lists {A} (f : oi_fits -> list A) (name : A -> string) :
  (forall d, In d ins -> Forall (fun a => fits_value (name a) = true) (f d)) ->
  Forall (Forall (fun a => fits_value (name a) = true)) (map f ins).
Proof.
  intros K. apply Forall_forall. intros l Hl. apply in_map_iff in Hl as (d & <- & Hd). auto.
Qed.
Lemma arrays_fit : Forall (fun a => fits_value (ar_arrname a) = true) (o_arrayList out).
Proof using W H Fit.
  pose proof (wf_parts_intro ins W) as P. destruct (merge_inv _ _ H) as [R].
  apply (merge_tables_all ar_arrname ar_set_arrname "array" match_oi_array copy_oi_array
    array_good same_stations (fun _ _ => eq_refl) array_good_rename same_stations_rename
    array_matching_sound array_copy_sound
    (fun a => fits_value (ar_arrname a) = true)) with (4 := mr_arrays _ _ R).
  - apply (wp_arrays _ P).
  - apply fit_lists. intros d Hd. rewrite Forall_forall in Fit. now apply Fit.
  - intros a c Ga Fa Hc. apply array_copy_sound in Hc as (_ & -> & _); [|exact Ga]. auto.
Qed.
Lemma waves_fit : Forall (fun a => fits_value (wv_insname a) = true) (o_wavelengthList out).
Proof using W H Fit.
  pose proof (wf_parts_intro ins W) as P. destruct (merge_inv _ _ H) as [R].
  apply (merge_tables_all wv_insname wv_set_insname "ins" match_oi_wavelength copy_oi_wavelength
    wave_good same_wavebands (fun _ _ => eq_refl) wave_good_rename same_wavebands_rename
    wave_matching_sound wave_copy_sound
    (fun a => fits_value (wv_insname a) = true)) with (4 := mr_waves _ _ R).
  - apply (wp_waves _ P).
  - apply fit_lists. intros d Hd. rewrite Forall_forall in Fit. now apply Fit.
  - intros a c Ga Fa Hc. apply wave_copy_sound in Hc as (_ & -> & _); [|exact Ga]. auto.
Qed.
Lemma corrs_fit : Forall (fun a => fits_value (co_corrname a) = true) (o_corrList out).
Proof using W H Fit.
  pose proof (wf_parts_intro ins W) as P. destruct (merge_inv _ _ H) as [R].
  apply (merge_tables_all co_corrname co_set_corrname "ins" (fun _ _ => Ok None) dup_oi_corr
    corr_good merged_corr (fun _ _ => eq_refl) corr_good_rename merged_corr_rename
    corr_matching_sound corr_copy_sound
    (fun a => fits_value (co_corrname a) = true)) with (4 := mr_corrs _ _ R).
  - apply (wp_corrs _ P).
  - apply fit_lists. intros d Hd. rewrite Forall_forall in Fit. now apply Fit.
  - intros a c Ga Fa Hc. apply corr_copy_sound in Hc as (_ & -> & _); [|exact Ga]. auto.
Qed.
Lemma merged_names_fit : names_fit out.
Proof using W H Fit. split; [exact arrays_fit|]. split; [exact waves_fit|exact corrs_fit]. Qed.

(** ** C25: references *)
Hypothesis Dn : distinct_names out.

Lemma target_wf : wf_targets (o_targets out) = true.
Proof using W H.
  destruct (merge_facts ins out W H) as (ids & F).
  unfold wf_targets. rewrite (fa_rev _ _ _ F). unfold len_is. cbn. apply Z.eqb_refl.
Qed.

Lemma array_ref d a : renames_a out d a -> forall old, array_follows d out old (replace_optional a old).
Proof using W H Fit Dn.
  intros Ra old. destruct (merge_facts ins out W H) as (ids & F).
  destruct (fa_arrays _ _ _ F) as (_ & _ & Hh).
  unfold array_follows, oi_fits_lookup_array.
  apply (optional_follows_intro ar_arrname ar_set_arrname same_stations array_good _ (o_arrayList out));
    auto.
  - apply Dn.
  - apply arrays_fit.
Qed.
Lemma wave_ref d i : renames_i out d i -> forall old, wavelength_follows d out old (replace_name i old).
Proof using W H Fit Dn.
  intros Ra old. destruct (merge_facts ins out W H) as (ids & F).
  destruct (fa_waves _ _ _ F) as (_ & _ & Hh).
  unfold wavelength_follows, oi_fits_lookup_wavelength.
  apply (name_follows_intro wv_insname wv_set_insname same_wavebands wave_good _
    (o_wavelengthList out)); auto.
  - apply Dn.
  - apply waves_fit.
Qed.
Lemma corr_ref d c : renames_c out d c -> forall old, corr_follows d out old (replace_optional c old).
Proof using W H Fit Dn.
  intros Ra old. destruct (merge_facts ins out W H) as (ids & F).
  destruct (fa_corrs _ _ _ F) as (_ & _ & Hh).
  unfold corr_follows, oi_fits_lookup_corr.
  apply (optional_follows_intro co_corrname co_set_corrname merged_corr corr_good _ (o_corrList out));
    auto.
  - apply Dn.
  - apply corrs_fit.
Qed.

Lemma wf_target_of d : In d ins -> wf_targets (o_targets d) = true.
Proof using W.
  intros Hd. pose proof (wp_targets _ (wf_parts_intro ins W)) as P. rewrite Forall_forall in P. auto.
Qed.

Lemma placed_references {X R} (id : R -> Z) (set_id : Z -> R -> R) rv rel ids tabs
  (Hset : forall n r, id (set_id n r) = n)
  (It : target_inv (all_targets ins) (ot_targ (o_targets out)) ids)
  (dt : oi_fits * dtab X R) t' :
  traced (placed id set_id rv rel ids) tabs ins out dt t' -> references_kept id out dt t'.
Proof using W H Fit Dn.
  destruct dt as [d t]. intros (Hd & _ & a & i & c & Ra & Ri & Rc & P). cbn [fst snd] in *.
  destruct P as (_ & _ & _ & _ & _ & E1 & E2 & E3 & P9).
  unfold references_kept. rewrite E1, E2, E3.
  split; [now apply array_ref|]. split; [now apply wave_ref|]. split; [now apply corr_ref|].
  eapply Forall2_impl'; [|exact P9]. cbn. intros r r' (r1 & n & _ & _ & En & ->).
  rewrite Hset. eapply target_follows_intro; eauto using wf_target_of, target_wf.
Qed.

Lemma references_vis : Forall2 (references_kept vr_target_id out) (from_inputs o_visList ins)
  (o_visList out).
Proof using W H Fit Dn.
  destruct (merge_facts ins out W H) as (ids & F). eapply Forall2_impl'; [|apply (fa_vis _ _ _ F)].
  intros dt t'. apply placed_references; [reflexivity|apply (fa_targets _ _ _ F)].
Qed.
Lemma references_vis2 : Forall2 (references_kept v2_target_id out) (from_inputs o_vis2List ins)
  (o_vis2List out).
Proof using W H Fit Dn.
  destruct (merge_facts ins out W H) as (ids & F). eapply Forall2_impl'; [|apply (fa_vis2 _ _ _ F)].
  intros dt t'. apply placed_references; [reflexivity|apply (fa_targets _ _ _ F)].
Qed.
Lemma references_t3 : Forall2 (references_kept t3_target_id out) (from_inputs o_t3List ins)
  (o_t3List out).
Proof using W H Fit Dn.
  destruct (merge_facts ins out W H) as (ids & F). eapply Forall2_impl'; [|apply (fa_t3 _ _ _ F)].
  intros dt t'. apply placed_references; [reflexivity|apply (fa_targets _ _ _ F)].
Qed.
Lemma references_flux : Forall2 (references_kept fr_target_id out) (from_inputs o_fluxList ins)
  (o_fluxList out).
Proof using W H Fit Dn.
  destruct (merge_facts ins out W H) as (ids & F). eapply Forall2_impl'; [|apply (fa_flux _ _ _ F)].
  intros dt t'. apply placed_references; [reflexivity|apply (fa_targets _ _ _ F)].
Qed.
Lemma references_inspol : Forall2 (inspol_references_kept out) (from_inputs o_inspolList ins)
  (o_inspolList out).
Proof using W H Fit Dn.
  destruct (merge_facts ins out W H) as (ids & F). eapply Forall2_impl'; [|apply (fa_inspol _ _ _ F)].
  intros [d t] t' (Hd & _ & a & i & c & Ra & Ri & Rc & P). cbn [fst snd] in *.
  destruct P as (_ & _ & _ & _ & _ & _ & _ & E1 & P9).
  unfold inspol_references_kept. rewrite E1.
  split; [now apply array_ref|].
  eapply Forall2_impl'; [|exact P9]. cbn. intros r r' (n & En & ->).
  split; [|now apply wave_ref].
  eapply target_follows_intro; eauto using wf_target_of, target_wf. apply (fa_targets _ _ _ F).
Qed.
End Kept.
