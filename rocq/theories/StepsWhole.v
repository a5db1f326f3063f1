(** Merging in steps when the first result goes through a file: the whole dataset. *)
From Coq Require Import Lia.
From Verif Require Import BaseLemmas DateModel DateSpec FileModel FileSpec FileProofs MergeModel MergeSpec
  MergeProofs MergeNames MergeNamed MergeTables MergeTargets MergeHeader MergeData MergeWhole MergeFacts MergeSteps
  MergeStepsSpec MergeStepsWhole MergeStepsHeader FitsModel IOSpec IOClaims TwiceSpec TwiceProofs StepsStored.
Open Scope list_scope.
Open Scope Z_scope.

(** OI_VIS tables of a merge are duplicated as they are. *)
Lemma vis_images h d a i c t t1 : wf_vis t = true ->
  merge_data_table copy_oi_vis vr_target_id vr_set_target_id h d a i c t = Ok t1 ->
  forall r, In r (tb_record t1) -> vis_dup_image (tb_x t1) r = r.
Proof.
  intros Wt H.
  pose proof (placed_intro copy_oi_vis vr_target_id vr_set_target_id wf_vis rev12 _ vis_copied h d a i c t t1 Wt H) as Pl.
  destruct Pl as (Rv & _ & Ex & En & Ew & _ & _ & _ & F). rewrite Ex. clear -F.
  intros r Hr. induction F as [|x y l m (r1 & n & [S _] & _ & _ & ->) F IH]; [contradiction|].
  destruct Hr as [<-|Hr]; [|auto]. revert S. clear. unfold vis_dup_image, same_but_time_vis.
  destruct (vx_usecomplex (tb_x t)); [|reflexivity]. destruct r1, x; cbn. intros S. decompose [and] S. now subst.
Qed.
Lemma image_stored E (t : oi_vis) r : vis_dup_image (tb_x t) r = r ->
  vis_dup_image (stored_vis_extra (tb_x t)) (stored_vis_record E t r) = stored_vis_record E t r.
Proof.
  unfold vis_dup_image, stored_vis_extra. cbn [vx_usecomplex]. destruct (vx_usecomplex (tb_x t)); [|reflexivity].
  intros H. apply (f_equal vr_iviserr) in H. cbn [vr_iviserr] in H. unfold stored_vis_record. cbn. now rewrite H.
Qed.

Lemma nonempty_vis d : tables_nonempty d -> forall t, In t (o_visList d) -> 0 < tb_numrec t /\ 0 < tb_nwave t.
Proof. unfold tables_nonempty. rewrite !Forall_forall. intros H t Ht. decompose [and] H. auto. Qed.
Lemma revision_vis d : version2_revisions d -> forall t, In t (o_visList d) -> tb_revision t = 2.
Proof. unfold version2_revisions. rewrite !Forall_forall. intros H t Ht. decompose [and] H. auto. Qed.
Lemma nonempty_vis2 d : tables_nonempty d -> forall t, In t (o_vis2List d) -> 0 < tb_numrec t /\ 0 < tb_nwave t.
Proof. unfold tables_nonempty. rewrite !Forall_forall. intros H t Ht. decompose [and] H. auto. Qed.
Lemma revision_vis2 d : version2_revisions d -> forall t, In t (o_vis2List d) -> tb_revision t = 2.
Proof. unfold version2_revisions. rewrite !Forall_forall. intros H t Ht. decompose [and] H. auto. Qed.
Lemma nonempty_t3 d : tables_nonempty d -> forall t, In t (o_t3List d) -> 0 < tb_numrec t /\ 0 < tb_nwave t.
Proof. unfold tables_nonempty. rewrite !Forall_forall. intros H t Ht. decompose [and] H. auto. Qed.
Lemma revision_t3 d : version2_revisions d -> forall t, In t (o_t3List d) -> tb_revision t = 2.
Proof. unfold version2_revisions. rewrite !Forall_forall. intros H t Ht. decompose [and] H. auto. Qed.
Lemma nonempty_flux d : tables_nonempty d -> forall t, In t (o_fluxList d) -> 0 < tb_numrec t /\ 0 < tb_nwave t.
Proof. unfold tables_nonempty. rewrite !Forall_forall. intros H t Ht. decompose [and] H. auto. Qed.
Lemma revision_flux d : version2_revisions d -> forall t, In t (o_fluxList d) -> tb_revision t = 1.
Proof. unfold version2_revisions. rewrite !Forall_forall. intros H t Ht. decompose [and] H. auto. Qed.

Section Whole.
Variables (E : cfitsio) (ia ib : list oi_fits) (d1 d1' out : oi_fits).
Hypothesis W : Forall (fun d => wf_fits d = true) (ia ++ ib).
Hypothesis Fit : Forall names_fit ia.
Hypothesis Dn : distinct_names d1.
Hypothesis H1 : merge_oi_fits_list ia = Ok d1.
Hypothesis H3 : merge_oi_fits_list (ia ++ ib) = Ok out.
Hypothesis T : tables_of E d1' d1.
Hypothesis W1' : wf_fits d1' = true.
Hypothesis N1' : tables_nonempty d1'.
Hypothesis Fa1 : map (stored_array E) (o_arrayList d1) = o_arrayList d1.
Hypothesis Fw1 : map stored_wavelength (o_wavelengthList d1) = o_wavelengthList d1.
Hypothesis Fc1 : map stored_corr (o_corrList d1) = o_corrList d1.
Hypothesis Fi1 : o_inspolList d1 = [].
Hypothesis Rv1 : version2_revisions d1.

Lemma steps_through_file mjd : files_min_mjd (d1 :: ib) = Ok mjd ->
  exists out' rows rev v v2 t3 fl, merge_oi_fits_list (d1' :: ib) = Ok out'
    /\ o_header out' = header_from (d1 :: ib) mjd
    /\ o_targets out' = mk_oi_target rev (Z.of_nat (List.length rows)) rows false
    /\ map (stored_target1 E false) rows = map (stored_target1 E false) (ot_targ (o_targets out))
    /\ o_targets out = mk_oi_target (ot_revision (o_targets out)) (Z.of_nat (List.length (ot_targ (o_targets out)))) (ot_targ (o_targets out)) false
    /\ o_arrayList out' = o_arrayList out /\ o_wavelengthList out' = o_wavelengthList out
    /\ o_corrList out' = o_corrList out /\ o_inspolList out' = o_inspolList out
    /\ (o_visList out = o_visList d1 ++ v /\ o_visList out' = map (stored_vis E) (o_visList d1) ++ v)
    /\ (o_vis2List out = o_vis2List d1 ++ v2 /\ o_vis2List out' = map (stored_vis2 E) (o_vis2List d1) ++ v2)
    /\ (o_t3List out = o_t3List d1 ++ t3 /\ o_t3List out' = map (stored_t3 E) (o_t3List d1) ++ t3)
    /\ (o_fluxList out = o_fluxList d1 ++ fl /\ o_fluxList out' = map (stored_flux E) (o_fluxList d1) ++ fl).
Proof using W Fit Dn H1 H3 T W1' N1' Fa1 Fw1 Fc1 Fi1 Rv1.
  intros Ed. pose proof (wf_parts_intro _ W) as P. pose proof W as W'. apply Forall_app in W' as [Wa Wb].
  pose proof (wf_parts_intro _ Wa) as Pa. pose proof (merged_wf ia d1 Wa H1) as Wd.
  assert (Wd' : Forall (fun d => wf_fits d = true) [d1]) by auto. pose proof (wf_parts_intro _ Wd') as Pd.
  pose proof (merged_names_fit ia d1 Wa H1 Fit) as (Nf1 & Nf2 & Nf3). destruct Dn as (Dn1 & Dn2 & Dn3).
  destruct (merge_inv _ _ H1) as [R1]. destruct (merge_inv _ _ H3) as [R3].
  destruct (targets_in_steps ia ib d1 _ _ _ _ _ (wp_targets _ P) (mr_targets _ _ R3) (mr_targets _ _ R1)
    (mr_target_tab _ _ R1)) as [Tg Mono].
  destruct (targets_inv ia _ _ _ (wp_targets _ Pa) (mr_targets _ _ R1)) as [_ It].
  pose proof (mr_arrays _ _ R3) as A3. rewrite map_app in A3.
  destruct (tables_in_steps ar_arrname ar_set_arrname "array" match_oi_array copy_oi_array
    array_good same_stations (fun _ _ => eq_refl) array_good_rename same_stations_rename
    array_matching_sound array_copy_sound array_matching_copy array_copy_copy _ _ _ _ _ _ (wp_arrays _ Pa) A3 (mr_arrays _ _ R1) Dn1)
    as (xa & ba & Ea & La & Lba & Ta & Ka).
  pose proof (mr_waves _ _ R3) as I3. rewrite map_app in I3.
  destruct (tables_in_steps wv_insname wv_set_insname "ins" match_oi_wavelength copy_oi_wavelength
    wave_good same_wavebands (fun _ _ => eq_refl) wave_good_rename same_wavebands_rename
    wave_matching_sound wave_copy_sound wave_matching_copy wave_copy_copy _ _ _ _ _ _ (wp_waves _ Pa) I3 (mr_waves _ _ R1) Dn2)
    as (xi & bi & Ei & Li & Lbi & Ti & Ki).
  pose proof (mr_corrs _ _ R3) as C3. rewrite map_app in C3.
  destruct (tables_in_steps co_corrname co_set_corrname "ins" (fun _ _ => Ok None) dup_oi_corr
    corr_good merged_corr (fun _ _ => eq_refl) corr_good_rename merged_corr_rename
    corr_matching_sound corr_copy_sound (fun _ _ _ _ _ _ _ _ _ => eq_refl) corr_copy_copy _ _ _ _ _ _ (wp_corrs _ Pa) C3 (mr_corrs _ _ R1) Dn3)
    as (xc & bc & Ec & Lc & Lbc & Tc & Kc).
  cbn [tl_list] in Ka, Ki, Kc. rewrite map_length in La, Li, Lc.
  assert (Fa : forall n, replace_optional xa n = n).
  { intros n. apply (keeps_replace_optional (map ar_arrname (o_arrayList d1)) xa); [now apply keeps_map|now apply Forall_map]. }
  assert (Fi : forall n, replace_name xi n = n).
  { intros n. apply (keeps_replace (map wv_insname (o_wavelengthList d1)) xi); [now apply keeps_map|now apply Forall_map]. }
  assert (Fc : forall n, replace_optional xc n = n).
  { intros n. apply (keeps_replace_optional (map co_corrname (o_corrList d1)) xc); [now apply keeps_map|now apply Forall_map]. }
  pose proof (wf_targets_in [d1] Wd' d1 (or_introl eq_refl)) as W1.
  assert (RIm : forall d id n, replace_target_id d (mr_ids _ _ R1) id = Ok n -> replace_target_id d (mr_ids _ _ R3) id = Ok n)
    by (intros; eapply replace_id_mono; eauto).
  assert (Dm : forall X R (copy : dtab X R -> res (dtab X R)) id set_id d a i c t t',
    merge_data_table copy id set_id (mr_ids _ _ R1) d a i c t = Ok t' ->
    merge_data_table copy id set_id (mr_ids _ _ R3) d a i c t = Ok t').
  { intros X R copy id set_id d a i c t t' K. unfold merge_data_table in *. apply bind_inv in K as (t0 & E0 & K).
    rewrite E0. cbn [bind]. cbv zeta in *. apply bind_inv in K as (rec & Er & K).
    erewrite update_records_mono; [exact K| |exact Er]. intros r r' Hr. apply bind_inv in Hr as (n & En & Hr).
    rewrite (RIm _ _ _ En). exact Hr. }
  assert (Im : forall d a i (c : hash string) t t',
    merge_inspol_table (mr_ids _ _ R1) d a i t = Ok t' -> merge_inspol_table (mr_ids _ _ R3) d a i t = Ok t').
  { intros d a i _ t t' K. unfold merge_inspol_table in *. apply bind_inv in K as (t0 & E0 & K).
    rewrite E0. cbn [bind]. cbv zeta in *. apply bind_inv in K as (rec & Er & K).
    erewrite update_records_mono; [exact K| |exact Er]. intros r r' Hr. apply bind_inv in Hr as (n & En & Hr).
    rewrite (RIm _ _ _ En). exact Hr. }
  destruct T as (T1 & T2 & T3 & T4 & T5 & T6 & T7 & T8 & T9 & T10 & _).
  assert (Wd1' : Forall (fun d => wf_fits d = true) [d1']) by auto. pose proof (wf_parts_intro _ Wd1') as Pd'.
  pose proof (wf_targets_in [d1'] Wd1' d1' (or_introl eq_refl)) as Wt'.
  assert (U1 : ot_usecategory (o_targets d1) = false) by (rewrite (mr_target_tab _ _ R1); reflexivity).
  assert (Ers : map (stored_target1 E false) (ot_targ (o_targets d1')) = map (stored_target1 E false) (ot_targ (o_targets d1))).
  { rewrite T2. unfold stored_target. cbn [ot_targ]. rewrite U1, map_map. reflexivity. }
  assert (Wti : Forall (fun d => wf_targets (o_targets d) = true) (d1 :: ib)).
  { constructor; [exact W1|]. pose proof (wp_targets _ P) as Q. apply Forall_app in Q. tauto. }
  destruct (targets_stored E d1 d1' ib _ _ _ Wti Wt' Ers Tg) as (rev' & rows' & Tg' & Er').
  assert (RS : forall k, replace_target_id d1' (mr_ids _ _ R3) k = replace_target_id d1 (mr_ids _ _ R3) k)
    by (intros k; exact (replace_stored E d1 d1' _ k W1 Wt' Ers)).
  (* vis *)
  pose proof (mr_vis _ _ R1) as E1vis. pose proof (mr_vis _ _ R3) as E3vis. rewrite Ea, Ei, Ec in E3vis.
  destruct (produced_from o_visList (merge_data_table copy_oi_vis vr_target_id vr_set_target_id (mr_ids _ _ R1)) _ _ _ _ _ _ La Li Lc E1vis) as [Nvis Prvis].
  assert (Selfvis : forall t1, In t1 (o_visList d1) ->
    merge_data_table copy_oi_vis vr_target_id vr_set_target_id (mr_ids _ _ R3) d1 xa xi xc t1 = Ok t1).
  { intros t1 Ht. destruct (Prvis t1 Ht) as (d & a & i & c & t & Hd & Hin & K).
    eapply (MergeStepsWhole.vis_again ia d1 (mr_ids _ _ R1) (mr_ids _ _ R3) xa xi xc); eauto.
    - eapply (wp_vis _ Pa); eauto.
    - eapply (wp_vis _ Pd); eauto. now left. }
  pose proof (data_in_steps o_visList _ _ (Dm _ _ copy_oi_vis vr_target_id vr_set_target_id) ia ib d1 _ ba _ bi _ bc xa xi xc _ _ La Li Lc E1vis Nvis E3vis Selfvis) as Dvis.
  assert (Selfvis' : forall t1, In t1 (o_visList d1) ->
    merge_data_table copy_oi_vis vr_target_id vr_set_target_id (mr_ids _ _ R3) d1' xa xi xc (stored_vis E t1) = Ok (stored_vis E t1)).
  { intros t1 Ht. assert (Hin' : In (stored_vis E t1) (o_visList d1')) by (rewrite T7; now apply in_map).
    pose proof (wp_vis _ Pd d1 t1 (or_introl eq_refl) Ht) as Wt1.
    pose proof (wp_vis _ Pd' d1' _ (or_introl eq_refl) Hin') as Wst.
    assert (Pos : 0 < tb_numrec t1 /\ 0 < tb_nwave t1) by (exact (nonempty_vis d1' N1' _ Hin')).
    assert (Rev : tb_revision t1 = 2) by (exact (revision_vis d1 Rv1 _ Ht)).
    apply (self_stored copy_oi_vis vr_target_id vr_set_target_id (mr_ids _ _ R3) d1 d1' xa xi xc t1 2 (stored_vis_extra (tb_x t1)) (stored_vis_record E t1)); auto.
    - unfold wf_vis, wf_dtab in Wt1. repeat (apply andb_true_iff in Wt1 as [Wt1 _]). exact Wt1.
    - apply vis_copy_again; try tauto; [rewrite Rev; discriminate|].
      destruct (Prvis t1 Ht) as (d & a & i & c & t & Hd & Hin & K). exact (vis_images _ _ _ _ _ _ _ (wp_vis _ Pa d t Hd Hin) K).
    - apply vis_copy_again; [exact Wst|exact (proj1 Pos)|exact (proj2 Pos)|discriminate|].
      intros r Hr. cbn [stored_dtab tb_record tb_x] in *. apply in_map_iff in Hr as (r0 & <- & Hr0). apply image_stored.
      destruct (Prvis t1 Ht) as (d & a & i & c & t & Hd & Hin & K). exact (vis_images _ _ _ _ _ _ _ (wp_vis _ Pa d t Hd Hin) K r0 Hr0). }
  destruct (data_stored o_visList (merge_data_table copy_oi_vis vr_target_id vr_set_target_id (mr_ids _ _ R3)) (stored_vis E) ib d1 d1' xa xi xc ba bi bc _ _ T7 Selfvis Selfvis' Dvis) as (restvis & Elvis & Svis).
  (* vis2 *)
  pose proof (mr_vis2 _ _ R1) as E1vis2. pose proof (mr_vis2 _ _ R3) as E3vis2. rewrite Ea, Ei, Ec in E3vis2.
  destruct (produced_from o_vis2List (merge_data_table copy_oi_vis2 v2_target_id v2_set_target_id (mr_ids _ _ R1)) _ _ _ _ _ _ La Li Lc E1vis2) as [Nvis2 Prvis2].
  assert (Selfvis2 : forall t1, In t1 (o_vis2List d1) ->
    merge_data_table copy_oi_vis2 v2_target_id v2_set_target_id (mr_ids _ _ R3) d1 xa xi xc t1 = Ok t1).
  { intros t1 Ht. destruct (Prvis2 t1 Ht) as (d & a & i & c & t & Hd & Hin & K).
    eapply (MergeStepsWhole.vis2_again ia d1 (mr_ids _ _ R1) (mr_ids _ _ R3) xa xi xc); eauto.
    - eapply (wp_vis2 _ Pa); eauto.
    - eapply (wp_vis2 _ Pd); eauto. now left. }
  pose proof (data_in_steps o_vis2List _ _ (Dm _ _ copy_oi_vis2 v2_target_id v2_set_target_id) ia ib d1 _ ba _ bi _ bc xa xi xc _ _ La Li Lc E1vis2 Nvis2 E3vis2 Selfvis2) as Dvis2.
  assert (Selfvis2' : forall t1, In t1 (o_vis2List d1) ->
    merge_data_table copy_oi_vis2 v2_target_id v2_set_target_id (mr_ids _ _ R3) d1' xa xi xc (stored_vis2 E t1) = Ok (stored_vis2 E t1)).
  { intros t1 Ht. assert (Hin' : In (stored_vis2 E t1) (o_vis2List d1')) by (rewrite T8; now apply in_map).
    pose proof (wp_vis2 _ Pd d1 t1 (or_introl eq_refl) Ht) as Wt1.
    pose proof (wp_vis2 _ Pd' d1' _ (or_introl eq_refl) Hin') as Wst.
    assert (Pos : 0 < tb_numrec t1 /\ 0 < tb_nwave t1) by (exact (nonempty_vis2 d1' N1' _ Hin')).
    assert (Rev : tb_revision t1 = 2) by (exact (revision_vis2 d1 Rv1 _ Ht)).
    apply (self_stored copy_oi_vis2 v2_target_id v2_set_target_id (mr_ids _ _ R3) d1 d1' xa xi xc t1 2 tt (stored_vis2_record E t1)); auto.
    - unfold wf_vis2, wf_dtab in Wt1. repeat (apply andb_true_iff in Wt1 as [Wt1 _]). exact Wt1.
    - apply vis2_copy_again; try tauto. rewrite Rev. discriminate.
    - apply vis2_copy_again; [exact Wst|exact (proj1 Pos)|exact (proj2 Pos)|discriminate]. }
  destruct (data_stored o_vis2List (merge_data_table copy_oi_vis2 v2_target_id v2_set_target_id (mr_ids _ _ R3)) (stored_vis2 E) ib d1 d1' xa xi xc ba bi bc _ _ T8 Selfvis2 Selfvis2' Dvis2) as (restvis2 & Elvis2 & Svis2).
  (* t3 *)
  pose proof (mr_t3 _ _ R1) as E1t3. pose proof (mr_t3 _ _ R3) as E3t3. rewrite Ea, Ei, Ec in E3t3.
  destruct (produced_from o_t3List (merge_data_table copy_oi_t3 t3_target_id t3_set_target_id (mr_ids _ _ R1)) _ _ _ _ _ _ La Li Lc E1t3) as [Nt3 Prt3].
  assert (Selft3 : forall t1, In t1 (o_t3List d1) ->
    merge_data_table copy_oi_t3 t3_target_id t3_set_target_id (mr_ids _ _ R3) d1 xa xi xc t1 = Ok t1).
  { intros t1 Ht. destruct (Prt3 t1 Ht) as (d & a & i & c & t & Hd & Hin & K).
    eapply (MergeStepsWhole.t3_again ia d1 (mr_ids _ _ R1) (mr_ids _ _ R3) xa xi xc); eauto.
    - eapply (wp_t3 _ Pa); eauto.
    - eapply (wp_t3 _ Pd); eauto. now left. }
  pose proof (data_in_steps o_t3List _ _ (Dm _ _ copy_oi_t3 t3_target_id t3_set_target_id) ia ib d1 _ ba _ bi _ bc xa xi xc _ _ La Li Lc E1t3 Nt3 E3t3 Selft3) as Dt3.
  assert (Selft3' : forall t1, In t1 (o_t3List d1) ->
    merge_data_table copy_oi_t3 t3_target_id t3_set_target_id (mr_ids _ _ R3) d1' xa xi xc (stored_t3 E t1) = Ok (stored_t3 E t1)).
  { intros t1 Ht. assert (Hin' : In (stored_t3 E t1) (o_t3List d1')) by (rewrite T9; now apply in_map).
    pose proof (wp_t3 _ Pd d1 t1 (or_introl eq_refl) Ht) as Wt1.
    pose proof (wp_t3 _ Pd' d1' _ (or_introl eq_refl) Hin') as Wst.
    assert (Pos : 0 < tb_numrec t1 /\ 0 < tb_nwave t1) by (exact (nonempty_t3 d1' N1' _ Hin')).
    assert (Rev : tb_revision t1 = 2) by (exact (revision_t3 d1 Rv1 _ Ht)).
    apply (self_stored copy_oi_t3 t3_target_id t3_set_target_id (mr_ids _ _ R3) d1 d1' xa xi xc t1 2 tt (stored_t3_record E t1)); auto.
    - unfold wf_t3, wf_dtab in Wt1. repeat (apply andb_true_iff in Wt1 as [Wt1 _]). exact Wt1.
    - apply t3_copy_again; try tauto. rewrite Rev. discriminate.
    - apply t3_copy_again; [exact Wst|exact (proj1 Pos)|exact (proj2 Pos)|discriminate]. }
  destruct (data_stored o_t3List (merge_data_table copy_oi_t3 t3_target_id t3_set_target_id (mr_ids _ _ R3)) (stored_t3 E) ib d1 d1' xa xi xc ba bi bc _ _ T9 Selft3 Selft3' Dt3) as (restt3 & Elt3 & St3).
  (* flux *)
  pose proof (mr_flux _ _ R1) as E1flux. pose proof (mr_flux _ _ R3) as E3flux. rewrite Ea, Ei, Ec in E3flux.
  destruct (produced_from o_fluxList (merge_data_table dup_oi_flux fr_target_id fr_set_target_id (mr_ids _ _ R1)) _ _ _ _ _ _ La Li Lc E1flux) as [Nflux Prflux].
  assert (Selfflux : forall t1, In t1 (o_fluxList d1) ->
    merge_data_table dup_oi_flux fr_target_id fr_set_target_id (mr_ids _ _ R3) d1 xa xi xc t1 = Ok t1).
  { intros t1 Ht. destruct (Prflux t1 Ht) as (d & a & i & c & t & Hd & Hin & K).
    eapply (MergeStepsWhole.flux_again ia d1 (mr_ids _ _ R1) (mr_ids _ _ R3) xa xi xc); eauto.
    - eapply (wp_flux _ Pa); eauto.
    - eapply (wp_flux _ Pd); eauto. now left. }
  pose proof (data_in_steps o_fluxList _ _ (Dm _ _ dup_oi_flux fr_target_id fr_set_target_id) ia ib d1 _ ba _ bi _ bc xa xi xc _ _ La Li Lc E1flux Nflux E3flux Selfflux) as Dflux.
  assert (Selfflux' : forall t1, In t1 (o_fluxList d1) ->
    merge_data_table dup_oi_flux fr_target_id fr_set_target_id (mr_ids _ _ R3) d1' xa xi xc (stored_flux E t1) = Ok (stored_flux E t1)).
  { intros t1 Ht. assert (Hin' : In (stored_flux E t1) (o_fluxList d1')) by (rewrite T10; now apply in_map).
    pose proof (wp_flux _ Pd d1 t1 (or_introl eq_refl) Ht) as Wt1.
    pose proof (wp_flux _ Pd' d1' _ (or_introl eq_refl) Hin') as Wst.
    assert (Pos : 0 < tb_numrec t1 /\ 0 < tb_nwave t1) by (exact (nonempty_flux d1' N1' _ Hin')).
    assert (Rev : tb_revision t1 = 1) by (exact (revision_flux d1 Rv1 _ Ht)).
    apply (self_stored dup_oi_flux fr_target_id fr_set_target_id (mr_ids _ _ R3) d1 d1' xa xi xc t1 1 (stored_flux_extra E (tb_x t1)) (stored_flux_record E t1)); auto.
    - unfold wf_flux, wf_dtab in Wt1. repeat (apply andb_true_iff in Wt1 as [Wt1 _]). exact Wt1.
    - apply dup_oi_flux_ok; tauto.
    - apply dup_oi_flux_ok; [exact Wst|exact (proj1 Pos)|exact (proj2 Pos)]. }
  destruct (data_stored o_fluxList (merge_data_table dup_oi_flux fr_target_id fr_set_target_id (mr_ids _ _ R3)) (stored_flux E) ib d1 d1' xa xi xc ba bi bc _ _ T10 Selfflux Selfflux' Dflux) as (restflux & Elflux & Sflux).
  (* inspol *)
  pose proof (mr_inspol _ _ R1) as E1ip. pose proof (mr_inspol _ _ R3) as E3ip. rewrite Ea, Ei in E3ip.
  destruct (produced_from o_inspolList (fun d a i _ => merge_inspol_table (mr_ids _ _ R1) d a i) _ _ _ _ _ _ La Li Li E1ip) as [Nip _].
  assert (Sip : forall t, In t (o_inspolList d1) -> merge_inspol_table (mr_ids _ _ R3) d1 xa xi t = Ok t) by (rewrite Fi1; intros t []).
  assert (Sip' : forall t, In t (o_inspolList d1) -> merge_inspol_table (mr_ids _ _ R3) d1' xa xi t = Ok t) by (rewrite Fi1; intros t []).
  pose proof (data_in_steps o_inspolList (fun d a i _ => merge_inspol_table (mr_ids _ _ R1) d a i)
      (fun d a i _ => merge_inspol_table (mr_ids _ _ R3) d a i) Im ia ib d1 _ ba _ bi _ bi xa xi xi _ _ La Li Li E1ip Nip E3ip Sip) as Dip.
  assert (T6' : o_inspolList d1' = map (fun t => t) (o_inspolList d1)) by (rewrite T6, Fi1; reflexivity).
  destruct (data_stored o_inspolList (fun d a i _ => merge_inspol_table (mr_ids _ _ R3) d a i) (fun t => t) ib d1 d1' xa xi xi ba bi bi _ _ T6' Sip Sip' Dip)
    as (restip & Elip & Spi).
  rewrite map_id, <- Elip in Spi.
  set (o := mk_fits (o_header out) (mk_oi_target rev' (Z.of_nat (List.length rows')) rows' false)
    (o_numArray out) (o_numWavelength out) (o_numCorr out) (o_numInspol out) (o_numVis out) (o_numVis2 out) (o_numT3 out) (o_numFlux out)
    (o_arrayList out) (o_wavelengthList out) (o_corrList out) (o_inspolList out)
    (map (stored_vis E) (o_visList d1) ++ restvis) (map (stored_vis2 E) (o_vis2List d1) ++ restvis2)
    (map (stored_t3 E) (o_t3List d1) ++ restt3) (map (stored_flux E) (o_fluxList d1) ++ restflux)
    (o_arrayHash out) (o_wavelengthHash out) (o_corrHash out)).
  assert (Ed' : files_min_mjd (d1' :: ib) = Ok mjd).
  { rewrite <- Ed. unfold files_min_mjd. cbn [foreach]. rewrite T1. reflexivity. }
  assert (Eh : header_from (d1' :: ib) mjd = header_from (d1 :: ib) mjd).
  { unfold header_from, merge_key. cbn [map]. rewrite T1. reflexivity. }
  exists (set_header_of (header_from (d1' :: ib) mjd) o), rows', rev', restvis, restvis2, restt3, restflux.
  split; [|].
  - apply (merge_build (d1' :: ib) mjd rev' (mr_ids _ _ R3) (xa :: ba) (xi :: bi) (xc :: bc) o); auto.
    + cbn [map]. rewrite T3, Fa1. exact Ta.
    + cbn [map]. rewrite T4, Fw1. exact Ti.
    + cbn [map]. rewrite T5, Fc1. exact Tc.
  - cbn [set_header_of o o_header o_targets o_arrayList o_wavelengthList o_corrList o_inspolList o_visList o_vis2List o_t3List o_fluxList].
    split; [exact Eh|]. split; [reflexivity|]. split; [exact Er'|].
    split; [rewrite (mr_target_tab _ _ R3) at 1; rewrite (mr_target_tab _ _ R3); reflexivity|].
    do 4 (split; [reflexivity|]). auto.
Qed.
End Whole.
