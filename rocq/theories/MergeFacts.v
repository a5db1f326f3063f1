(** Consequences for whole datasets. *)
From Verif Require Import BaseLemmas FileModel FileSpec FileProofs MergeModel MergeSpec
  MergeProofs MergeNames MergeNamed MergeTables MergeTargets MergeHeader MergeData MergeWhole.
From Coq Require Import Lia.
Open Scope Z_scope.

Section Facts.
Variables (ins : list oi_fits) (out : oi_fits).
Hypothesis W : Forall (fun d => wf_fits d = true) ins.
Hypothesis H : merge_oi_fits_list ins = Ok out.

(** ** C26 *)
Lemma targets_rows : o_targets out =
  mk_oi_target (all_revisions ins 2) (Z.of_nat (length (first_rows [] (all_targets ins))))
    (renumber 1 (first_rows [] (all_targets ins))) false.
Proof using W H.
  destruct (merge_facts ins out W H) as (ids & F). rewrite (fa_rev _ _ _ F).
  destruct (fa_targets _ _ _ F) as [-> _]. rewrite renumber_length. reflexivity.
Qed.
Lemma targets_order : ot_targ (o_targets out) = renumber 1 (first_rows [] (all_targets ins)).
Proof using W H. rewrite targets_rows. reflexivity. Qed.
Lemma in_renumber i l t : In t (renumber i l) ->
  exists t0, In t0 l /\ t = tg_set_target_id (tg_target_id t) t0.
Proof.
  revert i. induction l as [|a l IH]; intros i; [contradiction|]. cbn. intros [<-|Hin].
  - exists a. split; [now left|]. reflexivity.
  - destruct (IH _ Hin) as (t0 & H0 & E). exists t0. split; [now right|exact E].
Qed.
Lemma first_rows_first seen l t : In t (first_rows seen l) ->
  first_match (fun x => tg_target x = tg_target t) l t.
Proof.
  revert seen. induction l as [|a l IH]; intros seen; [contradiction|]. cbn.
  destruct (in_dec string_dec (tg_target a) seen) as [Hi|Hi].
  - intros Hin. pose proof (IH _ Hin) as (b & r & -> & _ & Hb).
    exists (a :: b), r. split; [reflexivity|]. split; [reflexivity|].
    intros x [<-|Hx]; [|auto]. intros E.
    assert (K : In (tg_target t) (map tg_target (first_rows seen (b ++ t :: r)))) by now apply in_map.
    apply first_rows_names in K as [_ K]. apply K. now rewrite <- E.
  - intros [<-|Hin].
    + exists [], l. split; [reflexivity|]. split; [reflexivity|]. intros ? [].
    + pose proof (IH _ Hin) as (b & r & -> & _ & Hb).
      exists (a :: b), r. split; [reflexivity|]. split; [reflexivity|].
      intros x [<-|Hx]; [|auto]. intros E.
      assert (K : In (tg_target t) (map tg_target (first_rows (tg_target a :: seen) (b ++ t :: r))))
        by now apply in_map.
      apply first_rows_names in K as [_ K]. apply K. left. exact E.
Qed.
Lemma targets_facts :
  map tg_target_id (ot_targ (o_targets out)) = zrange 1 (length (ot_targ (o_targets out)))
  /\ NoDup (map tg_target (ot_targ (o_targets out)))
  /\ (forall n, In n (map tg_target (ot_targ (o_targets out)))
                <-> In n (map tg_target (all_targets ins)))
  /\ (forall t', In t' (ot_targ (o_targets out)) -> exists t,
        first_match (fun x => tg_target x = tg_target t') (all_targets ins) t
        /\ t' = tg_set_target_id (tg_target_id t') t).
Proof using W H.
  rewrite targets_rows. cbn [ot_targ]. rewrite renumber_length, renumber_ids, renumber_names.
  split; [reflexivity|]. split; [apply first_rows_nodup|]. split.
  - intros n. rewrite first_rows_names. cbn. tauto.
  - intros t' Ht. apply in_renumber in Ht as (t & Hin & E). exists t. split; [|exact E].
    rewrite E. cbn [tg_target tg_set_target_id]. eapply first_rows_first. exact Hin.
Qed.

(** ** C20, C43 *)
Lemma merged_counters : counters_agree out.
Proof using W H.
  destruct (merge_facts ins out W H) as (ids & F).
  destruct (fa_arrays _ _ _ F) as (N1 & _ & _). destruct (fa_waves _ _ _ F) as (N2 & _ & _).
  destruct (fa_corrs _ _ _ F) as (N3 & _ & _). destruct (fa_counts _ _ _ F) as (N4 & N5 & N6 & N7 & N8).
  repeat (split; [assumption|]). rewrite (fa_rev _ _ _ F). reflexivity.
Qed.
Lemma merged_category : ot_usecategory (o_targets out) = false.
Proof using W H. rewrite targets_rows. reflexivity. Qed.

(** ** Well-formed output *)
Lemma Forall2_forallb {A B} (P : A -> B -> Prop) (q : B -> bool) l m :
  (forall a b, P a b -> q b = true) -> Forall2 P l m -> forallb q m = true.
Proof. intros Hq F. induction F; cbn; [reflexivity|]. rewrite (Hq _ _ H0). exact IHF. Qed.
Lemma wf_dtab_parts {X R} wfr (t : dtab X R) : wf_dtab wfr t = true <->
  len_is (tb_numrec t) (tb_record t) = true /\ (0 <=? tb_nwave t) = true
  /\ forallb (wfr (tb_nwave t)) (tb_record t) = true.
Proof. unfold wf_dtab. rewrite !andb_true_iff. tauto. Qed.
Lemma placed_wf {X R} (id : R -> Z) (set_id : Z -> R -> R) rv (rel : X -> Z -> R -> R -> Prop) (wfr : Z -> R -> bool) ids d a i c
  (t t' : dtab X R) :
  (forall n k r r1, rel (tb_x t) k r r1 -> wfr n r = true -> wfr n r1 = true) ->
  (forall n k r, wfr n (set_id k r) = wfr n r) ->
  placed id set_id rv rel ids d a i c t t' -> wf_dtab wfr t = true -> wf_dtab wfr t' = true.
Proof.
  intros Hrel Hset (_ & _ & _ & P4 & P5 & _ & _ & _ & P9).
  rewrite !wf_dtab_parts. intros (L & N & F). rewrite P4, P5. split; [|split; [exact N|]].
  - unfold len_is in *. now rewrite <- (Forall2_length _ _ _ P9).
  - clear -Hrel Hset F P9. induction P9 as [|r r' l l' (r1 & n & Hr & _ & _ & ->) F2 IH]; [reflexivity|].
    cbn in *. apply andb_true_iff in F as [F1 F3]. rewrite Hset, (Hrel _ _ _ _ Hr F1). auto.
Qed.
Lemma vis2_rel_wf n k r r1 : upgraded_record v2_time same_but_time_vis2 k r r1 ->
  wf_vis2_record n r = true -> wf_vis2_record n r1 = true.
Proof.
  intros [S _]. unfold same_but_time_vis2, wf_vis2_record in *.
  destruct S as (_ & _ & _ & -> & -> & _ & _ & _ & _ & ->). auto.
Qed.
Lemma t3_rel_wf n k r r1 : upgraded_record t3_time same_but_time_t3 k r r1 ->
  wf_t3_record n r = true -> wf_t3_record n r1 = true.
Proof.
  intros [S _]. unfold same_but_time_t3, wf_t3_record in *.
  destruct S as (_ & _ & _ & -> & -> & _ & -> & -> & _ & _ & _ & _ & _ & _ & ->). auto.
Qed.
Lemma vis_rel_wf x n k r r1 : vis_rel x k r r1 ->
  wf_vis_record x n r = true -> wf_vis_record x n r1 = true.
Proof.
  intros [S _]. unfold same_but_time_vis, wf_vis_record, vis_dup_image in *.
  destruct S as (_ & _ & _ & -> & -> & _ & -> & -> & _ & -> & -> & -> & _ & -> & -> & _ & _ & _ & _ & ->).
  destruct (vx_usecomplex x) eqn:E; cbn; rewrite ?andb_true_iff; intuition auto.
Qed.

Lemma merged_wf : wf_fits out = true.
Proof using W H.
  destruct (merge_facts ins out W H) as (ids & F). pose proof (wf_parts_intro ins W) as P.
  destruct (fa_arrays _ _ _ F) as (N1 & G1 & _). destruct (fa_waves _ _ _ F) as (N2 & G2 & _).
  destruct (fa_corrs _ _ _ F) as (N3 & G3 & _). destruct (fa_counts _ _ _ F) as (N4 & N5 & N6 & N7 & N8).
  assert (Q : forall A (p : A -> bool) l, Forall (fun a => p a = true) l -> forallb p l = true).
  { intros A p l K. apply forallb_forall. now apply Forall_forall. }
  assert (L : forall A n (l : list A), n = Z.of_nat (length l) -> len_is n l = true).
  { intros A n l ->. unfold len_is. apply Z.eqb_refl. }
  cbn [array_tables wave_tables corr_tables tl_num tl_list] in *.
  unfold wf_fits. rewrite !andb_true_iff. repeat split; auto.
  - now apply (target_wf ins).
  - eapply Forall2_forallb; [|apply (fa_inspol _ _ _ F)].
    intros [d t] t' (Hd & Ht & a & i & c & _ & _ & _ & Hp). cbn [fst snd] in *.
    pose proof (wp_inspol _ P d t Hd Ht) as Wt. unfold wf_inspol in *.
    apply andb_true_iff in Wt as [Wl Wr].
    destruct Hp as (_ & _ & _ & _ & _ & -> & -> & _ & P9). apply andb_true_iff. split.
    + unfold len_is in *. now rewrite <- (Forall2_length _ _ _ P9).
    + clear -Wr P9. induction P9 as [|r r' l l' (n & _ & ->) F2 IH]; [reflexivity|].
      cbn [forallb] in *. apply andb_true_iff in Wr as [F1 F3]. apply andb_true_iff. auto.
  - eapply Forall2_forallb; [|apply (fa_vis _ _ _ F)].
    intros [d t] t' (Hd & Ht & a & i & c & _ & _ & _ & Hp). cbn [fst snd] in *.
    pose proof (wp_vis _ P d t Hd Ht) as Wt. unfold wf_vis in *.
    assert (Ex : tb_x t' = tb_x t) by apply Hp. rewrite Ex.
    eapply (placed_wf _ vr_set_target_id _ vis_rel); [|reflexivity|exact Hp|exact Wt].
    intros n k r r1. apply vis_rel_wf.
  - eapply Forall2_forallb; [|apply (fa_vis2 _ _ _ F)].
    intros [d t] t' (Hd & Ht & a & i & c & _ & _ & _ & Hp). cbn [fst snd] in *.
    eapply (placed_wf _ v2_set_target_id); [|reflexivity|exact Hp|exact (wp_vis2 _ P d t Hd Ht)].
    intros n k r r1. apply vis2_rel_wf.
  - eapply Forall2_forallb; [|apply (fa_t3 _ _ _ F)].
    intros [d t] t' (Hd & Ht & a & i & c & _ & _ & _ & Hp). cbn [fst snd] in *.
    eapply (placed_wf _ t3_set_target_id); [|reflexivity|exact Hp|exact (wp_t3 _ P d t Hd Ht)].
    intros n k r r1. apply t3_rel_wf.
  - eapply Forall2_forallb; [|apply (fa_flux _ _ _ F)].
    intros [d t] t' (Hd & Ht & a & i & c & _ & _ & _ & Hp). cbn [fst snd] in *.
    eapply (placed_wf _ fr_set_target_id); [|reflexivity|exact Hp|exact (wp_flux _ P d t Hd Ht)].
    intros n k r r1 ->. auto.
Qed.

(** ** C27 *)
Lemma merged_distinct : Forall names_fit ins -> plain_names ins -> distinct_names out.
Proof using W H.
  intros Fit (P1 & P2 & P3 & L1 & L2 & L3). pose proof (wf_parts_intro ins W) as P.
  destruct (merge_inv _ _ H) as [R]. rewrite Forall_forall in Fit.
  rewrite flat_map_concat_map in L1, L2, L3. split; [|split].
  - eapply (merge_tables_distinct ar_arrname ar_set_arrname "array" match_oi_array copy_oi_array
      array_good same_stations (fun _ _ => eq_refl) array_good_rename same_stations_rename
      array_matching_sound array_copy_sound array_letter) with (5 := mr_arrays _ _ R).
    + cbn. lia.
    + apply (wp_arrays _ P).
    + intros l a Hl Ha. apply in_map_iff in Hl as (d & <- & Hd). split; [eauto|].
      destruct (Fit d Hd) as (F1 & _). rewrite Forall_forall in F1. auto.
    + exact L1.
  - eapply (merge_tables_distinct wv_insname wv_set_insname "ins" match_oi_wavelength
      copy_oi_wavelength wave_good same_wavebands (fun _ _ => eq_refl) wave_good_rename
      same_wavebands_rename wave_matching_sound wave_copy_sound ins_letter)
      with (5 := mr_waves _ _ R).
    + cbn. lia.
    + apply (wp_waves _ P).
    + intros l a Hl Ha. apply in_map_iff in Hl as (d & <- & Hd). split; [eauto|].
      destruct (Fit d Hd) as (_ & F1 & _). rewrite Forall_forall in F1. auto.
    + exact L2.
  - eapply (merge_tables_distinct co_corrname co_set_corrname "ins" (fun _ _ => Ok None)
      dup_oi_corr corr_good merged_corr (fun _ _ => eq_refl) corr_good_rename
      merged_corr_rename corr_matching_sound corr_copy_sound ins_letter)
      with (5 := mr_corrs _ _ R).
    + cbn. lia.
    + apply (wp_corrs _ P).
    + intros l a Hl Ha. apply in_map_iff in Hl as (d & <- & Hd). split; [eauto|].
      destruct (Fit d Hd) as (_ & _ & F1). rewrite Forall_forall in F1. auto.
    + exact L3.
Qed.

(** ** C29 *)
Lemma all_revisions_v2 rev : Forall standard_revisions ins -> 2 <= rev -> all_revisions ins rev = rev.
Proof.
  clear W H. intros S. revert rev. induction S as [|d l Hd S IH]; intros rev Hr; [reflexivity|].
  cbn [all_revisions fold_left]. destruct Hd as (Hd & _).
  fold (all_revisions l (Z.max rev (ot_revision (o_targets d)))).
  rewrite IH; destruct Hd as [-> | ->]; lia.
Qed.
Lemma from_inputs_in {A} (tabs : oi_fits -> list A) l (p : oi_fits * A) :
  In p (from_inputs tabs l) -> In (fst p) l /\ In (snd p) (tabs (fst p)).
Proof.
  intros Hp. apply in_flat_map in Hp as (d & Hd & Hp). apply in_map_iff in Hp as (t & <- & Ht). auto.
Qed.
Lemma Forall2_Forall_r {A B} (P : A -> B -> Prop) (Q : B -> Prop) l m :
  (forall a b, In a l -> P a b -> Q b) -> Forall2 P l m -> Forall Q m.
Proof.
  intros K F. induction F; constructor; auto with datatypes.
  - eapply K; [now left|eassumption].
  - apply IHF. intros; eapply K; [right|]; eassumption.
Qed.
Lemma merged_version2 : Forall standard_revisions ins ->
  version2_revisions out /\ is_oi_fits_two out = true.
Proof using W H.
  intros S. pose proof S as S0. rewrite Forall_forall in S0. split.
  - split; [|split; [|split; [|split; [|split; [|split; [|split; [|split]]]]]]].
    + rewrite targets_rows. cbn. apply all_revisions_v2; [exact S|lia].
    + eapply Forall_impl; [|apply (arrays_from_inputs ins out W H)].
      intros a' (d & a & Hd & Ha & E). destruct (S0 d Hd) as (_ & Hr & _).
      rewrite Forall_forall in Hr. specialize (Hr a Ha).
      apply (f_equal ar_revision) in E. cbn in E. rewrite E. unfold rev12.
      destruct Hr as [-> | ->]; reflexivity.
    + eapply Forall_impl; [|apply (waves_from_inputs ins out W H)].
      intros a' (d & a & Hd & Ha & E). destruct (S0 d Hd) as (_ & _ & Hr & _).
      rewrite Forall_forall in Hr. specialize (Hr a Ha).
      apply (f_equal wv_revision) in E. cbn in E. rewrite E. unfold rev12.
      destruct Hr as [-> | ->]; reflexivity.
    + eapply Forall2_Forall_r; [|apply (kept_corr ins out W H)].
      intros c c' Hc E. apply in_flat_map in Hc as (d & Hd & Hc).
      destruct (S0 d Hd) as (_ & _ & _ & Hr & _). rewrite Forall_forall in Hr. specialize (Hr c Hc).
      apply (f_equal co_revision) in E. cbn in E. congruence.
    + eapply Forall2_Forall_r; [|apply (kept_inspol ins out W H)].
      intros p t' Hp (E & _). apply from_inputs_in in Hp as [Hd Ht].
      destruct (S0 _ Hd) as (_ & _ & _ & _ & Hr & _). rewrite Forall_forall in Hr.
      rewrite E. auto.
    + eapply Forall2_Forall_r; [|apply (kept_vis_partial ins out W H)].
      intros p t' Hp (E & _). apply from_inputs_in in Hp as [Hd Ht].
      destruct (S0 _ Hd) as (_ & _ & _ & _ & _ & Hr & _). rewrite Forall_forall in Hr.
      rewrite E. destruct (Hr _ Ht) as [-> | ->]; reflexivity.
    + eapply Forall2_Forall_r; [|apply (kept_vis2 ins out W H)].
      intros p t' Hp (E & _). apply from_inputs_in in Hp as [Hd Ht].
      destruct (S0 _ Hd) as (_ & _ & _ & _ & _ & _ & Hr & _). rewrite Forall_forall in Hr.
      rewrite E. destruct (Hr _ Ht) as [-> | ->]; reflexivity.
    + eapply Forall2_Forall_r; [|apply (kept_t3 ins out W H)].
      intros p t' Hp (E & _). apply from_inputs_in in Hp as [Hd Ht].
      destruct (S0 _ Hd) as (_ & _ & _ & _ & _ & _ & _ & Hr & _). rewrite Forall_forall in Hr.
      rewrite E. destruct (Hr _ Ht) as [-> | ->]; reflexivity.
    + eapply Forall2_Forall_r; [|apply (kept_flux ins out W H)].
      intros p t' Hp (E & _). apply from_inputs_in in Hp as [Hd Ht].
      destruct (S0 _ Hd) as (_ & _ & _ & _ & _ & _ & _ & _ & Hr). rewrite Forall_forall in Hr.
      rewrite E. auto.
  - destruct (merge_inv _ _ H) as [R]. unfold is_oi_fits_two. rewrite (mr_header _ _ R). reflexivity.
Qed.

Lemma merged_times :
  Forall2 (fun p t' => tb_revision (snd p) = 1 -> Forall (fun r => vr_time r = f64_zero) (tb_record t'))
    (from_inputs o_visList ins) (o_visList out)
  /\ Forall2 (fun p t' => tb_revision (snd p) = 1 -> Forall (fun r => v2_time r = f64_zero) (tb_record t'))
    (from_inputs o_vis2List ins) (o_vis2List out)
  /\ Forall2 (fun p t' => tb_revision (snd p) = 1 -> Forall (fun r => t3_time r = f64_zero) (tb_record t'))
    (from_inputs o_t3List ins) (o_t3List out).
Proof using W H.
  assert (K : forall X R (set_id : Z -> R -> R) (id : R -> Z) (time : R -> f64)
    (same : R -> R -> Prop) (l : list (oi_fits * dtab X R)) m,
    Forall2 (fun p t' => merged_data set_id id time same (snd p) t') l m ->
    Forall2 (fun p t' => tb_revision (snd p) = 1 ->
      Forall (fun r => time r = f64_zero) (tb_record t')) l m).
  { intros. eapply Forall2_impl'; [|eassumption]. intros p t' (_ & _ & _ & _ & _ & F) Er.
    cbn beta in F. eapply Forall2_Forall_r; [|exact F]. cbn beta. intros r r' _ [_ T].
    rewrite Er in T. exact T. }
  split; [|split]; eapply K.
  - apply (kept_vis_partial ins out W H).
  - apply (kept_vis2 ins out W H).
  - apply (kept_t3 ins out W H).
Qed.

(** ** C30: no two equivalent tables *)
Lemma array_matchb_complete a c : distinct_stations a -> same_stations a c -> array_matchb a c = true.
Proof.
  clear W H. intros Hd (X & Y & Z & S). unfold array_matchb. rewrite !andb_true_iff, !negb_true_iff.
  split; [auto|]. apply forallb_forall. intros e He.
  assert (Hf : first_match (fun x => el_sta_index x = el_sta_index e) (ar_elem a) e).
  { apply (first_match_find (fun x => el_sta_index x =? el_sta_index e)).
    - intros; apply Z.eqb_eq.
    - apply (find_unique el_sta_index); auto. }
  destruct (S _ _ Hf) as (e' & He' & C3 & Cd & Cf).
  apply (first_match_find (fun x => el_sta_index x =? el_sta_index e)) in He';
    [|intros; apply Z.eqb_eq].
  unfold station_matchb. rewrite He'. unfold element_ok.
  destruct C3 as (C1 & C2 & C3).
  destruct (el_staxyz e) as [[x1 y1] z1], (el_staxyz e') as [[x2 y2] z2]. cbn [fst snd] in *.
  rewrite (proj2 (apart_close x1 x2) C1), (proj2 (apart_close y1 y2) C2),
    (proj2 (apart_close z1 z2) C3), (proj2 (apart_f_close _ _) Cd).
  destruct ((2 <=? ar_revision a) && (2 <=? ar_revision c)) eqn:Er; [|reflexivity].
  apply andb_true_iff in Er as [R1 R2]. apply Z.leb_le in R1, R2.
  destruct (Cf R1 R2) as [Cf1 Cf2]. rewrite (proj2 (apart_close _ _) Cf1), Cf2. apply str_eqb_refl.
Qed.
(** Matching with the revision raised is stricter. *)
Lemma element_ok_weaken fov fov' e x : (fov = true -> fov' = true) ->
  element_ok fov' e x = true -> element_ok fov e x = true.
Proof.
  clear W H. intros K. unfold element_ok.
  destruct (el_staxyz e) as [[? ?] ?], (el_staxyz x) as [[? ?] ?].
  repeat match goal with |- context [if ?b then false else _] => destruct b; auto end.
  all: destruct fov, fov'; auto; specialize (K eq_refl); discriminate.
Qed.
Lemma array_matchb_upgrade a c b : (b = upgrade_oi_array a \/ exists n, b = ar_set_arrname n (upgrade_oi_array a)) ->
  array_matchb b c = true -> array_matchb a c = true.
Proof.
  clear W H. intros Hb.
  assert (K : ar_elem b = ar_elem a /\ ar_arrayx b = ar_arrayx a /\ ar_arrayy b = ar_arrayy a
              /\ ar_arrayz b = ar_arrayz a /\ ar_revision a <= ar_revision b).
  { destruct Hb as [->|(n & ->)]; unfold upgrade_oi_array; destruct (Z.eqb_spec (ar_revision a) 1);
      cbn; repeat split; lia. }
  destruct K as (K1 & K2 & K3 & K4 & K5). unfold array_matchb. rewrite K1, K2, K3, K4.
  rewrite !andb_true_iff. intros [Hx Hf]. split; [exact Hx|].
  rewrite forallb_forall in *. intros e He. specialize (Hf e He). unfold station_matchb in *.
  destruct (find _ (ar_elem c)) as [x|]; [|discriminate].
  eapply element_ok_weaken; [|exact Hf]. intros K. apply andb_true_iff in K as [R1 R2].
  apply andb_true_iff. split; apply Z.leb_le; apply Z.leb_le in R1, R2; lia.
Qed.
Lemma no_duplicate_arrays l1 b l2 c : o_arrayList out = l1 ++ b :: l2 -> distinct_stations b ->
  In c l1 -> ~ same_stations b c.
Proof using W H.
  intros E Hd Hc S. pose proof (wf_parts_intro ins W) as P. destruct (merge_inv _ _ H) as [R].
  destruct (merge_tables_fresh ar_arrname ar_set_arrname "array" match_oi_array copy_oi_array
    array_good same_stations (fun _ _ => eq_refl) array_good_rename same_stations_rename
    array_matching_sound array_copy_sound _ _ _ (wp_arrays _ P) (mr_arrays _ _ R) l1 b l2 E)
    as (G & a & c0 & Ga & Hm & Hcp & Hb).
  apply copy_array_inv in Hcp as [_ ->]; [|exact Ga].
  rewrite match_oi_array_ok in Hm by auto. injection Hm as Hm.
  pose proof (find_none _ _ Hm _ Hc) as N.
  rewrite (array_matchb_upgrade a c b Hb) in N; [discriminate|].
  now apply array_matchb_complete.
Qed.

Lemma wave_matchb_complete w c : wave_good w -> wave_good c -> same_wavebands w c ->
  wave_matchb w c = true.
Proof.
  clear W H. intros Gw Gc (E & F1 & F2). unfold wave_matchb. rewrite E, Z.eqb_refl. cbn [andb].
  apply forallb_forall. intros [[x y] [z t]] Hp. cbn [fst snd].
  pose proof (in_combine_l _ _ _ _ Hp) as H1. pose proof (in_combine_r _ _ _ _ Hp) as H2.
  assert (D : forall (l m : list f32) p, Forall2 (fun x x' => close_wave x' x) l m ->
    In p (combine m l) -> close_wave (fst p) (snd p)).
  { clear. intros l m p F. induction F as [|x y l m K F IH]; cbn; [contradiction|].
    intros [<-|Hi]; auto. }
  apply (D _ _ _ F1) in H1. apply (D _ _ _ F2) in H2. cbn in H1, H2.
  now rewrite (proj2 (far_close _ _) H1), (proj2 (far_close _ _) H2).
Qed.
Lemma no_duplicate_waves l1 b l2 c : o_wavelengthList out = l1 ++ b :: l2 ->
  In c l1 -> ~ same_wavebands b c.
Proof using W H.
  intros E Hc S. pose proof (wf_parts_intro ins W) as P. destruct (merge_inv _ _ H) as [R].
  destruct (merge_tables_fresh wv_insname wv_set_insname "ins" match_oi_wavelength
    copy_oi_wavelength wave_good same_wavebands (fun _ _ => eq_refl) wave_good_rename
    same_wavebands_rename wave_matching_sound wave_copy_sound _ _ _ (wp_waves _ P) (mr_waves _ _ R)
    l1 b l2 E) as (G & a & c0 & Ga & Hm & Hcp & Hb).
  apply copy_wave_inv in Hcp as [_ ->]; [|exact Ga].
  rewrite match_oi_wavelength_ok in Hm by auto. injection Hm as Hm.
  pose proof (find_none _ _ Hm _ Hc) as N.
  assert (K : wv_nwave b = wv_nwave a /\ wv_eff_wave b = wv_eff_wave a /\ wv_eff_band b = wv_eff_band a).
  { destruct (upgrade_wave_fields a) as (E1 & E2 & E3 & _).
    destruct Hb as [->|(n & ->)]; cbn; auto. }
  destruct K as (K1 & K2 & K3).
  rewrite Forall_forall in G. specialize (G c Hc).
  rewrite wave_matchb_complete in N; auto; [discriminate|].
  unfold same_wavebands in *. now rewrite K1, K2, K3 in S.
Qed.
End Facts.

(** ** Merging copies *)
Lemma merge_copies d n o1 o2 : wf_fits d = true -> Forall distinct_stations (o_arrayList d) ->
  merge_oi_fits_list [d] = Ok o1 -> merge_oi_fits_list (repeat d (S n)) = Ok o2 ->
  o_arrayList o2 = o_arrayList o1 /\ o_wavelengthList o2 = o_wavelengthList o1
  /\ o_targets o2 = o_targets o1.
Proof.
  intros Wd Hd H1 H2.
  assert (W1 : Forall (fun d => wf_fits d = true) [d]) by auto.
  assert (W2 : Forall (fun d => wf_fits d = true) (repeat d (S n))).
  { apply Forall_forall. intros x Hx. apply repeat_spec in Hx. now subst. }
  pose proof (wf_parts_intro _ W1) as P1.
  destruct (merge_inv _ _ H1) as [R1]. destruct (merge_inv _ _ H2) as [R2].
  assert (Mr : forall A (f : oi_fits -> A), map f (repeat d (S n)) = repeat (f d) (S n)).
  { intros A f. clear. induction n as [|n IH]; [reflexivity|]. cbn. f_equal. exact IH. }
  split; [|split].
  - pose proof (wp_arrays _ P1) as G. inversion G as [|? ? Gd _]; subst.
    destruct (merge_tables_repeat ar_arrname ar_set_arrname "array" match_oi_array copy_oi_array
      array_good same_stations (fun _ _ => eq_refl) array_good_rename same_stations_rename
      array_matching_sound array_copy_sound array_matching_more distinct_stations
      array_matching_self (o_arrayList d) n _ _ Gd Hd (mr_arrays _ _ R1)) as (hs & E & _).
    pose proof (mr_arrays _ _ R2) as E2. rewrite Mr in E2. unfold empty_tables in E.
    rewrite E in E2. now injection E2 as _ -> _ _.
  - pose proof (wp_waves _ P1) as G. inversion G as [|? ? Gd _]; subst.
    destruct (merge_tables_repeat wv_insname wv_set_insname "ins" match_oi_wavelength
      copy_oi_wavelength wave_good same_wavebands (fun _ _ => eq_refl) wave_good_rename
      same_wavebands_rename wave_matching_sound wave_copy_sound wave_matching_more (fun _ => True)
      wave_matching_self (o_wavelengthList d) n _ _ Gd ltac:(now apply Forall_forall)
      (mr_waves _ _ R1)) as (hs & E & _).
    pose proof (mr_waves _ _ R2) as E2. rewrite Mr in E2. unfold empty_tables in E.
    rewrite E in E2. now injection E2 as _ -> _ _.
  - rewrite (targets_rows _ _ W1 H1), (targets_rows _ _ W2 H2).
    rewrite first_rows_repeat, all_revisions_repeat. cbn [all_revisions fold_left].
    change (all_targets [d]) with (ot_targ (o_targets d) ++ []). rewrite app_nil_r. reflexivity.
Qed.

(** ** When merging succeeds *)
Lemma merge_defined ins : mergeable ins -> exists out, merge_oi_fits_list ins = Ok out.
Proof.
  intros [F Ht].
  assert (W : Forall (fun d => wf_fits d = true) ins) by (eapply Forall_impl; [|exact F]; cbn; tauto).
  assert (Ne : forall d, In d ins -> tables_nonempty d).
  { intros d Hd. rewrite Forall_forall in F. now apply F. }
  assert (Tl : forall d, In d ins -> targets_listed d).
  { intros d Hd. rewrite Forall_forall in F. now apply F. }
  pose proof (wf_parts_intro ins W) as P.
  destruct (date_progress ins) as (mjd & Em); [eapply Forall_impl; [|exact F]; cbn; tauto|].
  destruct (targets_progress ins (wp_targets _ P) Ht) as (rev & rows & ids & Et).
  destruct (targets_inv ins _ _ _ (wp_targets _ P) Et) as [_ It].
  assert (Pos : forall A (f : oi_fits -> list A) (p : A -> Prop),
    (forall d, In d ins -> Forall p (f d)) -> Forall (Forall p) (map f ins)).
  { intros A f p K. apply Forall_forall. intros l Hl. apply in_map_iff in Hl as (d & <- & Hd). auto. }
  destruct (merge_tables_progress ar_arrname ar_set_arrname "array" match_oi_array copy_oi_array
      array_good same_stations (fun _ _ => eq_refl) array_good_rename same_stations_rename
      array_matching_sound array_copy_sound (fun a => 0 < ar_nelement a) array_matching_total)
      with (2 := wp_arrays _ P) as (ha & ta & Ea & La).
  { intros a Ga Pa. unfold copy_oi_array. rewrite dup_oi_array_ok by auto. cbn. eauto. }
  { apply Pos. intros d Hd. apply (Ne d Hd). }
  destruct (merge_tables_progress wv_insname wv_set_insname "ins" match_oi_wavelength
      copy_oi_wavelength wave_good same_wavebands (fun _ _ => eq_refl) wave_good_rename
      same_wavebands_rename wave_matching_sound wave_copy_sound (fun w => 0 < wv_nwave w)
      wave_matching_total) with (2 := wp_waves _ P) as (hi & tw & Ew & Lw).
  { intros a Ga Pa. unfold copy_oi_wavelength. rewrite dup_oi_wavelength_ok by auto. cbn. eauto. }
  { apply Pos. intros d Hd. apply (Ne d Hd). }
  destruct (merge_tables_progress co_corrname co_set_corrname "ins" (fun _ _ => Ok None)
      dup_oi_corr corr_good merged_corr (fun _ _ => eq_refl) corr_good_rename
      merged_corr_rename corr_matching_sound corr_copy_sound (fun c => 0 < co_ncorr c)
      (fun _ _ _ _ => ex_intro _ None eq_refl)) with (2 := wp_corrs _ P) as (hc & tc & Ec & Lc).
  { intros a Ga Pa. rewrite dup_oi_corr_ok by auto. eauto. }
  { apply Pos. intros d Hd. apply (Ne d Hd). }
  rewrite map_length in La, Lw, Lc.
  assert (Wt : forall d, In d ins -> wf_targets (o_targets d) = true).
  { intros d Hd. pose proof (wp_targets _ P) as K. rewrite Forall_forall in K. auto. }
  destruct (all_inputs_progress o_inspolList (fun d a i _ => merge_inspol_table ids d a i) ins ha hi hi
    ([], 0)) as (s1 & E1); auto.
  { intros d a i c t Hd Hi. destruct (Ne d Hd) as (_ & _ & _ & N & _).
    destruct (Tl d Hd) as (T & _). rewrite Forall_forall in N, T. destruct (N t Hi).
    apply (inspol_progress ids ins d a i t rows); auto. now apply (wp_inspol _ P d). }
  destruct (all_inputs_progress o_visList (merge_data_table copy_oi_vis vr_target_id vr_set_target_id ids)
    ins ha hi hc ([], 0)) as (s2 & E2); auto.
  { intros d a i c t Hd Hi. destruct (Ne d Hd) as (_ & _ & _ & _ & N & _).
    destruct (Tl d Hd) as (_ & T & _). rewrite Forall_forall in N, T. destruct (N t Hi).
    pose proof (wp_vis _ P d t Hd Hi).
    eapply (table_progress copy_oi_vis _ _ wf_vis); eauto using vis_copied, vis_copy_total. }
  destruct (all_inputs_progress o_vis2List (merge_data_table copy_oi_vis2 v2_target_id v2_set_target_id ids)
    ins ha hi hc ([], 0)) as (s3 & E3); auto.
  { intros d a i c t Hd Hi. destruct (Ne d Hd) as (_ & _ & _ & _ & _ & N & _).
    destruct (Tl d Hd) as (_ & _ & T & _). rewrite Forall_forall in N, T. destruct (N t Hi).
    pose proof (wp_vis2 _ P d t Hd Hi).
    eapply (table_progress copy_oi_vis2 _ _ wf_vis2); eauto using vis2_copied, vis2_copy_total. }
  destruct (all_inputs_progress o_t3List (merge_data_table copy_oi_t3 t3_target_id t3_set_target_id ids)
    ins ha hi hc ([], 0)) as (s4 & E4); auto.
  { intros d a i c t Hd Hi. destruct (Ne d Hd) as (_ & _ & _ & _ & _ & _ & N & _).
    destruct (Tl d Hd) as (_ & _ & _ & T & _). rewrite Forall_forall in N, T. destruct (N t Hi).
    pose proof (wp_t3 _ P d t Hd Hi).
    eapply (table_progress copy_oi_t3 _ _ wf_t3); eauto using t3_copied, t3_copy_total. }
  destruct (all_inputs_progress o_fluxList (merge_data_table dup_oi_flux fr_target_id fr_set_target_id ids)
    ins ha hi hc ([], 0)) as (s5 & E5); auto.
  { intros d a i c t Hd Hi. destruct (Ne d Hd) as (_ & _ & _ & _ & _ & _ & _ & N).
    destruct (Tl d Hd) as (_ & _ & _ & _ & T). rewrite Forall_forall in N, T. destruct (N t Hi).
    pose proof (wp_flux _ P d t Hd Hi).
    eapply (table_progress dup_oi_flux _ _ wf_flux); eauto using flux_copied, dup_oi_flux_ok. }
  destruct (merge_intro ins mjd rev rows ids ha ta hi tw hc tc s1 s2 s3 s4 s5
    Em Et Ea Ew Ec E1 E2 E3 E4 E5) as (out & E & _). eauto.
Qed.

(** Conditions that cannot be dropped *)
Lemma merge_requires ins out : Forall (fun d => wf_fits d = true) ins ->
  merge_oi_fits_list ins = Ok out ->
  Forall targets_listed ins
  /\ (length (nodup string_dec (map tg_target (all_targets ins))) < 100)%nat.
Proof.
  intros W H. destruct (merge_facts ins out W H) as (ids & F).
  pose proof (wf_parts_intro ins W) as P. split.
  - apply Forall_forall. intros d Hd.
    assert (Wt : wf_targets (o_targets d) = true).
    { pose proof (wp_targets _ P) as K. rewrite Forall_forall in K. auto. }
    assert (K : forall id n, replace_target_id d ids id = Ok n ->
      In id (map tg_target_id (ot_targ (o_targets d)))).
    { intros id n E. apply replace_id_inv in E as (t & (b & r & -> & <- & _) & _); [|exact Wt].
      apply in_map, in_elt. }
    assert (G : forall X R (id : R -> Z) set_id rv (rel : X -> Z -> R -> R -> Prop) tabs (l : list (dtab X R)),
      Forall2 (traced (placed id set_id rv rel ids) tabs ins out) (from_inputs tabs ins) l ->
      Forall (fun t => Forall (fun r => In (id r) (map tg_target_id (ot_targ (o_targets d))))
                (tb_record t)) (tabs d)).
    { intros X R id set_id rv rel tabs l Fl. apply Forall_forall. intros t Ht.
      destruct (Forall2_in_l _ _ _ (d, t) Fl) as (t' & _ & _ & _ & a & i & c & _ & _ & _ & Hp).
      { apply in_flat_map. exists d. split; [exact Hd|]. now apply in_map. }
      cbn [fst snd] in Hp. destruct Hp as (_ & _ & _ & _ & _ & _ & _ & _ & P9).
      apply Forall_forall. intros r Hr.
      destruct (Forall2_in_l _ _ _ r P9 Hr) as (r' & _ & r1 & n & _ & _ & En & _). eauto. }
    split; [|split; [|split; [|split]]].
    + apply Forall_forall. intros t Ht.
      destruct (Forall2_in_l _ _ _ (d, t) (fa_inspol _ _ _ F))
        as (t' & _ & _ & _ & a & i & c & _ & _ & _ & Hp).
      { apply in_flat_map. exists d. split; [exact Hd|]. now apply in_map. }
      cbn [fst snd] in Hp. destruct Hp as (_ & _ & _ & _ & _ & _ & _ & _ & P9).
      apply Forall_forall. intros r Hr.
      destruct (Forall2_in_l _ _ _ r P9 Hr) as (r' & _ & n & En & _). eauto.
    + eapply G, (fa_vis _ _ _ F).
    + eapply G, (fa_vis2 _ _ _ F).
    + eapply G, (fa_t3 _ _ _ F).
    + eapply G, (fa_flux _ _ _ F).
  - rewrite <- first_rows_count. destruct (merge_inv _ _ H) as [R].
    assert (B : (length (ot_targ (o_targets out)) < 100)%nat).
    { pose proof (mr_targets _ _ R) as E. pose proof (wp_targets _ P) as Wt. rewrite Forall_forall in Wt.
      apply (foreach_invariant (fun p (s : target_state) =>
        target_inv (all_targets p) (snd (fst s)) (snd s) /\ (length (snd (fst s)) < 100)%nat)) in E.
      - apply E.
      - cbn. split; [split; reflexivity|lia].
      - intros p d [[r1 rows1] h1] [[r2 rows2] h2] [I1 L1] Hin Hb. cbn [fst snd] in *.
        destruct (table_inv d (all_targets p) _ _ _ _ _ _ (Wt d Hin) I1 Hb) as [_ I2].
        split; [unfold all_targets; rewrite flat_map_app; cbn [flat_map]; now rewrite app_nil_r|].
        unfold merge_target_table in Hb. rewrite max_revision in Hb.
        rewrite for_foreach with (body := merge_target_row) in Hb by (apply len_is_eq, Wt, Hin).
        apply (foreach_invariant (fun q (s : target_state) =>
          target_inv (all_targets p ++ q) (snd (fst s)) (snd s) /\ (length (snd (fst s)) < 100)%nat))
          in Hb.
        + apply Hb.
        + cbn. rewrite app_nil_r. auto.
        + intros q t [[r3 rows3] h3] [[r4 rows4] h4] [I3 L3] _ Hr. cbn [fst snd] in *.
          apply (row_inv' (all_targets p ++ q)) in Hr as (rows5 & h5 & E5 & I5 & L5 & Hc); [|exact I3].
          injection E5 as -> -> ->. rewrite app_assoc. split; [exact I5|].
          destruct Hc as [->|Hc]; [exact L3|]. unfold MAX_TARGET in Hc. lia. }
    rewrite (targets_rows _ _ W H) in B. cbn [ot_targ] in B. now rewrite renumber_length in B.
Qed.
