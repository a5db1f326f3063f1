(** Merging conforming datasets gives a conforming dataset. *)
From Verif Require Import Base BaseLemmas FloatModel Types FileModel FileSpec FileProofs DateSpec DateProofs
  MergeModel MergeSpec MergeProofs MergeNames MergeNamed MergeTables MergeData MergeTargets MergeHeader MergeWhole MergeFacts
  CheckModel CheckSpec CheckRules CheckWhole ToolModel ConformSpec ConformFilter.
From Coq Require Import Lia.
Open Scope list_scope.
Open Scope Z_scope.

(** ** Names *)
Lemma new_name_nonempty literal name k : literal <> ""%string -> new_name literal name k <> ""%string.
Proof.
  intros Hl. unfold new_name.
  assert (S : forall s, s <> ""%string -> strlcpy FLEN_VALUE s <> ""%string).
  { intros [|c s] Hs; [contradiction|]. unfold strlcpy. discriminate. }
  apply S. destruct (strlen name <? FLEN_VALUE - 5); apply S.
  - destruct name; discriminate.
  - destruct literal; [contradiction|discriminate].
Qed.
Lemma array_names_nonempty ins out : Forall (fun d => wf_fits d = true) ins -> merge_oi_fits_list ins = Ok out ->
  Forall arrays_named ins -> arrays_named out.
Proof.
  intros W H N. pose proof (wf_parts_intro ins W) as P. destruct (merge_inv _ _ H) as [R].
  pose proof (wp_arrays _ P) as G. pose proof (mr_arrays _ _ R) as M. unfold merge_tables in M.
  assert (HQ : Forall (Forall (fun a => ar_arrname a <> ""%string)) (map o_arrayList ins)).
  { apply Forall_forall. intros l Hl. apply in_map_iff in Hl as (d & <- & Hd). exact (proj1 (Forall_forall _ _) N d Hd). }
  cbn [tl_list assert_ bind] in M. unfold arrays_named.
  change (o_arrayList out) with (tl_list (array_tables out)).
  apply (foreach_invariant (fun pre (s : list (hash string) * tables oi_array) =>
    tables_inv ar_arrname array_good (snd s) /\ Forall (fun a => ar_arrname a <> ""%string) (tl_list (snd s)))) in M;
    cbn [fst snd] in *.
  - apply M.
  - split; [apply empty_inv|constructor].
  - intros pre l [hs1 o1] [hs2 o2] (I & F) Hin Hb. cbn [fst snd] in *.
    inv_bind Hb. destruct a as [h o]. injection Hb as <- <-.
    rewrite Forall_forall in G, HQ. specialize (G l Hin). specialize (HQ l Hin).
    apply (foreach_invariant (fun pre (s : hash string * tables oi_array) =>
      tables_inv ar_arrname array_good (snd s) /\ Forall (fun a => ar_arrname a <> ""%string) (tl_list (snd s)))) in E;
      cbn [fst snd] in *; auto.
    intros pre' a [h1 t1] [h2 t2] (J & Fp) Ha Hb. cbn [fst snd] in *.
    rewrite Forall_forall in G, HQ.
    destruct (merge_table_inv ar_arrname ar_set_arrname "array" match_oi_array copy_oi_array
      array_good same_stations (fun _ _ => eq_refl) array_good_rename same_stations_rename
      array_matching_sound array_copy_sound a h1 t1 h2 t2 (G a Ha) J Hb) as (c & _ & _ & _ & J' & Hcase).
    split; [exact J'|]. destruct Hcase as [[-> _]|(_ & c0 & Ec & -> & _ & Hn)]; [exact Fp|].
    apply Forall_app. split; [exact Fp|]. constructor; [|constructor].
    destruct Hn as [[-> _]| ->].
    + destruct (array_copy_sound a c0 (G a Ha) Ec) as (_ & -> & _). exact (HQ a Ha).
    + apply new_name_nonempty. discriminate.
Qed.

(** ** Lists *)
Lemma both {A B} (P Q : A -> B -> Prop) l m b : Forall2 P l m -> Forall2 Q l m -> In b m ->
  exists a, In a l /\ P a b /\ Q a b.
Proof.
  intros F. induction F as [|x y l m H F IH]; intros G Hb; [destruct Hb|].
  inversion G; subst. destruct Hb as [->|Hb]; [exists x; cbn; auto|].
  destruct IH as (a & ? & ? & ?); auto. exists a; cbn; auto.
Qed.
Lemma distinct_the_one {A} (name : A -> string) l a : NoDup (map name l) -> In a l -> the_one name l (name a) a.
Proof.
  intros ND Ha. apply in_split in Ha as (l1 & l2 & ->). exists l1, l2. split; [reflexivity|]. split; [reflexivity|].
  rewrite map_app in ND. cbn [map] in ND. apply NoDup_remove_2 in ND.
  intros b Hb E. apply ND. rewrite <- E, <- map_app. now apply in_map.
Qed.
Lemma first_station (s : Z) l : In s (map el_sta_index l) -> exists e, first_match (fun e => el_sta_index e = s) l e.
Proof.
  induction l as [|x l IH]; intros Hin; [destruct Hin|].
  destruct (Z.eq_dec (el_sta_index x) s) as [Ex|Nx].
  - exists x, [], l. split; [reflexivity|]. split; [exact Ex|]. intros ? [].
  - destruct Hin as [Ex|Hin]; [contradiction|]. destruct (IH Hin) as (e & l1 & l2 & -> & He & Hb).
    exists e, (x :: l1), l2. split; [reflexivity|]. split; [exact He|]. intros b [->|Hb']; auto.
Qed.
Lemma latest_lookup {A} (name : A -> string) l n : NoDup (map name l) ->
  lookup_result (fun a => name a = n) l (latest_named name l n).
Proof.
  intros ND. destruct (latest_named name l n) as [a|] eqn:E; cbn [lookup_result].
  - unfold latest_named in E. apply find_some in E as (Ha & En). apply str_eqb_eq in En. apply in_rev in Ha.
    destruct (distinct_the_one name l a ND Ha) as (l1 & l2 & El & _ & Hn). exists l1, l2.
    split; [exact El|]. split; [exact En|]. intros b Hb Eb. apply (Hn b); [apply in_or_app; now left|congruence].
  - apply latest_none in E. intros a Ha En. apply E. rewrite <- En. now apply in_map.
Qed.
Lemma keyword_there vals v if_absent : merged_keyword if_absent vals v -> if_absent <> ""%string -> v <> ""%string.
Proof.
  intros (K1 & K2 & K3) Ha.
  destruct (Forall_Exists_dec (fun x => x = ""%string) (fun x => string_dec x "") vals) as [F|X].
  - rewrite K1; [exact Ha|]. now apply Forall_forall.
  - apply Exists_exists in X as (x & Hx & Nx).
    destruct (Forall_Exists_dec (fun y => y = ""%string \/ y = x)
      (fun y => match string_dec y "" with left e => left (or_introl e) | right n =>
        match string_dec y x with left e => left (or_intror e) | right m => right (fun o => match o with or_introl e => n e | or_intror e => m e end) end end)
      vals) as [F|X].
    + rewrite (K2 x Hx Nx); [exact Nx|]. now apply Forall_forall.
    + apply Exists_exists in X as (y & Hy & Ny). rewrite (K3 x y Hx Hy Nx); [discriminate|tauto|].
      intros ->. tauto.
Qed.
Lemma conforming_needs d : merge_ready d -> version2_needs d.
Proof.
  intros [Cf V1 _ _ _ _]. destruct (string_dec (h_content (o_header d)) "OIFITS2") as [V|V]; [|auto].
  destruct Cf as [T Rv _ K _ _ _ A _ _ _ _ _ _ _ _].
  destruct (A V) as (A1 & A2 & A3 & A4 & _). destruct Rv as (_ & _ & _ & _ & _ & _ & Rv). destruct (Rv V) as (R1 & R2 & R3).
  destruct T as (T & _). destruct K as (_ & K & _). constructor; auto.
Qed.
Lemma ready_standard d : merge_ready d -> standard_revisions d.
Proof.
  intros M. pose proof (conforming_needs d M) as N.
  pose proof (cf_revisions _ (rd_conforms _ M)) as (R1 & R2 & R3 & R4 & R5 & R6 & _).
  assert (S : forall n, (h_content (o_header d) = "OIFITS2"%string -> n = 2)
    /\ (h_content (o_header d) <> "OIFITS2"%string -> n = 1) -> n = 1 \/ n = 2).
  { intros n (S1 & S2). destruct (string_dec (h_content (o_header d)) "OIFITS2"); auto. }
  repeat split; try apply N; auto; eapply Forall_impl; try eassumption; cbn; intros; now apply S.
Qed.

Section Merge.
Variables (ins : list oi_fits) (out : oi_fits).
Hypothesis W : Forall (fun d => wf_fits d = true) ins.
Hypothesis H : merge_oi_fits_list ins = Ok out.
Hypothesis Ready : Forall merge_ready ins.
Hypothesis Plain : plain_names ins.

Lemma ready d : In d ins -> merge_ready d.
Proof. exact (proj1 (Forall_forall _ _) Ready d). Qed.
Lemma fit : Forall names_fit ins.
Proof. eapply Forall_impl; [|exact Ready]. apply rd_names. Qed.
Lemma distinct : distinct_names out.
Proof. exact (merged_distinct ins out W H fit Plain). Qed.
Lemma named : arrays_named out.
Proof. apply (array_names_nonempty ins out W H). eapply Forall_impl; [|exact Ready]. apply rd_named. Qed.

Lemma array_there n : array_found out n.
Proof.
  intros _. destruct (merge_facts ins out W H) as (ids & F). destruct (fa_arrays _ _ _ F) as (_ & _ & Hh).
  unfold oi_fits_lookup_array. cbn [array_tables tl_hash tl_list] in Hh. rewrite Hh. apply latest_lookup, distinct.
Qed.
Lemma corr_there n : corr_found out n.
Proof.
  intros _. destruct (merge_facts ins out W H) as (ids & F). destruct (fa_corrs _ _ _ F) as (_ & _ & Hh).
  unfold oi_fits_lookup_corr. cbn [corr_tables tl_hash tl_list] in Hh. rewrite Hh. apply latest_lookup, distinct.
Qed.

(** References to arrays *)
Lemma array_named d old new : In d ins -> array_follows d out old new -> old <> ""%string -> new <> ""%string.
Proof.
  intros Hd (_ & F) Ho. destruct (F Ho) as (F1 & F2).
  destruct (in_dec string_dec old (map ar_arrname (o_arrayList d))) as [Hi|Hi].
  - apply in_map_iff in Hi as (a & <- & Ha).
    destruct (F1 a (distinct_the_one ar_arrname _ a (proj1 (rd_distinct _ (ready d Hd))) Ha)) as (a' & L & _).
    intros ->. destruct (merge_facts ins out W H) as (ids & Fa). destruct (fa_arrays _ _ _ Fa) as (_ & _ & Hh).
    unfold oi_fits_lookup_array in L. cbn [array_tables tl_hash tl_list] in Hh. rewrite Hh in L.
    unfold latest_named in L. apply find_some in L as (Hin & En). apply str_eqb_eq in En. apply in_rev in Hin.
    exact (proj1 (Forall_forall _ _) named a' Hin En).
  - rewrite F2; [exact Ho|]. intros a Ha Ea. apply Hi. rewrite <- Ea. now apply in_map.
Qed.
Lemma station_follows d old new sta : In d ins -> array_follows d out old new -> old <> ""%string ->
  station_exists d old sta -> station_exists out new sta.
Proof.
  intros Hd F Ho (a & Ma & Hs). pose proof (array_named d old new Hd F Ho) as Hn.
  destruct F as (_ & F). destruct (F Ho) as (F1 & _).
  assert (Ha : In a (o_arrayList d) /\ ar_arrname a = old).
  { destruct Ma as (l1 & l2 & -> & Ea & _). split; [apply in_or_app; right; now left|exact Ea]. }
  destruct Ha as (Ha & <-).
  destruct (F1 a (distinct_the_one ar_arrname _ a (proj1 (rd_distinct _ (ready d Hd))) Ha)) as (a' & L & S).
  pose proof (array_there new Hn) as R. rewrite L in R. exists a'. split; [exact R|].
  destruct S as (_ & _ & _ & S). destruct (first_station sta _ Hs) as (e & He).
  destruct (S sta e He) as (e' & (l1 & l2 & -> & Ee & _) & _). rewrite map_app. apply in_or_app. right. left. exact Ee.
Qed.
Lemma corr_named d old new : In d ins -> corr_follows d out old new ->
  (old <> ""%string -> In old (map co_corrname (o_corrList d))) -> new <> ""%string -> In new (map co_corrname (o_corrList out)).
Proof.
  intros Hd (F0 & F) Hc Hn. destruct (string_dec old "") as [->|Ho]; [now rewrite F0 in Hn|].
  destruct (F Ho) as (F1 & _). specialize (Hc Ho). apply in_map_iff in Hc as (c & <- & Hc).
  destruct (F1 c (distinct_the_one co_corrname _ c (proj2 (proj2 (rd_distinct _ (ready d Hd)))) Hc)) as (c' & L & _).
  pose proof (corr_there new Hn) as R. rewrite L in R. destruct R as (l1 & l2 & -> & <- & _).
  rewrite map_app. apply in_or_app. right. now left.
Qed.
Lemma target_named d id id' : target_follows d out id id' -> In id' (map tg_target_id (ot_targ (o_targets out))).
Proof.
  intros (t & t' & _ & L & _). destruct (lookup_target_ok out id' (target_wf ins out W H)) as (r & E & R).
  rewrite L in E. injection E as <-. destruct R as (l1 & l2 & -> & Ei & _). rewrite map_app.
  apply in_or_app. right. left. exact Ei.
Qed.

(** A data table of the output and the one it comes from *)
Definition origin {X R} (tabs : oi_fits -> list (dtab X R)) (id : R -> Z) (rel : dtab X R -> dtab X R -> Prop)
  (t' : dtab X R) : Prop :=
  exists d t, In d ins /\ In t (tabs d) /\ rel t t' /\ references_kept id out (d, t) t'.
Lemma origin_of {X R} (tabs : oi_fits -> list (dtab X R)) (id : R -> Z) rel l t' :
  Forall2 (fun p t' => rel (snd p) t') (from_inputs tabs ins) l ->
  Forall2 (references_kept id out) (from_inputs tabs ins) l -> In t' l -> origin tabs id rel t'.
Proof.
  intros F G Ht. destruct (both _ _ _ _ t' F G Ht) as ((d & t) & Hp & Hr & Hk).
  apply from_inputs_in in Hp as (Hd & Hi). exists d, t. auto.
Qed.
Definition rel_vis := merged_data (X := vis_extra) vr_set_target_id vr_target_id vr_time same_but_time_iviserr.
Definition rel_vis2 := merged_data (X := unit) v2_set_target_id v2_target_id v2_time same_but_time_vis2.
Definition rel_t3 := merged_data (X := unit) t3_set_target_id t3_target_id t3_time same_but_time_t3.
Lemma from_vis t' : In t' (o_visList out) -> origin o_visList vr_target_id rel_vis t'.
Proof. apply origin_of; [exact (kept_vis_partial ins out W H)|exact (references_vis ins out W H fit distinct)]. Qed.
Lemma from_vis2 t' : In t' (o_vis2List out) -> origin o_vis2List v2_target_id rel_vis2 t'.
Proof. apply origin_of; [exact (kept_vis2 ins out W H)|exact (references_vis2 ins out W H fit distinct)]. Qed.
Lemma from_t3 t' : In t' (o_t3List out) -> origin o_t3List t3_target_id rel_t3 t'.
Proof. apply origin_of; [exact (kept_t3 ins out W H)|exact (references_t3 ins out W H fit distinct)]. Qed.
Lemma from_flux t' : In t' (o_fluxList out) -> origin o_fluxList fr_target_id merged_flux t'.
Proof. apply origin_of; [exact (kept_flux ins out W H)|exact (references_flux ins out W H fit distinct)]. Qed.
Lemma from_inspol t' : In t' (o_inspolList out) -> exists d t, In d ins /\ In t (o_inspolList d) /\ merged_inspol t t'
  /\ inspol_references_kept out (d, t) t'.
Proof.
  intros Ht. destruct (both _ _ _ _ t' (kept_inspol ins out W H) (references_inspol ins out W H fit distinct) Ht)
    as ((d & t) & Hp & Hr & Hk). apply from_inputs_in in Hp as (Hd & Hi). exists d, t. auto.
Qed.
(** A record of the output and the one it comes from *)
Lemma record_of {X R} (set_id : Z -> R -> R) id time same (t t' : dtab X R) r' :
  merged_data set_id id time same t t' -> In r' (tb_record t') ->
  exists r, In r (tb_record t) /\ same r (set_id (id r) r') /\ time r' = (if tb_revision t =? 1 then f64_zero else time r).
Proof. intros (_ & _ & _ & _ & _ & F) Hr. destruct (Forall2_in_r _ _ _ _ F Hr) as (r & ? & ? & ?). eauto. Qed.

(** ** The rules *)
Lemma out_two : h_content (o_header out) = "OIFITS2"%string.
Proof. destruct (merge_inv _ _ H) as [R]. now rewrite (mr_header _ _ R). Qed.
Lemma merge_revisions : revisions_ok out.
Proof.
  assert (S : Forall standard_revisions ins) by (eapply Forall_impl; [|exact Ready]; apply ready_standard).
  destruct (merged_version2 ins out W H S) as ((V1 & V2 & V3 & V4 & V5 & V6 & V7 & V8 & V9) & _).
  pose proof out_two as V.
  assert (K : forall n, n = 2 -> (h_content (o_header out) = "OIFITS2"%string -> n = 2)
    /\ (h_content (o_header out) <> "OIFITS2"%string -> n = 1)) by (intros; split; [auto|contradiction]).
  unfold revisions_ok. cbv zeta. split; [now apply K|].
  repeat split; try (eapply Forall_impl; [|eassumption]; cbn; intros; now apply K); assumption.
Qed.
Lemma merge_keywords : keyword_rule out.
Proof.
  split; [|split].
  - eapply Forall_impl; [|exact (arrays_from_inputs ins out W H)]. intros a' (d & a & Hd & Ha & Ea).
    apply (f_equal ar_frame) in Ea. cbn in Ea. rewrite Ea.
    destruct (cf_keywords _ (rd_conforms _ (ready d Hd))) as (K & _). exact (proj1 (Forall_forall _ _) K a Ha).
  - intros _. apply Forall_forall. intros t' Ht. destruct (from_vis t' Ht) as (d & t & Hd & Hi & (_ & _ & -> & _) & _).
    exact (proj1 (Forall_forall _ _) (vn_types _ (conforming_needs d (ready d Hd))) t Hi).
  - apply Forall_forall. intros t' Ht. destruct (from_flux t' Ht) as (d & t & Hd & Hi & (_ & _ & -> & _) & _).
    destruct (cf_keywords _ (rd_conforms _ (ready d Hd))) as (_ & _ & K). exact (proj1 (Forall_forall _ _) K t Hi).
Qed.
Lemma merge_refmap : refmap_rule out.
Proof.
  intros t' Ht. destruct (from_vis t' Ht) as (d & t & Hd & Hi & (_ & _ & Ex & _) & _).
  unfold refmap_missing, refmap_surplus. rewrite Ex. exact (cf_refmap _ (rd_conforms _ (ready d Hd)) t Hi).
Qed.
Lemma merge_targets : targets_present out.
Proof.
  assert (T : forall X R (id : R -> Z) (tabs : oi_fits -> list (dtab X R)) rel t' r', origin tabs id rel t' ->
    In r' (tb_record t') -> In (id r') (map tg_target_id (ot_targ (o_targets out)))).
  { intros X R id tabs rel t' r' (d & t & _ & _ & _ & _ & _ & _ & F) Hr.
    destruct (Forall2_in_r _ _ _ _ F Hr) as (r & _ & Hf). exact (target_named d _ _ Hf). }
  split; [|split; [|split]]; intros t' r' Ht Hr.
  - exact (T _ _ _ _ _ t' r' (from_vis t' Ht) Hr).
  - exact (T _ _ _ _ _ t' r' (from_vis2 t' Ht) Hr).
  - exact (T _ _ _ _ _ t' r' (from_t3 t' Ht) Hr).
  - exact (T _ _ _ _ _ t' r' (from_flux t' Ht) Hr).
Qed.
Lemma merge_arrname : arrname_rule out.
Proof.
  intros _. split; [|split; [|split; [|split]]]; apply Forall_forall; intros t' Ht.
  - destruct (from_inspol t' Ht) as (d & t & Hd & Hi & _ & A & _). apply (array_named d _ _ Hd A).
    exact (proj1 (Forall_forall _ _) (vn_inspol _ (conforming_needs d (ready d Hd))) t Hi).
  - destruct (from_vis t' Ht) as (d & t & Hd & Hi & _ & A & _). apply (array_named d _ _ Hd A).
    exact (proj1 (Forall_forall _ _) (vn_vis _ (conforming_needs d (ready d Hd))) t Hi).
  - destruct (from_vis2 t' Ht) as (d & t & Hd & Hi & _ & A & _). apply (array_named d _ _ Hd A).
    exact (proj1 (Forall_forall _ _) (vn_vis2 _ (conforming_needs d (ready d Hd))) t Hi).
  - destruct (from_t3 t' Ht) as (d & t & Hd & Hi & _ & A & _). apply (array_named d _ _ Hd A).
    exact (proj1 (Forall_forall _ _) (vn_t3 _ (conforming_needs d (ready d Hd))) t Hi).
  - destruct (from_flux t' Ht) as (d & t & Hd & Hi & (_ & _ & -> & _) & A & _). intros Hc.
    apply (array_named d _ _ Hd A). apply (cf_flux _ (rd_conforms _ (ready d Hd)) t Hi). exact Hc.
Qed.
Lemma old_name d old new : array_follows d out old new -> new <> ""%string -> old <> ""%string.
Proof. intros (F & _) Hn ->. apply Hn. now apply F. Qed.
Lemma merge_elements : elements_present out.
Proof.
  split; [|split; [|split; [|split]]]; intros t' r' Ht Hn Hr.
  - destruct (from_inspol t' Ht) as (d & t & Hd & Hi & (_ & _ & _ & _ & _ & _ & _ & F) & A & _).
    pose proof (old_name _ _ _ A Hn) as Ho. destruct (Forall2_in_r _ _ _ _ F Hr) as (r & Hr0 & Er).
    apply (f_equal ip_sta_index) in Er. cbn in Er. rewrite Er. apply (station_follows d _ _ _ Hd A Ho).
    exact (proj1 (cf_elements _ (rd_conforms _ (ready d Hd))) t r Hi Ho Hr0).
  - destruct (from_vis t' Ht) as (d & t & Hd & Hi & M & A & _). pose proof (old_name _ _ _ A Hn) as Ho.
    destruct (record_of _ _ _ _ t t' r' M Hr) as (r & Hr0 & Er & _).
    assert (Es : vr_sta_index r' = vr_sta_index r) by apply Er. rewrite Es.
    destruct (cf_elements _ (rd_conforms _ (ready d Hd))) as (_ & P & _). destruct (P t r Hi Ho Hr0).
    split; now apply (station_follows d _ _ _ Hd A Ho).
  - destruct (from_vis2 t' Ht) as (d & t & Hd & Hi & M & A & _). pose proof (old_name _ _ _ A Hn) as Ho.
    destruct (record_of _ _ _ _ t t' r' M Hr) as (r & Hr0 & Er & _).
    assert (Es : v2_sta_index r' = v2_sta_index r) by apply Er. rewrite Es.
    destruct (cf_elements _ (rd_conforms _ (ready d Hd))) as (_ & _ & P & _). destruct (P t r Hi Ho Hr0).
    split; now apply (station_follows d _ _ _ Hd A Ho).
  - destruct (from_t3 t' Ht) as (d & t & Hd & Hi & M & A & _). pose proof (old_name _ _ _ A Hn) as Ho.
    destruct (record_of _ _ _ _ t t' r' M Hr) as (r & Hr0 & Er & _).
    assert (Es : t3_sta_index r' = t3_sta_index r) by apply Er. rewrite Es.
    destruct (cf_elements _ (rd_conforms _ (ready d Hd))) as (_ & _ & _ & P & _). destruct (P t r Hi Ho Hr0) as (? & ? & ?).
    split; [|split]; now apply (station_follows d _ _ _ Hd A Ho).
  - destruct (from_flux t' Ht) as (d & t & Hd & Hi & (_ & _ & _ & _ & _ & F) & A & _). pose proof (old_name _ _ _ A Hn) as Ho.
    destruct (Forall2_in_r _ _ _ _ F Hr) as (r & Hr0 & Er). apply (f_equal fr_sta_index) in Er. cbn in Er. rewrite Er.
    destruct (cf_elements _ (rd_conforms _ (ready d Hd))) as (_ & _ & _ & _ & P). intros Hs.
    apply (station_follows d _ _ _ Hd A Ho). exact (P t r Hi Ho Hr0 Hs).
Qed.
Lemma merge_corr : corr_rule out.
Proof.
  split; [|split; [|split]]; apply Forall_forall; intros t' Ht.
  - destruct (from_vis t' Ht) as (d & t & Hd & Hi & _ & _ & _ & A & _). apply (corr_named d _ _ Hd A).
    destruct (cf_corr _ (rd_conforms _ (ready d Hd))) as (P & _). exact (proj1 (Forall_forall _ _) P t Hi).
  - destruct (from_vis2 t' Ht) as (d & t & Hd & Hi & _ & _ & _ & A & _). apply (corr_named d _ _ Hd A).
    destruct (cf_corr _ (rd_conforms _ (ready d Hd))) as (_ & P & _). exact (proj1 (Forall_forall _ _) P t Hi).
  - destruct (from_t3 t' Ht) as (d & t & Hd & Hi & _ & _ & _ & A & _). apply (corr_named d _ _ Hd A).
    destruct (cf_corr _ (rd_conforms _ (ready d Hd))) as (_ & _ & P & _). exact (proj1 (Forall_forall _ _) P t Hi).
  - destruct (from_flux t' Ht) as (d & t & Hd & Hi & _ & _ & _ & A & _). apply (corr_named d _ _ Hd A).
    destruct (cf_corr _ (rd_conforms _ (ready d Hd))) as (_ & _ & _ & P). exact (proj1 (Forall_forall _ _) P t Hi).
Qed.
Lemma merge_flagging : flagging_rule out.
Proof.
  split; [|split]; intros t' r' Ht Hr.
  - destruct (from_vis t' Ht) as (d & t & Hd & Hi & M & _). destruct (record_of _ _ _ _ t t' r' M Hr) as (r & Hr0 & Er & _).
    assert (E1 : vr_flag r' = vr_flag r) by apply Er. assert (E2 : vr_visamperr r' = vr_visamperr r) by apply Er.
    assert (E3 : vr_visphierr r' = vr_visphierr r) by apply Er. rewrite E1, E2, E3.
    exact (proj1 (cf_flagging _ (rd_conforms _ (ready d Hd))) t r Hi Hr0).
  - destruct (from_vis2 t' Ht) as (d & t & Hd & Hi & M & _). destruct (record_of _ _ _ _ t t' r' M Hr) as (r & Hr0 & Er & _).
    assert (E1 : v2_flag r' = v2_flag r) by apply Er. assert (E2 : v2_vis2err r' = v2_vis2err r) by apply Er. rewrite E1, E2.
    exact (proj1 (proj2 (cf_flagging _ (rd_conforms _ (ready d Hd)))) t r Hi Hr0).
  - destruct (from_t3 t' Ht) as (d & t & Hd & Hi & M & _). destruct (record_of _ _ _ _ t t' r' M Hr) as (r & Hr0 & Er & _).
    assert (E1 : t3_flag r' = t3_flag r) by apply Er. assert (E2 : t3_t3amperr r' = t3_t3amperr r) by apply Er.
    assert (E3 : t3_t3phierr r' = t3_t3phierr r) by apply Er. rewrite E1, E2, E3.
    exact (proj2 (proj2 (cf_flagging _ (rd_conforms _ (ready d Hd)))) t r Hi Hr0).
Qed.
Lemma merge_t3amp : t3amp_rule out.
Proof.
  intros t' r' j a e Ht Hr. destruct (from_t3 t' Ht) as (d & t & Hd & Hi & M & _).
  destruct (record_of _ _ _ _ t t' r' M Hr) as (r & Hr0 & Er & _).
  assert (E1 : t3_flag r' = t3_flag r) by apply Er. assert (E2 : t3_t3amperr r' = t3_t3amperr r) by apply Er.
  assert (E3 : t3_t3amp r' = t3_t3amp r) by apply Er. rewrite E1, E2, E3.
  exact (cf_t3amp _ (rd_conforms _ (ready d Hd)) t r j a e Hi Hr0).
Qed.
Lemma merge_order : order_rule out.
Proof.
  intros w' j a b Hw. destruct (proj1 (Forall_forall _ _) (waves_from_inputs ins out W H) w' Hw) as (d & w & Hd & Hi & Ew).
  apply (f_equal wv_eff_wave) in Ew. cbn in Ew. rewrite Ew. exact (cf_order _ (rd_conforms _ (ready d Hd)) w j a b Hi).
Qed.
Lemma merge_time : time_rule out.
Proof.
  assert (Z0 : nonzero_time f64_zero = false) by reflexivity.
  assert (T : forall d n x, In d ins -> (h_content (o_header d) = "OIFITS2"%string -> nonzero_time x = false) ->
    (h_content (o_header d) <> "OIFITS2"%string -> n = 1) -> nonzero_time (if n =? 1 then f64_zero else x) = false).
  { intros d n x Hd H1 H2. destruct (n =? 1) eqn:En; [exact Z0|]. apply H1.
    destruct (string_dec (h_content (o_header d)) "OIFITS2") as [V|V]; [exact V|]. rewrite (H2 V) in En. discriminate. }
  intros _. split; [|split]; intros t' r' Ht Hr.
  - destruct (from_vis t' Ht) as (d & t & Hd & Hi & M & _). destruct (record_of _ _ _ _ t t' r' M Hr) as (r & Hr0 & _ & ->).
    pose proof (rd_conforms _ (ready d Hd)) as Cf. apply (T d); [exact Hd| |].
    + intros V. destruct (cf_time _ Cf V) as (P & _). exact (P t r Hi Hr0).
    + intros V. destruct (cf_revisions _ Cf) as (_ & _ & _ & P & _). exact (proj2 (proj1 (Forall_forall _ _) P t Hi) V).
  - destruct (from_vis2 t' Ht) as (d & t & Hd & Hi & M & _). destruct (record_of _ _ _ _ t t' r' M Hr) as (r & Hr0 & _ & ->).
    pose proof (rd_conforms _ (ready d Hd)) as Cf. apply (T d); [exact Hd| |].
    + intros V. destruct (cf_time _ Cf V) as (_ & P & _). exact (P t r Hi Hr0).
    + intros V. destruct (cf_revisions _ Cf) as (_ & _ & _ & _ & P & _). exact (proj2 (proj1 (Forall_forall _ _) P t Hi) V).
  - destruct (from_t3 t' Ht) as (d & t & Hd & Hi & M & _). destruct (record_of _ _ _ _ t t' r' M Hr) as (r & Hr0 & _ & ->).
    pose proof (rd_conforms _ (ready d Hd)) as Cf. apply (T d); [exact Hd| |].
    + intros V. destruct (cf_time _ Cf V) as (_ & _ & P). exact (P t r Hi Hr0).
    + intros V. destruct (cf_revisions _ Cf) as (_ & _ & _ & _ & _ & P & _). exact (proj2 (proj1 (Forall_forall _ _) P t Hi) V).
Qed.
Lemma merge_flux : flux_rule out.
Proof.
  intros t' Ht. destruct (from_flux t' Ht) as (d & t & Hd & Hi & (_ & _ & Ex & _ & _ & F) & A & _).
  assert (S : forall P : Z -> Prop, Forall (fun r => P (fr_sta_index r)) (tb_record t) ->
    Forall (fun r => P (fr_sta_index r)) (tb_record t')).
  { intros P HP. apply Forall_forall. intros r' Hr. destruct (Forall2_in_r _ _ _ _ F Hr) as (r & Hr0 & Er).
    apply (f_equal fr_sta_index) in Er. cbn in Er. rewrite Er. exact (proj1 (Forall_forall _ _) HP r Hr0). }
  destruct (cf_flux _ (rd_conforms _ (ready d Hd)) t Hi) as (P1 & P2). rewrite Ex. split.
  - intros Hc. destruct (P1 Hc) as (Q1 & Q2). split; [now apply (proj1 A)|]. exact (S (fun z => z = -1) Q2).
  - intros Hc. destruct (P2 Hc) as (Q1 & Q2 & Q3). split; [exact (array_named d _ _ Hd A Q1)|]. split; [|exact Q3].
    exact (S (fun z => z <> -1) Q2).
Qed.

(** *** Presence of tables *)
Lemma some_table {A B} (tabs : oi_fits -> list A) (P : oi_fits * A -> B -> Prop) d l : Forall2 P (from_inputs tabs ins) l ->
  In d ins -> tabs d <> [] -> l <> [].
Proof.
  intros F Hd Hn ->. inversion F as [E|]. destruct (tabs d) as [|t q] eqn:Et; [contradiction|].
  assert (Hin : In (d, t) (from_inputs tabs ins)).
  { apply in_flat_map. exists d. split; [exact Hd|]. rewrite Et. now left. }
  rewrite <- E in Hin. destruct Hin.
Qed.
Lemma some_named d : In d ins -> (o_arrayList d <> [] -> o_arrayList out <> [])
  /\ (o_wavelengthList d <> [] -> o_wavelengthList out <> []).
Proof.
  intros Hd. pose proof (wf_parts_intro ins W) as P. destruct (merge_inv _ _ H) as [R].
  destruct (merge_tables_inv ar_arrname ar_set_arrname "array" match_oi_array copy_oi_array
    array_good same_stations (fun _ _ => eq_refl) array_good_rename same_stations_rename
    array_matching_sound array_copy_sound _ _ _ (wp_arrays _ P) (mr_arrays _ _ R)) as [_ Ra].
  destruct (merge_tables_inv wv_insname wv_set_insname "ins" match_oi_wavelength copy_oi_wavelength
    wave_good same_wavebands (fun _ _ => eq_refl) wave_good_rename same_wavebands_rename
    wave_matching_sound wave_copy_sound _ _ _ (wp_waves _ P) (mr_waves _ _ R)) as [_ Rw].
  cbn [tl_list] in Ra, Rw. split; intros Hn.
  - destruct (Forall2_in_l _ _ _ _ Ra (in_map o_arrayList _ _ Hd)) as (h & _ & _ & R2).
    destruct (exists_last Hn) as (l & a & El). destruct (R2 l a [] El) as (c & Hc & _); [intros []|].
    intros Eq. rewrite Eq in Hc. destruct Hc.
  - destruct (Forall2_in_l _ _ _ _ Rw (in_map o_wavelengthList _ _ Hd)) as (h & _ & _ & R2).
    destruct (exists_last Hn) as (l & a & El). destruct (R2 l a [] El) as (c & Hc & _); [intros []|].
    intros Eq. rewrite Eq in Hc. destruct Hc.
Qed.
Lemma merge_tables_present : ins <> [] -> tables_present out.
Proof.
  intros Hn. destruct ins as [|d l] eqn:Ei; [contradiction|]. rewrite <- Ei in *.
  assert (Hd : In d ins) by (rewrite Ei; now left). clear Hn Ei l.
  pose proof (ready d Hd) as M. destruct (some_named d Hd) as (S1 & S2).
  destruct (cf_tables _ (rd_conforms _ M)) as (_ & T2 & T3). unfold tables_present. cbv zeta.
  split; [intros _; apply S1, (vn_arrays _ (conforming_needs d M))|]. split; [now apply S2|].
  destruct T3 as [T|[T|[T|(_ & T)]]].
  - left. exact (some_table o_visList _ d _ (kept_vis_partial ins out W H) Hd T).
  - right. left. exact (some_table o_vis2List _ d _ (kept_vis2 ins out W H) Hd T).
  - right. right. left. exact (some_table o_t3List _ d _ (kept_t3 ins out W H) Hd T).
  - right. right. right. split; [exact out_two|]. exact (some_table o_fluxList _ d _ (kept_flux ins out W H) Hd T).
Qed.

(** *** Header *)
Lemma dates_of : Forall dated ins -> exists dates, Forall2 observed_on ins dates.
Proof.
  clear. intros F. induction F as [|d l (x & Hx) F (xs & IH)]; [exists []; constructor|]. exists (x :: xs). now constructor.
Qed.
Lemma merge_header : Forall dated ins -> header_rule out.
Proof.
  intros Dt _. assert (HF : Forall header_fits ins) by (eapply Forall_impl; [|exact Ready]; apply rd_header).
  destruct (header_ok ins out HF H) as (_ & Hdate & K1 & K2 & K3 & K4 & K5 & K6 & _).
  assert (U : "UNKNOWN"%string <> ""%string) by discriminate.
  repeat apply Forall_cons; try apply Forall_nil.
  1,4,5,6,7,8: eapply keyword_there; [eassumption|exact U].
  - rewrite Hdate. discriminate.
  - destruct (dates_of Dt) as (dates & F).
    destruct (Exists_dec (fun o : option (Z * Z * Z) => o <> None) dates) as [X|X].
    { intros [x|]; [left; discriminate|right; intros n; now apply n]. }
    + apply Exists_exists in X as ([e|] & Hx & Nx); [|contradiction].
      destruct (date_obs_earliest ins dates out e F Hx H) as (y & m & dd & -> & _). unfold iso_date.
      discriminate.
    + rewrite (date_obs_none ins out); [discriminate| |exact H]. apply Forall_forall. intros d Hd.
      destruct (Forall2_in_l _ _ _ _ F Hd) as ([e|] & He & Ho); [|exact Ho].
      exfalso. apply X. apply Exists_exists. exists (Some e). split; [exact He|discriminate].
Qed.

Lemma merge_conforms : ins <> [] -> Forall dated ins -> conforms out.
Proof.
  intros Hn Dt. constructor.
  - now apply merge_tables_present.
  - exact merge_revisions.
  - now apply merge_header.
  - exact merge_keywords.
  - exact merge_refmap.
  - exact (proj1 (proj2 (targets_facts ins out W H))).
  - exact merge_targets.
  - exact merge_arrname.
  - exact merge_elements.
  - exact (proj1 (merge_arrname out_two)).
  - exact merge_corr.
  - exact merge_flagging.
  - exact merge_t3amp.
  - exact merge_order.
  - exact merge_time.
  - exact merge_flux.
Qed.
Lemma merge_passes : ins <> [] -> Forall dated ins -> Forall fluxes_nonempty ins -> passes out.
Proof.
  intros Hn Dt Fn. pose proof (merge_conforms Hn Dt) as Cf.
  apply passes_iff; [| | | | |exact Cf].
  - exact (merged_wf ins out W H).
  - repeat split; intros; apply array_there.
  - repeat split; intros; apply corr_there.
  - intros t' Ht. destruct (from_flux t' Ht) as (d & t & Hd & Hi & (_ & _ & _ & _ & _ & F) & _).
    pose proof (proj1 (Forall_forall _ _) Fn d Hd t Hi) as Ne. intros Eq. rewrite Eq in F. inversion F. congruence.
  - apply conforms_uniform; apply Cf.
Qed.
End Merge.
