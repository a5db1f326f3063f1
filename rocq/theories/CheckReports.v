(** The violations each check reports. *)
From Verif Require Import BaseLemmas FileModel FileSpec FileProofs MergeProofs CheckModel CheckSpec
  CheckProofs.
From Coq Require Import Lia.
Open Scope Z_scope.

Lemma strlen_zero s : (strlen s =? 0) = is_empty s.
Proof. destruct s; reflexivity. Qed.
Lemma strlen_pos s : (strlen s >? 0) = negb (is_empty s).
Proof. destruct s; reflexivity. Qed.

Lemma seq_report (c : check_result -> res check_result) k v1 v2 r :
  c r = report v1 r -> (forall r, k r = report v2 r) -> bind (c r) k = report (v1 ++ v2) r.
Proof.
  intros H1 H2. rewrite report_app, H1. destruct (report v1 r); try reflexivity. apply H2.
Qed.
Lemma breach_report b level desc text r : breach_if b level desc (loc text) r = report (when b level desc text) r.
Proof. rewrite report_when. reflexivity. Qed.
Lemma breach_report_eq b b' level desc text r : b = b' ->
  breach_if b level desc (loc text) r = report (when b' level desc text) r.
Proof. intros ->. apply breach_report. Qed.

Lemma num_none {A} n (l : list A) : len_is n l = true -> (n =? 0) = no_table l.
Proof. intros H. apply len_is_eq in H. subst. unfold no_table. destruct l; reflexivity. Qed.

Lemma revisions_report {A} name (rv : A -> Z) rev l r :
  check_revisions name rv rev l r = report (bad_revisions name rv rev l) r.
Proof.
  unfold check_revisions, bad_revisions. apply each_table_report. intros k a r' _. apply breach_report.
Qed.

Lemma tables_report o : wf_fits o = true ->
  check_tables o = report (missing_tables o ++ revision_violations o) init_check_result.
Proof.
  intros W. assert (L : len_is (o_numArray o) (o_arrayList o) = true
    /\ len_is (o_numWavelength o) (o_wavelengthList o) = true
    /\ len_is (o_numVis o) (o_visList o) = true /\ len_is (o_numVis2 o) (o_vis2List o) = true
    /\ len_is (o_numT3 o) (o_t3List o) = true /\ len_is (o_numFlux o) (o_fluxList o) = true).
  { unfold wf_fits in W. rewrite !andb_true_iff in W. tauto. }
  destruct L as (L1 & L2 & L3 & L4 & L5 & L6).
  apply num_none in L1, L2, L3, L4, L5, L6.
  unfold check_tables, missing_tables, revision_violations, is_oi_fits_two. cbv zeta.
  rewrite L1, L2, L3, L4, L5, L6.
  destruct (str_eqb (h_content (o_header o)) "OIFITS2"); cbn [andb].
  - rewrite <- !app_assoc. repeat (apply seq_report; [apply breach_report|intros ?]).
    apply seq_report; [apply (breach_report _ _ _ "OI_TARGET")|intros ?].
    repeat (apply seq_report; [apply revisions_report|intros ?]). apply revisions_report.
  - change (when false 2 d_missing "No OI_ARRAY table - at least one required") with (@nil violation).
    cbn [app]. rewrite <- !app_assoc. repeat (apply seq_report; [apply breach_report|intros ?]).
    apply seq_report; [apply (breach_report _ _ _ "OI_TARGET")|intros ?].
    repeat (apply seq_report; [apply revisions_report|intros ?]). rewrite app_nil_r. apply revisions_report.
Qed.

Lemma report_nil r : Ok r = report [] r.
Proof. reflexivity. Qed.

Lemma header_report o : check_header o = report (header_violations o) init_check_result.
Proof.
  unfold check_header, header_violations, is_oi_fits_two. cbv zeta. rewrite !strlen_zero.
  destruct (str_eqb (h_content (o_header o)) "OIFITS2") eqn:E; [|apply report_nil].
  cbn [flat_map fst snd].
  do 3 (apply seq_report; [apply breach_report|intros ?]).
  apply str_eqb_eq in E. rewrite E. cbn [is_empty negb breach_if bind].
  do 4 (apply seq_report; [apply breach_report|intros ?]). rewrite app_nil_r. apply breach_report.
Qed.

Lemma one_of_2 s a b : one_of [a; b] s = str_eqb s a || str_eqb s b.
Proof. unfold one_of. cbn [existsb]. rewrite orb_false_r. reflexivity. Qed.
Lemma one_of_3 s a b : one_of [""%string; a; b] s = is_empty s || str_eqb s a || str_eqb s b.
Proof.
  unfold one_of. cbn [existsb]. rewrite orb_false_r, orb_assoc. f_equal. f_equal. destruct s; reflexivity.
Qed.
Lemma one_of_4 s a b c : one_of [""%string; a; b; c] s = is_empty s || str_eqb s a || str_eqb s b || str_eqb s c.
Proof.
  unfold one_of. cbn [existsb]. rewrite orb_false_r, !orb_assoc. do 3 f_equal. destruct s; reflexivity.
Qed.

Lemma keywords_report o : check_keywords o = report (keyword_violations o) init_check_result.
Proof.
  unfold check_keywords, keyword_violations. cbv zeta.
  apply seq_report; [|intros ?; apply seq_report; [|intros ?]].
  - apply each_table_report. intros k a r' _. apply breach_report_eq.
    rewrite one_of_2, negb_orb. reflexivity.
  - apply each_table_report. intros k t r' _. apply seq_report; [|intros ?]; apply breach_report_eq.
    + rewrite one_of_4, strlen_pos, !negb_orb. unfold is_oi_fits_two. now rewrite !andb_assoc.
    + rewrite one_of_3, strlen_pos, !negb_orb. unfold is_oi_fits_two. now rewrite !andb_assoc.
  - apply each_table_report. intros k t r' _. apply seq_report; [|intros ?]; apply breach_report_eq.
    + rewrite !negb_orb. reflexivity.
    + rewrite one_of_3, strlen_pos, !negb_orb. reflexivity.
Qed.

Lemma visrefmap_report o : check_visrefmap o = report (visrefmap_violations o) init_check_result.
Proof.
  unfold check_visrefmap, visrefmap_violations. cbv zeta. apply each_table_report. intros k t r' _.
  rewrite report_app. unfold differential.
  destruct (str_eqb (vx_amptyp (tb_x t)) "differential" || str_eqb (vx_phityp (tb_x t)) "differential");
    cbn [negb andb].
  - rewrite report_when. change (loc ?s) with (short s). unfold at_table.
    destruct (breach_if _ _ _ _ _); reflexivity.
  - rewrite report_when. cbn [breach_if bind]. apply breach_report.
Qed.

Lemma unique_report o : wf_fits o = true ->
  check_unique_targets o = report (duplicate_violations o) init_check_result.
Proof.
  intros W. assert (L : len_is (ot_ntarget (o_targets o)) (ot_targ (o_targets o)) = true).
  { apply wf_fits_parts in W. tauto. }
  unfold check_unique_targets, duplicate_violations.
  set (show := fun t => mk_violation 1 _ _).
  set (body := fun (t : target) (s : list string * check_result) =>
    if existsb (str_eqb (tg_target t)) (fst s)
    then r <- set_violation (show t) (snd s) ;; Ok (fst s, r)
    else Ok (tg_target t :: fst s, snd s)).
  rewrite (for_ext _ _ (fun i s => t <- get (ot_targ (o_targets o)) i ;; body t s)).
  2:{ intros i [l r] _. destruct (get _ i); reflexivity. }
  rewrite (for_foreach body) by (apply len_is_eq, L).
  assert (G : forall l seen seen' r, (forall n, In n seen <-> In n seen') ->
    (s <- foreach l body (seen, r) ;; Ok (snd s)) = report (map show (repeated_rows seen' l)) r).
  { induction l as [|t l IH]; intros seen seen' r H; [reflexivity|].
    cbn [foreach repeated_rows]. rewrite map_app, report_app. unfold body at 1. cbn [fst snd].
    destruct (existsb (str_eqb (tg_target t)) seen) eqn:E.
    - destruct (in_dec string_dec (tg_target t) seen') as [I|I].
      + cbn [map]. unfold report at 1. cbn [foreach].
        destruct (set_violation (show t) r) as [r'| |]; try reflexivity. cbn [bind].
        apply IH. intros n. cbn [In]. rewrite <- H. split; [tauto|]. intros [<-|?]; [|assumption].
        apply H, I.
      + exfalso. apply I, H. apply existsb_exists in E as (n & Hn & E). apply str_eqb_eq in E. now subst n.
    - destruct (in_dec string_dec (tg_target t) seen') as [I|I].
      + exfalso. apply H in I. assert (existsb (str_eqb (tg_target t)) seen = true); [|congruence].
        apply existsb_exists. exists (tg_target t). split; [exact I|apply str_eqb_refl].
      + cbn [map]. unfold report at 1. cbn [foreach bind]. apply IH. intros n. cbn [In]. rewrite <- H. tauto. }
  rewrite <- (G _ [] []) by tauto. reflexivity.
Qed.

(** ** Targets *)

Lemma unlisted_ok o i : wf_fits o = true ->
  exists x, oi_fits_lookup_target o i = Ok x /\ is_none x = unlisted o i.
Proof.
  intros W. assert (L : wf_targets (o_targets o) = true) by (apply wf_fits_parts in W; tauto).
  unfold oi_fits_lookup_target. rewrite search_ok by exact L. eexists. split; [reflexivity|].
  unfold unlisted. induction (ot_targ (o_targets o)) as [|t l IH]; [reflexivity|].
  cbn [find existsb]. destruct (tg_target_id t =? i); [reflexivity|exact IH].
Qed.

Lemma target_ids_report {X R} o name (id : R -> Z) (l : list (dtab X R)) r : wf_fits o = true ->
  (forall t, In t l -> len_is (tb_numrec t) (tb_record t) = true) ->
  check_target_ids o name id l r = report (unlisted_in o name id l) r.
Proof.
  intros W L. unfold check_target_ids, unlisted_in. apply each_table_report. intros k t r1 Ht.
  apply (for_records_report _ (at_table name k) " record "
           (fun i rec r => found <- oi_fits_lookup_target o (id rec) ;;
              breach_if (is_none found) OI_BREACH_NOT_OIFITS "Reference to missing target record"
                (loc (at_record name k (i + 1))) r)); [apply L, Ht|].
  intros i a r2 _. destruct (unlisted_ok o (id a) W) as (x & -> & E). cbn [bind]. rewrite E.
  apply breach_report.
Qed.

Lemma vis_len o t : wf_fits o = true -> In t (o_visList o) -> len_is (tb_numrec t) (tb_record t) = true.
Proof.
  intros W H. apply wf_fits_parts in W as W'. destruct W' as (_ & _ & _ & _ & _ & V & _).
  rewrite forallb_forall in V. exact (wf_dtab_len _ _ (V t H)).
Qed.
Lemma vis2_len o t : wf_fits o = true -> In t (o_vis2List o) -> len_is (tb_numrec t) (tb_record t) = true.
Proof.
  intros W H. apply wf_fits_parts in W as W'. destruct W' as (_ & _ & _ & _ & _ & _ & V & _).
  rewrite forallb_forall in V. exact (wf_dtab_len _ _ (V t H)).
Qed.
Lemma t3_len o t : wf_fits o = true -> In t (o_t3List o) -> len_is (tb_numrec t) (tb_record t) = true.
Proof.
  intros W H. apply wf_fits_parts in W as W'. destruct W' as (_ & _ & _ & _ & _ & _ & _ & V & _).
  rewrite forallb_forall in V. exact (wf_dtab_len _ _ (V t H)).
Qed.
Lemma flux_len o t : wf_fits o = true -> In t (o_fluxList o) -> len_is (tb_numrec t) (tb_record t) = true.
Proof.
  intros W H. apply wf_fits_parts in W as W'. destruct W' as (_ & _ & _ & _ & _ & _ & _ & _ & V & _).
  rewrite forallb_forall in V. exact (wf_dtab_len _ _ (V t H)).
Qed.

Lemma targets_report o : wf_fits o = true ->
  check_targets_present o = report (target_violations o) init_check_result.
Proof.
  intros W. unfold check_targets_present, target_violations.
  apply seq_report; [|intros ?; apply seq_report; [|intros ?; apply seq_report; [|intros ?]]];
    apply target_ids_report; try exact W; intros t.
  - apply vis_len, W. - apply vis2_len, W. - apply t3_len, W. - apply flux_len, W.
Qed.

(** ** ARRNAME and stations *)

Lemma arrname_set_report {X R} name (req : dtab X R -> bool) l r :
  check_arrname_set name req l r = report (unnamed name req l) r.
Proof.
  unfold check_arrname_set, unnamed. apply each_table_report. intros k t r1 _.
  rewrite strlen_zero. apply breach_report.
Qed.
Lemma arrname_report o : check_arrname o = report (arrname_violations o) init_check_result.
Proof.
  unfold check_arrname, arrname_violations, is_oi_fits_two. cbv zeta.
  destruct (str_eqb (h_content (o_header o)) "OIFITS2"); [|apply report_nil].
  apply seq_report.
  - unfold unnamed_inspol. apply foreach_report. intros t r _. rewrite strlen_zero.
    apply (breach_report _ _ _ "OI_INSPOL #0").
  - intros ?. repeat (apply seq_report; [apply arrname_set_report|intros ?]). apply arrname_set_report.
Qed.

Lemma station_report o name location sta r : forallb wf_array (o_arrayList o) = true ->
  name <> ""%string -> array_found o name ->
  check_station o name location sta r = report (when (no_station o name sta) 2 d_element location) r.
Proof.
  intros W Hn F. unfold check_station. specialize (F Hn). unfold oi_fits_lookup_element, no_station.
  assert (E : oi_fits_lookup_array o name = find (fun a => String.eqb (ar_arrname a) name) (o_arrayList o)).
  { destruct (oi_fits_lookup_array o name) as [a|]; cbn [lookup_result] in F.
    - destruct F as (l1 & l2 & -> & <- & H). clear - H. symmetry.
      induction l1 as [|b l1 IH]; cbn [app find].
      + now rewrite String.eqb_refl.
      + destruct (String.eqb_spec (ar_arrname b) (ar_arrname a)) as [e|_].
        * exfalso. apply (H b); [left; reflexivity|exact e].
        * apply IH. intros c Hc. apply H. right. exact Hc.
    - symmetry. clear - F. induction (o_arrayList o) as [|b l IH]; [reflexivity|]. cbn [find].
      destruct (String.eqb_spec (ar_arrname b) name) as [e|_].
      + exfalso. apply (F b); [left; reflexivity|exact e].
      + apply IH. intros c Hc. apply F. right. exact Hc. }
  rewrite E. destruct (find _ (o_arrayList o)) as [a|] eqn:Fd.
  - apply find_some in Fd as [Ha _]. rewrite forallb_forall in W.
    rewrite search_ok by (apply W, Ha). cbn [bind].
    apply breach_report_eq. induction (ar_elem a) as [|e l IH]; [reflexivity|].
    cbn [find existsb]. destruct (el_sta_index e =? sta); [reflexivity|exact IH].
  - cbn [bind is_none]. apply breach_report.
Qed.

Lemma stations_report {X R} o name (stations : R -> list Z) (l : list (dtab X R)) r :
  forallb wf_array (o_arrayList o) = true ->
  (forall t, In t l -> len_is (tb_numrec t) (tb_record t) = true /\ array_found o (tb_arrname t)) ->
  check_stations o name stations l r = report (stationless o name stations l) r.
Proof.
  intros W L. unfold check_stations, stationless. apply each_table_report. intros k t r1 Ht.
  rewrite strlen_pos. destruct (L t Ht) as [Ln Fd].
  destruct (is_empty (tb_arrname t)) eqn:En; cbn [negb]; [apply report_nil|].
  assert (Hn : tb_arrname t <> ""%string) by (intros e; rewrite e in En; discriminate).
  apply (for_records_report _ (at_table name k) " record "
           (fun i rec r => foreach (stations rec)
              (check_station o (tb_arrname t) (at_record name k (i + 1))) r)); [exact Ln|].
  intros i a r2 _. apply foreach_report. intros sta r3 _. apply station_report; auto.
Qed.

Lemma elements_report o : wf_fits o = true -> arrays_found o ->
  check_elements_present o = report (element_violations o) init_check_result.
Proof.
  intros W (F1 & F2 & F3 & F4 & F5).
  assert (Wa : forallb wf_array (o_arrayList o) = true) by (apply wf_fits_parts in W; tauto).
  unfold check_elements_present, element_violations.
  apply seq_report; [|intros ?; apply seq_report; [|intros ?; apply seq_report; [|intros ?; apply seq_report; [|intros ?]]]].
  - apply each_table_report. intros k t r1 Ht. rewrite strlen_pos.
    destruct (is_empty (is_arrname t)) eqn:En; cbn [negb].
    + unfold report. cbn [foreach]. unfold set_violation. cbn [v_level v_desc v_text].
      destruct (set_result _ _ _ r1) as [x| |] eqn:E; cbn [bind]; rewrite <- E; reflexivity.
    + assert (Hn : is_arrname t <> ""%string) by (intros e; rewrite e in En; discriminate).
      apply (for_records_report _ (at_table OI_INSPOL k) " record "
           (fun i rec r => check_station o (is_arrname t) (at_record OI_INSPOL k (i + 1)) (ip_sta_index rec) r)).
      { assert (Wi : forallb wf_inspol (o_inspolList o) = true) by (apply wf_fits_parts in W; tauto).
        rewrite forallb_forall in Wi. specialize (Wi t Ht). unfold wf_inspol in Wi.
        rewrite andb_true_iff in Wi. tauto. }
      intros i a r2 _. apply station_report; auto.
  - apply (stations_report o "OI_VIS" (fun r => [fst (vr_sta_index r); snd (vr_sta_index r)])); [exact Wa|].
    intros t Ht. split; [apply (vis_len o), Ht; exact W|apply F2, Ht].
  - apply (stations_report o "OI_VIS2" (fun r => [fst (v2_sta_index r); snd (v2_sta_index r)])); [exact Wa|].
    intros t Ht. split; [apply (vis2_len o), Ht; exact W|apply F3, Ht].
  - apply (stations_report o "OI_T3" (fun r => [fst (fst (t3_sta_index r)); snd (fst (t3_sta_index r));
      snd (t3_sta_index r)])); [exact Wa|].
    intros t Ht. split; [apply (t3_len o), Ht; exact W|apply F4, Ht].
  - apply (stations_report o "OI_FLUX" flux_stations); [exact Wa|].
    intros t Ht. split; [apply (flux_len o), Ht; exact W|apply F5, Ht].
Qed.

(** ** Correlations *)

Lemma corr_missing o name : corr_found o name ->
  (strlen name >? 0) && is_none (oi_fits_lookup_corr o name)
  = negb (is_empty name) && negb (existsb (fun c => String.eqb (co_corrname c) name) (o_corrList o)).
Proof.
  intros F. rewrite strlen_pos. destruct name as [|c s]; [reflexivity|]. cbn [is_empty negb andb].
  specialize (F ltac:(discriminate)). destruct (oi_fits_lookup_corr o (String c s)) as [x|]; cbn [lookup_result] in F.
  - destruct F as (l1 & l2 & -> & E & _). cbn [is_none]. symmetry. apply negb_false_iff.
    apply existsb_exists. exists x. split; [apply in_or_app; right; left; reflexivity|].
    apply String.eqb_eq, E.
  - cbn [is_none]. symmetry. apply negb_true_iff. destruct (existsb _ (o_corrList o)) eqn:E; [|reflexivity].
    apply existsb_exists in E as (x & Hx & E). apply String.eqb_eq in E. exfalso. exact (F x Hx E).
Qed.
Lemma corrnames_report {X R} o name (l : list (dtab X R)) r :
  (forall t, In t l -> corr_found o (tb_corrname t)) ->
  check_corrnames o name l r = report (uncorrelated o name l) r.
Proof.
  intros F. unfold check_corrnames, uncorrelated. apply each_table_report. intros k t r1 Ht.
  apply breach_report_eq. apply corr_missing, F, Ht.
Qed.
Lemma corr_report o : corrs_found o ->
  check_corr_present o = report (corr_violations o) init_check_result.
Proof.
  intros (F1 & F2 & F3 & F4). unfold check_corr_present, corr_violations.
  apply seq_report; [|intros ?; apply seq_report; [|intros ?; apply seq_report; [|intros ?]]];
    apply corrnames_report; assumption.
Qed.

(** ** Channels *)

(** A loop over channels reading parallel arrays *)
Lemma channels_report {X R C} name desc (flag : R -> list bool) (bad : R -> Z -> res bool)
  (vals : R -> list C) (badc : C -> bool) (l : list (dtab X R)) r :
  (forall t, In t l -> len_is (tb_numrec t) (tb_record t) = true) ->
  (forall t rec, In t l -> In rec (tb_record t) ->
     len_is (tb_nwave t) (flag rec) = true /\ len_is (tb_nwave t) (vals rec) = true) ->
  (forall t rec j c, In t l -> In rec (tb_record t) -> 0 <= j -> nth_error (vals rec) (Z.to_nat j) = Some c ->
     bad rec j = Ok (badc c)) ->
  check_channels name desc flag bad l r
  = report (over_tables name l (fun p t => over_records p (tb_record t) (fun p rec =>
      over_channels p (combine (flag rec) (vals rec))
        (fun p c => when (negb (fst c) && badc (snd c)) 2 desc p)))) r.
Proof.
  intros L1 L2 B. unfold check_channels. apply each_table_report. intros k t r1 Ht.
  rewrite (for_ext (tb_numrec t) _ (fun i r0 => rec <- get (tb_record t) i ;;
     for_ (tb_nwave t) (fun j r0 => f <- get (flag rec) j ;;
        if f : bool then Ok r0 else b <- bad rec j ;;
          breach_if b OI_BREACH_NOT_OIFITS desc (loc (at_channel name k (i + 1) (j + 1))) r0) r0)).
  2:{ intros i s Hi. destruct (get (tb_record t) i) as [rec| |] eqn:G; [reflexivity| |].
      - unfold get in G. destruct (i <? 0); [discriminate|]. destruct (nth_error _ _); discriminate.
      - exfalso. pose proof (L1 t Ht) as Ln. apply len_is_eq in Ln. unfold get in G.
        destruct (Z.ltb_spec i 0); [lia|]. destruct (nth_error (tb_record t) (Z.to_nat i)) eqn:N; [discriminate|].
        apply nth_error_None in N. lia. }
  apply (for_records_report _ (at_table name k) " record "
     (fun i rec r0 => for_ (tb_nwave t) (fun j r0 => f <- get (flag rec) j ;;
        if f : bool then Ok r0 else b <- bad rec j ;;
          breach_if b OI_BREACH_NOT_OIFITS desc (loc (at_channel name k (i + 1) (j + 1))) r0) r0)); [apply L1, Ht|].
  intros i rec r2 Hr. destruct (L2 t rec Ht Hr) as [Lf Lv].
  apply len_is_eq in Lf as Lf', Lv as Lv'.
  rewrite (for_ext (tb_nwave t) _ (fun j r0 => c <- get (combine (flag rec) (vals rec)) j ;;
      breach_if (negb (fst c) && badc (snd c)) OI_BREACH_NOT_OIFITS desc (loc (at_channel name k (i + 1) (j + 1))) r0)).
  - apply (for_records_report _ (at_record name k (i + 1)) " channel "
     (fun j c r0 => breach_if (negb (fst c) && badc (snd c)) OI_BREACH_NOT_OIFITS desc (loc (at_channel name k (i + 1) (j + 1))) r0)).
    + unfold len_is. rewrite combine_length. apply Z.eqb_eq. lia.
    + intros j c r3 _. apply breach_report.
  - intros j s Hj.
    destruct (nth_error (flag rec) (Z.to_nat j)) as [f|] eqn:Nf; [|apply nth_error_None in Nf; lia].
    destruct (nth_error (vals rec) (Z.to_nat j)) as [c|] eqn:Nv; [|apply nth_error_None in Nv; lia].
    rewrite (get_at _ _ f) by (lia || exact Nf).
    assert (Nc : nth_error (combine (flag rec) (vals rec)) (Z.to_nat j) = Some (f, c)).
    { revert Nf Nv. generalize (Z.to_nat j) (flag rec) (vals rec). induction n; intros [|x lx] [|y ly]; cbn; try discriminate.
      - intros [= ->] [= ->]. reflexivity. - apply IHn. }
    rewrite (get_at _ _ _ (proj1 Hj) Nc). cbn [bind fst snd]. destruct f; cbn [negb andb].
    + reflexivity.
    + rewrite (B t rec j c Ht Hr (proj1 Hj) Nv). reflexivity.
Qed.

Lemma negative_ok a j c : 0 <= j -> nth_error a (Z.to_nat j) = Some c -> negative a j = Ok (below_zero c).
Proof. intros Hj N. unfold negative. rewrite (get_at _ _ _ Hj N). reflexivity. Qed.
Lemma nth_combine {A B} (a : list A) (b : list B) n x y : nth_error (combine a b) n = Some (x, y) ->
  nth_error a n = Some x /\ nth_error b n = Some y.
Proof.
  revert a b. induction n; intros [|u a] [|v b]; cbn; try discriminate.
  - intros [= -> ->]. auto. - apply IHn.
Qed.
Lemma negative2_ok a b j c : 0 <= j -> nth_error (combine a b) (Z.to_nat j) = Some c ->
  negative2 a b j = Ok (below_zero (fst c) || below_zero (snd c)).
Proof.
  intros Hj N. destruct c as [x y]. apply nth_combine in N as [N1 N2]. unfold negative2.
  rewrite (negative_ok _ _ _ Hj N1). cbn [bind fst snd].
  destruct (below_zero x); [reflexivity|]. apply (negative_ok _ _ _ Hj N2).
Qed.
Lemma len_combine {A B} n (a : list A) (b : list B) : len_is n a = true -> len_is n b = true -> len_is n (combine a b) = true.
Proof. unfold len_is. rewrite combine_length, !Z.eqb_eq. lia. Qed.

Lemma vis_rec_len o t r : wf_fits o = true -> In t (o_visList o) -> In r (tb_record t) ->
  wf_vis_record (tb_x t) (tb_nwave t) r = true.
Proof.
  intros W H. assert (V : forallb wf_vis (o_visList o) = true) by (apply wf_fits_parts in W; tauto).
  rewrite forallb_forall in V. specialize (V t H). unfold wf_vis, wf_dtab in V.
  rewrite !andb_true_iff, forallb_forall in V. intros Hr. apply V, Hr.
Qed.
Lemma vis2_rec_len o t r : wf_fits o = true -> In t (o_vis2List o) -> In r (tb_record t) ->
  wf_vis2_record (tb_nwave t) r = true.
Proof.
  intros W H. assert (V : forallb wf_vis2 (o_vis2List o) = true) by (apply wf_fits_parts in W; tauto).
  rewrite forallb_forall in V. specialize (V t H). unfold wf_vis2, wf_dtab in V.
  rewrite !andb_true_iff, forallb_forall in V. intros Hr. apply V, Hr.
Qed.
Lemma t3_rec_len o t r : wf_fits o = true -> In t (o_t3List o) -> In r (tb_record t) ->
  wf_t3_record (tb_nwave t) r = true.
Proof.
  intros W H. assert (V : forallb wf_t3 (o_t3List o) = true) by (apply wf_fits_parts in W; tauto).
  rewrite forallb_forall in V. specialize (V t H). unfold wf_t3, wf_dtab in V.
  rewrite !andb_true_iff, forallb_forall in V. intros Hr. apply V, Hr.
Qed.

Lemma flagging_report o : wf_fits o = true ->
  check_flagging o = report (flagging_violations o) init_check_result.
Proof.
  intros W. unfold check_flagging, flagging_violations. cbv zeta.
  apply seq_report; [|intros ?; apply seq_report; [|intros ?]].
  - apply (channels_report _ _ vr_flag _ (fun r => combine (vr_visamperr r) (vr_visphierr r))
      (fun c => below_zero (fst c) || below_zero (snd c))).
    + intros t. apply vis_len, W.
    + intros t rec Ht Hr. pose proof (vis_rec_len o t rec W Ht Hr) as V. unfold wf_vis_record in V.
      rewrite !andb_true_iff in V. split; [tauto|apply len_combine; tauto].
    + intros t rec j c _ _ Hj N. apply negative2_ok; assumption.
  - apply (channels_report _ _ v2_flag _ v2_vis2err below_zero).
    + intros t. apply vis2_len, W.
    + intros t rec Ht Hr. pose proof (vis2_rec_len o t rec W Ht Hr) as V. unfold wf_vis2_record in V.
      rewrite !andb_true_iff in V. tauto.
    + intros t rec j c _ _ Hj N. apply negative_ok; assumption.
  - apply (channels_report _ _ t3_flag _ (fun r => combine (t3_t3amperr r) (t3_t3phierr r))
      (fun c => below_zero (fst c) || below_zero (snd c))).
    + intros t. apply t3_len, W.
    + intros t rec Ht Hr. pose proof (t3_rec_len o t rec W Ht Hr) as V. unfold wf_t3_record in V.
      rewrite !andb_true_iff in V. split; [tauto|apply len_combine; tauto].
    + intros t rec j c _ _ Hj N. apply negative2_ok; assumption.
Qed.

Lemma t3amp_report o : wf_fits o = true ->
  check_t3amp o = report (t3amp_violations o) init_check_result.
Proof.
  intros W. unfold check_t3amp, t3amp_violations.
  apply (channels_report _ _ t3_flag _ (fun r => combine (t3_t3amp r) (t3_t3amperr r))
      (fun c => above_one (fst c) (snd c))).
  - intros t. apply t3_len, W.
  - intros t rec Ht Hr. pose proof (t3_rec_len o t rec W Ht Hr) as V. unfold wf_t3_record in V.
    rewrite !andb_true_iff in V. split; [tauto|apply len_combine; tauto].
  - intros t rec j [a e] _ _ Hj N. apply nth_combine in N as [N1 N2].
    rewrite (get_at _ _ _ Hj N1), (get_at _ _ _ Hj N2). reflexivity.
Qed.

(** ** Wavelengths *)

Lemma waveorder_report o : wf_fits o = true ->
  check_waveorder o = report (order_violations o) init_check_result.
Proof.
  intros W. assert (V : forallb wf_wavelength (o_wavelengthList o) = true) by (apply wf_fits_parts in W; tauto).
  rewrite forallb_forall in V.
  unfold check_waveorder, order_violations. apply foreach_report. intros w r Hw.
  specialize (V w Hw). unfold wf_wavelength in V. rewrite andb_true_iff in V. destruct V as [L _].
  apply len_is_eq in L. rewrite L. set (l := wv_eff_wave w) in *. set (n := length l) in *.
  replace (Z.to_nat (Z.of_nat n - 1)) with (n - 1)%nat by lia.
  set (f := fun j => when (out_of_order l j) 1 _ _). set (body := fun i r => x <- get l i ;; _).
  assert (B : forall j r, (S j < n)%nat -> body (Z.of_nat (S j)) r = report (f (S j)) r).
  { intros j r0 Hj. unfold body, f. cbn [out_of_order].
    destruct (nth_error l (S j)) as [b|] eqn:Nb; [|apply nth_error_None in Nb; lia].
    destruct (nth_error l j) as [a|] eqn:Na; [|apply nth_error_None in Na; lia].
    rewrite (get_nth_error _ _ _ Nb). cbn [bind].
    replace (Z.of_nat (S j) - 1) with (Z.of_nat j) by lia. rewrite (get_nth_error _ _ _ Na). cbn [bind].
    replace (Z.of_nat (S j) + 1) with (Z.of_nat (S (S j))) by lia.
    replace (1 + Z.of_nat (S j)) with (Z.of_nat (S (S j))) by lia.
    destruct (nth_error l (S (S j))) as [c|] eqn:Nc.
    - assert (S (S j) < n)%nat by (apply nth_error_Some; fold n; congruence).
      destruct (Z.ltb_spec (Z.of_nat (S (S j))) (Z.of_nat n)); [|lia].
      rewrite (get_nth_error _ _ _ Nc). unfold flt, fgt. destruct (SFltb b a); cbn [bind orb]; apply breach_report.
    - apply nth_error_None in Nc.
      destruct (Z.ltb_spec (Z.of_nat (S (S j))) (Z.of_nat n)); [unfold n in *; lia|].
      unfold flt. destruct (SFltb b a); cbn [bind]; apply breach_report. }
  assert (G : forall m j r, (j + m = n - 1)%nat ->
     for_from m (Z.of_nat (S j)) body r = report (flat_map f (seq (S j) m)) r).
  { induction m as [|m IH]; intros j r0 E; [reflexivity|]. cbn [for_from seq flat_map].
    rewrite report_app, B by lia. destruct (report (f (S j)) r0); try reflexivity. cbn [bind].
    replace (Z.of_nat (S j) + 1) with (Z.of_nat (S (S j))) by lia. apply IH. lia. }
  specialize (G (n - 1)%nat 0%nat r ltac:(lia)). change (Z.of_nat 1) with 1 in G.
  change (for_from (n - 1) 1 body r = report (flat_map f (seq 0 n)) r). rewrite G.
  destruct n as [|n']; [reflexivity|].
  cbn [seq flat_map]. replace (S n' - 1)%nat with n' by lia.
  unfold f at 2. cbn [out_of_order]. reflexivity.
Qed.

(** ** TIME *)

Lemma times_report {X R} name (time : R -> f64) (l : list (dtab X R)) r :
  (forall t, In t l -> len_is (tb_numrec t) (tb_record t) = true) ->
  check_times name time l r = report (timed name time l) r.
Proof.
  intros L. unfold check_times, timed. apply each_table_report. intros k t r1 Ht.
  apply (for_records_report _ (at_table name k) " record "
           (fun i rec r => breach_if (fgt (fabs (time rec)) c_1em10) OI_BREACH_WARNING
        "Non-zero TIME values in OIFITS v2 data table" (loc (at_record name k (i + 1))) r)); [apply L, Ht|].
  intros i a r2 _. apply breach_report.
Qed.
Lemma time_report o : wf_fits o = true -> check_time o = report (time_violations o) init_check_result.
Proof.
  intros W. unfold check_time, time_violations, is_oi_fits_two. cbv zeta.
  destruct (str_eqb (h_content (o_header o)) "OIFITS2"); [|apply report_nil].
  apply seq_report; [|intros ?; apply seq_report; [|intros ?]]; apply times_report; intros t.
  - apply vis_len, W. - apply vis2_len, W. - apply t3_len, W.
Qed.

(** ** Fluxes *)

Lemma flux_report o : fluxes_nonempty o -> check_flux o = report (flux_violations o) init_check_result.
Proof.
  intros N. unfold check_flux, flux_violations. cbv zeta. apply each_table_report. intros k t r1 Ht.
  assert (E : exists rec l, tb_record t = rec :: l /\ first_station t = fr_sta_index rec).
  { unfold first_station. specialize (N t Ht). destruct (tb_record t); [congruence|]. eauto. }
  destruct E as (rec & l & Er & ->). rewrite Er. cbn [get Z.ltb Z.compare Z.to_nat nth_error bind].
  rewrite !strlen_pos, !strlen_zero.
  destruct (Ascii.eqb (fx_calstat (tb_x t)) "C"); [|destruct (Ascii.eqb (fx_calstat (tb_x t)) "U")].
  - apply seq_report; [|intros ?]; apply breach_report.
  - apply seq_report; [|intros ?; apply seq_report; [|intros ?]]; apply breach_report.
  - apply report_nil.
Qed.
