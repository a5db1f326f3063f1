(** Filtering introduces no violation of the rules of oicheck.c. *)
From Verif Require Import Base BaseLemmas FloatModel FloatLemmas Types FileModel FileSpec FileProofs FilterModel FilterSpec
  FilterLemmas FilterProofs FilterApply FilterResults FilterWhole FilterMain CheckModel CheckSpec CheckRules CheckWhole
  ToolModel ToolPrograms FilterTables ConformSpec.
From Coq Require Import Lia.
Open Scope list_scope.
Open Scope Z_scope.

(** ** Passing all checks *)

Lemma passes_iff o : wf_fits o = true -> arrays_found o -> corrs_found o -> fluxes_nonempty o -> uniform_stations o ->
  passes o <-> conforms o.
Proof.
  intros W A C Fx U.
  assert (D : forall c rule level, decides c rule level ->
    ((exists r, c = Ok r /\ cr_level r = OI_BREACH_NONE) <-> rule)).
  { intros c rule level (r & E & _ & I). split.
    - intros (r' & E' & L). rewrite E in E'. injection E' as <-. now apply I.
    - intros H. exists r. split; [exact E|]. now apply I. }
  assert (T : (exists r, check_tables o = Ok r /\ cr_level r = OI_BREACH_NONE) <-> tables_present o /\ revisions_ok o).
  { assert (S : {tables_present o \/ revisions_ok o} + {~ tables_present o /\ ~ revisions_ok o}).
    { destruct (missing_tables o) eqn:E1; [left; left; now apply missing_nil|].
      destruct (revision_violations o) eqn:E2; [left; right; now apply revision_nil|].
      right. split; intros H; [apply missing_nil in H|apply revision_nil in H]; congruence. }
    destruct S as [S|(S1 & S2)].
    - apply (D _ _ 2). now apply tables_decides.
    - rewrite (tables_abort o W S1 S2). split; [intros (r & [=] & _)|tauto]. }
  assert (S : (exists r, check_elements_present o = Ok r /\ cr_level r = OI_BREACH_NONE) <-> elements_present o /\ inspol_named o).
  { assert (S : {inspol_named o \/ elements_present o} + {~ inspol_named o /\ ~ elements_present o}).
    { destruct (sel d_arrname (element_violations o)) eqn:E1; [left; left; now apply element_named|].
      destruct (sel d_element (element_violations o)) eqn:E2; [left; right; now apply element_nil|].
      right. split; intros H; [apply element_named in H|apply element_nil in H]; congruence. }
    destruct S as [S|(S1 & S2)].
    - apply (D _ _ 2). now apply elements_decides.
    - rewrite (elements_abort o W A S1 S2). split; [intros (r & [=] & _)|tauto]. }
  assert (V : (exists r, check_visrefmap o = Ok r /\ cr_level r = OI_BREACH_NONE) <-> refmap_rule o).
  { unfold refmap_rule. destruct (visrefmap_level o) as (r & E & I & _). split.
    - intros (r' & E' & L). rewrite E in E'. injection E' as <-. now apply I.
    - intros H. exists r. split; [exact E|]. now apply I. }
  unfold passes, checks.
  split.
  - intros H. do 14 (apply Forall_inv in H as ?; apply Forall_inv_tail in H).
    constructor; try tauto.
    + apply (D _ _ _ (header_decides o)). assumption.
    + apply (D _ _ _ (keywords_decides o)). assumption.
    + apply (D _ _ _ (unique_decides o W)). assumption.
    + apply (D _ _ _ (targets_decides o W)). assumption.
    + apply (D _ _ _ (arrname_decides o)). assumption.
    + apply (D _ _ _ (corr_decides o C)). assumption.
    + apply (D _ _ _ (flagging_decides o W)). assumption.
    + apply (D _ _ _ (t3amp_decides o W)). assumption.
    + apply (D _ _ _ (waveorder_decides o W)). assumption.
    + apply (D _ _ _ (time_decides o W)). assumption.
    + apply (D _ _ _ (flux_decides o Fx U)). assumption.
  - intros []. repeat apply Forall_cons; try apply Forall_nil.
    + tauto.
    + now apply (D _ _ _ (header_decides o)).
    + now apply (D _ _ _ (keywords_decides o)).
    + tauto.
    + now apply (D _ _ _ (unique_decides o W)).
    + now apply (D _ _ _ (targets_decides o W)).
    + now apply (D _ _ _ (arrname_decides o)).
    + tauto.
    + now apply (D _ _ _ (corr_decides o C)).
    + now apply (D _ _ _ (flagging_decides o W)).
    + now apply (D _ _ _ (t3amp_decides o W)).
    + now apply (D _ _ _ (waveorder_decides o W)).
    + now apply (D _ _ _ (time_decides o W)).
    + now apply (D _ _ _ (flux_decides o Fx U)).
Qed.
Lemma conforms_uniform o : keyword_rule o -> flux_rule o -> uniform_stations o.
Proof.
  intros (_ & _ & K) F t Ht. pose proof (proj1 (Forall_forall _ _) K t Ht) as ([Hc|[Hc|[]]] & _).
  - left. now apply (F t Ht).
  - right. now apply (F t Ht).
Qed.

(** ** Lists *)

Lemma kept_in {A B} (P : A -> Prop) (Q : A -> B -> Prop) l m a : kept P Q l m -> In a l -> P a ->
  exists b, In b m /\ Q a b.
Proof.
  intros H. induction H as [|x b l m HP HQ H IH|x l m HP H IH]; intros Ha Pa.
  - destruct Ha.
  - destruct Ha as [->|Ha]; [exists b; cbn; auto|]. destruct (IH Ha Pa) as (y & ? & ?). exists y; cbn; auto.
  - destruct Ha as [->|Ha]; [contradiction|auto].
Qed.
Lemma kept_first {A} (P p : A -> Prop) l m a : kept P eq l m -> first_match p l a -> P a -> first_match p m a.
Proof.
  intros H (l1 & l2 & E & Ha & Hb) Pa. revert l1 E Hb.
  induction H as [|x b l m HP -> H IH|x l m HP H IH]; intros l1 E Hb.
  - destruct l1; discriminate.
  - destruct l1 as [|y l1]; injection E as -> ->.
    + exists [], m. split; [reflexivity|]. split; [exact Ha|]. intros ? [].
    + destruct (IH l1 eq_refl) as (m1 & m2 & -> & _ & Hm); [intros c Hc; apply Hb; now right|].
      exists (y :: m1), m2. split; [reflexivity|]. split; [exact Ha|]. intros c [->|Hc]; [apply Hb; now left|auto].
  - destruct l1 as [|y l1]; injection E as -> ->; [contradiction|].
    apply (IH l1 eq_refl). intros c Hc. apply Hb. now right.
Qed.
Lemma kept_nil_left {A B} (P : A -> Prop) (Q : A -> B -> Prop) m : kept P Q [] m -> m = [].
Proof. now inversion 1. Qed.
Lemma kept_channels {A} (P : A -> Prop) (l out : list A) idx :
  kept (fun j => exists x, nth_error l j = Some x /\ P x) eq (seq 0 (List.length l)) idx ->
  picks idx l out -> kept P eq l out.
Proof.
  assert (G : forall suf pre, l = pre ++ suf -> forall idx out,
    kept (fun j => exists x, nth_error l j = Some x /\ P x) eq (seq (List.length pre) (List.length suf)) idx ->
    picks idx l out -> kept P eq suf out).
  { induction suf as [|x suf IH]; intros pre E ix o K Hp; cbn [List.length seq] in K.
    - apply kept_nil_left in K as ->. unfold picks in Hp. destruct o; [constructor|discriminate].
    - assert (Ex : nth_error l (List.length pre) = Some x).
      { rewrite E, nth_error_app2, Nat.sub_diag by lia. reflexivity. }
      assert (E' : l = (pre ++ [x]) ++ suf) by now rewrite <- app_assoc.
      assert (El : S (List.length pre) = List.length (pre ++ [x])) by (rewrite app_length; cbn; lia).
      inversion K as [|j j' s ix' Pj Ej K' E1 E2|j s ix' Pj K' E1 E2]; subst.
      + unfold picks in Hp. cbn [map] in Hp. rewrite Ex in Hp. destruct o as [|y o]; [discriminate|].
        cbn [map] in Hp. injection Hp as <- Hp. rewrite Ex in Pj. destruct Pj as (? & [= <-] & Px).
        apply kept_yes; [exact Px|reflexivity|]. rewrite El in K'. exact (IH _ E' _ _ K' Hp).
      + rewrite Ex in Pj. apply kept_no; [intros Px; apply Pj; eauto|]. rewrite El in K'. exact (IH _ E' _ _ K' Hp). }
  intros K Hp. exact (G l [] eq_refl idx out K Hp).
Qed.
Definition ascending (l : list f32) : Prop :=
  forall j a b, nth_error l j = Some a -> nth_error l (S j) = Some b -> SFltb b a = false.
Lemma ascending_tail a l : ascending (a :: l) -> ascending l.
Proof. intros H j x y H1 H2. exact (H (S j) x y H1 H2). Qed.
Lemma ascending_kept lo hi l m : kept (fun x => ~ beyond lo hi x) eq l m -> ascending l -> ascending m
  /\ forall a b m', ascending (a :: l) -> m = b :: m' -> SFltb b a = false.
Proof.
  intros K. induction K as [|x y l m HP -> K IH|x l m HP K IH]; intros H.
  - split; [exact H|discriminate].
  - destruct (IH (ascending_tail _ _ H)) as (I1 & I2). split.
    + intros [|j] a b Ha Hb; cbn [nth_error] in Ha, Hb.
      * injection Ha as <-. destruct m as [|b' m]; [discriminate|]. injection Hb as ->. exact (I2 y b m H eq_refl).
      * exact (I1 j a b Ha Hb).
    + intros a b m' Ha [= <- _]. exact (Ha 0%nat a y eq_refl eq_refl).
  - destruct (IH (ascending_tail _ _ H)) as (I1 & I2). split; [exact I1|].
    intros a b m' Ha Em.
    assert (Nx : is_nan x = false).
    { destruct (is_nan x) eqn:Ex; [|reflexivity]. destruct x; try discriminate. exfalso. apply HP.
      intros [B|B]; unfold SFltb in B; [rewrite SFcompare_nan_l in B|rewrite SFcompare_nan_r in B]; discriminate. }
    apply (flt_false_trans a x b Nx).
    + exact (Ha 0%nat a x eq_refl eq_refl).
    + exact (I2 x b m' H Em).
Qed.

(** ** The filter *)

Lemma picks_nth {A} idx (col out : list A) m x : picks idx col out -> nth_error out m = Some x ->
  exists j, nth_error idx m = Some j /\ nth_error col j = Some x.
Proof.
  unfold picks. intros H Hm. assert (E : nth_error (map Some out) m = Some (Some x)) by (rewrite nth_error_map, Hm; reflexivity).
  rewrite <- H, nth_error_map in E. destruct (nth_error idx m) as [j|]; [|discriminate]. injection E as E. eauto.
Qed.

Section Filter.
Variables (pow_half : f64 -> f64) (d : oi_fits) (f f' : filter_spec) (d' : oi_fits).
Hypothesis C : consistent d.
Hypothesis HF : fresh_filter f.
Hypothesis E : apply_oi_filter pow_half d f = Ok (f', d').
Notation kvis := (kind_vis pow_half). Notation kvis2 := (kind_vis2 pow_half). Notation kt3 := (kind_t3 pow_half).
Let Hvis := main_vis pow_half d f f' d' C HF E.
Let Hvis2 := main_vis2 pow_half d f f' d' C HF E.
Let Ht3 := main_t3 pow_half d f f' d' C HF E.
Let Hflux := main_flux pow_half d f f' d' C HF E.
Let Hinspol := main_inspol pow_half d f f' d' C HF E.
Let Harr := main_arrays pow_half d f f' d' C HF E.
Let Hcorr := main_corrs pow_half d f f' d' C HF E.
Let Hwave := main_waves pow_half d f f' d' C HF E.
Let Hhead := main_header pow_half d f f' d' C HF E.
Let Htarg := main_targets pow_half d f f' d' C HF E.

Lemma table_from {X R} (k : kind R) Q (l l' : list (dtab X R)) t' : filtered_tables k f d Q l l' -> In t' l' ->
  exists t, In t l /\ same_keywords t t' /\ table_accepted k f d t.
Proof. intros H Ht. destruct (kept_true _ _ _ _ H t' Ht) as (t & H1 & H2 & H3 & _). eauto. Qed.
Lemma tables_forall {X R} (k : kind R) Q (l l' : list (dtab X R)) (P : dtab X R -> Prop) : filtered_tables k f d Q l l' ->
  (forall t t', same_keywords t t' -> P t -> P t') -> Forall P l -> Forall P l'.
Proof.
  intros H HP HL. apply Forall_forall. intros t' Ht. destruct (table_from _ _ _ _ _ H Ht) as (t & H1 & H2 & _).
  apply (HP t t' H2). exact (proj1 (Forall_forall _ _) HL t H1).
Qed.

Lemma filter_header : header_rule d -> header_rule d'.
Proof. unfold header_rule. now rewrite Hhead. Qed.
Lemma filter_revisions : revisions_ok d -> revisions_ok d'.
Proof.
  unfold revisions_ok. rewrite Hhead, Htarg. intros (H1 & H2 & H3 & H4 & H5 & H6 & H7).
  assert (T : forall {X R} (Q : Z -> Prop) (t t' : dtab X R), same_keywords t t' -> Q (tb_revision t) -> Q (tb_revision t')).
  { intros X R Q t t' (-> & _). auto. }
  split; [|split; [|split; [|split; [|split; [|split]]]]].
  - revert H1. unfold target_out. destruct (0 <=? _); [|auto]. destruct (rev _); auto.
  - apply Forall_forall. intros a Ha. destruct (kept_true _ _ _ _ Harr a Ha) as (b & Hb & _ & ->).
    exact (proj1 (Forall_forall _ _) H2 a Hb).
  - apply Forall_forall. intros w Hw. destruct (kept_true _ _ _ _ Hwave w Hw) as (b & Hb & _ & -> & _).
    exact (proj1 (Forall_forall _ _) H3 b Hb).
  - eapply tables_forall; [exact Hvis| |exact H4]. intros t t' (-> & _). auto.
  - eapply tables_forall; [exact Hvis2| |exact H5]. intros t t' (-> & _). auto.
  - eapply tables_forall; [exact Ht3| |exact H6]. intros t t' (-> & _). auto.
  - intros V. destruct (H7 V) as (F1 & F2 & F3). split; [|split].
    + eapply tables_forall; [exact Hflux| |exact F1]. intros t t' (-> & _). auto.
    + apply Forall_forall. intros a Ha. destruct (kept_true _ _ _ _ Hcorr a Ha) as (b & Hb & _ & ->).
      exact (proj1 (Forall_forall _ _) F2 a Hb).
    + apply Forall_forall. intros t Ht. destruct (kept_true _ _ _ _ Hinspol t Ht) as (b & Hb & _ & -> & _).
      exact (proj1 (Forall_forall _ _) F3 b Hb).
Qed.
Lemma filter_keywords : keyword_rule d -> keyword_rule d'.
Proof.
  unfold keyword_rule. rewrite Hhead. intros (H1 & H2 & H3). split; [|split].
  - apply Forall_forall. intros a Ha. destruct (kept_true _ _ _ _ Harr a Ha) as (b & Hb & _ & ->).
    exact (proj1 (Forall_forall _ _) H1 a Hb).
  - intros V. eapply tables_forall; [exact Hvis| |exact (H2 V)]. intros t t' (_ & _ & _ & _ & _ & ->). auto.
  - eapply tables_forall; [exact Hflux| |exact H3]. intros t t' (_ & _ & _ & _ & _ & ->). auto.
Qed.
Lemma filter_refmap : refmap_rule d -> refmap_rule d'.
Proof.
  intros H t' Ht. destruct (table_from _ _ _ _ _ Hvis Ht) as (t & H1 & (_ & _ & _ & _ & _ & Hx) & _).
  unfold refmap_missing, refmap_surplus. rewrite Hx. exact (H t H1).
Qed.
Lemma filter_unique : unique_rule d -> unique_rule d'.
Proof.
  unfold unique_rule. rewrite Htarg. unfold target_out. destruct (0 <=? _); [|auto].
  intros _. destruct (rev _); cbn; [constructor|]. constructor; [intros []|constructor].
Qed.
Lemma filter_arrname : arrname_rule d -> arrname_rule d'.
Proof.
  unfold arrname_rule. rewrite Hhead. intros H V. destruct (H V) as (H1 & H2 & H3 & H4 & H5).
  split; [|split; [|split; [|split]]].
  - apply Forall_forall. intros t Ht. destruct (kept_true _ _ _ _ Hinspol t Ht) as (b & Hb & _ & _ & _ & _ & -> & _).
    exact (proj1 (Forall_forall _ _) H1 b Hb).
  - eapply tables_forall; [exact Hvis| |exact H2]. intros t t' (_ & _ & -> & _). auto.
  - eapply tables_forall; [exact Hvis2| |exact H3]. intros t t' (_ & _ & -> & _). auto.
  - eapply tables_forall; [exact Ht3| |exact H4]. intros t t' (_ & _ & -> & _). auto.
  - eapply tables_forall; [exact Hflux| |exact H5]. intros t t' (_ & _ & -> & _ & _ & ->). auto.
Qed.
Lemma filter_inspol_named : inspol_named d -> inspol_named d'.
Proof.
  intros H1. apply Forall_forall. intros t Ht. destruct (kept_true _ _ _ _ Hinspol t Ht) as (b & Hb & _ & _ & _ & _ & -> & _).
  exact (proj1 (Forall_forall _ _) H1 b Hb).
Qed.

(** *** Targets *)
Lemma target_kept id id' : In id (map tg_target_id (ot_targ (o_targets d))) -> target_accepted f id -> new_id f id id' ->
  In id' (map tg_target_id (ot_targ (o_targets d'))).
Proof.
  intros Hi Ha Hn. rewrite Htarg. unfold target_out. cbn [compiled f_target_id set_pttns].
  change (f_target_id (compiled f)) with (f_target_id f).
  destruct (Z.leb_spec 0 (f_target_id f)) as [G|G].
  - rewrite (new_id_one f id id' G Hn). apply (accepted_id f id G) in Ha. subst id.
    apply in_map_iff in Hi as (x & Ex & Hx).
    assert (In x (rev (filter (fun x => tg_target_id x =? f_target_id f) (ot_targ (o_targets d))))) as Hr.
    { rewrite <- in_rev. apply filter_In. split; [exact Hx|]. now apply Z.eqb_eq. }
    destruct (rev _) as [|y l]; [destruct Hr|]. now left.
  - now rewrite (new_id_same f id id' G Hn).
Qed.
Lemma filter_targets : targets_present d -> targets_present d'.
Proof.
  intros (H1 & H2 & H3 & H4). cbv zeta in *.
  split; [|split; [|split]]; intros t' r' Ht Hr.
  - destruct (filtered_records _ _ _ _ _ _ t' r' Hvis Ht Hr) as (t & w & r & A1 & A2 & (A3 & _) & idx & _ & (N & _) & _).
    exact (target_kept _ _ (H1 t r A1 A2) A3 N).
  - destruct (filtered_records _ _ _ _ _ _ t' r' Hvis2 Ht Hr) as (t & w & r & A1 & A2 & (A3 & _) & idx & _ & (N & _) & _).
    exact (target_kept _ _ (H2 t r A1 A2) A3 N).
  - destruct (filtered_records _ _ _ _ _ _ t' r' Ht3 Ht Hr) as (t & w & r & A1 & A2 & (A3 & _) & idx & _ & (N & _) & _).
    exact (target_kept _ _ (H3 t r A1 A2) A3 N).
  - destruct (filtered_records _ _ _ _ _ _ t' r' Hflux Ht Hr) as (t & w & r & A1 & A2 & (A3 & _) & idx & _ & (N & _) & _).
    exact (target_kept _ _ (H4 t r A1 A2) A3 N).
Qed.

(** *** Arrays and correlations *)
Lemma station_kept n sta : station_exists d n sta -> glob_match (f_arrname f) n -> uses_arrname d' n ->
  station_exists d' n sta.
Proof.
  intros (a & Hf & Hs) G U. exists a. split; [|exact Hs].
  apply (kept_first _ _ _ _ _ Harr Hf). destruct Hf as (_ & _ & _ & En & _). now rewrite En.
Qed.
Lemma record_stations {X R} (k : kind R) Q (l l' : list (dtab X R)) t' r' : filtered_tables k f d Q l l' ->
  In t' l' -> In r' (tb_record t') -> exists t w r, In t l /\ In r (tb_record t) /\ Q t w r r'
    /\ tb_arrname t' = tb_arrname t /\ glob_match (f_arrname f) (tb_arrname t).
Proof.
  intros H Ht Hr. destruct (kept_true _ _ _ _ H t' Ht) as (t & H1 & (_ & G & _) & (_ & _ & Ea & _) & w & _ & K & _).
  destruct (kept_true _ _ _ _ K r' Hr) as (r & H3 & H4 & H5). exists t, w, r. auto.
Qed.
Lemma filter_elements : elements_present d -> elements_present d'.
Proof.
  intros (H0 & H1 & H2 & H3 & H4).
  assert (U1 : forall t, In t (o_visList d') -> tb_arrname t <> ""%string -> uses_arrname d' (tb_arrname t)).
  { intros t Ht Hn. split; [exact Hn|]. left. eauto. }
  assert (U2 : forall t, In t (o_vis2List d') -> tb_arrname t <> ""%string -> uses_arrname d' (tb_arrname t)).
  { intros t Ht Hn. split; [exact Hn|]. right. left. eauto. }
  assert (U3 : forall t, In t (o_t3List d') -> tb_arrname t <> ""%string -> uses_arrname d' (tb_arrname t)).
  { intros t Ht Hn. split; [exact Hn|]. right. right. left. eauto. }
  assert (U4 : forall t, In t (o_fluxList d') -> tb_arrname t <> ""%string -> uses_arrname d' (tb_arrname t)).
  { intros t Ht Hn. split; [exact Hn|]. right. right. right. eauto. }
  split; [|split; [|split; [|split]]].
  - intros t' r' Ht Hn Hr.
    destruct (kept_true _ _ _ _ Hinspol t' Ht) as (t & A1 & (G & _ & U) & _ & _ & _ & Ea & _ & _ & _ & K).
    destruct (kept_true _ _ _ _ K r' Hr) as (r & A3 & _ & _ & _ & _ & _ & Es & _).
    rewrite Ea, Es in *. apply station_kept; auto.
  - intros t' r' Ht Hn Hr.
    destruct (record_stations _ _ _ _ t' r' Hvis Ht Hr) as (t & w & r & A1 & A2 & (idx & _ & (_ & S & _) & _) & A4 & A5).
    destruct S as (_ & _ & _ & _ & _ & _ & _ & _ & _ & Es). pose proof (U1 t' Ht Hn) as U. rewrite A4, Es in *.
    destruct (H1 t r A1 Hn A2). split; apply station_kept; auto.
  - intros t' r' Ht Hn Hr.
    destruct (record_stations _ _ _ _ t' r' Hvis2 Ht Hr) as (t & w & r & A1 & A2 & (idx & _ & S & _) & A4 & A5).
    destruct S as (_ & _ & _ & _ & _ & _ & _ & Es & _). pose proof (U2 t' Ht Hn) as U. rewrite A4, Es in *.
    destruct (H2 t r A1 Hn A2). split; apply station_kept; auto.
  - intros t' r' Ht Hn Hr.
    destruct (record_stations _ _ _ _ t' r' Ht3 Ht Hr) as (t & w & r & A1 & A2 & (idx & _ & S & _) & A4 & A5).
    destruct S as (_ & _ & _ & _ & _ & _ & _ & _ & _ & _ & Es & _). pose proof (U3 t' Ht Hn) as U. rewrite A4, Es in *.
    destruct (H3 t r A1 Hn A2) as (? & ? & ?). split; [|split]; apply station_kept; auto.
  - intros t' r' Ht Hn Hr.
    destruct (record_stations _ _ _ _ t' r' Hflux Ht Hr) as (t & w & r & A1 & A2 & (idx & _ & S & _) & A4 & A5).
    destruct S as (_ & _ & _ & _ & Es & _). pose proof (U4 t' Ht Hn) as U. rewrite A4, Es in *.
    intros Hs. apply station_kept; auto.
Qed.
Lemma filter_corr : corr_rule d -> corr_rule d'.
Proof.
  assert (G : forall n, In n (map co_corrname (o_corrList d)) -> glob_match (f_corrname f) n -> uses_corrname d' n ->
    In n (map co_corrname (o_corrList d'))).
  { intros n Hn M U. apply in_map_iff in Hn as (c & <- & Hc).
    destruct (kept_in _ _ _ _ c Hcorr Hc (conj M U)) as (c' & Hc' & <-). now apply in_map. }
  assert (T : forall X R (k : kind R) Q (l l' : list (dtab X R)), filtered_tables k f d Q l l' ->
    (forall t, In t l' -> tb_corrname t <> ""%string -> uses_corrname d' (tb_corrname t)) ->
    Forall (fun t => tb_corrname t <> ""%string -> In (tb_corrname t) (map co_corrname (o_corrList d))) l ->
    Forall (fun t => tb_corrname t <> ""%string -> In (tb_corrname t) (map co_corrname (o_corrList d'))) l').
  { intros X R k Q l l' HT HU HL. apply Forall_forall. intros t' Ht Hn. pose proof (HU t' Ht Hn) as U.
    destruct (table_from _ _ _ _ _ HT Ht) as (t & A1 & (_ & _ & _ & _ & Ec & _) & (_ & _ & _ & M & _)).
    rewrite Ec in *. apply G; auto. exact (proj1 (Forall_forall _ _) HL t A1 Hn). }
  intros (H1 & H2 & H3 & H4). split; [|split; [|split]].
  - eapply T; [exact Hvis| |exact H1]. intros t Ht Hn. split; [exact Hn|]. left. eauto.
  - eapply T; [exact Hvis2| |exact H2]. intros t Ht Hn. split; [exact Hn|]. right. left. eauto.
  - eapply T; [exact Ht3| |exact H3]. intros t Ht Hn. split; [exact Hn|]. right. right. left. eauto.
  - eapply T; [exact Hflux| |exact H4]. intros t Ht Hn. split; [exact Hn|]. right. right. right. eauto.
Qed.

(** *** Channels *)
Lemma flag_from {R} (k : kind R) w idx r r' m j : accepted_channels f w idx -> flags_updated k f w idx r r' ->
  nth_error idx m = Some j -> nth_error (k_flag k r') m = Some false -> nth_error (k_flag k r) j = Some false.
Proof.
  intros Ha (_ & HU) Hj Hm.
  assert (exists x, nth_error (wv_eff_wave w) j = Some x) as (x & Hx).
  { apply nth_error_In in Hj. destruct (kept_true _ _ _ _ Ha j Hj) as (j0 & _ & (x & Hx & _) & ->). eauto. }
  destruct (HU m j x Hj Hx) as (b & b' & H1 & H2 & H3). rewrite H2 in Hm. injection Hm as ->.
  destruct b; [|exact H1]. destruct H3 as (_ & H3). discriminate H3. now left.
Qed.
Lemma errors_kept {R} (k : kind R) w idx r r' (err err' : list f64) : accepted_channels f w idx ->
  flags_updated k f w idx r r' -> picks idx err err' -> errors_ok (k_flag k r) err -> errors_ok (k_flag k r') err'.
Proof.
  intros Ha HU Hp H m e Hm He. destruct (picks_nth _ _ _ _ _ Hp He) as (j & Hj & Hc).
  exact (H j e (flag_from k w idx r r' m j Ha HU Hj Hm) Hc).
Qed.
Lemma filter_flagging : flagging_rule d -> flagging_rule d'.
Proof.
  intros (H1 & H2 & H3). split; [|split]; intros t' r' Ht Hr.
  - destruct (filtered_records _ _ _ _ _ _ t' r' Hvis Ht Hr) as (t & w & r & A1 & A2 & _ & idx & A & K & U).
    destruct K as (_ & _ & _ & K1 & _ & K2 & _). destruct (H1 t r A1 A2).
    split; [exact (errors_kept kvis w idx r r' _ _ A U K1 H)|exact (errors_kept kvis w idx r r' _ _ A U K2 H0)].
  - destruct (filtered_records _ _ _ _ _ _ t' r' Hvis2 Ht Hr) as (t & w & r & A1 & A2 & _ & idx & A & K & U).
    destruct K as (_ & _ & _ & _ & _ & _ & _ & _ & _ & K1).
    exact (errors_kept kvis2 w idx r r' _ _ A U K1 (H2 t r A1 A2)).
  - destruct (filtered_records _ _ _ _ _ _ t' r' Ht3 Ht Hr) as (t & w & r & A1 & A2 & _ & idx & A & K & U).
    destruct K as (_ & _ & _ & _ & _ & _ & _ & _ & _ & _ & _ & _ & K1 & _ & K2). destruct (H3 t r A1 A2).
    split; [exact (errors_kept kt3 w idx r r' _ _ A U K1 H)|exact (errors_kept kt3 w idx r r' _ _ A U K2 H0)].
Qed.
Lemma above_one_nan e : above_one f64_nan e = false.
Proof. unfold above_one. change (f64_sub f64_nan f64_one) with S754_nan. unfold SFltb. now rewrite SFcompare_nan_r. Qed.
Lemma filter_t3amp : t3amp_rule d -> t3amp_rule d'.
Proof.
  intros H t' r' m a e Ht Hr Hm Ha He.
  destruct (filtered_records _ _ _ _ _ _ t' r' Ht3 Ht Hr) as (t & w & r & A1 & A2 & _ & idx & A & K & U).
  destruct K as (_ & _ & _ & _ & _ & _ & _ & _ & _ & _ & _ & K1 & K2 & _).
  destruct (picks_nth _ _ _ _ _ K2 He) as (j & Hj & Hc).
  unfold picks_or_nan in K1. destruct (f_accept_t3amp f).
  - destruct (picks_nth _ _ _ _ _ K1 Ha) as (j' & Hj' & Ha'). rewrite Hj in Hj'. injection Hj' as <-.
    exact (H t r j a e A1 A2 (flag_from kt3 w idx r r' m j A U Hj Hm) Ha' Hc).
  - rewrite K1, nth_error_map, Hj in Ha. injection Ha as <-. apply above_one_nan.
Qed.
Lemma filter_order : order_rule d -> order_rule d'.
Proof.
  intros H w' j a b Hw Ha Hb. destruct (kept_true _ _ _ _ Hwave w' Hw) as (w & A1 & _ & _ & _ & idx & A & P & _).
  pose proof (kept_channels (fun x => ~ beyond (f_wave_lo f) (f_wave_hi f) x) _ _ _ A P) as K.
  apply ascending_kept in K as (K & _); [|intros i x y; apply (H w i x y A1)]. exact (K j a b Ha Hb).
Qed.
Lemma filter_time : time_rule d -> time_rule d'.
Proof.
  unfold time_rule. rewrite Hhead. intros H V. destruct (H V) as (H1 & H2 & H3). split; [|split]; intros t' r' Ht Hr.
  - destruct (filtered_records _ _ _ _ _ _ t' r' Hvis Ht Hr) as (t & w & r & A1 & A2 & _ & idx & _ & (_ & (-> & _) & _) & _).
    exact (H1 t r A1 A2).
  - destruct (filtered_records _ _ _ _ _ _ t' r' Hvis2 Ht Hr) as (t & w & r & A1 & A2 & _ & idx & _ & (_ & -> & _) & _).
    exact (H2 t r A1 A2).
  - destruct (filtered_records _ _ _ _ _ _ t' r' Ht3 Ht Hr) as (t & w & r & A1 & A2 & _ & idx & _ & (_ & -> & _) & _).
    exact (H3 t r A1 A2).
Qed.
Lemma flux_stations (P : Z -> Prop) t' : In t' (o_fluxList d') -> exists t, In t (o_fluxList d) /\ same_keywords t t'
  /\ (Forall (fun r => P (fr_sta_index r)) (tb_record t) -> Forall (fun r => P (fr_sta_index r)) (tb_record t')).
Proof.
  intros Ht. destruct (kept_true _ _ _ _ Hflux t' Ht) as (t & A1 & _ & K & w & _ & KR & _).
  exists t. split; [exact A1|]. split; [exact K|]. intros HP. apply Forall_forall. intros r' Hr.
  destruct (kept_true _ _ _ _ KR r' Hr) as (r & A3 & _ & idx & _ & (_ & _ & _ & _ & -> & _) & _).
  exact (proj1 (Forall_forall _ _) HP r A3).
Qed.
Lemma filter_flux : flux_rule d -> flux_rule d'.
Proof.
  intros H t' Ht. split.
  - intros Hc. destruct (flux_stations (fun z => z = -1) t' Ht) as (t & A1 & (_ & _ & Ea & _ & _ & Ex) & S).
    rewrite Ex in Hc. destruct (H t A1) as (H1 & _). destruct (H1 Hc). rewrite Ea. split; [assumption|]. now apply S.
  - intros Hc. destruct (flux_stations (fun z => z <> -1) t' Ht) as (t & A1 & (_ & _ & Ea & _ & _ & Ex) & S).
    rewrite Ex in *. destruct (H t A1) as (_ & H1). destruct (H1 Hc) as (? & ? & ?). rewrite Ea.
    split; [assumption|]. split; [|assumption]. now apply S.
Qed.

(** *** Tables *)
Lemma table_row {X R} (k : kind R) Q (l l' : list (dtab X R)) t' : filtered_tables k f d Q l l' ->
  In t' l' -> table_ready d' t' -> exists r', In r' (tb_record t').
Proof.
  intros H Ht (N & _). destruct (kept_true _ _ _ _ H t' Ht) as (t & _ & _ & _ & w & _ & _ & En).
  destruct (tb_record t') as [|r l0]; [rewrite En in N; cbn in N; lia|]. exists r. now left.
Qed.
Lemma station_array n sta : station_exists d' n sta -> o_arrayList d' <> [].
Proof. intros (a & (l1 & l2 & -> & _) & _). now destruct l1. Qed.
Lemma instrument_there n : uses_insname d' n -> o_wavelengthList d' <> [].
Proof. intros U. destruct (main_resolve_ins pow_half d f f' d' C HF E n U) as (w & (H & _) & _). intros Eq. rewrite Eq in H. destruct H. Qed.
Lemma one_of_list {A} (l : list A) : l <> [] -> exists a, In a l.
Proof. destruct l as [|a l]; [contradiction|]. intros _. exists a. now left. Qed.
Lemma filter_tables : arrname_rule d -> elements_present d -> flux_rule d -> has_data d' -> tables_present d'.
Proof.
  intros HA HE HX HD. apply filter_arrname in HA. apply filter_elements in HE. apply filter_flux in HX.
  destruct HE as (_ & E1 & E2 & E3 & E4).
  destruct (main_ready pow_half d f f' d' C HF E) as (R1 & R2 & R3 & R4).
  unfold tables_present. cbv zeta.
  destruct HD as [[H|[H|H]]|(V & t & Ht & Hc)].
  - destruct (one_of_list _ H) as (t & Ht). split; [|split; [|tauto]].
    + intros V. destruct (HA V) as (_ & A & _). pose proof (proj1 (Forall_forall _ _) A t Ht) as Hn.
      destruct (table_row _ _ _ _ t Hvis Ht (R1 t Ht)) as (r & Hr). exact (station_array _ _ (proj1 (E1 t r Ht Hn Hr))).
    + apply (instrument_there (tb_insname t)). left. eauto.
  - destruct (one_of_list _ H) as (t & Ht). split; [|split; [|tauto]].
    + intros V. destruct (HA V) as (_ & _ & A & _). pose proof (proj1 (Forall_forall _ _) A t Ht) as Hn.
      destruct (table_row _ _ _ _ t Hvis2 Ht (R2 t Ht)) as (r & Hr). exact (station_array _ _ (proj1 (E2 t r Ht Hn Hr))).
    + apply (instrument_there (tb_insname t)). right. left. eauto.
  - destruct (one_of_list _ H) as (t & Ht). split; [|split; [|tauto]].
    + intros V. destruct (HA V) as (_ & _ & _ & A & _). pose proof (proj1 (Forall_forall _ _) A t Ht) as Hn.
      destruct (table_row _ _ _ _ t Ht3 Ht (R3 t Ht)) as (r & Hr). exact (station_array _ _ (proj1 (E3 t r Ht Hn Hr))).
    + apply (instrument_there (tb_insname t)). right. right. left. eauto.
  - split; [|split].
    + intros _. destruct (proj2 (HX t Ht) Hc) as (Hn & Hs & _).
      destruct (table_row _ _ _ _ t Hflux Ht (R4 t Ht)) as (r & Hr).
      exact (station_array _ _ (E4 t r Ht Hn Hr (proj1 (Forall_forall _ _) Hs r Hr))).
    + apply (instrument_there (tb_insname t)). right. right. right. eauto.
    + right. right. right. split; [exact V|]. intros Eq. rewrite Eq in Ht. destruct Ht.
Qed.
Lemma filter_has_data : keyword_rule d -> flux_rule d -> tables_present d' -> has_data d'.
Proof.
  intros HK HX (T1 & _ & T3). apply filter_keywords in HK. apply filter_flux in HX. cbv zeta in *.
  destruct T3 as [H|[H|[H|(V & _)]]]; [left; red; tauto..|].
  destruct (one_of_list _ (T1 V)) as (a & Ha).
  destruct (kept_true _ _ _ _ Harr a Ha) as (b & _ & (_ & Hn & U) & ->).
  destruct U as [(t & Ht & _)|[(t & Ht & _)|[(t & Ht & _)|(t & Ht & En)]]].
  - left. left. intros Eq. rewrite Eq in Ht. destruct Ht.
  - left. right. left. intros Eq. rewrite Eq in Ht. destruct Ht.
  - left. right. right. intros Eq. rewrite Eq in Ht. destruct Ht.
  - right. split; [exact V|]. exists t. split; [exact Ht|]. destruct HK as (_ & _ & K).
    pose proof (proj1 (Forall_forall _ _) K t Ht) as ([Hc|[Hc|[]]] & _); [|now symmetry].
    destruct (proj1 (HX t Ht) (eq_sym Hc)) as (He & _). congruence.
Qed.

Lemma filter_conforms : conforms d -> (conforms d' <-> has_data d').
Proof.
  intros []. split.
  - intros []. now apply filter_has_data.
  - intros HD. constructor.
    + now apply filter_tables.
    + now apply filter_revisions.
    + now apply filter_header.
    + now apply filter_keywords.
    + now apply filter_refmap.
    + now apply filter_unique.
    + now apply filter_targets.
    + now apply filter_arrname.
    + now apply filter_elements.
    + now apply filter_inspol_named.
    + now apply filter_corr.
    + now apply filter_flagging.
    + now apply filter_t3amp.
    + now apply filter_order.
    + now apply filter_time.
    + now apply filter_flux.
Qed.

(** *** Lookup by name *)
Lemma indexes_lookup {A} (nm : A -> string) l h n : indexes nm l h -> NoDup (map nm l) ->
  lookup_result (fun a => nm a = n) l (hash_lookup h n).
Proof.
  intros HI ND. rewrite HI. destruct (find_by nm (rev l) n) as [a|] eqn:F; cbn [lookup_result].
  - apply find_by_Some in F as (Ha & En). apply in_rev in Ha. apply in_split in Ha as (l1 & l2 & ->).
    exists l1, l2. split; [reflexivity|]. split; [exact En|]. intros b Hb Eb.
    rewrite map_app in ND. cbn [map] in ND. apply NoDup_remove_2 in ND. apply ND. apply in_or_app. left.
    rewrite En, <- Eb. now apply in_map.
  - apply find_by_None in F. intros a Ha En. apply F. rewrite map_rev. apply -> in_rev. rewrite <- En. now apply in_map.
Qed.
Lemma kept_names {A B} (P : A -> Prop) (Q : A -> B -> Prop) (na : A -> string) (nb : B -> string) l m : kept P Q l m ->
  (forall a b, Q a b -> nb b = na a) -> NoDup (map na l) -> NoDup (map nb m).
Proof.
  intros H HQ. induction H as [|x b l m HP Hxb H IH|x l m HP H IH]; cbn [map]; intros ND; [constructor| |].
  - inversion ND as [|? ? N1 N2]; subst. constructor; [|auto]. rewrite (HQ _ _ Hxb). intros Hin. apply N1.
    apply in_map_iff in Hin as (y & Ey & Hy). destruct (kept_true _ _ _ _ H y Hy) as (z & Hz & _ & Hq).
    rewrite <- Ey, (HQ _ _ Hq). now apply in_map.
  - inversion ND; subst. auto.
Qed.
Lemma filter_distinct : distinct_names d -> distinct_names d'.
Proof.
  intros (N1 & N2 & N3). split; [|split].
  - apply (kept_names _ _ ar_arrname ar_arrname _ _ Harr); [now intros ? ? ->|exact N1].
  - apply (kept_names _ _ wv_insname wv_insname _ _ Hwave); [now intros ? ? (_ & -> & _)|exact N2].
  - apply (kept_names _ _ co_corrname co_corrname _ _ Hcorr); [now intros ? ? ->|exact N3].
Qed.
Lemma filter_found : distinct_names d -> (forall n, array_found d' n) /\ (forall n, corr_found d' n).
Proof.
  intros D. destruct (filter_distinct D) as (N1 & _ & N3).
  destruct (apply_inv pow_half d f f' d' C HF E) as (_ & h1 & h2 & h3 & Ed & I1 & _ & I3).
  rewrite Ed in N1, N3. rewrite Ed. split; intros n _; apply indexes_lookup; assumption.
Qed.
Lemma filter_passes : distinct_names d -> conforms d -> has_data d' -> passes d'.
Proof.
  intros D HC HD. destruct (filter_found D) as (FA & FC). pose proof (proj2 (filter_conforms HC) HD) as HC'.
  destruct (main_ready pow_half d f f' d' C HF E) as (R1 & R2 & R3 & R4).
  assert (T : f_target_id f < 0 \/ exists x, In x (ot_targ (o_targets d)) /\ tg_target_id x = f_target_id f).
  { destruct (Z.ltb_spec (f_target_id f) 0) as [G|G]; [now left|right].
    destruct (cf_targets _ HC) as (T1 & T2 & T3 & T4). cbv zeta in *.
    assert (S : forall id, target_accepted f id -> In id (map tg_target_id (ot_targ (o_targets d))) ->
      exists x, In x (ot_targ (o_targets d)) /\ tg_target_id x = f_target_id f).
    { intros id Ha Hi. apply (accepted_id f id G) in Ha. subst id. apply in_map_iff in Hi as (x & ? & ?). eauto. }
    destruct HD as [[H|[H|H]]|(V & t & Ht & Hc)].
    - destruct (one_of_list _ H) as (t & Ht). destruct (table_row _ _ _ _ t Hvis Ht (R1 t Ht)) as (r & Hr).
      destruct (filtered_records _ _ _ _ _ _ t r Hvis Ht Hr) as (t0 & w & r0 & A1 & A2 & (A3 & _) & _). exact (S _ A3 (T1 t0 r0 A1 A2)).
    - destruct (one_of_list _ H) as (t & Ht). destruct (table_row _ _ _ _ t Hvis2 Ht (R2 t Ht)) as (r & Hr).
      destruct (filtered_records _ _ _ _ _ _ t r Hvis2 Ht Hr) as (t0 & w & r0 & A1 & A2 & (A3 & _) & _). exact (S _ A3 (T2 t0 r0 A1 A2)).
    - destruct (one_of_list _ H) as (t & Ht). destruct (table_row _ _ _ _ t Ht3 Ht (R3 t Ht)) as (r & Hr).
      destruct (filtered_records _ _ _ _ _ _ t r Ht3 Ht Hr) as (t0 & w & r0 & A1 & A2 & (A3 & _) & _). exact (S _ A3 (T3 t0 r0 A1 A2)).
    - destruct (table_row _ _ _ _ t Hflux Ht (R4 t Ht)) as (r & Hr).
      destruct (filtered_records _ _ _ _ _ _ t r Hflux Ht Hr) as (t0 & w & r0 & A1 & A2 & (A3 & _) & _). exact (S _ A3 (T4 t0 r0 A1 A2)). }
  apply passes_iff; [| | | | |exact HC'].
  - exact (cs_wf _ (main_consistent pow_half d f f' d' C HF E T)).
  - repeat split; intros; apply FA.
  - repeat split; intros; apply FC.
  - intros t Ht Er. destruct (table_row _ _ _ _ t Hflux Ht (R4 t Ht)) as (r & Hr). rewrite Er in Hr. destruct Hr.
  - apply conforms_uniform; apply HC'.
Qed.
End Filter.
Lemma filter_rules pow_half d f f' d' : consistent d -> fresh_filter f -> apply_oi_filter pow_half d f = Ok (f', d') ->
  (revisions_ok d -> revisions_ok d') /\ (header_rule d -> header_rule d') /\ (keyword_rule d -> keyword_rule d')
  /\ (refmap_rule d -> refmap_rule d') /\ (unique_rule d -> unique_rule d') /\ (targets_present d -> targets_present d')
  /\ (arrname_rule d -> arrname_rule d') /\ (elements_present d -> elements_present d') /\ (inspol_named d -> inspol_named d')
  /\ (corr_rule d -> corr_rule d') /\ (flagging_rule d -> flagging_rule d') /\ (t3amp_rule d -> t3amp_rule d')
  /\ (order_rule d -> order_rule d') /\ (time_rule d -> time_rule d') /\ (flux_rule d -> flux_rule d').
Proof.
  intros C HF E.
  split; [exact (filter_revisions pow_half d f f' d' C HF E)|]. split; [exact (filter_header pow_half d f f' d' C HF E)|].
  split; [exact (filter_keywords pow_half d f f' d' C HF E)|]. split; [exact (filter_refmap pow_half d f f' d' C HF E)|].
  split; [exact (filter_unique pow_half d f f' d' C HF E)|]. split; [exact (filter_targets pow_half d f f' d' C HF E)|].
  split; [exact (filter_arrname pow_half d f f' d' C HF E)|]. split; [exact (filter_elements pow_half d f f' d' C HF E)|].
  split; [exact (filter_inspol_named pow_half d f f' d' C HF E)|]. split; [exact (filter_corr pow_half d f f' d' C HF E)|].
  split; [exact (filter_flagging pow_half d f f' d' C HF E)|]. split; [exact (filter_t3amp pow_half d f f' d' C HF E)|].
  split; [exact (filter_order pow_half d f f' d' C HF E)|]. split; [exact (filter_time pow_half d f f' d' C HF E)|].
  exact (filter_flux pow_half d f f' d' C HF E).
Qed.
