(** Each check decides its rule. *)
From Verif Require Import BaseLemmas FileModel FileSpec FileProofs MergeModel MergeSpec MergeProofs
  MergeTables MergeFacts CheckModel CheckSpec CheckProofs CheckReports.
From Coq Require Import Lia.
Open Scope Z_scope.

(** ** Empty lists of violations *)

Lemma app_nil_iff {A} (l m : list A) : l ++ m = [] <-> l = [] /\ m = [].
Proof. split; [apply app_eq_nil|]. intros [-> ->]. reflexivity. Qed.
Lemma when_nil b level desc text : when b level desc text = [] <-> b = false.
Proof. unfold when. destruct b; split; congruence. Qed.
Lemma flat_map_nil {A B} (f : A -> list B) l : flat_map f l = [] <-> forall a, In a l -> f a = [].
Proof.
  induction l as [|a l IH]; cbn [flat_map].
  - split; [intros _ b []|reflexivity].
  - rewrite app_nil_iff, IH. split.
    + intros [H1 H2] b [<-|Hb]; auto.
    + intros H. split; [apply H; left; reflexivity|intros b Hb; apply H; right; exact Hb].
Qed.
Lemma numbered_in {A} k (l : list A) a : In a l -> exists i, In (i, a) (numbered_from k l).
Proof.
  revert k. induction l as [|b l IH]; intros k; [intros []|]. rewrite numbered_from_cons.
  intros [->|H]; [exists k; left; reflexivity|]. destruct (IH (k + 1) H) as [i Hi]. exists i. right. exact Hi.
Qed.
Lemma numbered_from_in {A} k (l : list A) p : In p (numbered_from k l) -> In (snd p) l.
Proof. unfold numbered_from. destruct p as [i a]. apply in_combine_r. Qed.
Lemma over_nil {A} place what (l : list A) f (P : A -> Prop) :
  (forall p a, In a l -> (f p a = [] <-> P a)) ->
  over place what l f = [] <-> forall a, In a l -> P a.
Proof.
  intros H. unfold over. rewrite flat_map_nil, numbered_eq. split.
  - intros G a Ha. destruct (numbered_in 1 l a Ha) as [i Hi]. apply (H (place ++ what ++ fmt_d i)%string a Ha).
    exact (G (i, a) Hi).
  - intros G [i a] Hp. cbn [fst snd]. apply numbered_from_in in Hp. cbn [snd] in Hp. apply H; auto.
Qed.
Lemma over_nil_F {A} place what (l : list A) f (P : A -> Prop) :
  (forall p a, In a l -> (f p a = [] <-> P a)) -> over place what l f = [] <-> Forall P l.
Proof. intros H. rewrite (over_nil _ _ _ _ P H), Forall_forall. reflexivity. Qed.

(** ** Levels *)

Lemma level_of L vs : 0 < L -> (forall v, In v vs -> v_level v = L) ->
  fold_right Z.max 0 (map v_level vs) = match vs with [] => 0 | _ => L end.
Proof.
  intros HL H. induction vs as [|v vs IH]; [reflexivity|]. cbn [map fold_right].
  rewrite IH by (intros; apply H; right; assumption). rewrite (H v) by (left; reflexivity).
  destruct vs; lia.
Qed.

Definition level_is (L : Z) (vs : list violation) : Prop := forall v, In v vs -> v_level v = L.
Lemma level_app L vs ws : level_is L vs -> level_is L ws -> level_is L (vs ++ ws).
Proof. intros U V v Hv. apply in_app_or in Hv as [Hv|Hv]; auto. Qed.
Lemma level_when L b d text : level_is L (when b L d text).
Proof. unfold when. intros v Hv. destruct b; [|destruct Hv]. destruct Hv as [<-|[]]. reflexivity. Qed.
Lemma level_nil L : level_is L []. Proof. intros v []. Qed.
Lemma level_flat {A} L (f : A -> list violation) l : (forall a, level_is L (f a)) -> level_is L (flat_map f l).
Proof. intros H v Hv. apply in_flat_map in Hv as (a & _ & Hv). exact (H a v Hv). Qed.
Lemma level_over {A} L place what (l : list A) f : (forall p a, level_is L (f p a)) -> level_is L (over place what l f).
Proof. intros H. apply level_flat. intros. apply H. Qed.
Ltac level :=
  repeat (lazymatch goal with
  | |- level_is _ (_ ++ _) => apply level_app
  | |- level_is _ (when _ _ _ _) => apply level_when
  | |- level_is _ (over_tables _ _ _) => apply level_over; intros ? ?
  | |- level_is _ (over_records _ _ _) => apply level_over; intros ? ?
  | |- level_is _ (over_channels _ _ _) => apply level_over; intros ? ?
  | |- level_is _ (flat_map _ _) => apply level_flat; intros ?
  | |- level_is _ [] => apply level_nil
  | |- level_is _ (if ?b then _ else _) => destruct b
  end; cbv beta zeta).

Lemma reported_level L vs r rule : 0 < L -> level_is L vs -> (vs = [] <-> rule) -> reported vs r ->
  (cr_level r = 0 \/ cr_level r = L) /\ (cr_level r = 0 <-> rule).
Proof.
  intros HL U E (_ & Hl & _). rewrite (level_of L) in Hl by assumption. rewrite Hl, <- E.
  destruct vs; [intuition congruence|]. split; [right; reflexivity|]. split; [lia|congruence].
Qed.
Lemma decides_intro c L vs rule : 0 < L -> level_is L vs -> (vs = [] <-> rule) -> reports c vs ->
  decides c rule L.
Proof. intros HL U E (r & Hc & Hr). exists r. split; [exact Hc|]. eapply reported_level; eauto. Qed.

(** ** Reports *)

Lemma header_reports o : reports (check_header o) (header_violations o).
Proof. rewrite header_report. eapply report_reports. unfold header_violations. uniform. Qed.
Lemma keywords_reports o : reports (check_keywords o) (keyword_violations o).
Proof. rewrite keywords_report. eapply report_reports. unfold keyword_violations. uniform. Qed.
Lemma visrefmap_reports o : reports (check_visrefmap o) (visrefmap_violations o).
Proof. rewrite visrefmap_report. eapply report_reports. unfold visrefmap_violations. cbv zeta. uniform. Qed.
Lemma unique_reports o : wf_fits o = true -> reports (check_unique_targets o) (duplicate_violations o).
Proof.
  intros W. rewrite unique_report by exact W. eapply report_reports. unfold duplicate_violations.
  intros v Hv. apply in_map_iff in Hv as (t & <- & _). cbn. auto.
Qed.
Lemma targets_reports o : wf_fits o = true -> reports (check_targets_present o) (target_violations o).
Proof.
  intros W. rewrite targets_report by exact W. eapply report_reports. unfold target_violations, unlisted_in.
  uniform.
Qed.
Lemma arrname_reports o : reports (check_arrname o) (arrname_violations o).
Proof.
  rewrite arrname_report. eapply report_reports. unfold arrname_violations, unnamed_inspol, unnamed.
  uniform.
Qed.
Lemma corr_reports o : corrs_found o -> reports (check_corr_present o) (corr_violations o).
Proof.
  intros F. rewrite corr_report by exact F. eapply report_reports. unfold corr_violations, uncorrelated.
  uniform.
Qed.
Lemma flagging_reports o : wf_fits o = true -> reports (check_flagging o) (flagging_violations o).
Proof.
  intros W. rewrite flagging_report by exact W. eapply report_reports. unfold flagging_violations. uniform.
Qed.
Lemma t3amp_reports o : wf_fits o = true -> reports (check_t3amp o) (t3amp_violations o).
Proof. intros W. rewrite t3amp_report by exact W. eapply report_reports. unfold t3amp_violations. uniform. Qed.
Lemma waveorder_reports o : wf_fits o = true -> reports (check_waveorder o) (order_violations o).
Proof. intros W. rewrite waveorder_report by exact W. eapply report_reports. unfold order_violations. uniform. Qed.
Lemma time_reports o : wf_fits o = true -> reports (check_time o) (time_violations o).
Proof. intros W. rewrite time_report by exact W. eapply report_reports. unfold time_violations, timed. uniform. Qed.
Lemma flux_reports o : fluxes_nonempty o -> reports (check_flux o) (flux_violations o).
Proof.
  intros N. rewrite flux_report by exact N. eapply report_reports. unfold flux_violations. cbv zeta. uniform.
Qed.

(** ** Rules *)

Lemma is_empty_false s : is_empty s = false <-> s <> ""%string.
Proof. destruct s; cbn; split; congruence. Qed.
Lemma is_empty_true s : is_empty s = true <-> s = ""%string.
Proof. destruct s; cbn; split; congruence. Qed.

Lemma header_nil o : header_violations o = [] <-> header_rule o.
Proof.
  unfold header_violations, header_rule. cbv zeta.
  destruct (str_eqb (h_content (o_header o)) "OIFITS2") eqn:E.
  - apply str_eqb_eq in E. cbn [flat_map fst snd]. rewrite !app_nil_iff, !when_nil, !is_empty_false.
    split.
    + intros H _. repeat constructor; tauto.
    + intros H. specialize (H E). rewrite !Forall_cons_iff in H. tauto.
  - apply str_eqb_neq in E. split; [intros _ H; congruence|reflexivity].
Qed.
Lemma header_decides o : decides (check_header o) (header_rule o) 2.
Proof.
  eapply decides_intro; [lia| |apply header_nil|apply header_reports]. unfold header_violations. level.
Qed.

Lemma one_of_in l s : one_of l s = true <-> In s l.
Proof.
  unfold one_of. rewrite existsb_exists. split.
  - intros (x & Hx & E). apply String.eqb_eq in E. now subst.
  - intros H. exists s. split; [exact H|apply String.eqb_refl].
Qed.
Lemma not_one_of l s : negb (one_of l s) = false <-> In s l.
Proof. rewrite negb_false_iff. apply one_of_in. Qed.

Lemma keyword_nil o : keyword_violations o = [] <-> keyword_rule o.
Proof.
  unfold keyword_violations, keyword_rule. cbv zeta. rewrite !app_nil_iff. unfold over_tables.
  rewrite (over_nil_F _ _ (o_arrayList o) _ (fun a => In (ar_frame a) ["GEOCENTRIC"; "SKY"]%string))
    by (intros; rewrite when_nil; apply not_one_of).
  rewrite (over_nil_F _ _ (o_visList o) _ (fun t => h_content (o_header o) = "OIFITS2"%string ->
        In (vx_amptyp (tb_x t)) [""; "absolute"; "differential"; "correlated flux"]%string
        /\ In (vx_phityp (tb_x t)) [""; "absolute"; "differential"]%string)).
  2:{ intros p t _. rewrite app_nil_iff, !when_nil.
      destruct (str_eqb (h_content (o_header o)) "OIFITS2") eqn:E; cbn [andb].
      - apply str_eqb_eq in E. rewrite !not_one_of. tauto.
      - apply str_eqb_neq in E. tauto. }
  rewrite (over_nil_F _ _ (o_fluxList o) _ (fun t => In (fx_calstat (tb_x t)) ["C"; "U"]%char
               /\ In (fx_fovtype (tb_x t)) [""; "FWHM"; "RADIUS"]%string)).
  2:{ intros p t _. rewrite app_nil_iff, !when_nil, not_one_of, negb_false_iff, orb_true_iff, !Ascii.eqb_eq.
      cbn [In]. intuition congruence. }
  split; intros (H1 & H2 & H3); (split; [exact H1|split; [|exact H3]]).
  - intros E. rewrite Forall_forall in *. intros t Ht. exact (H2 t Ht E).
  - apply Forall_forall. intros t Ht E. specialize (H2 E). rewrite Forall_forall in H2. exact (H2 t Ht).
Qed.
Lemma keywords_decides o : decides (check_keywords o) (keyword_rule o) 2.
Proof.
  eapply decides_intro; [lia| |apply keyword_nil|apply keywords_reports]. unfold keyword_violations. level.
Qed.

Lemma max_level_two vs : (forall v, In v vs -> v_level v = 1 \/ v_level v = 2) ->
  (fold_right Z.max 0 (map v_level vs) = 0 <-> vs = [])
  /\ (fold_right Z.max 0 (map v_level vs) = 2 <-> exists v, In v vs /\ v_level v = 2)
  /\ 0 <= fold_right Z.max 0 (map v_level vs) <= 2.
Proof.
  induction vs as [|v vs IH]; intros H.
  - cbn. repeat split; try lia; intros (x & [] & _).
  - destruct IH as (I1 & I2 & I3); [intros; apply H; right; assumption|].
    cbn [map fold_right]. pose proof (H v (or_introl eq_refl)). split; [|split; [|lia]].
    + split; [lia|congruence].
    + split.
      * intros E. destruct (Z.eq_dec (v_level v) 2) as [e|n]; [exists v; split; [left; reflexivity|exact e]|].
        destruct I2 as [I2 _]. destruct I2 as (x & Hx & Ex); [lia|]. exists x. split; [right; exact Hx|exact Ex].
      * intros (x & [<-|Hx] & Ex); [lia|]. destruct I2 as [_ I2].
        assert (fold_right Z.max 0 (map v_level vs) = 2) by (apply I2; eauto). lia.
Qed.

Lemma in_over {A} place what (l : list A) f v : In v (over place what l f) ->
  exists p a, In a l /\ In v (f p a).
Proof.
  unfold over. rewrite in_flat_map, numbered_eq. intros ([i a] & Hp & Hv). apply numbered_from_in in Hp.
  cbn [fst snd] in *. eauto.
Qed.
Lemma over_in {A} place what (l : list A) f (P : violation -> Prop) a : In a l ->
  (forall p, exists v, In v (f p a) /\ P v) -> exists v, In v (over place what l f) /\ P v.
Proof.
  intros Ha H. destruct (numbered_in 1 l a Ha) as [i Hi].
  destruct (H (place ++ what ++ fmt_d i)%string) as (v & Hv & Pv). exists v. split; [|exact Pv].
  unfold over. rewrite in_flat_map, numbered_eq. exists (i, a). auto.
Qed.

Lemma in_when v b level desc text : In v (when b level desc text) -> b = true /\ v_level v = level.
Proof. unfold when. destruct b; [|intros []]. intros [<-|[]]. auto. Qed.

Lemma visrefmap_level o : exists r, check_visrefmap o = Ok r
  /\ (cr_level r = 0 <-> forall t, In t (o_visList o) -> ~ refmap_missing t /\ ~ refmap_surplus t)
  /\ (cr_level r = 2 <-> exists t, In t (o_visList o) /\ refmap_missing t)
  /\ (cr_level r = 0 \/ cr_level r = 1 \/ cr_level r = 2).
Proof.
  destruct (visrefmap_reports o) as (r & E & _ & L & _). exists r. split; [exact E|].
  destruct (max_level_two (visrefmap_violations o)) as (M1 & M2 & M3).
  { intros v Hv. apply in_over in Hv as (p & t & _ & Hv). cbv zeta in Hv.
    apply in_app_or in Hv as [Hv|Hv]; apply in_when in Hv; tauto. }
  rewrite L. split; [|split; [|lia]].
  - rewrite M1. apply over_nil. intros p t _. cbv zeta. rewrite app_nil_iff, !when_nil.
    unfold differential, refmap_missing, refmap_surplus.
    rewrite <- !str_eqb_eq.
    destruct (str_eqb (vx_amptyp (tb_x t)) "differential"), (str_eqb (vx_phityp (tb_x t)) "differential"),
      (vx_usevisrefmap (tb_x t)); cbn; intuition congruence.
  - rewrite M2. split.
    + intros (v & Hv & Lv). apply in_over in Hv as (p & t & Ht & Hv). cbv zeta in Hv. exists t. split; [exact Ht|].
      apply in_app_or in Hv as [Hv|Hv]; apply in_when in Hv; [|lia]. destruct Hv as [B _].
      unfold differential in B. rewrite andb_true_iff, orb_true_iff, !str_eqb_eq, negb_true_iff in B. exact B.
    + intros (t & Ht & B). unfold visrefmap_violations, over_tables. apply (over_in _ _ _ _ _ t Ht). intros p.
      cbv zeta. unfold refmap_missing in B. rewrite <- !str_eqb_eq, <- orb_true_iff in B.
      unfold differential. destruct B as [-> ->]. cbn [andb negb when app].
      eexists. split; [left; reflexivity|reflexivity].
Qed.

Lemma repeated_nil seen l : repeated_rows seen l = [] <->
  (forall t, In t l -> ~ In (tg_target t) seen) /\ NoDup (map tg_target l).
Proof.
  revert seen. induction l as [|t l IH]; intros seen; cbn [repeated_rows map].
  - split; [|reflexivity]. intros _. split; [intros ? []|constructor].
  - rewrite app_nil_iff, IH. destruct (in_dec string_dec (tg_target t) seen) as [I|I].
    + split; [intros [H _]; congruence|]. intros [H _]. exfalso. exact (H t (or_introl eq_refl) I).
    + split.
      * intros (_ & H1 & H2). split.
        -- intros x [<-|Hx]; [exact I|]. intros J. exact (H1 x Hx (or_intror J)).
        -- constructor; [|exact H2]. intros J. apply in_map_iff in J as (x & Ex & Hx).
           apply (H1 x Hx). left. congruence.
      * intros [H1 H2]. inversion H2 as [|? ? N1 N2]; subst. split; [reflexivity|]. split; [|exact N2].
        intros x Hx [J|J]; [|exact (H1 x (or_intror Hx) J)]. apply N1. rewrite J. apply in_map, Hx.
Qed.
Lemma duplicate_nil o : duplicate_violations o = [] <-> NoDup (map tg_target (ot_targ (o_targets o))).
Proof.
  unfold duplicate_violations. transitivity (repeated_rows [] (ot_targ (o_targets o)) = []).
  - destruct (repeated_rows _ _); cbn; split; congruence.
  - rewrite repeated_nil. split; [tauto|]. intros H. split; [intros ? _ []|exact H].
Qed.
Lemma unique_decides o : wf_fits o = true ->
  decides (check_unique_targets o) (NoDup (map tg_target (ot_targ (o_targets o)))) 1.
Proof.
  intros W. eapply decides_intro; [lia| |apply duplicate_nil|apply unique_reports, W].
  intros v Hv. apply in_map_iff in Hv as (t & <- & _). reflexivity.
Qed.

Lemma unlisted_false o i : unlisted o i = false <-> In i (map tg_target_id (ot_targ (o_targets o))).
Proof.
  unfold unlisted. rewrite negb_false_iff, existsb_exists, in_map_iff. split.
  - intros (t & Ht & E). apply Z.eqb_eq in E. eauto.
  - intros (t & E & Ht). exists t. split; [exact Ht|apply Z.eqb_eq, E].
Qed.
Lemma unlisted_nil {X R} o name (id : R -> Z) (l : list (dtab X R)) :
  unlisted_in o name id l = [] <->
  forall t r, In t l -> In r (tb_record t) -> In (id r) (map tg_target_id (ot_targ (o_targets o))).
Proof.
  unfold unlisted_in, over_tables. rewrite (over_nil _ _ l _ (fun t => forall r, In r (tb_record t) ->
    In (id r) (map tg_target_id (ot_targ (o_targets o))))).
  - split; intros H; intros; eapply H; eauto.
  - intros p t _. apply over_nil. intros p' r _. rewrite when_nil. apply unlisted_false.
Qed.
Lemma target_nil o : target_violations o = [] <-> targets_present o.
Proof. unfold target_violations, targets_present. rewrite !app_nil_iff, !unlisted_nil. tauto. Qed.
Lemma targets_decides o : wf_fits o = true -> decides (check_targets_present o) (targets_present o) 2.
Proof.
  intros W. eapply decides_intro; [lia| |apply target_nil|apply targets_reports, W].
  unfold target_violations, unlisted_in. level.
Qed.

Lemma arrname_nil o : arrname_violations o = [] <-> arrname_rule o.
Proof.
  unfold arrname_violations, arrname_rule.
  destruct (str_eqb (h_content (o_header o)) "OIFITS2") eqn:E.
  2:{ apply str_eqb_neq in E. split; [intros _ H; congruence|reflexivity]. }
  apply str_eqb_eq in E. rewrite !app_nil_iff. unfold unnamed, over_tables.
  assert (P : forall X R name (l : list (dtab X R)),
    over name " #" l (fun p t => when (true && is_empty (tb_arrname t)) 2 d_arrname p) = []
    <-> Forall (fun t => tb_arrname t <> ""%string) l).
  { intros. apply over_nil_F. intros p t _. rewrite when_nil. cbn [andb]. apply is_empty_false. }
  rewrite !P. rewrite (over_nil_F _ _ (o_fluxList o) _
    (fun t => fx_calstat (tb_x t) = "U"%char -> tb_arrname t <> ""%string)).
  2:{ intros p t _. rewrite when_nil, <- is_empty_false, <- Ascii.eqb_eq.
      destruct (Ascii.eqb _ "U"), (is_empty (tb_arrname t)); cbn; intuition congruence. }
  assert (I : unnamed_inspol o = [] <-> Forall (fun t => is_arrname t <> ""%string) (o_inspolList o)).
  { unfold unnamed_inspol. rewrite flat_map_nil, Forall_forall. split; intros H t Ht.
    - apply is_empty_false. apply (when_nil _ 2 d_arrname "OI_INSPOL #0"), H, Ht.
    - apply when_nil, is_empty_false, H, Ht. }
  rewrite I. tauto.
Qed.
Lemma arrname_decides o : decides (check_arrname o) (arrname_rule o) 2.
Proof.
  eapply decides_intro; [lia| |apply arrname_nil|apply arrname_reports].
  unfold arrname_violations, unnamed_inspol, unnamed. level.
Qed.

Lemma corr_nil o : corr_violations o = [] <-> corr_rule o.
Proof.
  unfold corr_violations, corr_rule. rewrite !app_nil_iff. cbv zeta.
  assert (P : forall X R name (l : list (dtab X R)), uncorrelated o name l = [] <->
    Forall (fun t => tb_corrname t <> ""%string -> In (tb_corrname t) (map co_corrname (o_corrList o))) l).
  { intros. apply over_nil_F. intros p t _. rewrite when_nil, andb_false_iff, !negb_false_iff, <- is_empty_false,
      existsb_exists, in_map_iff. destruct (is_empty (tb_corrname t)).
    - intuition congruence.
    - split.
      + intros [|(c & Hc & Ec)]; [congruence|]. intros _. apply String.eqb_eq in Ec. eauto.
      + intros H. right. destruct (H eq_refl) as (c & Ec & Hc). exists c. rewrite Ec, String.eqb_refl. auto. }
  rewrite !P. tauto.
Qed.
Lemma corr_decides o : corrs_found o -> decides (check_corr_present o) (corr_rule o) 2.
Proof.
  intros F. eapply decides_intro; [lia| |apply corr_nil|apply corr_reports, F].
  unfold corr_violations, uncorrelated. level.
Qed.

(** ** Channels *)

Lemma in_combine_nth {A B} (a : list A) (b : list B) p : In p (combine a b) <->
  exists j, nth_error a j = Some (fst p) /\ nth_error b j = Some (snd p).
Proof.
  revert b. induction a as [|x a IH]; intros b; cbn [combine].
  - split; [intros []|]. intros ([|j] & H & _); discriminate.
  - destruct b as [|y b]; cbn [In].
    + split; [intros []|]. intros ([|j] & _ & H); discriminate.
    + rewrite IH. split.
      * intros [<-|(j & H1 & H2)]; [exists 0%nat; auto|exists (S j); auto].
      * intros ([|j] & H1 & H2); cbn in H1, H2.
        -- left. destruct p. cbn in *. congruence.
        -- right. eauto.
Qed.

Lemma channel_nil p (flag : list bool) (a : list f64) (bad : f64 -> bool) L d :
  over_channels p (combine flag a) (fun p c => when (negb (fst c) && bad (snd c)) L d p) = []
  <-> forall j x, nth_error flag j = Some false -> nth_error a j = Some x -> bad x = false.
Proof.
  unfold over_channels. rewrite (over_nil _ _ _ _ (fun c => fst c = false -> bad (snd c) = false)).
  - split.
    + intros H j x Hf Ha. apply (H (false, x)); [|reflexivity]. apply in_combine_nth. eauto.
    + intros H [f x] Hc Hf. cbn [fst snd] in *. subst f. apply in_combine_nth in Hc as (j & H1 & H2). eauto.
  - intros q [f x] _. rewrite when_nil. cbn [fst snd]. destruct f; cbn; intuition congruence.
Qed.
Lemma channel2_nil p (flag : list bool) (a b : list f64) (bad : f64 -> f64 -> bool) L d :
  over_channels p (combine flag (combine a b))
    (fun p c => when (negb (fst c) && bad (fst (snd c)) (snd (snd c))) L d p) = []
  <-> forall j x y, nth_error flag j = Some false -> nth_error a j = Some x -> nth_error b j = Some y ->
      bad x y = false.
Proof.
  unfold over_channels. rewrite (over_nil _ _ _ _ (fun c => fst c = false -> bad (fst (snd c)) (snd (snd c)) = false)).
  - split.
    + intros H j x y Hf Ha Hb. apply (H (false, (x, y))); [|reflexivity]. apply in_combine_nth. exists j.
      split; [exact Hf|]. cbn [snd]. clear H Hf. revert a b Ha Hb. induction j; intros [|u a] [|v b]; cbn; try discriminate.
      * intros [= ->] [= ->]. reflexivity. * apply IHj.
    + intros H [f [x y]] Hc Hf. cbn [fst snd] in *. subst f. apply in_combine_nth in Hc as (j & H1 & H2).
      cbn [fst snd] in *. apply nth_combine in H2 as [H2 H3]. eauto.
  - intros q [f x] _. rewrite when_nil. cbn [fst snd]. destruct f; cbn; intuition congruence.
Qed.

Lemma errors2 n flag a b : len_is n flag = true -> len_is n a = true -> len_is n b = true ->
  (forall j x y, nth_error flag j = Some false -> nth_error a j = Some x -> nth_error b j = Some y ->
     below_zero x || below_zero y = false)
  <-> errors_ok flag a /\ errors_ok flag b.
Proof.
  intros L1 L2 L3. apply len_is_eq in L1, L2, L3. unfold errors_ok.
  assert (T : forall j f, nth_error flag j = Some f -> (exists x, nth_error a j = Some x) /\ exists y, nth_error b j = Some y).
  { intros j f H. assert (j < length flag)%nat by (apply nth_error_Some; congruence).
    split.
    - destruct (nth_error a j) eqn:E; [eauto|]. apply nth_error_None in E. lia.
    - destruct (nth_error b j) eqn:E; [eauto|]. apply nth_error_None in E. lia. }
  split.
  - intros H. split; intros j e Hf He; destruct (T j false Hf) as [[x Hx] [y Hy]];
      specialize (H j x y Hf Hx Hy); apply orb_false_iff in H as [H1 H2]; unfold below_zero in *; congruence.
  - intros [H1 H2] j x y Hf Hx Hy. apply orb_false_iff. split; [exact (H1 j x Hf Hx)|exact (H2 j y Hf Hy)].
Qed.

Lemma flagging_nil o : wf_fits o = true -> flagging_violations o = [] <-> flagging_rule o.
Proof.
  intros W. unfold flagging_violations, flagging_rule, over_tables. rewrite !app_nil_iff.
  rewrite (over_nil _ _ (o_visList o) _ (fun t => forall r, In r (tb_record t) ->
    errors_ok (vr_flag r) (vr_visamperr r) /\ errors_ok (vr_flag r) (vr_visphierr r))).
  2:{ intros p t Ht. apply over_nil. intros p' r Hr.
      rewrite (channel2_nil _ _ _ _ (fun x y => below_zero x || below_zero y)).
      pose proof (vis_rec_len o t r W Ht Hr) as V. unfold wf_vis_record in V. rewrite !andb_true_iff in V.
      apply (errors2 (tb_nwave t)); tauto. }
  rewrite (over_nil _ _ (o_vis2List o) _ (fun t => forall r, In r (tb_record t) ->
    errors_ok (v2_flag r) (v2_vis2err r))).
  2:{ intros p t Ht. apply over_nil. intros p' r Hr. rewrite (channel_nil _ _ _ below_zero). reflexivity. }
  rewrite (over_nil _ _ (o_t3List o) _ (fun t => forall r, In r (tb_record t) ->
    errors_ok (t3_flag r) (t3_t3amperr r) /\ errors_ok (t3_flag r) (t3_t3phierr r))).
  2:{ intros p t Ht. apply over_nil. intros p' r Hr.
      rewrite (channel2_nil _ _ _ _ (fun x y => below_zero x || below_zero y)).
      pose proof (t3_rec_len o t r W Ht Hr) as V. unfold wf_t3_record in V. rewrite !andb_true_iff in V.
      apply (errors2 (tb_nwave t)); tauto. }
  split; intros (H1 & H2 & H3); (split; [|split]); intros t; intros; eauto.
Qed.
Lemma flagging_decides o : wf_fits o = true -> decides (check_flagging o) (flagging_rule o) 2.
Proof.
  intros W. eapply decides_intro; [lia| |apply flagging_nil, W|apply flagging_reports, W].
  unfold flagging_violations. level.
Qed.

Lemma t3amp_nil o : t3amp_violations o = [] <-> t3amp_rule o.
Proof.
  unfold t3amp_violations, t3amp_rule, over_tables.
  rewrite (over_nil _ _ (o_t3List o) _ (fun t => forall r, In r (tb_record t) ->
    forall j a e, nth_error (t3_flag r) j = Some false -> nth_error (t3_t3amp r) j = Some a ->
    nth_error (t3_t3amperr r) j = Some e -> above_one a e = false)).
  - split; intros H; intros; eapply H; eauto.
  - intros p t _. apply over_nil. intros p' r _. apply (channel2_nil _ _ _ _ above_one).
Qed.
Lemma t3amp_decides o : wf_fits o = true -> decides (check_t3amp o) (t3amp_rule o) 2.
Proof.
  intros W. eapply decides_intro; [lia| |apply t3amp_nil|apply t3amp_reports, W].
  unfold t3amp_violations. level.
Qed.

(** ** Wavelengths, times, fluxes *)

Lemma order_nil o : order_violations o = [] <-> order_rule o.
Proof.
  unfold order_violations, order_rule. rewrite flat_map_nil. split.
  - intros H w j a b Hw Ha Hb. specialize (H w Hw). rewrite flat_map_nil in H.
    specialize (H (S j)). rewrite when_nil in H. cbn [out_of_order] in H. rewrite Ha, Hb in H.
    destruct (SFltb b a); [|reflexivity]. symmetry. rewrite <- H.
    + destruct (nth_error (wv_eff_wave w) (S (S j))); reflexivity.
    + apply in_seq. split; [lia|]. apply nth_error_Some. congruence.
  - intros H w Hw. apply flat_map_nil. intros j _. apply when_nil. destruct j as [|j]; [reflexivity|].
    cbn [out_of_order]. destruct (nth_error (wv_eff_wave w) j) as [a|] eqn:Ha; [|reflexivity].
    destruct (nth_error (wv_eff_wave w) (S j)) as [b|] eqn:Hb; [|reflexivity].
    rewrite (H w j a b Hw Ha Hb). destruct (nth_error (wv_eff_wave w) (S (S j))) as [c|] eqn:Hc; [|reflexivity].
    exact (H w (S j) b c Hw Hb Hc).
Qed.
Lemma waveorder_decides o : wf_fits o = true -> decides (check_waveorder o) (order_rule o) 1.
Proof.
  intros W. eapply decides_intro; [lia| |apply order_nil|apply waveorder_reports, W].
  unfold order_violations. level.
Qed.

Lemma timed_nil {X R} name (time : R -> f64) (l : list (dtab X R)) :
  timed name time l = [] <-> forall t r, In t l -> In r (tb_record t) -> nonzero_time (time r) = false.
Proof.
  unfold timed, over_tables. rewrite (over_nil _ _ l _ (fun t => forall r, In r (tb_record t) -> nonzero_time (time r) = false)).
  - split; intros H; intros; eapply H; eauto.
  - intros p t _. apply over_nil. intros p' r _. apply when_nil.
Qed.
Lemma time_nil o : time_violations o = [] <-> time_rule o.
Proof.
  unfold time_violations, time_rule. destruct (str_eqb (h_content (o_header o)) "OIFITS2") eqn:E.
  - apply str_eqb_eq in E. rewrite !app_nil_iff, !timed_nil. tauto.
  - apply str_eqb_neq in E. split; [intros _ H; congruence|reflexivity].
Qed.
Lemma time_decides o : wf_fits o = true -> decides (check_time o) (time_rule o) 1.
Proof.
  intros W. eapply decides_intro; [lia| |apply time_nil|apply time_reports, W].
  unfold time_violations, timed. level.
Qed.

Lemma flux_nil o : fluxes_nonempty o -> uniform_stations o -> flux_violations o = [] <-> flux_rule o.
Proof.
  intros N U. unfold flux_violations, flux_rule, over_tables. apply over_nil. intros p t Ht. cbv zeta.
  specialize (N t Ht). specialize (U t Ht). unfold no_stations, all_stations, first_station in *.
  destruct (tb_record t) as [|rec l]; [congruence|]. rewrite !Forall_cons_iff in *.
  destruct (Ascii.eqb (fx_calstat (tb_x t)) "C") eqn:EC.
  - apply Ascii.eqb_eq in EC. rewrite EC, app_nil_iff, !when_nil, !negb_false_iff, is_empty_true, Z.eqb_eq.
    intuition congruence.
  - destruct (Ascii.eqb (fx_calstat (tb_x t)) "U") eqn:EU.
    + apply Ascii.eqb_eq in EU. rewrite EU, !app_nil_iff, !when_nil, negb_false_iff, is_empty_true, is_empty_false, Z.eqb_neq.
      intuition congruence.
    + apply Ascii.eqb_neq in EC, EU. tauto.
Qed.
Lemma flux_decides o : fluxes_nonempty o -> uniform_stations o -> decides (check_flux o) (flux_rule o) 2.
Proof.
  intros N U. eapply decides_intro; [lia| |apply flux_nil; [exact N|exact U]|apply flux_reports, N].
  unfold flux_violations. cbv zeta. level.
Qed.
