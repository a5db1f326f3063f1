(** oifits-check, and what it says of the files the other programs write. *)
From Verif Require Import Base BaseLemmas FloatModel FloatLemmas Types FileModel FileSpec ReadWf FilterModel FilterSpec FilterLemmas FilterProofs
  FilterApply FilterResults FilterWhole FilterMain MergeModel MergeSpec CheckModel CheckSpec CheckRules
  CheckWhole ToolModel ToolSpec ToolMerge ToolFilter ToolProofs ToolPrograms FilterTables IOSpec IOClaims ConformSpec ConformFilter ConformMerge ConformStore MergeRenaming.
From Coq Require Import Lia.
Open Scope list_scope.
Open Scope Z_scope.

Definition all_passed : string := ("All checks passed" ++ nl)%string.

(** ** What is printed *)

Lemma refmap_nil o : visrefmap_violations o = [] <-> refmap_rule o.
Proof.
  unfold refmap_rule, visrefmap_violations, over_tables. apply over_nil. intros p t _. cbv zeta. rewrite app_nil_iff, !when_nil.
  unfold differential, refmap_missing, refmap_surplus. rewrite <- !str_eqb_eq.
  destruct (str_eqb (vx_amptyp (tb_x t)) "differential"), (str_eqb (vx_phityp (tb_x t)) "differential"),
    (vx_usevisrefmap (tb_x t)); cbn; intuition congruence.
Qed.
Lemma findings_nil o : wf_fits o = true -> fluxes_nonempty o -> uniform_stations o ->
  Forall (fun vs => vs = []) (findings o) <-> conforms o.
Proof.
  intros W Fx U. unfold findings. rewrite !Forall_cons_iff, app_nil_iff, missing_nil, revision_nil, header_nil, keyword_nil, refmap_nil,
    duplicate_nil, target_nil, arrname_nil, elements_nil, corr_nil, flagging_nil, t3amp_nil, order_nil, time_nil, flux_nil by assumption.
  split.
  - intros ((? & ?) & ? & ? & ? & ? & ? & ? & (? & ?) & ? & ? & ? & ? & ? & ? & _). now constructor.
  - intros []. unfold unique_rule in *. auto 30.
Qed.
Lemma silent_text l : Forall (fun vs => vs = []) l -> fold_right String.append ""%string (map finding_text l) = ""%string
  /\ forallb (fun vs : list violation => match vs with [] => true | _ => false end) l = true.
Proof. induction 1 as [|vs l -> _ (IH1 & IH2)]; [split; reflexivity|]. cbn. rewrite IH1, IH2. split; reflexivity. Qed.
Lemma loud_text l tail c s : (fold_right String.append ""%string (map finding_text l) ++ tail)%string = String c s -> c <> "*"%char ->
  Forall (fun vs => vs = []) l.
Proof.
  induction l as [|vs l IH]; intros Eq N; [constructor|]. cbn [map fold_right] in Eq. destruct vs as [|v vs].
  - constructor; [reflexivity|]. exact (IH Eq N).
  - exfalso. apply N. cbn [finding_text] in Eq. unfold report_text in Eq. cbn [String.append] in Eq. injection Eq. congruence.
Qed.
Lemma check_text_passed o : check_text o = all_passed <-> Forall (fun vs => vs = []) (findings o).
Proof.
  unfold check_text, all_passed. split.
  - intros Eq. apply (loud_text _ _ "A"%char _ Eq). discriminate.
  - intros Hs. destruct (silent_text _ Hs) as (-> & ->). reflexivity.
Qed.
Lemma append_cancel (a b c : string) : (a ++ b = a ++ c)%string -> b = c.
Proof. induction a as [|x a IH]; cbn; [auto|]. intros [= Eq]. auto. Qed.

Section Tools.
Variables (E : cfitsio) (fmt : string -> f64 -> string).
Notation check_run := (check_run E fmt).

Lemma conforms_checkable o : conforms o -> checkable o.
Proof. intros []. split; left; assumption. Qed.
Lemma check_passed name d o : (String.length name <= 1024)%nat -> reads E name d o -> named_elsewhere o -> conforms o ->
  exists text, summary_of fmt o text /\ check_run name d = Ok (mk_outcome 0 (text ++ "All checks passed" ++ nl) d).
Proof.
  intros L R N HC. destruct (check_output E fmt name d o L R N (conforms_checkable o HC)) as (text & Hs & Hr).
  exists text. split; [exact Hs|]. rewrite Hr. destruct (read_wf E _ _ _ _ _ R) as (W & Ne & _).
  replace (check_text o) with all_passed; [reflexivity|]. symmetry. apply check_text_passed.
  apply findings_nil; [exact W|exact (flux_records o W Ne)|now apply conforms_uniform; apply HC|exact HC].
Qed.
Lemma check_passed_iff name d o : (String.length name <= 1024)%nat -> reads E name d o -> named_elsewhere o -> uniform_stations o ->
  exists text, summary_of fmt o text
    /\ (check_run name d = Ok (mk_outcome 0 (text ++ "All checks passed" ++ nl) d) <-> conforms o).
Proof.
  intros L R N U. destruct (read_wf E _ _ _ _ _ R) as (W & Ne & _). pose proof (flux_records o W Ne) as Fx.
  assert (K : {checkable o} + {(~ tables_present o /\ ~ revisions_ok o) \/ (~ inspol_named o /\ ~ elements_present o)}).
  { assert (T : {tables_present o \/ revisions_ok o} + {~ tables_present o /\ ~ revisions_ok o}).
    { destruct (missing_tables o) eqn:E1; [left; left; now apply missing_nil|].
      destruct (revision_violations o) eqn:E2; [left; right; now apply revision_nil|].
      right. split; intros H; [apply missing_nil in H|apply revision_nil in H]; congruence. }
    assert (S : {inspol_named o \/ elements_present o} + {~ inspol_named o /\ ~ elements_present o}).
    { destruct (sel d_arrname (element_violations o)) eqn:E1; [left; left; now apply element_named|].
      destruct (sel d_element (element_violations o)) eqn:E2; [left; right; now apply element_nil|].
      right. split; intros H; [apply element_named in H|apply element_nil in H]; congruence. }
    destruct T; [|right; tauto]. destruct S; [|right; tauto]. left. split; assumption. }
  destruct K as [K|K].
  - destruct (check_output E fmt name d o L R N K) as (text & Hs & Hr). exists text. split; [exact Hs|].
    rewrite Hr. rewrite <- (findings_nil o W Fx U), <- check_text_passed. split.
    + intros Eq. apply (f_equal (fun r => match r with Ok x => x_stdout x | _ => ""%string end)) in Eq. cbn [x_stdout] in Eq.
      exact (append_cancel _ _ _ Eq).
    + intros ->. reflexivity.
  - destruct (summary_ok fmt o W) as (text & _ & Hs). exists text. split; [exact Hs|].
    rewrite (check_aborts E fmt name d o L R N K). split; [discriminate|]. intros []. tauto.
Qed.

(** ** Written files *)

Lemma stored_named o o' : stored E o o' -> (named_elsewhere o' <-> named_elsewhere o).
Proof.
  intros (_ & _ & _ & _ & _ & Hi & Hv & Hv2 & Ht3 & Hf & _). unfold named_elsewhere, uses_arrname.
  rewrite Hi, Hv, Hv2, Ht3, Hf, !in_map_forall.
  assert (A : forall {T U} (f : T -> U) (P : U -> Prop) l, (exists u, In u (map f l) /\ P u) <-> exists t, In t l /\ P (f t)).
  { intros T U f P l. split.
    - intros (u & Hu & Pu). apply in_map_iff in Hu as (t & <- & Ht). eauto.
    - intros (t & Ht & Pt). exists (f t). split; [now apply in_map|exact Pt]. }
  split; intros (H1 & H2); (split; [intros t It Nt; specialize (H1 t It Nt)|intros t It Nt; specialize (H2 t It Nt)]);
    rewrite ?A in *; auto.
Qed.
Lemma written_passed name d o : (String.length name <= 1024)%nat -> cf_today E <> ""%string -> file_holds E name d o -> named_elsewhere o ->
  store_ready o -> exists o' text, reads E name d o' /\ summary_of fmt o' text
    /\ check_run name d = Ok (mk_outcome 0 (text ++ "All checks passed" ++ nl) d).
Proof.
  intros L T (o' & R & S) N Rd. destruct (check_passed name d o' L R) as (text & ? & ?).
  - now apply (stored_named o o' S).
  - now apply (store_conforms E o o' S T).
  - eauto.
Qed.
Lemma written_conforms name d o : cf_today E <> ""%string -> file_holds E name d o ->
  exists o', reads E name d o' /\ (conforms o' <-> store_ready o).
Proof. intros T (o' & R & S). exists o'. split; [exact R|]. exact (store_conforms E o o' S T). Qed.

(** ** Datasets ready for writing *)

Lemma conforming_ready o : conforms o -> h_content (o_header o) = "OIFITS2"%string -> store_ready o.
Proof.
  intros [Ct Cr Ch Ck Cm Cu Cg Ca Ce Ci Cc Cl C3 Co Cm' Cf] V.
  destruct Ct as (T1 & T2 & T3). destruct Ck as (K1 & K2 & K3). destruct (Ca V) as (A1 & A2 & A3 & A4 & A5).
  specialize (Ch V). cbv zeta in Ch. rewrite !Forall_cons_iff in Ch. specialize (K2 V). specialize (T1 V).
  constructor; try assumption.
  - unfold has_fringes. destruct T3 as [?|[?|[?|(_ & ?)]]]; tauto.
  - rewrite !Forall_cons_iff. tauto.
  - apply Forall_forall. intros t It. pose proof (proj1 (Forall_forall _ _) K3 t It) as (K & F).
    destruct (Cf t It) as (F1 & F2). destruct K as [K|[K|[]]]; symmetry in K.
    + left. specialize (F1 K). tauto.
    + right. specialize (F2 K). tauto.
Qed.
Lemma version1_ready o : conforms o -> version2_needs o -> header_given (o_header o) -> store_ready o.
Proof.
  intros [Ct Cr Ch Ck Cm Cu Cg Ca Ce Ci Cc Cl C3 Co Cm' Cf] [] G.
  destruct Ct as (T1 & T2 & T3). destruct Ck as (K1 & K2 & K3).
  constructor; try assumption.
  - unfold has_fringes. destruct T3 as [?|[?|[?|(_ & ?)]]]; tauto.
  - apply Forall_forall. intros t It. pose proof (proj1 (Forall_forall _ _) K3 t It) as (K & F).
    destruct (Cf t It) as (F1 & F2). destruct K as [K|[K|[]]]; symmetry in K.
    + left. specialize (F1 K). tauto.
    + right. specialize (F2 K). tauto.
Qed.
End Tools.

(** ** Merging *)

Lemma with_inputs_in {T} (tabs : oi_fits -> list T) ins fs f t : In (f, t) (with_inputs tabs ins fs) <->
  exists d, In (d, f) (combine ins fs) /\ In t (tabs d).
Proof.
  unfold with_inputs. rewrite in_flat_map. split.
  - intros ((d & f0) & H1 & H2). cbn [fst snd] in H2. apply in_map_iff in H2 as (t0 & [= -> ->] & H2). eauto.
  - intros (d & H1 & H2). exists (d, f). split; [exact H1|]. cbn [fst snd]. now apply in_map.
Qed.
Lemma Forall2_left {A B} (P : A -> B -> Prop) l m a : Forall2 P l m -> In a l -> exists b, In b m /\ P a b.
Proof.
  induction 1 as [|x y l m HP _ IH]; intros [].
  - subst x. exists y. split; [now left|exact HP].
  - destruct (IH H) as (b & ? & ?). exists b. split; [now right|assumption].
Qed.
Lemma Forall2_right {A B} (P : A -> B -> Prop) l m b : Forall2 P l m -> In b m -> exists a, In a l /\ P a b.
Proof.
  induction 1 as [|x y l m HP _ IH]; intros [].
  - subst y. exists x. split; [now left|exact HP].
  - destruct (IH H) as (a & ? & ?). exists a. split; [now right|assumption].
Qed.
Lemma merge_named ins out : Forall (fun d => wf_fits d = true) ins -> merge_oi_fits_list ins = Ok out ->
  Forall named_elsewhere ins -> named_elsewhere out.
Proof.
  intros W H N. destruct (merge_renamed ins out W H) as (fs & _ & B & F1 & F2 & F3 & F4 & F5).
  assert (G : forall {X R} (tabs : oi_fits -> list (dtab X R)) d f u, In (d, f) (combine ins fs) -> In u (tabs d) ->
    Forall2 renamed (with_inputs tabs ins fs) (tabs out) ->
    exists u', In u' (tabs out) /\ tb_arrname u' = rn_array f (tb_arrname u) /\ tb_corrname u' = rn_corr f (tb_corrname u)).
  { intros X R tabs d f u Hd Hu F. destruct (Forall2_left _ _ _ (f, u) F) as (u' & Hu' & (A1 & _ & A3)).
    - apply with_inputs_in. eauto.
    - eauto. }
  split.
  - intros t' Ht Hn. destruct (Forall2_right _ _ _ _ F5 Ht) as ((f & t) & Hi & (Ha & _)).
    apply with_inputs_in in Hi as (d & Hd & Hi).
    assert (Kb : keeps_blank f) by exact (proj1 (Forall_forall _ _) B f (in_combine_r _ _ _ _ Hd)).
    assert (Nt : is_arrname t <> ""%string) by (intros Eq; apply Hn; rewrite Ha, Eq; apply Kb).
    destruct (proj1 (Forall_forall _ _) N d (in_combine_l _ _ _ _ Hd)) as (N1 & _).
    destruct (N1 t Hi Nt) as (_ & U). split; [exact Hn|]. rewrite Ha.
    destruct U as [(u & Hu & Eu)|[(u & Hu & Eu)|[(u & Hu & Eu)|(u & Hu & Eu)]]]; rewrite <- Eu.
    + left. destruct (G _ _ o_visList d f u Hd Hu F1) as (u' & ? & ? & _). eauto.
    + right. left. destruct (G _ _ o_vis2List d f u Hd Hu F2) as (u' & ? & ? & _). eauto.
    + right. right. left. destruct (G _ _ o_t3List d f u Hd Hu F3) as (u' & ? & ? & _). eauto.
    + right. right. right. destruct (G _ _ o_fluxList d f u Hd Hu F4) as (u' & ? & ? & _). eauto.
  - intros t' Ht Hn. destruct (Forall2_right _ _ _ _ F4 Ht) as ((f & t) & Hi & (_ & _ & Hc)).
    apply with_inputs_in in Hi as (d & Hd & Hi).
    assert (Kb : keeps_blank f) by exact (proj1 (Forall_forall _ _) B f (in_combine_r _ _ _ _ Hd)).
    assert (Nt : tb_corrname t <> ""%string) by (intros Eq; apply Hn; rewrite Hc, Eq; apply Kb).
    destruct (proj1 (Forall_forall _ _) N d (in_combine_l _ _ _ _ Hd)) as (_ & N2).
    rewrite Hc. destruct (N2 t Hi Nt) as [(u & Hu & Eu)|[(u & Hu & Eu)|(u & Hu & Eu)]]; rewrite <- Eu.
    + left. destruct (G _ _ o_visList d f u Hd Hu F1) as (u' & ? & _ & ?). eauto.
    + right. left. destruct (G _ _ o_vis2List d f u Hd Hu F2) as (u' & ? & _ & ?). eauto.
    + right. right. destruct (G _ _ o_t3List d f u Hd Hu F3) as (u' & ? & _ & ?). eauto.
Qed.

(** ** Filtering *)

Section Filter.
Variables (pow_half : f64 -> f64) (d : oi_fits) (f f' : filter_spec) (d' : oi_fits).
Hypothesis C : consistent d.
Hypothesis HF : fresh_filter f.
Hypothesis E : apply_oi_filter pow_half d f = Ok (f', d').
Let Hvis := main_vis pow_half d f f' d' C HF E.
Let Hvis2 := main_vis2 pow_half d f f' d' C HF E.
Let Ht3 := main_t3 pow_half d f f' d' C HF E.
Let Hflux := main_flux pow_half d f f' d' C HF E.
Let Hinspol := main_inspol pow_half d f f' d' C HF E.
Let Harr := main_arrays pow_half d f f' d' C HF E.
Let Hhead := main_header pow_half d f f' d' C HF E.

Lemma filter_store_flux : store_ready d -> Forall (fun t =>
      fx_calstat (tb_x t) = "C"%char /\ tb_arrname t = ""%string
        /\ In (fx_fovtype (tb_x t)) [""; "FWHM"; "RADIUS"]%string
      \/ fx_calstat (tb_x t) = "U"%char /\ tb_arrname t <> ""%string /\ all_stations t
        /\ fx_fovtype (tb_x t) = ""%string) (o_fluxList d').
Proof.
  intros S. apply Forall_forall. intros t' Ht.
  destruct (flux_stations pow_half d f f' d' C HF E (fun z => z <> -1) t' Ht) as (t & A1 & (_ & _ & Ea & _ & _ & Ex) & A3).
  rewrite Ea, Ex. destruct (proj1 (Forall_forall _ _) (sr_flux d S) t A1) as [(H1 & H2 & H3)|(H1 & H2 & H3 & H4)]; [now left|].
  right. split; [exact H1|]. split; [exact H2|]. split; [|exact H4]. exact (A3 H3).
Qed.
Lemma filter_store_ready : store_ready d -> (store_ready d' <-> has_stations d').
Proof.
  intros S. pose proof (filter_store_flux S) as FX.
  assert (A1 : Forall (fun t => tb_arrname t <> ""%string) (o_visList d')).
  { eapply (tables_forall d f); [exact Hvis| |exact (sr_vis d S)]. intros t t' (_ & _ & -> & _). auto. }
  assert (A2 : Forall (fun t => tb_arrname t <> ""%string) (o_vis2List d')).
  { eapply (tables_forall d f); [exact Hvis2| |exact (sr_vis2 d S)]. intros t t' (_ & _ & -> & _). auto. }
  assert (A3 : Forall (fun t => tb_arrname t <> ""%string) (o_t3List d')).
  { eapply (tables_forall d f); [exact Ht3| |exact (sr_t3 d S)]. intros t t' (_ & _ & -> & _). auto. }
  pose proof (filter_elements pow_half d f f' d' C HF E (sr_elements d S)) as EP.
  destruct (main_ready pow_half d f f' d' C HF E) as (R1 & R2 & R3 & R4).
  split.
  - intros S'. destruct (one_of_list _ (sr_arrays d' S')) as (a & Ha).
    destruct (kept_true _ _ _ _ Harr a Ha) as (b & _ & (_ & Hn & U) & ->).
    destruct U as [(t & Ht & _)|[(t & Ht & _)|[(t & Ht & _)|(t & Ht & En)]]].
    + left. left. intros Eq. rewrite Eq in Ht. destruct Ht.
    + left. right. left. intros Eq. rewrite Eq in Ht. destruct Ht.
    + left. right. right. intros Eq. rewrite Eq in Ht. destruct Ht.
    + right. exists t. split; [exact Ht|].
      destruct (proj1 (Forall_forall _ _) FX t Ht) as [(_ & H2 & _)|(H1 & _)]; [congruence|exact H1].
  - intros HD.
    assert (T : o_arrayList d' <> [] /\ o_wavelengthList d' <> [] /\ (has_fringes d' \/ o_fluxList d' <> [])).
    { destruct EP as (_ & E1 & E2 & E3 & E4). unfold has_fringes. destruct HD as [[H|[H|H]]|(t & Ht & Hc)].
      - destruct (one_of_list _ H) as (t & Ht). pose proof (proj1 (Forall_forall _ _) A1 t Ht) as Hn.
        destruct (table_row d f d' _ _ _ _ t Hvis Ht (R1 t Ht)) as (r & Hr). split; [|split; [|tauto]].
        + exact (station_array d' _ _ (proj1 (E1 t r Ht Hn Hr))).
        + apply (instrument_there pow_half d f f' d' C HF E (tb_insname t)). left. eauto.
      - destruct (one_of_list _ H) as (t & Ht). pose proof (proj1 (Forall_forall _ _) A2 t Ht) as Hn.
        destruct (table_row d f d' _ _ _ _ t Hvis2 Ht (R2 t Ht)) as (r & Hr). split; [|split; [|tauto]].
        + exact (station_array d' _ _ (proj1 (E2 t r Ht Hn Hr))).
        + apply (instrument_there pow_half d f f' d' C HF E (tb_insname t)). right. left. eauto.
      - destruct (one_of_list _ H) as (t & Ht). pose proof (proj1 (Forall_forall _ _) A3 t Ht) as Hn.
        destruct (table_row d f d' _ _ _ _ t Ht3 Ht (R3 t Ht)) as (r & Hr). split; [|split; [|tauto]].
        + exact (station_array d' _ _ (proj1 (E3 t r Ht Hn Hr))).
        + apply (instrument_there pow_half d f f' d' C HF E (tb_insname t)). right. right. left. eauto.
      - destruct (proj1 (Forall_forall _ _) FX t Ht) as [(H1 & _)|(_ & Hn & Hs & _)]; [congruence|].
        destruct (table_row d f d' _ _ _ _ t Hflux Ht (R4 t Ht)) as (r & Hr). split; [|split].
        + exact (station_array d' _ _ (E4 t r Ht Hn Hr (proj1 (Forall_forall _ _) Hs r Hr))).
        + apply (instrument_there pow_half d f f' d' C HF E (tb_insname t)). right. right. right. eauto.
        + right. intros Eq. rewrite Eq in Ht. destruct Ht. }
    destruct T as (T1 & T2 & T3). destruct S. constructor; try assumption.
    + now rewrite Hhead.
    + apply Forall_forall. intros a Ha. destruct (kept_true _ _ _ _ Harr a Ha) as (b & Hb & _ & ->).
      exact (proj1 (Forall_forall _ _) sr_frame a Hb).
    + eapply (tables_forall d f); [exact Hvis| |exact sr_types]. intros t t' (_ & _ & _ & _ & _ & ->). auto.
    + now apply (filter_refmap pow_half d f f' d' C HF E).
    + now apply (filter_unique pow_half d f f' d' C HF E).
    + now apply (filter_targets pow_half d f f' d' C HF E).
    + now apply (filter_inspol_named pow_half d f f' d' C HF E).
    + now apply (filter_corr pow_half d f f' d' C HF E).
    + now apply (filter_flagging pow_half d f f' d' C HF E).
    + now apply (filter_t3amp pow_half d f f' d' C HF E).
    + now apply (filter_order pow_half d f f' d' C HF E).
Qed.
Lemma filter_inspol_elsewhere t : In t (o_inspolList d') -> is_arrname t <> ""%string -> uses_arrname d' (is_arrname t).
Proof.
  intros Ht _. destruct (kept_true _ _ _ _ Hinspol t Ht) as (b & _ & (_ & _ & U) & _ & _ & _ & -> & _). exact U.
Qed.
End Filter.

(** ** One program after another *)

Section Programs.
Variables (E : cfitsio) (fmt : string -> f64 -> string).
Hypothesis Today : cf_today E <> ""%string.
(** oifits-check on this file says that all is well *)
Notation passed := (passed E fmt).

Lemma filter_then_check pow_half can_remove clobber opts inName out d o :
  (String.length inName <= 1024)%nat -> (String.length out <= 1024)%nat ->
  reads E inName d o -> channels_match o -> storable_fits E o = true ->
  f_target_id (user_filter opts) < 0
    \/ (exists t, In t (ot_targ (o_targets o)) /\ tg_target_id t = f_target_id (user_filter opts)) ->
  find_file out d = None \/ (clobber = true /\ can_remove out = true) ->
  store_ready o ->
  exists f' o' x, apply_oi_filter pow_half o (user_filter opts) = Ok (f', o')
    /\ filter_run E fmt pow_half can_remove clobber opts inName out d = Ok x /\ x_status x = 0
    /\ (has_stations o' -> corrs_elsewhere o' -> passed out (x_disk x)).
Proof.
  intros L1 L2 R M S T F Rd.
  destruct (filter_output E fmt pow_half can_remove clobber opts inName out d o L1 L2 R M S T F)
    as (f' & o' & x & Ha & Hr & Hx & _ & _ & Hf).
  exists f', o', x. split; [exact Ha|]. split; [exact Hr|]. split; [exact Hx|]. intros HD HE.
  pose proof (read_consistent E _ _ _ R M) as C.
  pose proof (fo_fresh _ _ (user_filter_ok opts)) as HF.
  apply (written_passed E fmt out (x_disk x) o' L2 Today Hf).
  - split; [|exact HE]. intros t. exact (filter_inspol_elsewhere pow_half o _ f' o' C HF Ha t).
  - exact (proj2 (filter_store_ready pow_half o _ f' o' C HF Ha Rd) HD).
Qed.

Lemma merge_then_check out names d ins :
  (String.length out <= 1024)%nat ->
  (2 <= List.length names)%nat -> Forall2 (fun n o => reads E n d o) names ins -> targets_match ins ->
  Forall (fun o => storable_fits E o = true) ins -> roomy_names ins -> find_file out d = None ->
  Forall merge_ready ins -> plain_names ins -> Forall named_elsewhere ins ->
  exists x, oifits_merge E fmt (out :: names) d = Ok x /\ x_status x = 0 /\ passed out (x_disk x).
Proof.
  intros L L2 R T S Rm F Rd Pl N.
  destruct (merge_output E fmt out names d ins L2 R T S Rm F) as (o & x & text & Hm & Hr & Hx & _ & _ & _ & Hf).
  exists x. split; [exact Hr|]. split; [exact Hx|].
  assert (W : Forall (fun o => wf_fits o = true) ins).
  { clear - R. induction R as [|n o names ins R0 R IH]; constructor; [|exact IH]. exact (reads_wf E _ _ _ R0). }
  assert (Ne : ins <> []) by (intros ->; inversion R; subst; cbn in L2; lia).
  assert (D : Forall dated ins).
  { destruct T as (T & _). eapply Forall_impl; [|exact T]. intros o0 (_ & D). exact D. }
  pose proof (merge_conforms ins o W Hm Rd Pl Ne D) as Cf.
  apply (written_passed E fmt out (x_disk x) o L Today Hf).
  - exact (merge_named ins o W Hm N).
  - apply conforming_ready; [exact Cf|]. exact (out_two ins o Hm).
Qed.

Lemma cut_nonempty s : s <> ""%string -> cut s <> ""%string.
Proof. destruct s; [contradiction|]. intros _. cbn. discriminate. Qed.
Lemma upgrade_then_check inName out origin observer insmode more d o :
  (String.length out <= 1024)%nat ->
  reads E inName d o -> h_content (o_header o) <> "OIFITS2"%string ->
  storable_fits E o = true -> card_text (cut origin) = true -> card_text (cut observer) = true ->
  card_text (cut insmode) = true -> find_file out d = None ->
  conforms o -> version2_needs o -> named_elsewhere o ->
  Forall (fun v => v <> ""%string) [origin; observer; insmode; h_date_obs (o_header o); h_telescop (o_header o);
    h_instrume (o_header o); h_object (o_header o)] ->
  exists x, oifits_upgrade E fmt (inName :: out :: origin :: observer :: insmode :: more) d = Ok x /\ x_status x = 0
    /\ passed out (x_disk x).
Proof.
  intros L R V S C1 C2 C3 F Cf N NE G.
  destruct (upgrade_output E fmt inName out origin observer insmode more d o R V (vn_arrays o N) S C1 C2 C3 F)
    as (o' & x & text & Rl & Hr & Hx & _ & _ & _ & Hf).
  exists x. split; [exact Hr|]. split; [exact Hx|].
  destruct Rl as (Rh & R1 & R2 & R3 & R4 & R5 & R6 & R7 & R8 & R9).
  apply (written_passed E fmt out (x_disk x) o' L Today Hf).
  - unfold named_elsewhere, uses_arrname in *. now rewrite R5, R6, R7, R8, R9.
  - assert (G' : header_given (o_header o')).
    { unfold header_given. rewrite Rh. cbn [h_origin h_date_obs h_telescop h_instrume h_observer h_insmode h_object].
      rewrite !Forall_cons_iff in G.
      destruct G as (G1 & G2 & G3 & G4 & G5 & G6 & G7 & _). apply cut_nonempty in G1, G2, G3.
      repeat apply Forall_cons; try assumption. apply Forall_nil. }
    destruct Cf as [Ct Cr Ch Ck Cm Cu Cg Ca Ce Ci Cc Cl Cx Co Cm' Cfl]. destruct N as [N1 N2 N3 N4 N5 N6 _ _ _].
      destruct Ct as (T1 & T2 & T3). destruct Ck as (K1 & K2 & K3).
      constructor; unfold has_fringes, refmap_rule, unique_rule, targets_present, elements_present, station_exists, corr_rule,
        flagging_rule, t3amp_rule, order_rule; rewrite ?R1, ?R2, ?R3, ?R4, ?R5, ?R6, ?R7, ?R8, ?R9; try assumption.
      + destruct T3 as [?|[?|[?|(_ & ?)]]]; tauto.
      + apply Forall_forall. intros t It. pose proof (proj1 (Forall_forall _ _) K3 t It) as (K & Fv).
        destruct (Cfl t It) as (F1 & F2). destruct K as [K|[K|[]]]; symmetry in K.
        * left. specialize (F1 K). tauto.
        * right. specialize (F2 K). tauto.
Qed.
End Programs.
