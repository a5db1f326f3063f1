(** check_tables, check_elements_present, formatted reports, merged datasets. *)
From Verif Require Import BaseLemmas FileModel FileSpec FileProofs MergeModel MergeSpec MergeProofs
  MergeTargets MergeHeader MergeData MergeWhole MergeFacts CheckModel CheckSpec CheckProofs CheckReports CheckRules.
From Coq Require Import Lia.
Open Scope Z_scope.

(** ** Lists with several descriptions *)

Definition sel (d : string) (vs : list violation) : list violation :=
  filter (fun v => String.eqb (v_desc v) d) vs.

Lemma sel_nil d vs : sel d vs = [] <-> forall v, In v vs -> v_desc v <> d.
Proof.
  unfold sel. induction vs as [|v vs IH]; cbn [filter].
  - split; [intros _ ? []|reflexivity].
  - destruct (String.eqb_spec (v_desc v) d).
    + split; [discriminate|]. intros H. destruct (H v (or_introl eq_refl)). assumption.
    + rewrite IH. split; [intros H w [<-|Hw]; auto|]. intros H w Hw. apply H. right. exact Hw.
Qed.
Lemma sel_app d vs ws : sel d (vs ++ ws) = sel d vs ++ sel d ws.
Proof. apply filter_app. Qed.
Lemma sel_when d b level d' text :
  sel d (when b level d' text) = if String.eqb d' d then when b level d' text else [].
Proof. unfold sel, when. destruct b; cbn [filter v_desc]; destruct (String.eqb d' d); reflexivity. Qed.
Lemma sel_flat {A} d (f : A -> list violation) l : sel d (flat_map f l) = flat_map (fun a => sel d (f a)) l.
Proof. induction l as [|a l IH]; [reflexivity|]. cbn [flat_map]. rewrite sel_app, IH. reflexivity. Qed.
Lemma sel_over {A} d place what (l : list A) f :
  sel d (over place what l f) = over place what l (fun p a => sel d (f p a)).
Proof. apply sel_flat. Qed.

(** Two descriptions make the report abort. *)
Lemma mixed_split vs : levels_ok vs ->
  (exists d, uniform d vs)
  \/ exists a v b d, vs = a ++ v :: b /\ a <> [] /\ uniform d a /\ v_desc v <> d.
Proof.
  induction vs as [|x vs IH] using rev_ind; intros L.
  - left. exists ""%string. apply uniform_nil.
  - destruct IH as [[d U]|(a & v & b & d & -> & Ha & U & Hv)].
    + intros v Hv. apply L, in_or_app. auto.
    + destruct vs as [|y vs].
      * left. exists (v_desc x). intros v [<-|[]]. split; [reflexivity|]. apply L. left. reflexivity.
      * destruct (string_dec (v_desc x) d) as [e|n].
        -- left. exists d. apply uniform_app; [exact U|]. intros v [<-|[]]. split; [exact e|].
           apply L, in_or_app. right. left. reflexivity.
        -- right. exists (y :: vs), x, [], d. repeat split; try assumption; try congruence; apply U.
           all: assumption.
    + right. exists a, v, (b ++ [x]), d. rewrite <- app_assoc. auto.
Qed.
Lemma report_aborts vs v w : levels_ok vs -> In v vs -> In w vs -> v_desc v <> v_desc w ->
  report vs init_check_result = Abort.
Proof.
  intros L Hv Hw D. destruct (mixed_split vs L) as [[d U]|(a & x & b & d & -> & Ha & U & Hx)].
  - destruct (U v Hv), (U w Hw). congruence.
  - apply (report_mixed _ _ _ d); auto. destruct (L x); [|lia|lia]. apply in_or_app. right. left. reflexivity.
Qed.

(** ** check_tables *)

Lemma no_table_false {A} (l : list A) : no_table l = false <-> l <> [].
Proof. unfold no_table. destruct l; cbn; split; congruence. Qed.
Lemma missing_nil o : missing_tables o = [] <-> tables_present o.
Proof.
  unfold missing_tables, tables_present. cbv zeta. rewrite !app_nil_iff.
  destruct (str_eqb (h_content (o_header o)) "OIFITS2") eqn:E.
  - apply str_eqb_eq in E. cbn [andb]. rewrite !when_nil, !andb_false_iff, !no_table_false. tauto.
  - apply str_eqb_neq in E. cbn [andb]. rewrite !when_nil, !andb_false_iff, !no_table_false. tauto.
Qed.
Lemma bad_revisions_nil {A} name (revision : A -> Z) n l :
  bad_revisions name revision n l = [] <-> Forall (fun t => revision t = n) l.
Proof.
  apply over_nil_F. intros p t _. rewrite when_nil, negb_false_iff. apply Z.eqb_eq.
Qed.
Lemma Forall_iff {A} (P Q : A -> Prop) l : (forall a, P a <-> Q a) -> Forall P l <-> Forall Q l.
Proof. intros H. rewrite !Forall_forall. split; intros G a Ha; apply H, G, Ha. Qed.
Lemma revision_nil o : revision_violations o = [] <-> revisions_ok o.
Proof.
  unfold revision_violations, revisions_ok. cbv zeta.
  destruct (str_eqb (h_content (o_header o)) "OIFITS2") eqn:E.
  - apply str_eqb_eq in E. rewrite !app_nil_iff, !bad_revisions_nil, when_nil, negb_false_iff, Z.eqb_eq.
    assert (K : forall n, n = 2 <-> (h_content (o_header o) = "OIFITS2"%string -> n = 2)
                 /\ (h_content (o_header o) <> "OIFITS2"%string -> n = 1)) by (intros; tauto).
    rewrite <- !K.
    rewrite (Forall_iff _ _ (o_arrayList o) (fun a => K (ar_revision a))),
      (Forall_iff _ _ (o_wavelengthList o) (fun a => K (wv_revision a))),
      (Forall_iff _ _ (o_visList o) (fun a => K (tb_revision a))),
      (Forall_iff _ _ (o_vis2List o) (fun a => K (tb_revision a))),
      (Forall_iff _ _ (o_t3List o) (fun a => K (tb_revision a))). tauto.
  - apply str_eqb_neq in E. rewrite !app_nil_iff, !bad_revisions_nil, when_nil, negb_false_iff, Z.eqb_eq.
    assert (K : forall n, n = 1 <-> (h_content (o_header o) = "OIFITS2"%string -> n = 2)
                 /\ (h_content (o_header o) <> "OIFITS2"%string -> n = 1)) by (intros; tauto).
    rewrite <- !K.
    rewrite (Forall_iff _ _ (o_arrayList o) (fun a => K (ar_revision a))),
      (Forall_iff _ _ (o_wavelengthList o) (fun a => K (wv_revision a))),
      (Forall_iff _ _ (o_visList o) (fun a => K (tb_revision a))),
      (Forall_iff _ _ (o_vis2List o) (fun a => K (tb_revision a))),
      (Forall_iff _ _ (o_t3List o) (fun a => K (tb_revision a))). tauto.
Qed.

Lemma missing_uniform o : uniform d_missing (missing_tables o).
Proof. unfold missing_tables. cbv zeta. uniform. Qed.
Lemma revision_uniform o : uniform d_revision (revision_violations o).
Proof. unfold revision_violations, bad_revisions. cbv zeta. uniform. Qed.

Lemma tables_reports o : wf_fits o = true -> tables_present o \/ revisions_ok o ->
  reports (check_tables o) (missing_tables o ++ revision_violations o).
Proof.
  intros W [H|H]; rewrite tables_report by exact W.
  - apply missing_nil in H. rewrite H. eapply report_reports, revision_uniform.
  - apply revision_nil in H. rewrite H, app_nil_r. eapply report_reports, missing_uniform.
Qed.
Lemma tables_decides o : wf_fits o = true -> tables_present o \/ revisions_ok o ->
  decides (check_tables o) (tables_present o /\ revisions_ok o) 2.
Proof.
  intros W H. eapply decides_intro; [lia| | |apply tables_reports; assumption].
  - unfold missing_tables, revision_violations, bad_revisions. cbv zeta. level.
  - rewrite app_nil_iff, missing_nil, revision_nil. reflexivity.
Qed.
Lemma tables_abort o : wf_fits o = true -> ~ tables_present o -> ~ revisions_ok o -> check_tables o = Abort.
Proof.
  intros W H1 H2. rewrite tables_report by exact W.
  rewrite <- missing_nil in H1. rewrite <- revision_nil in H2.
  destruct (revision_violations o) as [|v vs] eqn:E; [congruence|].
  apply (report_mixed _ _ _ d_missing); [exact H1|apply missing_uniform| |];
    destruct (revision_uniform o v) as [D L]; try (rewrite E; left; reflexivity).
  - rewrite D. discriminate.
  - lia.
Qed.

(** ** check_elements_present *)

Lemma first_match_unique {A} (p : A -> Prop) l a b : first_match p l a -> first_match p l b -> a = b.
Proof.
  intros (l1 & r1 & -> & P1 & N1) (l2 & r2 & E & P2 & N2).
  revert l2 E N2. induction l1 as [|x l1 IH]; intros [|y l2] E N2; cbn in E.
  - congruence.
  - injection E as <- _. destruct (N2 a); [left; reflexivity|exact P1].
  - injection E as -> _. destruct (N1 b); [left; reflexivity|exact P2].
  - injection E as -> E. apply (IH (fun c Hc => N1 c (or_intror Hc)) l2 E). intros c Hc. apply N2. right. exact Hc.
Qed.
Lemma station_iff o name sta : no_station o name sta = false <-> station_exists o name sta.
Proof.
  unfold no_station, station_exists.
  pose proof (find_lookup_result (fun a => String.eqb (ar_arrname a) name) (fun a => ar_arrname a = name)
    (o_arrayList o) (fun a => String.eqb_eq (ar_arrname a) name)) as L.
  destruct (find _ (o_arrayList o)) as [a|]; cbn in L.
  - rewrite negb_false_iff, existsb_exists. split.
    + intros (e & He & Ee). apply Z.eqb_eq in Ee. exists a. split; [exact L|]. rewrite <- Ee. apply in_map, He.
    + intros (b & Lb & Hs). rewrite (first_match_unique _ _ _ _ L Lb). apply in_map_iff in Hs as (e & Ee & He).
      exists e. split; [exact He|]. now apply Z.eqb_eq.
  - split; [discriminate|]. intros (b & (l1 & r1 & E & Eb & _) & _). exfalso. apply (L b); [|exact Eb].
    rewrite E. apply in_or_app. right. left. reflexivity.
Qed.

Lemma stationless_nil {X R} o name (stations : R -> list Z) (l : list (dtab X R)) :
  sel d_element (stationless o name stations l) = [] <->
  forall t r s, In t l -> tb_arrname t <> ""%string -> In r (tb_record t) -> In s (stations r) ->
  station_exists o (tb_arrname t) s.
Proof.
  unfold stationless, over_tables. rewrite sel_over.
  rewrite (over_nil _ _ l _ (fun t => tb_arrname t <> ""%string -> forall r, In r (tb_record t) -> forall s,
    In s (stations r) -> station_exists o (tb_arrname t) s)).
  - split; intros H; intros; eapply H; eauto.
  - intros p t _. destruct (is_empty (tb_arrname t)) eqn:E.
    + apply is_empty_true in E. split; [intros _ N; congruence|reflexivity].
    + apply is_empty_false in E. unfold over_records. rewrite sel_over.
      rewrite (over_nil _ _ _ _ (fun r => forall s, In s (stations r) -> station_exists o (tb_arrname t) s)).
      * tauto.
      * intros q r _. rewrite sel_flat, flat_map_nil. split; intros H s Hs; specialize (H s Hs); rewrite sel_when in *.
        -- apply station_iff, (when_nil _ 2 d_element q). exact H.
        -- change (when (no_station o (tb_arrname t) s) 2 d_element q = []). apply when_nil, station_iff, H.
Qed.
Lemma stationless_named {X R} o name (stations : R -> list Z) (l : list (dtab X R)) :
  sel d_arrname (stationless o name stations l) = [].
Proof.
  apply sel_nil. intros v Hv. unfold stationless in Hv. apply in_over in Hv as (p & t & _ & Hv).
  destruct (is_empty _); [destruct Hv|]. apply in_over in Hv as (q & r & _ & Hv).
  apply in_flat_map in Hv as (s & _ & Hv). unfold when in Hv. destruct (no_station _ _ _); [|destruct Hv].
  destruct Hv as [<-|[]]. discriminate.
Qed.

Lemma element_nil o : sel d_element (element_violations o) = [] <-> elements_present o.
Proof.
  unfold element_violations, elements_present. rewrite !sel_app, !app_nil_iff, !stationless_nil.
  unfold over_tables at 1. rewrite sel_over.
  rewrite (over_nil _ _ (o_inspolList o) _ (fun t => is_arrname t <> ""%string -> forall r, In r (is_record t) ->
    station_exists o (is_arrname t) (ip_sta_index r))).
  2:{ intros p t _. destruct (is_empty (is_arrname t)) eqn:E.
      - apply is_empty_true in E. split; [intros _ N; congruence|]. intros _. reflexivity.
      - apply is_empty_false in E. unfold over_records. rewrite sel_over.
        rewrite (over_nil _ _ _ _ (fun r => station_exists o (is_arrname t) (ip_sta_index r))).
        + tauto.
        + intros q r _. rewrite sel_when. change (String.eqb d_element d_element) with true. cbv iota.
          rewrite when_nil. apply station_iff. }
  cbn [In]. split.
  - intros (H1 & H2 & H3 & H4 & H5). repeat split; intros; eauto 6.
    apply (H5 t r); auto. destruct (Z.eqb_spec (fr_sta_index r) (-1)); [congruence|]. left. reflexivity.
  - intros (H1 & H2 & H3 & H4 & H5). split; [|split; [|split; [|split]]].
    + intros t Ht Hn r Hr. eauto.
    + intros t r s Ht Hn Hr Hs. destruct (H2 t r) as [K1 K2]; auto. destruct Hs as [<-|[<-|[]]]; assumption.
    + intros t r s Ht Hn Hr Hs. destruct (H3 t r) as [K1 K2]; auto. destruct Hs as [<-|[<-|[]]]; assumption.
    + intros t r s Ht Hn Hr Hs. destruct (H4 t r) as (K1 & K2 & K3); auto.
      destruct Hs as [<-|[<-|[<-|[]]]]; assumption.
    + intros t r s Ht Hn Hr Hs. destruct (Z.eqb_spec (fr_sta_index r) (-1)); [destruct Hs|].
      destruct Hs as [<-|[]]. apply (H5 t r); auto.
Qed.
Lemma element_named o : sel d_arrname (element_violations o) = [] <-> inspol_named o.
Proof.
  unfold element_violations, inspol_named. rewrite !sel_app, !stationless_named, !app_nil_r.
  unfold over_tables. rewrite sel_over. apply over_nil_F. intros p t _.
  destruct (is_empty (is_arrname t)) eqn:E.
  - apply is_empty_true in E. split; [discriminate|congruence].
  - apply is_empty_false in E. split; [auto|]. intros _. apply sel_nil. intros v Hv.
    apply in_over in Hv as (q & r & _ & Hv). unfold when in Hv. destruct (no_station _ _ _); [|destruct Hv].
    destruct Hv as [<-|[]]. discriminate.
Qed.
Lemma element_levels o v : In v (element_violations o) ->
  v_level v = 2 /\ (v_desc v = d_element \/ v_desc v = d_arrname).
Proof.
  assert (S : forall X R name stations (l : list (dtab X R)), In v (stationless o name stations l) ->
    v_level v = 2 /\ (v_desc v = d_element \/ v_desc v = d_arrname)).
  { intros X R name stations l Hv. apply in_over in Hv as (p & t & _ & Hv).
    destruct (is_empty _); [destruct Hv|]. apply in_over in Hv as (q & r & _ & Hv).
    apply in_flat_map in Hv as (s & _ & Hv). unfold when in Hv. destruct (no_station _ _ _); [|destruct Hv].
    destruct Hv as [<-|[]]. cbn. auto. }
  unfold element_violations. intros Hv. repeat (apply in_app_or in Hv as [Hv|Hv]); eauto.
  apply in_over in Hv as (p & t & _ & Hv). destruct (is_empty _).
  - destruct Hv as [<-|[]]. cbn. auto.
  - apply in_over in Hv as (q & r & _ & Hv). unfold when in Hv. destruct (no_station _ _ _); [|destruct Hv].
    destruct Hv as [<-|[]]. cbn. auto.
Qed.

Section Elements.
Variable o : oi_fits.
Hypotheses (W : wf_fits o = true) (F : arrays_found o).
Lemma elements_reports : inspol_named o \/ elements_present o ->
  reports (check_elements_present o) (element_violations o).
Proof using W F.
  intros H. rewrite elements_report by assumption. destruct H as [H|H].
  - apply element_named in H. rewrite sel_nil in H. apply (report_reports _ d_element).
    intros v Hv. destruct (element_levels o v Hv) as [L [D|D]]; [auto|]. destruct (H v Hv D).
  - apply element_nil in H. rewrite sel_nil in H. apply (report_reports _ d_arrname).
    intros v Hv. destruct (element_levels o v Hv) as [L [D|D]]; [|auto]. destruct (H v Hv D).
Qed.
Lemma elements_nil : element_violations o = [] <-> elements_present o /\ inspol_named o.
Proof using.
  clear F W. rewrite <- element_nil, <- element_named. split; [intros ->; split; reflexivity|].
  rewrite !sel_nil. intros [H1 H2]. destruct (element_violations o) as [|v vs] eqn:E; [reflexivity|].
  destruct (element_levels o v) as [_ [D|D]]; [rewrite E; left; reflexivity| |].
  - destruct (H1 v (or_introl eq_refl) D).
  - destruct (H2 v (or_introl eq_refl) D).
Qed.
Lemma elements_decides : inspol_named o \/ elements_present o ->
  decides (check_elements_present o) (elements_present o /\ inspol_named o) 2.
Proof using W F.
  intros H. eapply decides_intro; [lia| |apply elements_nil|apply elements_reports, H].
  intros v Hv. apply (element_levels o v Hv).
Qed.
Lemma sel_some d vs : sel d vs <> [] -> exists v, In v vs /\ v_desc v = d.
Proof using.
  clear. unfold sel. intros H. destruct (filter _ vs) as [|v l] eqn:E; [congruence|].
  assert (K : In v (filter (fun v => String.eqb (v_desc v) d) vs)) by (rewrite E; left; reflexivity).
  apply filter_In in K as [K1 K2]. apply String.eqb_eq in K2. eauto.
Qed.
Lemma elements_abort : ~ inspol_named o -> ~ elements_present o -> check_elements_present o = Abort.
Proof using W F.
  intros H1 H2. rewrite elements_report by assumption. rewrite <- element_named in H1. rewrite <- element_nil in H2.
  destruct (sel_some _ _ H1) as (v & Hv & Dv). destruct (sel_some _ _ H2) as (w & Hw & Dw).
  apply (report_aborts _ v w); auto.
  - intros x Hx. destruct (element_levels o x Hx). auto.
  - rewrite Dv, Dw. discriminate.
Qed.
End Elements.

(** ** Formatted reports *)

Lemma append_assoc (a b c : string) : ((a ++ b) ++ c)%string = (a ++ (b ++ c))%string.
Proof. induction a as [|x a IH]; [reflexivity|]. cbn. rewrite IH. reflexivity. Qed.
Lemma append_nil (a : string) : (a ++ "")%string = a.
Proof. induction a as [|x a IH]; [reflexivity|]. cbn. rewrite IH. reflexivity. Qed.

Lemma print_slots (pre : list (option string)) (texts : list string) (post : list (option string)) s :
  for_from (length texts) (Z.of_nat (length pre)) (fun i s =>
      l <- get (pre ++ map Some texts ++ post) i ;; l <- fmt_s l ;;
      Ok (s ++ "    " ++ l ++ newline)%string) s = Ok (s ++ lines texts)%string.
Proof.
  revert pre s. induction texts as [|t texts IH]; intros pre s.
  - cbn. rewrite append_nil. reflexivity.
  - cbn [length for_from map]. change ((Some t :: map Some texts) ++ post) with (Some t :: map Some texts ++ post).
    rewrite get_middle. cbn [bind fmt_s].
    specialize (IH (pre ++ [Some t]) (s ++ "    " ++ t ++ newline)%string).
    rewrite app_length, <- app_assoc in IH. cbn [length app] in IH.
    replace (Z.of_nat (length pre + 1)) with (Z.of_nat (length pre) + 1) in IH by lia.
    rewrite IH. f_equal. rewrite append_assoc. f_equal. change newline with nl. cbn [lines].
    rewrite append_assoc, append_assoc. reflexivity.
Qed.

Definition worst (vs : list violation) : Z := fold_right Z.max 0 (map v_level vs).

Lemma format_ok vs r v : reported vs r -> levels_ok vs -> hd_error vs = Some v ->
  format_check_result r = Ok (Some (report_text vs (v_desc v) (worst vs))).
Proof.
  intros (N & L & D & S) Hl Hv. destruct vs as [|w vs]; [discriminate|]. injection Hv as ->.
  set (l := v :: vs) in *. destruct (max_level_two l Hl) as (M1 & M2 & M3).
  unfold format_check_result. rewrite L, N, D, S. fold (worst l). fold (worst l) in M1, M2, M3.
  assert (worst l = 1 \/ worst l = 2) as E.
  { destruct (Z.eq_dec (worst l) 0) as [e|n]; [apply M1 in e; discriminate|lia]. }
  destruct (Z.eqb_spec (worst l) OI_BREACH_NONE) as [e|_]; [unfold OI_BREACH_NONE in e; lia|].
  set (T := if (length l <? 10)%nat then map v_text l else firstn 9 (map v_text l) ++ ["[List truncated]"%string]).
  assert (P : exists post, slots (map v_text l) = map Some T ++ post
     /\ (if Z.of_nat (length l) <? MAX_REPORT then Z.of_nat (length l) else MAX_REPORT) = Z.of_nat (length T)).
  { unfold slots, T, MAX_REPORT. rewrite map_length. destruct (Nat.ltb_spec (length l) 10).
    - eexists. split; [reflexivity|]. rewrite map_length. destruct (Z.ltb_spec (Z.of_nat (length l)) 10); lia.
    - exists []. rewrite app_nil_r, map_app. split; [reflexivity|]. rewrite app_length, firstn_length, map_length.
      cbn [length]. destruct (Z.ltb_spec (Z.of_nat (length l)) 10); lia. }
  destruct P as (post & -> & ->).
  assert (G : exists lv, get oi_breach_level_desc (worst l) = Ok lv
    /\ lv = (if (worst l =? 1)%Z then "Valid OIFITS, but may cause problems for some reading software"
             else "Does not conform to the OIFITS standard")%string).
  { destruct E as [->| ->]; eexists; split; reflexivity. }
  destruct G as (lv & -> & ->). cbn [bind hd_error map l fmt_s]. unfold for_. rewrite Nat2Z.id.
  rewrite (print_slots [] T post). cbn [bind]. f_equal. f_equal. unfold report_text. change newline with nl.
  fold T. rewrite !append_assoc. reflexivity.
Qed.
Lemma format_level vs r v : reported vs r -> levels_ok vs -> hd_error vs = Some v ->
  format_check_result r = Ok (Some (report_text vs (v_desc v) (cr_level r))).
Proof. intros R L Hv. rewrite (format_ok vs r v R L Hv). destruct R as (_ & -> & _). reflexivity. Qed.
Lemma format_none r : reported [] r -> format_check_result r = Ok None /\ print_check_result r = UB.
Proof.
  intros (N & L & D & S). unfold print_check_result, format_check_result. rewrite L. cbn. auto.
Qed.

(** ** Merged datasets *)

Section Merged.
Variables (ins : list oi_fits) (out : oi_fits).
Hypothesis W : Forall (fun d => wf_fits d = true) ins.
Hypothesis H : merge_oi_fits_list ins = Ok out.

Lemma lookup_listed id t : oi_fits_lookup_target out id = Ok (Some t) ->
  In id (map tg_target_id (ot_targ (o_targets out))).
Proof using W H.
  intros E. unfold oi_fits_lookup_target in E. rewrite search_ok in E by apply (target_wf ins out W H).
  injection E as E. apply find_some in E as [E1 E2]. apply Z.eqb_eq in E2. rewrite <- E2. now apply in_map.
Qed.
Lemma merged_targets_present : targets_present out.
Proof using W H.
  destruct (merge_facts ins out W H) as (ids & F).
  assert (G : forall X R (id : R -> Z) (set_id : Z -> R -> R) rv (rel : X -> Z -> R -> R -> Prop) tabs,
    (forall n r, id (set_id n r) = n) ->
    Forall2 (traced (placed id set_id rv rel ids) tabs ins out) (from_inputs tabs ins) (tabs out) ->
    forall t r, In t (tabs out) -> In r (tb_record t) ->
    In (id r) (map tg_target_id (ot_targ (o_targets out)))).
  { intros X R id set_id rv rel tabs Hset F2 t' r' Ht Hr.
    destruct (Forall2_in_r _ _ _ t' F2 Ht) as ([d t] & _ & (Hd & Hin & a & i & c & _ & _ & _ & P)).
    cbn [fst snd] in *. destruct P as (_ & _ & _ & _ & _ & _ & _ & _ & P9).
    destruct (Forall2_in_r _ _ _ r' P9 Hr) as (r & _ & r1 & n & _ & _ & En & ->). rewrite Hset.
    destruct (target_follows_intro ins d out ids (id r) n) as (u & u' & _ & Hl & _).
    - eapply wf_target_of; eauto.
    - apply (target_wf ins out W H).
    - apply (fa_targets _ _ _ F).
    - exact En.
    - exact (lookup_listed n u' Hl). }
  unfold targets_present. repeat split.
  - eapply G; [|apply (fa_vis _ _ _ F)]. reflexivity.
  - eapply G; [|apply (fa_vis2 _ _ _ F)]. reflexivity.
  - eapply G; [|apply (fa_t3 _ _ _ F)]. reflexivity.
  - eapply G; [|apply (fa_flux _ _ _ F)]. reflexivity.
Qed.
Lemma merged_checks : exists r1 r2,
  check_targets_present out = Ok r1 /\ cr_level r1 = OI_BREACH_NONE
  /\ check_unique_targets out = Ok r2 /\ cr_level r2 = OI_BREACH_NONE.
Proof using W H.
  destruct (targets_decides out (merged_wf ins out W H)) as (r1 & E1 & _ & L1).
  destruct (unique_decides out (merged_wf ins out W H)) as (r2 & E2 & _ & L2).
  exists r1, r2. split; [exact E1|]. split; [apply L1, merged_targets_present|].
  split; [exact E2|]. apply L2. apply (targets_facts ins out W H).
Qed.
End Merged.
