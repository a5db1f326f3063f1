(** Chunks that are lost, agreement with CheckModel.v, and the calls of oifits-check. *)
From Verif Require Import BaseLemmas FileModel FileProofs MergeProofs CheckModel CheckSpec CheckProofs CheckRules CheckWhole
  ReadWf ToolModel ToolSpec ToolProofs ToolPrograms ReportModel ReportSpec ReportProofs.
From Coq Require Import Lia.
Open Scope list_scope.
Open Scope nat_scope.

Section Session.
Variable moves : nat -> bool.
Variable fmt : string -> f64 -> string.
Notation run := (run_calls moves fmt).
Notation step := (call_step moves fmt).

(** ** Lost chunks *)

Definition lost (c : nat) (m : memory) : Prop :=
  (exists l, chunk c m = Ok l) /\ forall k st, m_results m k = Some st -> rs_chunk st <> c.
Lemma live_pos c m l : chunk c m = Ok l -> 1 <= live m.
Proof.
  intros H. apply chunk_nth in H. apply nth_error_split in H as (l1 & l2 & E & _). unfold live. rewrite E, filter_app, app_length.
  cbn [filter length]. lia.
Qed.
Lemma lost_insert c m i s p m' : lost c m -> i <> c -> chunk_insert i s m = Ok (p, m') -> lost c m' /\ m_results m' = m_results m.
Proof.
  intros ((l & Hl) & Hr) N H. unfold chunk_insert in H. apply bind_inv in H as (li & Hi & H). injection H as <- <-.
  split; [|reflexivity]. split; [|exact Hr]. exists l. apply chunk_nth. cbn [m_chunks].
  apply chunk_nth in Hi, Hl. rewrite set_nth_other; auto. exact (nth_error_lt _ _ _ Hi).
Qed.
Lemma lost_put c k st m : lost c m -> rs_chunk st <> c -> lost c (put_result k st m).
Proof.
  intros (Hl & Hr) N. split; [exact Hl|]. intros j s. cbn [put_result m_results]. destruct (Nat.eqb j k); [congruence|apply Hr].
Qed.
Lemma lost_step c x s s' : lost c (fst (fst s)) -> step x s = Ok s' -> lost c (fst (fst s')).
Proof.
  destruct s as ((m & ps) & out). cbn [fst]. intros Hx H. pose proof Hx as ((l & Hl) & Hr). destruct x as [k|k a d t|k|k|o|f|i]; cbn [call_step] in H.
  - injection H as <-. cbn [fst]. apply chunk_nth in Hl. unfold store_init. apply lost_put.
    + split; [|exact Hr]. exists l. apply chunk_nth. cbn. rewrite nth_error_app1; [exact Hl|exact (nth_error_lt _ _ _ Hl)].
    + cbn. pose proof (nth_error_lt _ _ _ Hl). lia.
  - apply bind_inv in H as (m' & H & E). injection E as <-. cbn [fst]. unfold store_set, the_result in H.
    destruct (m_results m k) as [st|] eqn:Ek; [|discriminate]. cbn [bind] in H. pose proof (Hr _ _ Ek) as Nc.
    apply bind_inv in H as ((d' & m1) & H1 & H).
    assert (X1 : lost c m1).
    { destruct (rs_description st).
      - apply bind_inv in H1 as (? & _ & H1). apply bind_inv in H1 as (? & _ & H1). injection H1 as <- <-. exact Hx.
      - apply bind_inv in H1 as ((p & m2) & H1 & E). injection E as <- <-. exact (proj1 (lost_insert _ _ _ _ _ _ Hx Nc H1)). }
    apply bind_inv in H as ((l' & m2) & H2 & H). injection H as <-.
    apply lost_put; [|exact Nc].
    destruct (rs_numBreach st + 1 <? MAX_REPORT)%Z; [|destruct (rs_numBreach st + 1 =? MAX_REPORT)%Z].
    + apply bind_inv in H2 as ((p & m3) & H1' & H2). apply bind_inv in H2 as (? & _ & H2). injection H2 as <- <-.
      exact (proj1 (lost_insert _ _ _ _ _ _ X1 Nc H1')).
    + apply bind_inv in H2 as ((p & m3) & H1' & H2). apply bind_inv in H2 as (? & _ & H2). injection H2 as <- <-.
      exact (proj1 (lost_insert _ _ _ _ _ _ X1 Nc H1')).
    + injection H2 as <- <-. exact X1.
  - apply bind_inv in H as (m' & H & E). injection E as <-. cbn [fst]. unfold store_free, the_result in H.
    destruct (m_results m k) as [st|] eqn:Ek; [|discriminate]. cbn [bind] in H. apply bind_inv in H as (lc & Hc & H). injection H as <-.
    split; [|exact Hr]. exists l. apply chunk_nth in Hc, Hl. apply chunk_nth. cbn [m_chunks].
    rewrite set_nth_other; [exact Hl|exact (nth_error_lt _ _ _ Hc)|]. intros X. exact (Hr _ _ Ek (eq_sym X)).
  - apply bind_inv in H as ((p & m') & H & E). injection E as <-. cbn [fst snd]. unfold store_format in H.
    apply bind_inv in H as (st & _ & H). destruct (rs_level st =? OI_BREACH_NONE)%Z; [injection H as <- <-; exact Hx|].
    apply bind_inv in H as (? & _ & H). apply bind_inv in H as (? & _ & H). apply bind_inv in H as (? & _ & H).
    unfold write_text in H. injection H as <- <-. exact Hx.
  - apply bind_inv in H as (t & _ & H). unfold write_text in H. injection H as <-. exact Hx.
  - unfold write_text in H. injection H as <-. exact Hx.
  - destruct (nth_error ps i); [|discriminate]. apply bind_inv in H as (t & _ & H). injection H as <-. exact Hx.
Qed.
Lemma lost_run c l : forall s s', lost c (fst (fst s)) -> foreach l step s = Ok s' -> lost c (fst (fst s')).
Proof.
  induction l as [|x l IH]; intros s s' H E; cbn [foreach] in E; [congruence|].
  apply bind_inv in E as (s1 & E1 & E). exact (IH _ _ (lost_step _ _ _ _ H E1) E).
Qed.
Lemma leaks h k vs after m ps out : proper fmt h -> status_of k h = Holding vs ->
  run (h ++ CInit k :: after) = Ok (m, ps, out) -> 1 <= live m.
Proof.
  intros H Hs E. destruct (proper_run moves fmt h H) as (s & Er & I0). unfold run_calls in *. rewrite foreach_app, Er in E.
  cbn [bind foreach] in E. destruct (init_inv moves fmt k h s I0) as (s1 & E1 & I1). rewrite E1 in E. cbn [bind] in E.
  destruct I0 as [K A _ _ _ _]. specialize (K k). rewrite Hs in K. destruct K as (st & l & Hk & Hc & _).
  assert (X : lost (rs_chunk st) (fst (fst s1))).
  { destruct s as ((m0 & ps0) & out0). cbn [call_step] in E1. injection E1 as <-. cbn [fst snd] in *. destruct A as (B & A).
    apply chunk_nth in Hc. pose proof (nth_error_lt _ _ _ Hc). split.
    - exists l. apply chunk_nth. cbn. rewrite nth_error_app1; assumption.
    - intros j b. cbn [store_init put_result m_results]. destruct (Nat.eqb_spec j k); [intros [= <-]; cbn; lia|].
      intros Hb Eb. exact (n (A _ _ _ _ Hb Hk Eb)). }
  destruct (lost_run _ _ _ _ X E) as ((l' & Hl') & _). exact (live_pos _ _ _ Hl').
Qed.

(** ** Agreement with CheckModel.v *)

Lemma sets_agree k : forall vs m st l r ps out, m_results m k = Some st -> chunk (rs_chunk st) m = Ok l -> rep l st r ->
  match foreach vs set_violation r with
  | Ok r' => exists m' st' l', foreach (set_calls k vs) step (m, ps, out) = Ok (m', ps, out)
      /\ m_results m' k = Some st' /\ chunk (rs_chunk st') m' = Ok l' /\ rep l' st' r'
  | Abort => foreach (set_calls k vs) step (m, ps, out) = Abort
  | UB => foreach (set_calls k vs) step (m, ps, out) = UB
  end.
Proof.
  induction vs as [|v vs IH]; intros m st l r ps out Hk Hc Hr; cbn [foreach set_calls map].
  - exists m, st, l. auto.
  - cbn [call_step]. pose proof (set_refines m k st l r (v_level v) (v_desc v) (v_text v) Hk Hc Hr) as R.
    unfold set_violation at 1. destruct (set_result (v_level v) (v_desc v) (v_text v) r) as [r1| |].
    + destruct R as (st' & l' & -> & Ec & Hr'). cbn [bind].
      apply (IH _ st' l').
      * cbn. now rewrite Nat.eqb_refl.
      * rewrite Ec. exact (with_chunk_same _ _ _ _ (proj1 (chunk_nth _ _ _) Hc)).
      * exact Hr'.
    + rewrite R. reflexivity.
    + rewrite R. reflexivity.
Qed.
Lemma agrees k vs :
  (s <- run (CInit k :: set_calls k vs ++ [CFormat k; CPrint 0]) ;; Ok (snd s))
  = (r <- foreach vs (fun v => set_result (v_level v) (v_desc v) (v_text v)) init_check_result ;;
     t <- print_check_result r ;; Ok [t]).
Proof.
  unfold run_calls. cbn [foreach call_step bind]. rewrite foreach_app. unfold store_init at 1.
  set (st := mk_struct _ _ _ _ _). cbn [m_start m_chunks app].
  pose proof (sets_agree k vs (put_result k st (mk_memory [Some []] (m_results m_start) (m_pGStr m_start))) st [] init_check_result [] []) as S.
  change (foreach vs (fun v => set_result (v_level v) (v_desc v) (v_text v)) init_check_result)
    with (foreach vs set_violation init_check_result).
  assert (S0 : m_results (put_result k st (mk_memory [Some []] (m_results m_start) (m_pGStr m_start))) k = Some st)
    by (cbn [put_result m_results]; now rewrite Nat.eqb_refl).
  assert (R0 : rep [] st init_check_result) by (rewrite <- closed_init; apply init_rep).
  specialize (S S0 eq_refl R0).
  destruct (foreach vs set_violation init_check_result) as [r| |]; [|rewrite S; reflexivity|rewrite S; reflexivity].
  destruct S as (m' & st' & l' & E & Hk & Hc & Hr).
  rewrite E. cbn [bind foreach call_step]. rewrite (format_refines moves _ _ _ _ _ Hk Hc Hr). unfold print_check_result.
  destruct (format_check_result r) as [[t|]| |]; cbn [bind fst snd app nth_error print_at fmt_s]; try reflexivity.
  unfold write_text. cbn [fst snd call_step nth_error print_at m_pGStr]. rewrite Nat.eqb_refl. destruct (m_pGStr m'); reflexivity.
Qed.

(** ** oifits-check *)

Lemma proper_snoc h c : proper fmt h -> may_call fmt h c -> proper fmt (h ++ [c]).
Proof.
  intros H M b x a E. destruct a as [|y a] using rev_ind.
  - apply app_inj_tail in E as (-> & ->). exact M.
  - clear IHa. change (b ++ x :: a ++ [y]) with (b ++ (x :: a) ++ [y]) in E. rewrite app_assoc in E.
    apply app_inj_tail in E as (E & _). exact (H _ _ _ E).
Qed.
Lemma sets_proper k vs d : uniform d vs -> forall h ws, proper fmt h -> status_of k h = Holding ws -> Forall (fun w => v_desc w = d) ws ->
  proper fmt (h ++ set_calls k vs) /\ status_of k (h ++ set_calls k vs) = Holding (ws ++ vs)
  /\ answers fmt (h ++ set_calls k vs) = answers fmt h /\ shown fmt (h ++ set_calls k vs) = shown fmt h
  /\ inits (h ++ set_calls k vs) = inits h /\ frees (h ++ set_calls k vs) = frees h.
Proof.
  induction vs as [|v vs IH]; intros U h ws H Hs Hw; cbn [set_calls map].
  - rewrite !app_nil_r. auto 10.
  - set (c := CSet k (v_level v) (v_desc v) (v_text v)). destruct (U v (or_introl eq_refl)) as (Ud & Ul).
    assert (M : may_call fmt h c). { split; [exact Ul|]. exists ws. rewrite Ud. auto. }
    destruct (IH (fun w Hw => U w (or_intror Hw)) (h ++ [c]) (ws ++ [v])) as (P & S & An & Sh & In & Fr).
    + now apply proper_snoc.
    + rewrite status_snoc, Hs. cbn [next_status c]. rewrite Nat.eqb_refl. now destruct v.
    + apply Forall_app. auto.
    + rewrite answers_snoc in An. rewrite shown_snoc in Sh. destruct (counts_snoc h c) as (I1 & F1). rewrite I1 in In. rewrite F1 in Fr.
      cbn [answer shows c] in An, Sh. rewrite app_nil_r in An, Sh.
      rewrite <- app_assoc in P, S, An, Sh, In, Fr. cbn [app] in P, S, An, Sh, In, Fr. rewrite <- app_assoc in S.
      repeat split; auto; [etransitivity; [exact In|]|etransitivity; [exact Fr|]]; cbn [c]; lia.
Qed.
Definition some_text (vs : list violation) : list string := match vs with [] => [] | _ => [finding_text vs] end.
Lemma checks_proper vss : Forall (fun vs => exists d, uniform d vs) vss -> forall h n, proper fmt h -> length (answers fmt h) = n ->
  proper fmt (h ++ check_calls n vss) /\ shown fmt (h ++ check_calls n vss) = shown fmt h ++ flat_map some_text vss
  /\ inits (h ++ check_calls n vss) + frees h = inits h + frees (h ++ check_calls n vss).
Proof.
  intros F. induction F as [|vs vss (d & U) F IH]; intros h n H Hn; cbn [check_calls flat_map].
  - rewrite !app_nil_r. auto.
  - assert (H1 : proper fmt (h ++ [CInit 0])) by (now apply proper_snoc).
    assert (S1 : status_of 0 (h ++ [CInit 0]) = Holding []) by (rewrite status_snoc; reflexivity).
    destruct (sets_proper 0 vs d U _ [] H1 S1 (Forall_nil _)) as (P & S & An & Sh & In & Fr). cbn [app] in S.
    rewrite answers_snoc in An. rewrite shown_snoc in Sh. cbn [answer shows] in An, Sh. rewrite app_nil_r in An, Sh.
    destruct (counts_snoc h (CInit 0)) as (I1 & F1). cbn in I1, F1. rewrite I1 in In. rewrite F1 in Fr.
    set (h1 := (h ++ [CInit 0]) ++ set_calls 0 vs) in *.
    assert (X : forall rest, h ++ CInit 0 :: set_calls 0 vs ++ rest = h1 ++ rest).
    { intros rest. unfold h1. rewrite <- !app_assoc. reflexivity. }
    rewrite X. clear X. destruct vs as [|v vs].
    + assert (H2 : proper fmt (h1 ++ [CFree 0])). { apply proper_snoc; [exact P|]. exists []. exact S. }
      destruct (IH (h1 ++ [CFree 0]) n H2) as (P' & Sh' & C').
      { rewrite answers_snoc. cbn [answer]. rewrite app_nil_r, An. exact Hn. }
      rewrite <- !app_assoc in *. cbn [app] in *. split; [exact P'|]. split.
      * rewrite Sh', shown_snoc, Sh. cbn [shows some_text]. rewrite app_nil_r. reflexivity.
      * destruct (counts_snoc h1 (CFree 0)) as (I2 & F2). cbn in I2, F2. lia.
    + set (ws := v :: vs) in *. set (t := finding_text ws).
      assert (H2 : proper fmt (h1 ++ [CFormat 0])). { apply proper_snoc; [exact P|]. left. exists ws. exact S. }
      assert (A2 : answers fmt (h1 ++ [CFormat 0]) = answers fmt h ++ [Some t]).
      { rewrite answers_snoc, An. cbn [answer]. rewrite S. reflexivity. }
      assert (N2 : newest (answers fmt (h1 ++ [CFormat 0])) n t).
      { exists (answers fmt h), 0. rewrite A2. auto. }
      assert (H3 : proper fmt ((h1 ++ [CFormat 0]) ++ [CPrint n])). { apply proper_snoc; [exact H2|]. exists t. exact N2. }
      set (h3 := (h1 ++ [CFormat 0]) ++ [CPrint n]) in *.
      assert (A3 : answers fmt h3 = answers fmt h ++ [Some t]). { unfold h3. rewrite answers_snoc, A2. cbn [answer]. apply app_nil_r. }
      assert (H4 : proper fmt (h3 ++ [CFree 0])).
      { apply proper_snoc; [exact H3|]. exists ws. unfold h3. rewrite !status_snoc, S. reflexivity. }
      destruct (IH (h3 ++ [CFree 0]) (Datatypes.S n) H4) as (P' & Sh' & C').
      { rewrite answers_snoc, A3. cbn [answer]. rewrite app_nil_r, app_length. cbn [length]. lia. }
      assert (X : forall rest, h1 ++ CFormat 0 :: CPrint n :: CFree 0 :: rest = (h3 ++ [CFree 0]) ++ rest).
      { intros rest. unfold h3. rewrite <- !app_assoc. reflexivity. }
      rewrite X. split; [exact P'|]. split.
      * rewrite Sh', !shown_snoc. unfold h3. rewrite !shown_snoc, Sh. cbn [shows].
        rewrite (newest_nth moves fmt _ _ _ N2), !app_nil_r, <- app_assoc. reflexivity.
      * destruct (counts_snoc h1 (CFormat 0)) as (I2 & F2). destruct (counts_snoc (h1 ++ [CFormat 0]) (CPrint n)) as (I3 & F3).
        destruct (counts_snoc h3 (CFree 0)) as (I4 & F4). fold h3 in I3, F3. cbn in I2, F2, I3, F3, I4, F4. lia.
Qed.

Lemma findings_uniform o : checkable o -> Forall (fun vs => exists d, uniform d vs) (findings o).
Proof.
  intros (T & I). unfold findings. repeat apply Forall_cons; try apply Forall_nil.
  - destruct T as [H|H].
    + apply missing_nil in H. rewrite H. eexists. apply revision_uniform.
    + apply revision_nil in H. rewrite H, app_nil_r. eexists. apply missing_uniform.
  - eexists. unfold header_violations. uniform.
  - eexists. unfold keyword_violations. uniform.
  - eexists. unfold visrefmap_violations. cbv zeta. uniform.
  - eexists. unfold duplicate_violations. intros v Hv. apply in_map_iff in Hv as (t & <- & _). cbn. auto.
  - eexists. unfold target_violations, unlisted_in. uniform.
  - eexists. unfold arrname_violations, unnamed_inspol, unnamed. uniform.
  - destruct I as [H|H].
    + apply element_named in H. rewrite sel_nil in H. exists d_element.
      intros v Hv. destruct (element_levels o v Hv) as [L [D|D]]; [auto|]. destruct (H v Hv D).
    + apply element_nil in H. rewrite sel_nil in H. exists d_arrname.
      intros v Hv. destruct (element_levels o v Hv) as [L [D|D]]; [|auto]. destruct (H v Hv D).
  - eexists. unfold corr_violations, uncorrelated. uniform.
  - eexists. unfold flagging_violations. uniform.
  - eexists. unfold t3amp_violations. uniform.
  - eexists. unfold order_violations. uniform.
  - eexists. unfold time_violations, timed. uniform.
  - eexists. unfold flux_violations. cbv zeta. uniform.
Qed.
Lemma texts_joined vss : fold_right String.append EmptyString (flat_map some_text vss) = fold_right String.append EmptyString (map finding_text vss).
Proof.
  induction vss as [|vs vss IH]; [reflexivity|]. cbn [flat_map map fold_right]. destruct vs as [|v vs]; cbn [some_text app fold_right].
  - exact IH.
  - rewrite IH. reflexivity.
Qed.
Lemma program_run E name d o : (String.length name <= 1024)%nat -> reads E name d o -> named_elsewhere o -> checkable o ->
  proper fmt (program_calls o) /\ exists m ps texts, run (program_calls o) = Ok (m, ps, texts) /\ live m = 0
    /\ oifits_check E fmt [name] d = Ok (mk_outcome 0 (fold_right String.append EmptyString texts ++ passed o)%string d).
Proof.
  intros L R N K. destruct (read_wf E _ _ _ _ _ R) as (W & Ne & _). destruct (summary_ok fmt o W) as (text & Ht & _).
  assert (H1 : proper fmt [CSummary o]). { apply (proper_snoc [] (CSummary o)); [intros b x a X; now destruct b|]. exists text. exact Ht. }
  assert (A1 : answers fmt [CSummary o] = [Some text]) by (unfold answers; cbn [answers_after answer]; rewrite Ht; reflexivity).
  assert (N1 : newest (answers fmt [CSummary o]) 0 text) by (exists [], 0; rewrite A1; auto).
  assert (H2 : proper fmt [CSummary o; CPrint 0]). { apply (proper_snoc [CSummary o]); [exact H1|]. exists text. exact N1. }
  assert (S2 : shown fmt [CSummary o; CPrint 0] = [text]).
  { change [CSummary o; CPrint 0] with ([CSummary o] ++ [CPrint 0]). rewrite shown_snoc. cbn [shows]. rewrite A1. reflexivity. }
  destruct (checks_proper _ (findings_uniform o K) [CSummary o; CPrint 0] 1 H2) as (P & Sh & C).
  { change [CSummary o; CPrint 0] with ([CSummary o] ++ [CPrint 0]). rewrite answers_snoc, A1. reflexivity. }
  change ([CSummary o; CPrint 0] ++ check_calls 1 (findings o)) with (program_calls o) in *. split; [exact P|].
  destruct (run_ok moves fmt _ P) as (m & ps & E1 & E2 & _). exists m, ps, (shown fmt (program_calls o)). split; [exact E1|].
  assert (Z0 : inits [CSummary o; CPrint 0] = 0 /\ frees [CSummary o; CPrint 0] = 0) by (split; reflexivity).
  destruct Z0 as (Z1 & Z2). rewrite Z1, Z2 in C. split; [lia|].
  rewrite Sh, S2. cbn [app fold_right]. rewrite texts_joined.
  destruct (read_found E _ _ _ R N) as (A & Cf).
  assert (Fx : fluxes_nonempty o) by exact (flux_records o W Ne).
  destruct (run_checks fmt o _ _ (all_reports o W Fx A Cf K) (findings_levels o) 0%Z text) as (w & F1 & F2 & F3); [lia|].
  unfold oifits_check. rewrite (short_name _ L), (reading_reads E _ _ _ _ R), Ht, bind_Ok.
  unfold OI_BREACH_NONE. rewrite F1, bind_Ok. cbn [fst snd]. unfold passed.
  destruct (forallb _ (findings o)).
  - rewrite (proj2 F3), Z.eqb_refl by tauto. reflexivity.
  - rewrite (proj2 (Z.eqb_neq w 0)) by (intros ->; destruct (proj1 F3 eq_refl); discriminate).
    rewrite sapp_nil. reflexivity.
Qed.
End Session.
