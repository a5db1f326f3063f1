(** Options given in one command or in two. *)
From Coq Require Import Lia.
From Verif Require Import Base FloatModel Types FilterModel FilterSpec FilterThenMain ToolModel PipeSpec.
Open Scope list_scope.
Open Scope Z_scope.

Section Field.
Context {A : Type}.
Variables (val : parse_state -> A) (mine : filter_option -> Prop).
Hypothesis dec : forall op, mine op \/ ~ mine op.
Hypothesis other : forall op p, ~ mine op -> val (set_option op p) = val p.
Hypothesis own : forall op p p', mine op -> val (set_option op p) = val (set_option op p').
Notation run := (fold_left (fun p op => set_option op p)).
Lemma field_others opts : Forall (fun op => ~ mine op) opts -> forall p, val (run opts p) = val p.
Proof. induction 1 as [|op opts H _ IH]; intros p; [reflexivity|]. cbn [fold_left]. now rewrite IH, other. Qed.
Lemma field_own opts : Exists mine opts -> forall p p', val (run opts p) = val (run opts p').
Proof.
  induction opts as [|op opts IH]; intros H p p'; [inversion H|]. cbn [fold_left].
  assert (G : Forall (fun op => ~ mine op) opts \/ Exists mine opts).
  { clear -dec. induction opts as [|a l [IH|IH]]; [left; constructor| |right; now right].
    destruct (dec a) as [Ha|Ha]; [right; now left|left; now constructor]. }
  destruct G as [G|G]; [|now apply IH]. inversion H as [? ? Ho|? ? Ho]; subst.
  - rewrite !field_others by exact G. now apply own.
  - exfalso. apply Exists_exists in Ho as (x & Hx & Hm). rewrite Forall_forall in G. exact (G x Hx Hm).
Qed.
Lemma some_or_none opts : Forall (fun op => ~ mine op) opts \/ Exists mine opts.
Proof.
  induction opts as [|a l [IH|IH]]; [left; constructor| |right; now right].
  destruct (dec a) as [Ha|Ha]; [right; now left|left; now constructor].
Qed.
(** each is the value from one list, and the other list gives the default *)
Lemma field_split opts1 opts2 p0 :
  (forall a b, In a opts1 -> In b opts2 -> ~ (mine a /\ mine b)) ->
  val (run opts2 p0) = val p0 /\ val (run (opts1 ++ opts2) p0) = val (run opts1 p0)
  \/ val (run opts1 p0) = val p0 /\ val (run (opts1 ++ opts2) p0) = val (run opts2 p0).
Proof.
  intros D. rewrite fold_left_app. destruct (some_or_none opts2) as [H|H].
  - left. rewrite !field_others by exact H. auto.
  - right. split; [|now apply field_own]. apply field_others. apply Forall_forall. intros a Ha Hm.
    apply Exists_exists in H as (b & Hb & Hmb). exact (D a b Ha Hb (conj Hm Hmb)).
Qed.
(** what holds by default and after each option alone *)
Lemma field_all (P : A -> Prop) opts p0 : P (val p0) -> (forall op, In op opts -> P (val (set_option op p0))) ->
  P (val (run opts p0)).
Proof.
  intros H0 H. induction opts as [|op opts IH] using rev_ind; [exact H0|]. rewrite fold_left_app. cbn [fold_left].
  destruct (dec op) as [Ho|Ho].
  - rewrite (own op _ p0 Ho). apply H. apply in_or_app. right. now left.
  - rewrite other by exact Ho. apply IH. intros x Hx. apply H. apply in_or_app. now left.
Qed.
End Field.

Lemma joint_low (a b c dflt : spec_float) :
  b = dflt /\ c = a \/ a = dflt /\ c = b ->
  (forall x, SFltb x dflt = true -> SFltb x a = true) -> (forall x, SFltb x dflt = true -> SFltb x b = true) ->
  forall x, SFltb x c = true <-> SFltb x a = true \/ SFltb x b = true.
Proof. intros [(-> & ->)|(-> & ->)] Ha Hb x; specialize (Ha x); specialize (Hb x); tauto. Qed.
Lemma joint_high (a b c dflt : spec_float) :
  b = dflt /\ c = a \/ a = dflt /\ c = b ->
  (forall x, SFltb dflt x = true -> SFltb a x = true) -> (forall x, SFltb dflt x = true -> SFltb b x = true) ->
  forall x, SFltb c x = true <-> SFltb a x = true \/ SFltb b x = true.
Proof. intros [(-> & ->)|(-> & ->)] Ha Hb x; specialize (Ha x); specialize (Hb x); tauto. Qed.

Section Options.
Variables opts1 opts2 : list filter_option.
Hypothesis S : separate opts1 opts2.
Definition is (a b : filter_option) : Prop := same_option a b.
Lemma is_dec a op : is a op \/ ~ is a op.
Proof. destruct a, op; try (left; constructor); right; intros H; inversion H. Qed.
Lemma is_apart k a b : In a opts1 -> In b opts2 -> ~ (is k a /\ is k b).
Proof.
  intros Ha Hb (H1 & H2). apply (sp_different _ _ S a b Ha Hb). destruct H1; inversion H2; constructor.
Qed.
Ltac others k := intros op p H; destruct op; try reflexivity; exfalso; apply H; constructor.
Ltac owns := intros op p p' H; inversion H; reflexivity.
Lemma split_field {A} (fld : filter_spec -> A) k :
  (forall op p, ~ is k op -> fld (filter_post_parse (set_option op p)) = fld (filter_post_parse p)) ->
  (forall op p p', is k op -> fld (filter_post_parse (set_option op p)) = fld (filter_post_parse (set_option op p'))) ->
  fld (user_filter opts2) = fld (user_filter []) /\ fld (user_filter (opts1 ++ opts2)) = fld (user_filter opts1)
  \/ fld (user_filter opts1) = fld (user_filter []) /\ fld (user_filter (opts1 ++ opts2)) = fld (user_filter opts2).
Proof.
  intros H1 H2. unfold user_filter.
  apply (field_split (fun p => fld (filter_post_parse p)) (is k) (is_dec k) H1 H2 opts1 opts2 filter_pre_parse).
  apply is_apart.
Qed.
Lemma all_field {A} (fld : filter_spec -> A) (P : A -> Prop) k :
  (forall op p, ~ is k op -> fld (filter_post_parse (set_option op p)) = fld (filter_post_parse p)) ->
  (forall op p p', is k op -> fld (filter_post_parse (set_option op p)) = fld (filter_post_parse (set_option op p'))) ->
  P (fld (user_filter [])) -> (forall op, narrows op -> P (fld (user_filter [op]))) ->
  P (fld (user_filter opts1)) /\ P (fld (user_filter opts2)).
Proof.
  intros H1 H2 H0 H. pose proof (sp_narrows _ _ S) as N. rewrite Forall_app in N. destruct N as [N1 N2].
  rewrite Forall_forall in N1, N2.
  split; apply (field_all (fun p => fld (filter_post_parse p)) (is k) (is_dec k) H1 H2 P _ filter_pre_parse); try exact H0;
    intros op Ho; apply (H op); auto.
Qed.
Ltac range lo hi k k' part := intros x; split;
  [revert x;
   refine (joint_low _ _ _ _ (split_field lo k _ _)
     (proj1 (all_field lo (fun v => forall x, SFltb x (lo (user_filter [])) = true -> SFltb x v = true) k _ _ (fun x H => H) (fun op N x => proj1 (part _ _ N x))))
     (proj2 (all_field lo (fun v => forall x, SFltb x (lo (user_filter [])) = true -> SFltb x v = true) k _ _ (fun x H => H) (fun op N x => proj1 (part _ _ N x)))));
   [others k|owns|others k|owns|others k|owns]
  |revert x;
   refine (joint_high _ _ _ _ (split_field hi k' _ _)
     (proj1 (all_field hi (fun v => forall x, SFltb (hi (user_filter [])) x = true -> SFltb v x = true) k' _ _ (fun x H => H) (fun op N x => proj2 (part _ _ N x))))
     (proj2 (all_field hi (fun v => forall x, SFltb (hi (user_filter [])) x = true -> SFltb v x = true) k' _ _ (fun x H => H) (fun op N x => proj2 (part _ _ N x)))));
   [others k'|owns|others k'|owns|others k'|owns]].
Ltac pick fld k := let H := fresh in
  assert (H : fld (user_filter opts2) = fld (user_filter []) /\ fld (user_filter (opts1 ++ opts2)) = fld (user_filter opts1)
    \/ fld (user_filter opts1) = fld (user_filter []) /\ fld (user_filter (opts1 ++ opts2)) = fld (user_filter opts2))
    by (apply (split_field fld k); [others k|owns]);
  destruct H as [(->  & ->)|(-> & ->)].
Definition z0 : f64 := f64_zero.
Lemma pattern_of a b c : b = "*"%string /\ c = a \/ a = "*"%string /\ c = b -> joint_pattern a b c.
Proof.
  intros [(-> & ->)|(-> & ->)]; [apply pattern_star|]. apply joint_pattern_comm. apply pattern_star.
Qed.
Lemma separate_joint : joint (user_filter opts1) (user_filter opts2) (user_filter (opts1 ++ opts2)).
Proof.
  assert (Fl : f_accept_flagged (user_filter opts1) = true).
  { unfold user_filter.
    rewrite (field_others (fun p => f_accept_flagged (filter_post_parse p)) (is (Accept_flagged 0))); [reflexivity| |].
    - others (Accept_flagged 0).
    - apply Forall_forall. intros op Ho H. inversion H; subst. now apply (sp_flagged _ _ S z'). }
  split; [split| |].
  - apply pattern_of. apply (split_field f_arrname (Arrname "")); [others (Arrname "")|owns].
  - apply pattern_of. apply (split_field f_insname (Insname "")); [others (Insname "")|owns].
  - apply pattern_of. apply (split_field f_corrname (Corrname "")); [others (Corrname "")|owns].
  - assert (H := split_field f_target_id (Target_id 0) ltac:(others (Target_id 0)) ltac:(owns)).
    change (f_target_id (user_filter [])) with (-1) in H. lia.
  - range f_mjd_lo f_mjd_hi (Mjd_min z0) (Mjd_max z0) ri_mjd.
  - range f_wave_lo f_wave_hi (Wave_min z0) (Wave_max z0) ri_wave.
  - range f_bas_lo f_bas_hi (Bas_min z0) (Bas_max z0) ri_bas.
  - range f_uvrad_lo f_uvrad_hi (Uvrad_min z0) (Uvrad_max z0) ri_uvrad.
  - range f_snr_lo f_snr_hi (Snr_min z0) (Snr_max z0) ri_snr.
  - pick f_accept_vis (Accept_vis 0); [now rewrite andb_true_r|reflexivity].
  - pick f_accept_vis2 (Accept_vis2 0); [now rewrite andb_true_r|reflexivity].
  - pick f_accept_flux (Accept_flux 0); [now rewrite andb_true_r|reflexivity].
  - pick f_accept_t3amp (Accept_t3amp 0); [now rewrite andb_true_r|reflexivity].
  - pick f_accept_t3phi (Accept_t3phi 0); [now rewrite andb_true_r|reflexivity].
  - revert Fl. pick f_accept_flagged (Accept_flagged 0); [intros ->|intros _]; reflexivity.
  - exact (sp_t3 _ _ S).
  - left. exact Fl.
Qed.
End Options.
