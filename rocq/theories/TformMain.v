(** Concrete column formats, and agreement with WriteModel.v. *)
From Coq Require Import Lia Ascii.
From Verif Require WriteModel FitsText WritableTables.
From Verif Require Import BaseLemmas TformModel TformSpec TformProofs.
Open Scope list_scope.
Open Scope Z_scope.

(** ** Agreement *)
Lemma form_room value t : WriteModel.make_form value t = Abort
  <-> (exists k, t = WriteModel.PerWave k) /\ (4 < String.length (fmt_d value))%nat.
Proof.
  destruct t as [k n|k]; cbn [WriteModel.make_form]; [split; [discriminate|intros ((k' & H) & _); discriminate]|].
  unfold assert_, strlen. destruct (Z.ltb_spec (Z.of_nat (String.length (fmt_d value)) + 1) 6) as [H|H]; cbn [bind].
  - split; [discriminate|]. intros (_ & H2). lia.
  - split; [|reflexivity]. intros _. split; [eauto|lia].
Qed.
Lemma forms_room {A} value (cols : list (A * WriteModel.tmpl)) template :
  Forall2 (fun c t => (exists k, snd c = WriteModel.PerWave k) <-> String.get 0 t = Some "?"%char) cols template ->
  (WriteModel.make_tform value cols = Abort <-> ~ Forall (roomy value) template).
Proof.
  induction 1 as [|[a c] t cols template Hc _ IH]; cbn [WriteModel.make_tform]; [split; [discriminate|intros H; now destruct H]|].
  cbn [snd] in Hc. pose proof (form_room value c) as Hf.
  destruct (WriteModel.make_form value c) as [f| |] eqn:Ef; cbn [bind].
  - assert (R : roomy value t).
    { intros Q. destruct (Nat.le_gt_cases (String.length (fmt_d value)) 4) as [H|H]; [exact H|].
      exfalso. destruct Hf as [_ Hf]. discriminate Hf. split; [now apply Hc|lia]. }
    destruct (WriteModel.make_tform value cols) as [r| |]; cbn [bind].
    + split; [discriminate|]. intros H. exfalso. destruct IH as [_ IH]. enough (Ok r = Abort) by discriminate. apply IH.
      intros F. apply H. now constructor.
    + split; [|reflexivity]. intros _ F. apply Forall_cons_iff in F as [_ F]. now apply (proj1 IH).
    + split; [discriminate|]. intros H. exfalso. destruct IH as [_ IH]. enough (@UB (list (A * FitsModel.form)) = Abort) by discriminate. apply IH.
      intros F. apply H. now constructor.
  - split; [|reflexivity]. intros _ F. apply Forall_cons_iff in F as [F _]. destruct (proj1 Hf eq_refl) as [P L].
    apply Hc in P. specialize (F P). lia.
  - destruct c; cbn in Ef; [discriminate|]. unfold assert_ in Ef. destruct (_ <? _) in Ef; discriminate.
Qed.
Definition stands_for (t : WriteModel.tmpl) (s : string) : Prop :=
  match t with
  | WriteModel.PerWave k => s = String "?" (letter k)
  | WriteModel.Fixed k n => String.get 0 s <> Some "?"%char /\ denotes s (FitsModel.mk_form k n)
  end.
Lemma stands_question t s : stands_for t s -> (exists k, t = WriteModel.PerWave k) <-> String.get 0 s = Some "?"%char.
Proof.
  destruct t as [k n|k]; cbn [stands_for].
  - intros (Q & _). split; [intros (k' & H); discriminate|contradiction].
  - intros ->. split; [reflexivity|eauto].
Qed.
Lemma not_question v s : String.get 0 s <> Some "?"%char -> format_text v s = s.
Proof.
  destruct s as [|c rest]; [reflexivity|]. cbn [String.get]. intros N. destruct c as [b0 b1 b2 b3 b4 b5 b6 b7].
  destruct b0, b1, b2, b3, b4, b5, b6, b7; try reflexivity. now destruct N.
Qed.
Lemma formats_agree {A} (cols : list (A * WriteModel.tmpl)) template : template <> [] ->
  Forall2 (fun c t => stands_for (snd c) t) cols template -> same_formats cols template.
Proof.
  intros Ne F2 malloc value h Hm made.
  assert (Q : Forall2 (fun c t => (exists k, snd c = WriteModel.PerWave k) <-> String.get 0 t = Some "?"%char) cols template).
  { clear - F2. induction F2 as [|c t cs ts H _ IH]; constructor; [now apply stands_question|exact IH]. }
  pose proof (forms_room value cols template Q) as R.
  destruct (WriteModel.make_tform value cols) as [l| |] eqn:El.
  - right. assert (F : Forall (roomy value) template).
    { apply Forall_forall. intros t Ht G. destruct (Nat.le_gt_cases (String.length (fmt_d value)) 4) as [H|H]; [exact H|].
      exfalso. enough (Ok l = Abort) by discriminate. apply R. intros F. rewrite Forall_forall in F. specialize (F t Ht G). lia. }
    destruct (make_ok malloc Hm template value h Ne F) as (a & ps & h' & E & S & _).
    exists l, a, ps, h'. split; [reflexivity|]. split; [exact E|]. split; [exact S|].
    clear - F2 El. revert l El. induction F2 as [|[x c] t cs ts H _ IH]; intros l El; cbn [WriteModel.make_tform map] in *.
    { injection El as <-. constructor. }
    destruct (WriteModel.make_form value c) as [f| |] eqn:Ef; [|discriminate|discriminate]. cbn [bind] in El.
    destruct (WriteModel.make_tform value cs) as [r| |] eqn:Er; [|discriminate|discriminate]. cbn [bind] in El. injection El as <-.
    constructor; [|now apply IH]. cbn [snd] in *. destruct c as [k n|k]; cbn [WriteModel.make_form stands_for] in *.
    + injection Ef as <-. destruct H as [Q D]. now rewrite not_question.
    + subst t. unfold assert_ in Ef. destruct (_ <? _) in Ef; [|discriminate]. cbn [bind] in Ef. injection Ef as <-. left. reflexivity.
  - left. split; [reflexivity|]. apply make_abort; [exact Hm|exact Ne|]. now apply R.
  - exfalso. clear - El. revert El. induction cols as [|[x c] cols IH]; cbn [WriteModel.make_tform]; [discriminate|].
    destruct c as [k n|k]; cbn [WriteModel.make_form]; [|unfold assert_; destruct (_ <? _); [|discriminate]]; cbn [bind];
      (destruct (WriteModel.make_tform value cols); cbn [bind]; [discriminate|discriminate|intros _; now apply IH]).
Qed.
Ltac stands := apply formats_agree; [discriminate|]; repeat apply Forall2_cons; try apply Forall2_nil; cbn [snd stands_for];
  first [reflexivity | split; [discriminate|]; first [left; reflexivity | right; split; reflexivity]].
Lemma inspol_agrees : same_formats WriteModel.inspol_cols inspol_template.
Proof. stands. Qed.
Lemma complex_agrees : same_formats WriteModel.complex_cols complex_template.
Proof. stands. Qed.
Lemma vis_agrees : same_formats WriteModel.vis_cols vis_template.
Proof. stands. Qed.
Lemma vis2_agrees : same_formats WriteModel.vis2_cols vis2_template.
Proof. stands. Qed.
Lemma t3_agrees : same_formats WriteModel.t3_cols t3_template.
Proof. stands. Qed.
Lemma flux_agrees : same_formats WriteModel.flux_cols flux_template.
Proof. stands. Qed.

(** ** Concrete formats *)
Open Scope string_scope.

Definition next_free (h : heap) : addr := 1 + fold_right (fun e m => Z.max (fst e) m) 0 h.
Lemma next_free_fresh : fresh next_free.
Proof.
  intros h. assert (K : forall x, fold_right (fun e m => Z.max (fst e) m) 0 h < x -> lookup h x = None).
  { induction h as [|[a b] h IH]; intros x Hx; cbn [lookup fold_right fst] in *; [reflexivity|].
    destruct (Z.eqb_spec a x); [lia|]. apply IH. lia. }
  apply K. unfold next_free. lia.
Qed.
Lemma vis_roomy : Forall (roomy 240) vis_template /\ ~ Forall (roomy 12345) vis_template
  /\ map (format_text 240) vis_template = ["I"; "D"; "D"; "D"; "240D"; "240D"; "240D"; "240D"; "1D"; "1D"; "2I"; "240L"].
Proof.
  split; [|split].
  - repeat constructor; intros _; vm_compute; repeat constructor.
  - intros F. rewrite Forall_forall in F. specialize (F "?D" ltac:(cbn; tauto) eq_refl). vm_compute in F. lia.
  - reflexivity.
Qed.

(** ** The numbers of channels that can be written *)
Lemma room_range value rest : 0 <= value -> roomy value (String "?" rest) <-> value <= 9999.
Proof.
  intros H0. unfold roomy. split.
  - intros R. specialize (R eq_refl). destruct (Z.le_gt_cases value 9999) as [H|H]; [exact H|].
    pose proof (WritableTables.digits_ge_10000 value ltac:(lia)) as D. unfold strlen in D. lia.
  - intros H _. pose proof (FitsText.digits_lt_10000 value ltac:(lia)) as D. unfold strlen in D. lia.
Qed.
Lemma square_fits malloc nwave h r : fresh malloc -> 0 <= nwave ->
  make_tform malloc vis_template 12 nwave h = Ok r -> nwave <= 9999 /\ nwave * nwave <= 2147483647.
Proof.
  intros Hm H0 E. assert (H : nwave <= 9999).
  { destruct (Z.le_gt_cases nwave 9999) as [H|H]; [exact H|].
    enough (Abort = Ok r) by discriminate. rewrite <- E. symmetry.
    apply (make_abort malloc Hm vis_template nwave h); [discriminate|].
    intros F. rewrite Forall_forall in F. specialize (F "?D" ltac:(cbn; tauto)).
    apply (room_range nwave "D" H0) in F. lia. }
  split; [exact H|]. nia.
Qed.
