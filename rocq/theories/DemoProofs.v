(** Proofs about demo_read. *)
From Coq Require Import Lia.
From Verif Require Import BaseLemmas FileProofs ReadFile IOProofs DemoSpec.
Open Scope list_scope.
Open Scope Z_scope.

Section Demo.
Variable E : cfitsio.

(** ** The file name *)

Lemma fgets_line name more : forall n,
  all_chars (fun c => negb (Ascii.eqb c "010")) name = true -> (String.length name < n)%nat ->
  fgets n (name ++ String "010" more) = (name ++ String "010" EmptyString)%string.
Proof.
  induction name as [|c s IH]; intros n Hc Hn; cbn [String.length] in Hn.
  - destruct n; [lia|]. reflexivity.
  - destruct n; [lia|]. cbn [append fgets]. cbn [all_chars] in Hc. apply andb_true_iff in Hc as [H1 H2].
    destruct (Ascii.eqb c "010"); [discriminate|]. rewrite IH; [reflexivity|exact H2|lia].
Qed.
Lemma drop_newline s c : drop_last (s ++ String c EmptyString) = s.
Proof.
  induction s as [|c' s IH]; [reflexivity|]. cbn [append drop_last]. rewrite IH.
  destruct s; reflexivity.
Qed.
Lemma typed input name : types input name -> typed_name input = Ok name.
Proof.
  intros (Hc & Hl & more & ->). unfold typed_name.
  destruct (name ++ String "010" more)%string eqn:He; [now destruct name|]. rewrite <- He. clear He.
  rewrite fgets_line; [now rewrite drop_newline|exact Hc|]. unfold strlen in Hl. cbn. lia.
Qed.

(** ** Reading by name *)

Lemma specific_range name keyword value l : forall cur i,
  specific_named E l cur name keyword value = (i, 0) -> cur < i <= cur + Z.of_nat (List.length l).
Proof.
  induction l as [|h l IH]; intros cur i; cbn [specific_named List.length]; [discriminate|].
  assert (Hgo : specific_named E l (cur + 1) name keyword value = (i, 0) ->
                cur < i <= cur + Z.of_nat (Datatypes.S (List.length l))).
  { intros H. apply IH in H. lia. }
  destruct (is_binary h); [|intros [= <-]; lia].
  destruct (key_text E h "EXTNAME"); [|exact Hgo]. destruct (key_text E h keyword); [|exact Hgo].
  destruct (_ && _); [intros [= <-]; lia|exact Hgo].
Qed.
Lemma specific_status name keyword value l : forall cur,
  snd (specific_named E l cur name keyword value) = 0
  \/ snd (specific_named E l cur name keyword value) = BAD_HDU_NUM.
Proof.
  induction l as [|h l IH]; intros cur; cbn [specific_named]; [now right|].
  destruct (is_binary h); [|now left].
  destruct (key_text E h "EXTNAME"); [|apply IH]. destruct (key_text E h keyword); [|apply IH].
  destruct (_ && _); [now left|apply IH].
Qed.

Section ByName.
Context {A : Type}.
Variables (name keyword value : string) (r : hdu -> rd (option A)).
Hypothesis Hfine : forall h, fine (r h).
Hypothesis Hagree : forall h, agrees (r h).
Hypothesis Hset : forall h st, st <> 0 -> r h st = Ok (None, st).
Local Notation find := (by_name E name keyword value r).

(** what a search gives, wherever the file is *)
Lemma by_name_result p l c o f st :
  find (mk_file (p :: l) c, 0) = Ok (o, (f, st)) ->
  f_hdus f = p :: l /\ st <> END_OF_FILE /\ (st = 0 <-> present find (p :: l)) /\ (st = 0 -> o <> None).
Proof.
  unfold present, by_name, guard_io, specific_named_hdu. cbn [snd Z.eqb negb f_hdus f_cur].
  change (skipn 1 (p :: l)) with l.
  destruct (specific_named E l 1 name keyword value) as (i, s) eqn:Hs.
  pose proof (specific_status name keyword value l 1) as Hst. rewrite Hs in Hst. cbn [snd] in Hst.
  unfold at_chdu. cbn [fst snd]. destruct Hst as [Hst|Hst]; rewrite Hst in *; clear Hst.
  - apply specific_range in Hs. destruct l as [|h l]; [cbn in Hs; lia|].
    assert (Hc : exists h', chdu (mk_file (p :: h :: l) i) = Some h').
    { unfold chdu. cbn [f_cur f_hdus]. destruct (Z.ltb_spec i 1); [lia|].
      destruct (nth_error (p :: h :: l) (Z.to_nat (i - 1))) eqn:Hn; [eauto|].
      apply nth_error_None in Hn. cbn [List.length] in Hn, Hs. lia. }
    destruct Hc as (h' & ->). intros H. apply bind_inv in H as ((a, st1) & Hr & H). cbn [fst snd] in H.
    injection H as -> <- ->. split; [reflexivity|]. split; [exact (Hfine h' 0 o st Hr ltac:(discriminate))|].
    rewrite Hr, bind_Ok. cbn [fst snd]. pose proof (Hagree h' 0 o st Hr) as Ha. split; [split|].
    + intros ->. destruct o as [a|]; [eauto|]. destruct Ha as [Ha _]. now specialize (Ha eq_refl).
    + intros (t & f' & [= -> _ ->]). reflexivity.
    + intros -> ->. destruct Ha as [Ha _]. now specialize (Ha eq_refl).
  - intros H.
    assert (Ho : o = None /\ f_hdus f = p :: l /\ st = BAD_HDU_NUM).
    { destruct (chdu _) in H.
      - rewrite Hset in H by discriminate. rewrite bind_Ok in H. cbn [fst snd] in H. injection H as <- <- <-. auto.
      - injection H as <- <- <-. auto. }
    destruct Ho as (-> & Hf & ->). split; [exact Hf|]. split; [discriminate|]. split; [split; [discriminate|]|discriminate].
    intros (t & f' & Hp). exfalso. destruct (chdu _) in Hp.
    + rewrite Hset in Hp by discriminate. rewrite bind_Ok in Hp. cbn [fst snd] in Hp. discriminate.
    + discriminate.
Qed.
Lemma by_name_present p l c : present find (p :: l) ->
  exists t f, find (mk_file (p :: l) c, 0) = Ok (Some t, (f, 0)) /\ f_hdus f = p :: l.
Proof.
  intros Hp. pose proof Hp as Hp'. destruct Hp' as (t & f & H).
  assert (Hb : find (mk_file (p :: l) c, 0) = find (mk_file (p :: l) 1, 0)).
  { destruct l as [|h l]; [|reflexivity].
    exfalso. unfold by_name, guard_io, specific_named_hdu in H. cbn [snd Z.eqb negb f_hdus f_cur skipn specific_named] in H.
    unfold at_chdu in H. cbn [fst snd] in H. destruct (chdu _) in H; [|discriminate].
    rewrite Hset in H by discriminate. discriminate. }
  rewrite Hb. exists t, f. split; [exact H|]. now apply by_name_result in H as (Hf & _).
Qed.
End ByName.

Lemma array_set n h st : st <> 0 -> read_oi_array_chdu E h (Some n) st = Ok (None, st).
Proof. intros H. now apply unless_set. Qed.
Lemma wavelength_set n h st : st <> 0 -> read_oi_wavelength_chdu E h (Some n) st = Ok (None, st).
Proof. intros H. now apply unless_set. Qed.
Lemma corr_set n h st : st <> 0 -> read_oi_corr_chdu E h (Some n) st = Ok (None, st).
Proof. intros H. now apply unless_set. Qed.

(** ** The tables named *)

(** a step on the second connection that succeeds exactly when [ok] *)
Definition step_is (hdus : list hdu) (step : wstate -> res wstate) (ok : Prop) : Prop :=
  (forall c f st, step (mk_file hdus c, 0) = Ok (f, st) ->
     f_hdus f = hdus /\ st <> END_OF_FILE /\ (st = 0 -> ok))
  /\ (ok -> forall c, exists f, step (mk_file hdus c, 0) = Ok (f, 0) /\ f_hdus f = hdus)
  /\ (forall f st, st <> 0 -> step (f, st) = Ok (f, st)).
Lemma step_id hdus : step_is hdus (fun s => Ok s) True.
Proof.
  split; [|split].
  - intros c f st [= <- <-]. repeat split. discriminate.
  - intros _ c. eauto.
  - reflexivity.
Qed.
Lemma step_seq hdus s1 s2 p1 p2 : step_is hdus s1 p1 -> step_is hdus s2 p2 ->
  step_is hdus (fun s => s <- s1 s ;; s2 s) (p1 /\ p2).
Proof.
  intros (A1 & B1 & C1) (A2 & B2 & C2). split; [|split].
  - intros c f st H. apply bind_inv in H as ((f1, st1) & H1 & H2).
    apply A1 in H1 as (Hf1 & He & Hok). destruct (Z.eq_dec st1 0) as [->|Hn].
    + replace f1 with (mk_file hdus (f_cur f1)) in H2 by (destruct f1; cbn in *; now subst).
      apply A2 in H2 as (Hf & He2 & Hok2). auto.
    + rewrite C2 in H2 by exact Hn. injection H2 as <- <-. split; [exact Hf1|]. split; [exact He|]. congruence.
  - intros [P1 P2] c. destruct (B1 P1 c) as (f1 & -> & Hf). rewrite bind_Ok.
    destruct (B2 P2 (f_cur f1)) as (f2 & H2 & Hf2). exists f2. split; [|exact Hf2].
    rewrite <- H2. do 2 f_equal. destruct f1; cbn in *; now subst.
  - intros f st Hn. rewrite C1 by exact Hn. rewrite bind_Ok. now apply C2.
Qed.
Lemma step_by_name {A} p l name keyword value (r : hdu -> rd (option A)) :
  (forall h, fine (r h)) -> (forall h, agrees (r h)) -> (forall h st, st <> 0 -> r h st = Ok (None, st)) ->
  step_is (p :: l) (fun s => discard (by_name E name keyword value r s)) (present (by_name E name keyword value r) (p :: l)).
Proof.
  intros H1 H2 H3. split; [|split].
  - intros c f st H. unfold discard in H. apply bind_inv in H as ((o, (f', st')) & H & [= <- <-]).
    apply (by_name_result name keyword value r H1 H2 H3) in H as (Hf & He & Hp & _). repeat split; [exact Hf|exact He|apply Hp].
  - intros Hp c. destruct (by_name_present name keyword value r H1 H2 H3 p l c Hp) as (t & f & H & Hf).
    exists f. unfold discard. rewrite H. auto.
  - intros f st Hn. unfold discard, by_name, guard_io. cbn [snd].
    destruct (Z.eqb_spec st 0); [contradiction|]. reflexivity.
Qed.
Lemma step_if hdus (b : bool) s (p : Prop) : step_is hdus s p ->
  step_is hdus (fun w => if b then s w else Ok w) (b = true -> p).
Proof.
  intros (A & B & C). destruct b.
  - split; [|split; [|exact C]].
    + intros c f st H. apply A in H as (H1 & H2 & H3). auto.
    + intros H. now apply B, H.
  - split; [|split].
    + intros c f st [= <- <-]. repeat split; discriminate.
    + intros _ c. eauto.
    + reflexivity.
Qed.
Lemma step_equiv hdus s p q : (p <-> q) -> step_is hdus s p -> step_is hdus s q.
Proof. intros Hq (A & B & C). split; [|split; [|exact C]]; firstorder. Qed.

Lemma nonempty_true s : nonempty s = true <-> s <> EmptyString.
Proof. destruct s; cbn; split; congruence. Qed.

Lemma data_step p l {X R} (t : dtab X R) : step_is (p :: l) (data_refs E t) (data_named E (p :: l) t).
Proof.
  unfold data_refs, data_named. eapply step_equiv.
  2:{ apply step_seq; [apply step_if|apply step_seq; [apply step_if|]].
      - apply (step_by_name p l "OI_ARRAY" "ARRNAME" (tb_arrname t) (fun h => read_oi_array_chdu E h (Some (tb_arrname t))));
          [intros; apply fine_array|intros; apply agrees_array|intros; now apply array_set].
      - apply (step_by_name p l "OI_CORR" "CORRNAME" (tb_corrname t) (fun h => read_oi_corr_chdu E h (Some (tb_corrname t))));
          [intros; apply fine_corr|intros; apply agrees_corr|intros; now apply corr_set].
      - apply (step_by_name p l "OI_WAVELENGTH" "INSNAME" (tb_insname t) (fun h => read_oi_wavelength_chdu E h (Some (tb_insname t))));
          [intros; apply fine_wavelength|intros; apply agrees_wavelength|intros; now apply wavelength_set]. }
  rewrite !nonempty_true. reflexivity.
Qed.
Lemma inspol_step p l (t : oi_inspol) : step_is (p :: l) (inspol_refs E t) (inspol_named E (p :: l) t).
Proof.
  apply (step_by_name p l "OI_ARRAY" "ARRNAME" (is_arrname t) (fun h => read_oi_array_chdu E h (Some (is_arrname t))));
    [intros; apply fine_array|intros; apply agrees_array|intros; now apply array_set].
Qed.

(** ** The loops *)

Section Loop.
Context {A : Type}.
Variables (name : string) (r : hdu -> rd (option A)) (say : A -> res string) (refs : A -> wstate -> res wstate)
  (hdus : list hdu) (ok : A -> Prop).
Hypothesis Hfine : forall h, fine (r h).
Hypothesis Hagree : forall h, agrees (r h).
Hypothesis Hrefs : forall a, step_is hdus (refs a) (ok a).
Local Notation next := (read_next E name r).

(** one call from within the file *)
Lemma next_here done rest : hdus = done ++ rest ->
  (existsb (named E name) rest = false
   /\ exists c, next (mk_file hdus (Z.of_nat (List.length done)), 0) = Ok (None, (mk_file hdus c, END_OF_FILE)))
  \/ exists pre h post, rest = pre ++ h :: post /\ filter (named E name) rest = h :: filter (named E name) post
     /\ next (mk_file hdus (Z.of_nat (List.length done)), 0)
        = (p <- r h 0 ;; Ok (fst p, (mk_file hdus (Z.of_nat (List.length (done ++ pre ++ [h]))), snd p))).
Proof.
  intros Hh. unfold read_next, guard_io, next_named_hdu. cbn [snd f_cur f_hdus Z.eqb negb].
  rewrite Nat2Z.id, Hh, skipn_app, skipn_all, Nat.sub_diag, skipn_O, app_nil_l, <- Hh.
  destruct (first_named E name rest) as [Hn|(pre & h & post & Hr & Hp & Hn & Hf)].
  - left. split; [exact Hn|]. rewrite next_named_none by exact Hn. eexists. reflexivity.
  - right. exists pre, h, post. split; [exact Hr|]. split; [exact Hf|].
    assert (Hnn := next_named_found E name pre h post (Z.of_nat (List.length done)) Hp Hn).
    rewrite <- Hr in Hnn. rewrite Hnn. cbn [snd Z.eqb negb].
    set (cur := Z.of_nat (List.length done) + Z.of_nat (List.length pre) + 1).
    assert (Hc : chdu (mk_file hdus cur) = Some h).
    { rewrite Hh, Hr, app_assoc. apply chdu_middle. rewrite app_length. unfold cur. lia. }
    unfold at_chdu. cbn [fst snd]. rewrite Hc.
    replace (Z.of_nat (List.length (done ++ pre ++ [h]))) with cur
      by (rewrite !app_length; cbn [List.length]; unfold cur; lia).
    reflexivity.
Qed.

Lemma loop_stopped fuel f f2 st : st <> 0 -> (0 < fuel)%nat ->
  demo_loop fuel next say refs (f, f2, st) = Ok ([], (f, f2, st)).
Proof.
  intros Hn Hf. destruct fuel as [|fuel]; [lia|]. cbn [demo_loop]. unfold read_next, guard_io. cbn [snd].
  destruct (Z.eqb_spec st 0); [contradiction|]. cbn [negb bind].
  destruct (Z.eqb_spec st 0); [contradiction|]. reflexivity.
Qed.

Lemma loop_ends : forall fuel done rest c l f f2, hdus = done ++ rest -> (List.length rest + 1 < fuel)%nat ->
  demo_loop fuel next say refs (mk_file hdus (Z.of_nat (List.length done)), mk_file hdus c, 0)
  = Ok (l, (f, f2, END_OF_FILE)) ->
  f_hdus f = hdus /\ f_hdus f2 = hdus
  /\ collect false r (filter (named E name) rest) = Ok (map fst l, 0)
  /\ Forall ok (map fst l) /\ Forall (fun p => say (fst p) = Ok (snd p)) l.
Proof.
  induction fuel as [|fuel IH]; intros done rest c l f f2 Hh Hl H; [lia|].
  cbn [demo_loop] in H. destruct (next_here done rest Hh) as [(Hn & c' & Hx)|(pre & h & post & Hr & Hf & Hx)]; rewrite Hx in H; clear Hx.
  - rewrite bind_Ok in H. cbn [END_OF_FILE Z.eqb negb] in H. injection H as <- <- <-.
    rewrite filter_none by exact Hn. cbn [map f_hdus]. repeat split; constructor.
  - apply bind_inv in H as ((o, (f1, st)) & Hx & H). apply bind_inv in Hx as ((a, st') & Hrd & Hx).
    cbn [fst snd] in Hx. injection Hx as -> <- ->.
    pose proof (Hfine h 0 o st Hrd ltac:(discriminate)) as Hne. pose proof (Hagree h 0 o st Hrd) as Hag.
    destruct (Z.eqb_spec st 0) as [->|Hst]; cbn [negb] in H.
    + destruct o as [a|]; [|discriminate].
      apply bind_inv in H as (line & Hsay & H). apply bind_inv in H as ((f3, st3) & H2 & H).
      apply bind_inv in H as ((l', s') & Hgo & H). cbn [fst snd] in Hgo, H. injection H as <- ->.
      apply (Hrefs a) in H2 as (Hf3 & He & Hok). destruct (Z.eq_dec st3 0) as [->|Hn3].
      * replace f3 with (mk_file hdus (f_cur f3)) in Hgo by (destruct f3; cbn in *; now subst).
        assert (E1 : hdus = (done ++ pre ++ [h]) ++ post) by (rewrite Hh, Hr, <- !app_assoc; reflexivity).
        assert (E2 : (List.length post + 1 < fuel)%nat)
          by (rewrite Hr, app_length in Hl; cbn [List.length] in Hl; lia).
        destruct (IH _ _ _ _ _ _ E1 E2 Hgo) as (G1 & G2 & G3 & G4 & G5).
        split; [exact G1|]. split; [exact G2|]. rewrite Hf. cbn [collect map fst]. rewrite Hrd, bind_Ok.
        rewrite G3, bind_Ok. cbn [fst snd]. split; [reflexivity|]. split; constructor; auto.
      * rewrite loop_stopped in Hgo; [|exact Hn3|lia]. injection Hgo as <- _ _ Hx. congruence.
    + injection H as _ _ _ Hx. congruence.
Qed.

Lemma loop_goes : forall fuel done rest c l, hdus = done ++ rest -> (List.length rest < fuel)%nat ->
  collect false r (filter (named E name) rest) = Ok (map fst l, 0) ->
  Forall ok (map fst l) -> Forall (fun p => say (fst p) = Ok (snd p)) l ->
  exists c1 c2,
    demo_loop fuel next say refs (mk_file hdus (Z.of_nat (List.length done)), mk_file hdus c, 0)
    = Ok (l, (mk_file hdus c1, mk_file hdus c2, END_OF_FILE)).
Proof.
  induction fuel as [|fuel IH]; intros done rest c l Hh Hl Hc Hok Hsay; [lia|].
  cbn [demo_loop]. destruct (next_here done rest Hh) as [(Hn & c' & ->)|(pre & h & post & Hr & Hf & ->)].
  - rewrite bind_Ok. cbn [END_OF_FILE Z.eqb negb]. rewrite filter_none in Hc by exact Hn. cbn [collect] in Hc.
    injection Hc as Hc. destruct l; [|discriminate]. eexists _, _. reflexivity.
  - rewrite Hf in Hc. cbn [collect] in Hc. apply bind_inv in Hc as ((o, st) & Hrd & Hc). rewrite Hrd.
    pose proof (Hagree h 0 o st Hrd) as Hag. rewrite !bind_Ok. cbn [fst snd].
    destruct o as [a|].
    + apply bind_inv in Hc as ((ts, st') & Hc & Hx). cbn [fst snd] in Hx.
      destruct l as [|(a', line) l]; [discriminate|]. cbn [map fst] in Hx. injection Hx as -> -> ->.
      destruct (Z.eq_dec st 0) as [->|Hst]; [|apply Hag in Hst; discriminate]. cbn [Z.eqb negb].
      cbn [map fst] in Hok. pose proof (Forall_inv Hok) as Hok1. apply Forall_inv_tail in Hok.
      pose proof (Forall_inv Hsay) as Hs1. apply Forall_inv_tail in Hsay.
      cbn [fst snd] in Hs1. rewrite Hs1, bind_Ok.
      destruct (proj1 (proj2 (Hrefs a')) Hok1 c) as (f3 & -> & Hf3). rewrite bind_Ok. cbn [fst snd].
      destruct (IH (done ++ pre ++ [h]) post (f_cur f3) l) as (c1 & c2 & Hgo).
      * rewrite <- !app_assoc. cbn [app]. now rewrite Hh, Hr.
      * rewrite Hr, app_length in Hl. cbn [List.length] in Hl. lia.
      * exact Hc.
      * exact Hok.
      * exact Hsay.
      * replace f3 with (mk_file hdus (f_cur f3)) by (destruct f3; cbn in *; now subst).
        rewrite Hgo, bind_Ok. cbn [fst snd]. eauto.
    + injection Hc as _ ->. exfalso. now apply Hag.
Qed.
End Loop.
End Demo.
