(** The warnings printed by a reading that succeeds. *)
From Coq Require Import Lia.
From Verif Require Import BaseLemmas ReadFile ChksumSpec ChksumProofs.
Open Scope string_scope.
Open Scope list_scope.
Open Scope Z_scope.

Lemma pbind_inv {A B} (x : pr A) (k : A -> pr B) m b : pbind x k = Ok (m, b) ->
  exists m1 a m2, x = Ok (m1, a) /\ k a = Ok (m2, b) /\ m = m1 ++ m2.
Proof.
  unfold pbind. intros H. apply bind_inv in H as ((m1, a) & H1 & H). apply bind_inv in H as ((m2, b') & H2 & H).
  cbn [fst snd] in *. injection H as <- <-. eauto 6.
Qed.

Lemma numbered_app l l' : forall n, numbered n (l ++ l') = numbered n l ++ numbered (n + Z.of_nat (List.length l)) l'.
Proof.
  induction l as [|h l IH]; intros n; cbn [app numbered List.length].
  - now rewrite Z.add_0_r.
  - rewrite IH. do 3 f_equal. lia.
Qed.
Lemma numbered_in n l : forall i h, In (i, h) (numbered n l) <-> n <= i /\ nth_error l (Z.to_nat (i - n)) = Some h.
Proof.
  revert n. induction l as [|h0 l IH]; intros n i h; cbn [numbered In].
  - split; [easy|]. intros [_ H]. now destruct (Z.to_nat (i - n)).
  - rewrite IH. split.
    + intros [[= <- <-]|[Hn He]].
      * split; [lia|]. now rewrite Z.sub_diag.
      * split; [lia|]. replace (Z.to_nat (i - n)) with (S (Z.to_nat (i - (n + 1)))) by lia. exact He.
    + intros [Hn He]. destruct (Z.eq_dec i n) as [->|Hd].
      * rewrite Z.sub_diag in He. injection He as <-. now left.
      * right. split; [lia|]. replace (Z.to_nat (i - n)) with (S (Z.to_nat (i - (n + 1)))) in He by lia. exact He.
Qed.
Lemma numbered_nodup l : forall n, NoDup (numbered n l).
Proof.
  induction l as [|h l IH]; intros n; constructor; auto. rewrite numbered_in. lia.
Qed.

Section Whole.
Variable E : cfitsio.
Variable V : hdu -> verdict.
Notation warns l := (flat_map (warnings E V) l).

Lemma of_name_none name n l : existsb (named E name) l = false -> of_name E name (numbered n l) = [].
Proof.
  unfold of_name. revert n. induction l as [|h l IH]; intros n; cbn [existsb numbered filter fst snd]; [reflexivity|].
  intros H. apply orb_false_iff in H as [-> H]. auto.
Qed.
Lemma of_name_app name l l' : of_name E name (l ++ l') = of_name E name l ++ of_name E name l'.
Proof. unfold of_name. apply filter_app. Qed.

Section File.
Variable p : hdu.
Variable rest : list hdu.
Hypothesis checkable : forall h, In h (p :: rest) -> verifiable E V h.
Local Notation hdus := (p :: rest).

Lemma chdu_prints {A} (r : hdu -> rd (option A)) f h m a :
  f_hdus f = hdus -> chdu f = Some h -> verified_chdu E V r (f, 0) = Ok (m, a) -> m = warnings E V (f_cur f, h).
Proof.
  intros Hf Hc H. unfold verified_chdu in H. cbn [fst snd] in H. rewrite Hc in H.
  rewrite verify_ok in H.
  2:{ apply checkable. rewrite <- Hf. unfold chdu in Hc. destruct (_ <? _); [discriminate|]. exact (nth_error_In _ _ Hc). }
  apply pbind_inv in H as (m1 & s & m2 & [= <- <-] & H2 & ->). unfold quiet in H2.
  apply bind_inv in H2 as (b & _ & [= <- _]). apply app_nil_r.
Qed.
Lemma header_prints f m a : f_hdus f = hdus -> read_header E V (f, 0) = Ok (m, a) -> m = warnings E V (1, p).
Proof.
  intros Hf. unfold read_header, guard_pio. cbn [snd Z.eqb negb]. unfold fits_movabs_hdu, movabs. rewrite Hf.
  cbn [Z.eqb negb List.length]. destruct (Z.ltb_spec (Z.of_nat (Datatypes.S (List.length rest))) 1); [lia|].
  cbn [Z.ltb Z.compare Pos.compare Pos.compare_cont orb]. rewrite bind_Ok. intros H1.
  now apply (chdu_prints _ (mk_file hdus 1) p) in H1.
Qed.
Lemma movnam_find l : forall n,
  match movnam E l n "OI_TARGET" with
  | Some i => exists h, find (fun nh => target_like E (snd nh)) (numbered n l) = Some (i, h)
  | None => find (fun nh => target_like E (snd nh)) (numbered n l) = None
  end.
Proof.
  induction l as [|h l IH]; intros n; cbn [movnam numbered find snd]; [reflexivity|].
  unfold target_like at 1 3. change (upper "OI_TARGET") with "OI_TARGET".
  destruct (is_binary h); cbn [andb]; [|apply IH].
  destruct (key_text E h "EXTNAME") as [e|]; [|apply IH].
  destruct (str_eqb (upper e) "OI_TARGET"); [eauto|apply IH].
Qed.
Lemma target_prints f m a : f_hdus f = hdus -> read_targets E V (f, 0) = Ok (m, a) ->
  m = warns (first_target E (numbered 1 hdus)).
Proof.
  intros Hf. unfold read_targets, guard_pio. cbn [snd Z.eqb negb]. unfold fits_movnam_hdu. cbn [Z.eqb negb]. rewrite Hf.
  pose proof (movnam_find hdus 1) as Hm. unfold first_target. destruct (movnam E hdus 1 "OI_TARGET") as [i|].
  - destruct Hm as (h & Hm). rewrite Hm. cbn [flat_map]. rewrite app_nil_r. intros H.
    apply find_some in Hm as [Hi _]. apply numbered_in in Hi as [H1 Hi].
    apply (chdu_prints _ (mk_file hdus i) h) in H; [exact H|reflexivity|].
    unfold chdu. cbn [f_cur f_hdus]. destruct (Z.ltb_spec i 1); [lia|]. exact Hi.
  - rewrite Hm. cbn [flat_map]. intros H. unfold verified_chdu in H. cbn [fst snd] in H.
    destruct (chdu f); [rewrite verify_error in H by discriminate|].
    + apply pbind_inv in H as (m1 & s & m2 & [= <- <-] & H2 & ->). unfold quiet in H2.
      now apply bind_inv in H2 as (b & _ & [= <- _]).
    + unfold quiet in H. now apply bind_inv in H as (b & _ & [= <- _]).
Qed.

Lemma loop_prints {A} name (r : hdu -> rd (option A)) skip :
  (forall h, fine (r h)) -> (forall h, agrees (r h)) ->
  forall fuel done rest', hdus = done ++ rest' -> (List.length rest' < fuel)%nat ->
  forall m l f st,
  loop_tables fuel skip (read_next_table E V name r) (mk_file hdus (Z.of_nat (List.length done)), 0)
    = Ok (m, (l, (f, st))) -> skip = true \/ st = 0 ->
  m = warns (of_name E name (numbered (Z.of_nat (List.length done) + 1) rest')) /\ f_hdus f = hdus /\ st = 0.
Proof.
  intros Hfine Hagree. induction fuel as [|fuel IH]; intros done rest' Hh Hl m l f st H Hok; [lia|].
  cbn [loop_tables] in H. apply pbind_inv in H as (m1 & (a, (f1, st1)) & m2 & H1 & H2 & ->).
  unfold read_next_table, guard_pio in H1. cbn [snd Z.eqb negb] in H1.
  unfold next_named_hdu in H1. cbn [f_cur f_hdus Z.eqb negb] in H1. cbv zeta in H1.
  rewrite Nat2Z.id, Hh, skipn_app, skipn_all, Nat.sub_diag, skipn_O, app_nil_l, <- Hh in H1.
  destruct (first_named E name rest') as [Hn|(pre & h & post & Hr & Hp & Hn & Hf)].
  - rewrite next_named_none in H1 by exact Hn. cbn [snd END_OF_FILE Z.eqb Pos.eqb negb] in H1.
    injection H1 as <- <- <- <-. cbn [END_OF_FILE Z.eqb Pos.eqb negb] in H2. injection H2 as <- <- <- <-.
    rewrite of_name_none by exact Hn. auto.
  - assert (Hnn := next_named_found E name pre h post (Z.of_nat (List.length done)) Hp Hn).
    rewrite <- Hr in Hnn. rewrite Hnn in H1. cbn [snd Z.eqb negb] in H1.
    set (cur := Z.of_nat (List.length done) + Z.of_nat (List.length pre) + 1) in *.
    assert (Hc : chdu (mk_file hdus cur) = Some h).
    { unfold chdu. cbn [f_cur f_hdus]. destruct (Z.ltb_spec cur 1); [unfold cur in *; lia|].
      rewrite Hh, Hr, app_assoc, nth_error_app2 by (rewrite app_length; unfold cur; lia).
      replace (Z.to_nat (cur - 1) - List.length (done ++ pre))%nat with O
        by (rewrite app_length; unfold cur; lia). reflexivity. }
    assert (Hm1 := chdu_prints r (mk_file hdus cur) h _ _ eq_refl Hc H1). cbn [f_cur] in Hm1. subst m1.
    assert (Hsil : at_chdu r (mk_file hdus cur, 0) = Ok (a, (f1, st1))).
    { rewrite <- (proj1 (sim_chdu E V hdus checkable r (mk_file hdus cur) 0 eq_refl)), H1. reflexivity. }
    unfold at_chdu in Hsil. cbn [fst snd] in Hsil. rewrite Hc in Hsil.
    apply bind_inv in Hsil as ((a0, st0) & Hrd & He). cbn [fst snd] in He. injection He as <- <- <-.
    pose proof (Hfine h 0 a0 st0 Hrd) as Hne. specialize (Hne ltac:(discriminate)).
    pose proof (Hagree h 0 a0 st0 Hrd) as Hag.
    assert (Hspec : warns (of_name E name (numbered (Z.of_nat (List.length done) + 1) rest'))
      = warnings E V (cur, h) ++ warns (of_name E name (numbered (cur + 1) post))).
    { rewrite Hr, numbered_app, of_name_app, of_name_none by exact Hp. cbn [app numbered].
      replace (Z.of_nat (List.length done) + 1 + Z.of_nat (List.length pre)) with cur by (unfold cur; lia).
      unfold of_name at 1. cbn [filter snd]. rewrite Hn. reflexivity. }
    rewrite Hspec.
    assert (Hnext : forall m l f st, loop_tables fuel skip (read_next_table E V name r) (mk_file hdus cur, 0)
        = Ok (m, (l, (f, st))) -> skip = true \/ st = 0 ->
        m = warns (of_name E name (numbered (cur + 1) post)) /\ f_hdus f = hdus /\ st = 0).
    { replace cur with (Z.of_nat (List.length (done ++ pre ++ [h])))
        by (rewrite !app_length; cbn [List.length]; unfold cur; lia).
      apply IH.
      - rewrite Hh, Hr. rewrite <- !app_assoc. reflexivity.
      - rewrite Hr, app_length in Hl. cbn [List.length] in Hl. lia. }
    destruct (Z.eqb_spec st0 0) as [Hst|Hst]; cbn [negb] in H2.
    + rewrite Hst in H2. destruct a0 as [a|]; [|exfalso; now apply (proj1 Hag eq_refl)].
      apply pbind_inv in H2 as (m3 & (l3, (f3, st3)) & m4 & H3 & H4 & ->). injection H4 as <- <- <- <-.
      destruct (Hnext _ _ _ _ H3 Hok) as (-> & Hf3 & Hs3). rewrite app_nil_r. auto.
    + destruct (Z.eqb_spec st0 END_OF_FILE); [congruence|]. destruct skip.
      * destruct (Hnext _ _ _ _ H2 Hok) as (-> & Hf3 & Hs3). auto.
      * injection H2 as <- <- <- <-. destruct Hok; congruence.
Qed.
Lemma all_prints {A} name (r : hdu -> rd (option A)) skip f m l f' st :
  (forall h, fine (r h)) -> (forall h, agrees (r h)) -> f_hdus f = hdus ->
  all_tables skip (read_next_table E V name r) (f, 0) = Ok (m, (l, (f', st))) -> skip = true \/ st = 0 ->
  m = warns (of_name E name (numbered 2 rest)) /\ f_hdus f' = hdus /\ st = 0.
Proof.
  intros Hfine Hagree Hf. unfold all_tables, fits_movabs_hdu, movabs. cbn [Z.eqb negb]. rewrite Hf. cbn [List.length].
  destruct (Z.ltb_spec (Z.of_nat (Datatypes.S (List.length rest))) 1); [lia|]. cbn [Z.ltb Z.compare orb].
  rewrite bind_Ok. cbn [fst f_hdus List.length].
  apply (loop_prints name r skip Hfine Hagree (Datatypes.S (Datatypes.S (List.length rest))) [p] rest);
    [reflexivity|lia].
Qed.

Lemma file_prints f m o : f_hdus f = hdus -> read_file E V (f, 0) = Ok (m, (Some o, 0)) ->
  m = warns (seen E p rest).
Proof.
  intros Hf H. unfold read_file in H.
  apply pbind_inv in H as (m0 & (hd, (f0, st0)) & mm & H0 & H & ->).
  assert (F0 : f_hdus f0 = hdus).
  { apply (proj2 (sim_header E V hdus checkable f 0 Hf)) in H0 as [_ Hk]. exact Hk. }
  apply pbind_inv in H as (m1 & (tg, (f1, st1)) & mm' & H1 & H & ->).
  assert (F1 : f_hdus f1 = hdus).
  { apply (proj2 (sim_targets E V hdus checkable f0 st0 F0)) in H1 as [_ Hk]. exact Hk. }
  unfold ok_so_far at 1 in H. cbn [snd] in H. destruct (Z.eqb_spec st1 0) as [->|]; cbn [negb] in H; [|discriminate].
  assert (st0 = 0) as ->.
  { destruct (Z.eq_dec st0 0) as [|Hn]; [assumption|]. unfold read_targets, guard_pio in H1. cbn [snd] in H1.
    destruct (Z.eqb_spec st0 0); [congruence|]. cbn [negb] in H1. now injection H1. }
  apply header_prints in H0; [|exact Hf]. apply target_prints in H1; [|exact F0]. subst m0 m1.
  Ltac strict H F fin agr :=
    let m := fresh "m" in let l := fresh "l" in let f := fresh "f" in let st := fresh "st" in
    let mm := fresh "mm" in let H' := fresh in let F' := fresh "F" in let Hz := fresh in
    apply pbind_inv in H as (m & (l, (f, st)) & mm & H' & H & ->);
    unfold ok_so_far at 1 in H; cbn [snd] in H;
    destruct (Z.eqb_spec st 0) as [Hz|]; cbn [negb] in H; [|discriminate];
    apply (all_prints _ _ _ _ _ _ _ _ fin agr F) in H' as (-> & F' & _); [|now right]; rewrite Hz in *; clear Hz F;
    rename F' into F.
  Ltac loose H F fin agr :=
    let m := fresh "m" in let l := fresh "l" in let f := fresh "f" in let st := fresh "st" in
    let mm := fresh "mm" in let H' := fresh in let F' := fresh "F" in let Hz := fresh in
    apply pbind_inv in H as (m & (l, (f, st)) & mm & H' & H & ->);
    apply (all_prints _ _ _ _ _ _ _ _ fin agr F) in H' as (-> & F' & Hz); [|now left]; rewrite Hz in *; clear Hz F;
    rename F' into F.
  strict H F1 (fun h => fine_array E h None) (fun h => agrees_array E h None).
  strict H F1 (fun h => fine_wavelength E h None) (fun h => agrees_wavelength E h None).
  loose H F1 (fun h => fine_corr E h None) (fun h => agrees_corr E h None).
  loose H F1 (fun h => fine_inspol E h) (fun h => agrees_inspol E h).
  loose H F1 (fun h => fine_vis E h) (fun h => agrees_vis E h).
  loose H F1 (fun h => fine_vis2 E h) (fun h => agrees_vis2 E h).
  loose H F1 (fun h => fine_t3 E h) (fun h => agrees_t3 E h).
  loose H F1 (fun h => fine_flux E h) (fun h => agrees_flux E h).
  destruct hd as [hd|]; [|discriminate]. destruct tg as [tg|]; [|discriminate].
  apply pbind_inv in H as (m8 & o' & m9 & H2 & H & ->). unfold quiet in H2.
  apply bind_inv in H2 as (b & _ & [= <- _]). injection H as <- _.
  unfold seen, table_names. cbn [flat_map app]. rewrite !flat_map_app. cbn [flat_map app]. rewrite ?app_nil_r, ?app_assoc.
  reflexivity.
Qed.
End File.

(** ** Each HDU is verified once *)

Lemma nodup_kinds {A} (f : string -> A -> bool) (l : list A) : NoDup l ->
  (forall n n' x, f n x = true -> f n' x = true -> n = n') ->
  forall names, NoDup names -> NoDup (flat_map (fun n => filter (f n) l) names).
Proof.
  intros Hl Hf names. induction 1 as [|n names Hn Hns IH]; [constructor|]. cbn [flat_map].
  assert (Hd : forall x, In x (filter (f n) l) -> ~ In x (flat_map (fun n => filter (f n) l) names)).
  { intros x H1 H2. apply filter_In in H1 as [_ H1]. apply in_flat_map in H2 as (n' & Hi & H2).
    apply filter_In in H2 as [_ H2]. rewrite (Hf _ _ _ H1 H2) in Hn. contradiction. }
  assert (H1 : NoDup (filter (f n) l)) by now apply NoDup_filter.
  revert H1 Hd. generalize (filter (f n) l). intros l1 H1 Hd. induction H1 as [|x l1 Hx Hl1 IH1]; [exact IH|].
  cbn [app]. constructor.
  - rewrite in_app_iff. intros [H|H]; [contradiction|]. apply (Hd x); [now left|exact H].
  - apply IH1. intros y Hy. apply Hd. now right.
Qed.
Lemma named_one name name' h : named E name h = true -> named E name' h = true -> name = name'.
Proof.
  unfold named. intros H1 H2. apply andb_true_iff in H1 as [_ H1]. apply andb_true_iff in H2 as [_ H2].
  destruct (key_text E h "EXTNAME"); [|discriminate]. apply str_eqb_eq in H1. apply str_eqb_eq in H2. congruence.
Qed.
Lemma target_not_named h name : target_like E h = true -> In name table_names -> named E name h = false.
Proof.
  unfold target_like, named. intros H Hi. apply andb_true_iff in H as [-> H]. cbn [andb].
  destruct (key_text E h "EXTNAME") as [e|]; [|discriminate].
  destruct (str_eqb e name) eqn:He; [|reflexivity]. apply str_eqb_eq in He. subst e. cbn in Hi.
  repeat (destruct Hi as [<-|Hi]; [discriminate H|]). contradiction.
Qed.
Lemma find_first (l : list hdu) : forall n,
  match find (fun nh => target_like E (snd nh)) (numbered n l) with
  | Some (i, h) => target_like E h = true /\ In (i, h) (numbered n l)
      /\ forall j h', In (j, h') (numbered n l) -> target_like E h' = true -> i <= j
  | None => forall j h', In (j, h') (numbered n l) -> target_like E h' = false
  end.
Proof.
  induction l as [|h l IH]; intros n; cbn [numbered find snd]; [intros ? ? []|].
  destruct (target_like E h) eqn:Ht.
  - split; [exact Ht|]. split; [now left|]. intros j h' Hi _.
    assert (Hi' : In (j, h') (numbered n (h :: l))) by exact Hi. apply numbered_in in Hi' as [Hn _]. exact Hn.
  - specialize (IH (n + 1)). destruct (find _ _) as [(i, h0)|].
    + destruct IH as (H1 & H2 & H3). split; [exact H1|]. split; [now right|].
      intros j h' [[= <- <-]|Hi] Hj; [congruence|eauto].
    + intros j h' [[= <- <-]|Hi]; [exact Ht|eauto].
Qed.
Lemma numbered_file l n h : In (n, h) (numbered 1 l) <-> hdu_at l n h.
Proof. apply numbered_in. Qed.
Lemma seen_once p rest : is_binary p = false -> NoDup (seen E p rest).
Proof.
  intros Hp. unfold seen.
  assert (Hk : NoDup (flat_map (fun name => of_name E name (numbered 2 rest)) table_names)).
  { apply (nodup_kinds (fun name nh => named E name (snd nh))); [apply numbered_nodup|intros n n' x; apply named_one|].
    repeat constructor; cbn; intuition discriminate. }
  assert (Hlarge : forall n h, In (n, h) (flat_map (fun name => of_name E name (numbered 2 rest)) table_names) -> 2 <= n
    /\ exists name, In name table_names /\ named E name h = true).
  { intros n h Hi. apply in_flat_map in Hi as (name & Hn & Hi). apply filter_In in Hi as [Hi Hh].
    apply numbered_in in Hi as [Hi _]. eauto. }
  pose proof (find_first (p :: rest) 1) as Hf. unfold first_target.
  destruct (find _ _) as [(i, h)|]; cbn [app].
  - destruct Hf as (H1 & H2 & _). constructor.
    + intros [[= -> ->]|Hi]; [|apply Hlarge in Hi as [Hi _]; lia]. unfold target_like in H1. now rewrite Hp in H1.
    + constructor; [|exact Hk]. intros Hi. apply Hlarge in Hi as (_ & name & Hn & Hi).
      rewrite (target_not_named _ _ H1 Hn) in Hi. discriminate.
  - constructor; [|exact Hk]. intros Hi. apply Hlarge in Hi as [Hi _]. lia.
Qed.
Lemma seen_which p rest n h : is_binary p = false ->
  (In (n, h) (seen E p rest) <-> hdu_at (p :: rest) n h /\ relevant E (p :: rest) n h).
Proof.
  intros Hp. unfold seen. cbn [In]. rewrite in_app_iff. pose proof (find_first (p :: rest) 1) as Hf.
  assert (Hrest : forall m g, In (m, g) (numbered 2 rest) <-> 2 <= m /\ hdu_at (p :: rest) m g).
  { intros m g. rewrite numbered_in. unfold hdu_at. split.
    - intros [H1 H2]. split; [lia|]. split; [lia|].
      replace (Z.to_nat (m - 1)) with (S (Z.to_nat (m - 2))) by lia. exact H2.
    - intros (H1 & _ & H2). split; [lia|].
      replace (Z.to_nat (m - 1)) with (S (Z.to_nat (m - 2))) in H2 by lia. exact H2. }
  split.
  - intros [[= <- <-]|[Hi|Hi]].
    + split; [split; [lia|reflexivity]|now left].
    + unfold first_target in Hi. destruct (find _ _) as [(i, g)|]; [|destruct Hi].
      destruct Hi as [[= -> ->]|[]]. destruct Hf as (H1 & H2 & H3). apply numbered_file in H2. split; [exact H2|].
      right. left. split; [exact H1|]. intros j h' Hj. apply H3. now apply numbered_file.
    + apply in_flat_map in Hi as (name & Hn & Hi). apply filter_In in Hi as [Hi Hh]. apply Hrest in Hi as [_ Hi].
      split; [exact Hi|]. right. right. eauto.
  - intros [Ha [Hr|[[Ht Hr]|(name & Hn & Hh)]]].
    + left. subst n. destruct Ha as [_ Ha]. injection Ha as ->. reflexivity.
    + right. left. unfold first_target. destruct (find _ _) as [(i, g)|].
      * destruct Hf as (H1 & H2 & H3). apply numbered_file in H2.
        assert (i = n). { apply Z.le_antisymm; [apply (H3 n h); [now apply numbered_file|exact Ht]|now apply (Hr i g)]. }
        subst i. destruct Ha as [_ Ha], H2 as [_ H2]. rewrite Ha in H2. injection H2 as <-. now left.
      * apply numbered_file in Ha. rewrite (Hf _ _ Ha) in Ht. discriminate.
    + right. right. apply in_flat_map. exists name. split; [exact Hn|]. apply filter_In. split; [|exact Hh].
      apply Hrest. split; [|exact Ha]. destruct Ha as [H1 Ha]. destruct (Z.eq_dec n 1) as [->|]; [|lia].
      injection Ha as <-. unfold named in Hh. now rewrite Hp in Hh.
Qed.
End Whole.
