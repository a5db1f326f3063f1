(** Merging OI_TARGET tables. *)
From Verif Require Import BaseLemmas FileModel FileSpec FileProofs MergeModel MergeSpec
  MergeProofs MergeTables.
From Coq Require Import Lia FinFun.
Open Scope Z_scope.

Local Opaque in_dec.
Local Notation names := (map tg_target).

Lemma first_rows_incl seen l t : In t (first_rows seen l) -> In t l.
Proof.
  revert seen. induction l as [|a l IH]; intros seen; cbn; [auto|].
  destruct (in_dec _ _ _); [intros H; right; eauto|]. intros [->|H]; [auto|right; eauto].
Qed.
Lemma first_rows_names seen l n :
  In n (names (first_rows seen l)) <-> In n (names l) /\ ~ In n seen.
Proof.
  revert seen. induction l as [|a l IH]; intros seen; cbn; [tauto|].
  destruct (in_dec string_dec (tg_target a) seen) as [Hi|Hi].
  - rewrite IH. split; [intros []; auto|]. intros [[<-|H] Hn]; [contradiction|auto].
  - cbn. rewrite IH. cbn. split.
    + intros [<-|[H Hn]]; [auto|]. split; [auto|]. intros K. apply Hn. auto.
    + intros [[<-|H] Hn]; [auto|]. destruct (string_dec (tg_target a) n) as [->|Hd]; [auto|].
      right. split; [auto|]. intros [?|?]; auto.
Qed.
Lemma first_rows_nodup seen l : NoDup (names (first_rows seen l)).
Proof.
  revert seen. induction l as [|a l IH]; intros seen; cbn; [constructor|].
  destruct (in_dec _ _ _); [apply IH|]. cbn. constructor; [|apply IH].
  rewrite first_rows_names. cbn. tauto.
Qed.
Lemma first_rows_snoc seen l t : first_rows seen (l ++ [t]) =
  first_rows seen l ++ (if in_dec string_dec (tg_target t) (names l ++ seen) then [] else [t]).
Proof.
  revert seen. induction l as [|a l IH]; intros seen; cbn.
  - destruct (in_dec _ _ _); reflexivity.
  - destruct (in_dec string_dec (tg_target a) seen) as [Hi|Hi].
    + rewrite IH. f_equal.
      destruct (in_dec string_dec (tg_target t) (names l ++ seen)) as [H1|H1];
        destruct (in_dec string_dec (tg_target t) (tg_target a :: names l ++ seen)) as [H2|H2];
        auto; exfalso; cbn in H2; rewrite in_app_iff in *.
      * apply H2. right. exact H1.
      * destruct H2 as [E|H2]; [rewrite E in Hi; tauto|tauto].
    + rewrite IH. cbn [app]. f_equal. f_equal.
      destruct (in_dec string_dec (tg_target t) (names l ++ tg_target a :: seen)) as [H1|H1];
        destruct (in_dec string_dec (tg_target t) (tg_target a :: names l ++ seen)) as [H2|H2];
        auto; exfalso; cbn in H2; rewrite in_app_iff in *; cbn in *; tauto.
Qed.

Lemma renumber_app i l m : renumber i (l ++ m) = renumber i l ++ renumber (i + Z.of_nat (length l)) m.
Proof.
  revert i. induction l as [|a l IH]; intros i; cbn [renumber app length].
  - f_equal. lia.
  - rewrite IH. cbn [app]. f_equal. f_equal. f_equal. lia.
Qed.
Lemma renumber_length i l : length (renumber i l) = length l.
Proof. revert i. induction l; intros; cbn; auto. Qed.
Lemma renumber_names i l : names (renumber i l) = names l.
Proof. revert i. induction l as [|a l IH]; intros; cbn; f_equal; auto. Qed.
Lemma renumber_ids i l : map tg_target_id (renumber i l) = zrange i (length l).
Proof.
  revert i. induction l as [|a l IH]; intros i; [reflexivity|].
  cbn [renumber map length]. rewrite IH. unfold zrange. cbn [seq map].
  f_equal; [cbn; lia|]. rewrite <- seq_shift, map_map. apply map_ext. intros. lia.
Qed.

(** ** The loop *)

Definition target_of (rows : list target) (n : string) : option Z :=
  option_map tg_target_id (find (fun t => str_eqb (tg_target t) n) rows).

Definition target_inv (pre : list target) (rows : list target) (h : hash Z) : Prop :=
  rows = renumber 1 (first_rows [] pre)
  /\ forall n, hash_lookup h n = target_of rows n.

Lemma target_of_none rows n : target_of rows n = None -> ~ In n (names rows).
Proof.
  unfold target_of. destruct (find _ rows) eqn:E; [discriminate|]. intros _ Hin.
  apply in_map_iff in Hin as (t & <- & Ht). pose proof (find_none _ _ E _ Ht) as F. cbn in F.
  now rewrite str_eqb_refl in F.
Qed.
Lemma target_of_some rows n k : target_of rows n = Some k ->
  exists t, In t rows /\ tg_target t = n /\ tg_target_id t = k.
Proof.
  unfold target_of. destruct (find _ rows) as [t|] eqn:E; [|discriminate]. intros [= <-].
  apply find_some in E as [Hi E]. apply str_eqb_eq in E. eauto.
Qed.
Lemma target_of_in rows n : In n (names rows) -> exists k, target_of rows n = Some k.
Proof.
  intros H. destruct (target_of rows n) eqn:E; [eauto|]. now apply target_of_none in E.
Qed.
Lemma find_app {A} (p : A -> bool) l m : find p (l ++ m) =
  match find p l with Some a => Some a | None => find p m end.
Proof. induction l as [|a l IH]; cbn; [reflexivity|]. destruct (p a); auto. Qed.

Lemma target_inv_in pre rows h n : target_inv pre rows h ->
  In n (names rows) <-> In n (names pre).
Proof.
  intros [-> _]. rewrite renumber_names, first_rows_names. cbn. tauto.
Qed.

Lemma row_inv pre rev rows h t : target_inv pre rows h ->
  (In (tg_target t) (names pre) \/ Z.of_nat (length rows) + 1 < MAX_TARGET) ->
  exists rows' h', merge_target_row t (rev, rows, h) = Ok (rev, rows', h')
    /\ target_inv (pre ++ [t]) rows' h'.
Proof.
  intros I Hc. pose proof (target_inv_in pre rows h (tg_target t) I) as Hin.
  destruct I as [E L]. unfold merge_target_row. rewrite L.
  destruct (target_of rows (tg_target t)) as [k|] eqn:K.
  - exists rows, h. split; [reflexivity|]. split; [|exact L].
    apply target_of_some in K as (x & Hx & Ex & _).
    assert (In (tg_target t) (names pre)) by (apply Hin; rewrite <- Ex; now apply in_map).
    rewrite first_rows_snoc. destruct (in_dec _ _ _) as [_|Hn]; [now rewrite app_nil_r|].
    exfalso. apply Hn. rewrite app_nil_r. assumption.
  - pose proof (target_of_none _ _ K) as Kn.
    assert (Hn : ~ In (tg_target t) (names pre)) by (rewrite <- Hin; exact Kn).
    destruct Hc as [Hc|Hc]; [contradiction|].
    unfold assert_. destruct (Z.ltb_spec (Z.of_nat (length rows) + 1) MAX_TARGET); [|lia].
    cbn [bind]. eexists _, _. split; [reflexivity|]. split.
    + rewrite first_rows_snoc. destruct (in_dec _ _ _) as [Hi|_].
      * rewrite app_nil_r in Hi. contradiction.
      * rewrite renumber_app, <- E. f_equal. cbn [renumber]. f_equal. f_equal.
        rewrite E, renumber_length. lia.
    + intros n. destruct (string_dec n (tg_target t)) as [->|Hd].
      * rewrite hash_lookup_insert_same. unfold target_of in K |- *. rewrite find_app.
        destruct (find _ rows); [discriminate|]. cbn. rewrite str_eqb_refl. reflexivity.
      * rewrite hash_lookup_insert_other by exact Hd. rewrite L. unfold target_of.
        rewrite find_app. destruct (find _ rows); [reflexivity|]. cbn.
        destruct (str_eqb (tg_target t) n) eqn:Es; [|reflexivity].
        apply str_eqb_eq in Es. congruence.
Qed.
Lemma row_inv' pre rev rows h t s : target_inv pre rows h ->
  merge_target_row t (rev, rows, h) = Ok s ->
  exists rows' h', s = (rev, rows', h') /\ target_inv (pre ++ [t]) rows' h'
    /\ (length rows' <= length rows + 1)%nat
    /\ (rows' = rows \/ Z.of_nat (length rows) + 1 < MAX_TARGET).
Proof.
  intros I H. pose proof I as [_ L]. pose proof H as H0.
  unfold merge_target_row in H. rewrite L in H.
  destruct (target_of rows (tg_target t)) as [k|] eqn:K.
  - injection H as <-. apply target_of_some in K as (x & Hx & Ex & _).
    destruct (row_inv pre rev rows h t I) as (rows' & h' & E & I').
    { left. apply (target_inv_in pre rows h _ I). rewrite <- Ex. now apply in_map. }
    unfold merge_target_row in E. rewrite H0 in E || idtac.
    exists rows, h. split; [reflexivity|]. split; [|split; [lia|auto]].
    unfold merge_target_row in H0. rewrite E in H0 || idtac.
    rewrite L in E. destruct (target_of rows (tg_target t)) eqn:K2.
    + injection E as <- <-. exact I'.
    + exfalso. apply target_of_none in K2. apply K2. rewrite <- Ex. now apply in_map.
  - apply bind_inv in H as (u & A & H). injection H as <-.
    unfold assert_ in A. destruct (Z.ltb_spec (Z.of_nat (length rows) + 1) MAX_TARGET); [|discriminate].
    destruct (row_inv pre rev rows h t I) as (rows' & h' & E & I'); [now right|].
    rewrite E in H0. injection H0 as E1 E2. subst rows' h'.
    eexists _, _. split; [reflexivity|]. split; [exact I'|]. rewrite app_length. cbn. lia.
Qed.

Lemma max_revision rev r : (if rev <? r then r else rev) = Z.max rev r.
Proof. destruct (Z.ltb_spec rev r); lia. Qed.

(** All rows of one input *)
Lemma table_inv d pre rev rows h rev' rows' h' : wf_targets (o_targets d) = true ->
  target_inv pre rows h ->
  merge_target_table d (rev, rows, h) = Ok (rev', rows', h') ->
  rev' = Z.max rev (ot_revision (o_targets d))
  /\ target_inv (pre ++ ot_targ (o_targets d)) rows' h'.
Proof.
  intros W I H. unfold merge_target_table in H. rewrite max_revision in H.
  rewrite for_foreach with (body := merge_target_row) in H by (now apply len_is_eq).
  set (r := Z.max rev _) in *.
  apply (foreach_invariant (fun p (s : target_state) =>
    fst (fst s) = r /\ target_inv (pre ++ p) (snd (fst s)) (snd s))) in H.
  - exact H.
  - cbn. rewrite app_nil_r. auto.
  - intros p t [[r1 rows1] h1] [[r2 rows2] h2] [Hr I1] Hin Hb. cbn [fst snd] in *. subst r1.
    apply (row_inv' (pre ++ p)) in Hb as (rows3 & h3 & E & I3 & _); [|exact I1].
    injection E as -> -> ->. rewrite app_assoc. auto.
Qed.

Definition all_revisions (ins : list oi_fits) (rev : Z) : Z :=
  fold_left (fun r d => Z.max r (ot_revision (o_targets d))) ins rev.

Lemma targets_inv ins rev rows h :
  Forall (fun d => wf_targets (o_targets d) = true) ins ->
  foreach ins merge_target_table (2, [], hash_new) = Ok (rev, rows, h) ->
  rev = all_revisions ins 2 /\ target_inv (all_targets ins) rows h.
Proof.
  intros W H. rewrite Forall_forall in W.
  apply (foreach_invariant (fun p (s : target_state) =>
    fst (fst s) = all_revisions p 2 /\ target_inv (all_targets p) (snd (fst s)) (snd s))) in H.
  - exact H.
  - cbn. split; [reflexivity|]. split; [reflexivity|]. reflexivity.
  - intros p d [[r1 rows1] h1] [[r2 rows2] h2] [Hr I1] Hin Hb. cbn [fst snd] in *. subst r1.
    apply (table_inv d (all_targets p)) in Hb as [-> I2]; auto.
    split; [unfold all_revisions; now rewrite fold_left_app|].
    unfold all_targets. rewrite flat_map_app. cbn [flat_map]. now rewrite app_nil_r.
Qed.

(** ** Progress *)

Lemma first_rows_length_le seen l m :
  (length (first_rows seen l) <= length (first_rows seen (l ++ m)))%nat.
Proof.
  revert seen. induction l as [|a l IH]; intros seen; cbn; [lia|].
  destruct (in_dec _ _ _); [apply IH|]. cbn. specialize (IH (tg_target a :: seen)). lia.
Qed.
Lemma nodup_length_perm {A} (dec : forall x y : A, {x = y} + {x <> y}) (l m : list A) :
  NoDup l -> NoDup m -> (forall x, In x l <-> In x m) -> length l = length m.
Proof.
  intros Hl Hm H. apply Nat.le_antisymm; apply NoDup_incl_length; auto; intros x Hx; now apply H.
Qed.
Lemma first_rows_count l : length (first_rows [] l) = length (nodup string_dec (names l)).
Proof.
  rewrite <- (map_length tg_target). apply (nodup_length_perm string_dec).
  - apply first_rows_nodup.
  - apply NoDup_nodup.
  - intros x. rewrite (first_rows_names [] l x), nodup_In. cbn. tauto.
Qed.

Lemma targets_progress ins :
  Forall (fun d => wf_targets (o_targets d) = true) ins ->
  (length (nodup string_dec (names (all_targets ins))) < 100)%nat ->
  exists rev rows h, foreach ins merge_target_table (2, [], hash_new) = Ok (rev, rows, h).
Proof.
  intros W Hl. rewrite <- first_rows_count in Hl.
  destruct (foreach_progress (fun p (s : target_state) =>
    target_inv (all_targets p) (snd (fst s)) (snd s)) merge_target_table ins (2, [], hash_new))
    as ([[r rows] h] & E & _); [| |eauto].
  - cbn. split; reflexivity.
  - intros pre d post [[r rows] h] El I. cbn [fst snd] in *.
    rewrite Forall_forall in W. specialize (W d). rewrite El in W.
    specialize (W ltac:(apply in_elt)).
    unfold merge_target_table. rewrite max_revision.
    rewrite for_foreach with (body := merge_target_row) by (now apply len_is_eq).
    set (r' := Z.max r _).
    destruct (foreach_progress (fun p (s : target_state) =>
      fst (fst s) = r' /\ target_inv (all_targets pre ++ p) (snd (fst s)) (snd s))
      merge_target_row (ot_targ (o_targets d)) (r', rows, h)) as (s & Es & Hs).
    + cbn. rewrite app_nil_r. auto.
    + intros p t q [[r1 rows1] h1] Eq [Hr I1]. cbn [fst snd] in *. subst r1.
      destruct (row_inv (all_targets pre ++ p) r' rows1 h1 t I1) as (rows2 & h2 & Eb & I2).
      * destruct (in_dec string_dec (tg_target t) (names (all_targets pre ++ p))) as [Hi|Hi];
          [now left|]. right. destruct I1 as [-> _]. rewrite renumber_length.
        assert (L : (length (first_rows [] ((all_targets pre ++ p) ++ [t]))
                     <= length (first_rows [] (all_targets ins)))%nat).
        { replace (all_targets ins) with (((all_targets pre ++ p) ++ [t])
              ++ q ++ flat_map (fun d => ot_targ (o_targets d)) post).
          - apply first_rows_length_le.
          - rewrite El. unfold all_targets. rewrite flat_map_app. cbn [flat_map]. rewrite Eq.
            now rewrite <- !app_assoc. }
        rewrite first_rows_snoc, app_length in L.
        destruct (in_dec _ _ _) as [Hx|_]; [rewrite app_nil_r in Hx; contradiction|].
        cbn [length] in L. unfold MAX_TARGET. lia.
      * exists (r', rows2, h2). split; [exact Eb|]. cbn [fst snd]. rewrite app_assoc. auto.
    + exists s. split; [exact Es|]. unfold all_targets. rewrite flat_map_app.
      cbn [flat_map]. rewrite app_nil_r. apply Hs.
Qed.

(** ** Looking targets up in the output *)

Lemma zrange_nodup i n : NoDup (zrange i n).
Proof.
  unfold zrange. apply FinFun.Injective_map_NoDup; [|apply seq_NoDup]. intros x y; lia.
Qed.
Lemma find_unique {A} (key : A -> Z) l a : NoDup (map key l) -> In a l ->
  find (fun x => key x =? key a) l = Some a.
Proof.
  induction l as [|x l IH]; cbn; [contradiction|]. intros Hd Hin.
  inversion Hd as [|? ? Hn Hd']; subst. destruct (Z.eqb_spec (key x) (key a)) as [E|E].
  - destruct Hin as [->|Hin]; [reflexivity|]. exfalso. apply Hn. rewrite E. now apply in_map.
  - destruct Hin as [->|Hin]; [congruence|]. auto.
Qed.

(** The replacement of a TARGET_ID *)
Lemma replace_id_inv d ids id n : wf_targets (o_targets d) = true ->
  replace_target_id d ids id = Ok n ->
  exists t, first_match (fun t => tg_target_id t = id) (ot_targ (o_targets d)) t
    /\ hash_lookup ids (tg_target t) = Some n.
Proof.
  intros W H. unfold replace_target_id in H. apply bind_inv in H as (r & E & H).
  destruct (lookup_target_ok d id W) as (r' & E' & L). rewrite E in E'. injection E' as <-.
  destruct r as [t|]; [|discriminate]. exists t. split; [exact L|].
  destruct (hash_lookup ids (tg_target t)); [now injection H as ->|discriminate].
Qed.

Lemma target_follows_intro ins d out ids id n :
  wf_targets (o_targets d) = true -> wf_targets (o_targets out) = true ->
  target_inv (all_targets ins) (ot_targ (o_targets out)) ids ->
  replace_target_id d ids id = Ok n -> target_follows d out id n.
Proof.
  intros W Wo [Er L] H. apply replace_id_inv in H as (t & Ht & Hn); [|exact W].
  rewrite L in Hn. apply target_of_some in Hn as (t' & Hin & Et & Ei).
  exists t, t'. split; [exact Ht|]. split; [|exact Et].
  unfold oi_fits_lookup_target. rewrite search_ok by exact Wo. f_equal. rewrite <- Ei.
  apply find_unique; [|exact Hin]. rewrite Er, renumber_ids. apply zrange_nodup.
Qed.

Lemma replace_id_progress ins d ids rows id :
  In d ins -> wf_targets (o_targets d) = true ->
  target_inv (all_targets ins) rows ids ->
  In id (map tg_target_id (ot_targ (o_targets d))) ->
  exists n, replace_target_id d ids id = Ok n.
Proof.
  intros Hd W I Hid. unfold replace_target_id, oi_fits_lookup_target.
  rewrite search_ok by exact W. cbn [bind].
  apply in_map_iff in Hid as (t0 & Ht0 & Hin0).
  destruct (find_in (fun t => tg_target_id t =? id) _ t0 Hin0) as (t & Hf).
  { rewrite Ht0. apply Z.eqb_refl. }
  rewrite Hf. apply find_some in Hf as [Hin _].
  destruct (target_of_in rows (tg_target t)) as (k & Hk).
  - apply (target_inv_in _ _ _ _ I). apply in_map. unfold all_targets. apply in_flat_map. eauto.
  - destruct I as [_ L]. rewrite L, Hk. eauto.
Qed.

(** A TARGET_ID that is not listed makes the merge undefined. *)
Lemma replace_id_unlisted d ids id : wf_targets (o_targets d) = true ->
  ~ In id (map tg_target_id (ot_targ (o_targets d))) -> replace_target_id d ids id = UB.
Proof.
  intros W H. unfold replace_target_id, oi_fits_lookup_target.
  rewrite search_ok by exact W. cbn [bind].
  destruct (find _ _) as [t|] eqn:E; [|reflexivity].
  apply find_some in E as [Hin E]. apply Z.eqb_eq in E. exfalso. apply H. rewrite <- E.
  now apply in_map.
Qed.

(** ** Repeated inputs *)
Lemma first_rows_seen seen l : (forall t, In t l -> In (tg_target t) seen) -> first_rows seen l = [].
Proof.
  induction l as [|a l IH]; intros H; [reflexivity|]. cbn.
  destruct (in_dec _ _ _) as [_|Hn]; [|exfalso; apply Hn, H; now left].
  apply IH. intros; apply H; now right.
Qed.
Lemma first_rows_app seen l m : (forall t, In t m -> In (tg_target t) (names l)) ->
  first_rows seen (l ++ m) = first_rows seen l.
Proof.
  intros H. assert (G : forall seen, (forall t, In t m -> In (tg_target t) (names l ++ seen)) ->
    first_rows seen (l ++ m) = first_rows seen l).
  { clear H. induction l as [|a l IH]; intros s H; cbn.
    - now apply first_rows_seen.
    - destruct (in_dec string_dec (tg_target a) s) as [Hi|Hi].
      + apply IH. intros t Ht. specialize (H t Ht). cbn in H. rewrite in_app_iff in *.
        destruct H as [E|H]; [|auto]. right. now rewrite <- E.
      + f_equal. apply IH. intros t Ht. specialize (H t Ht). cbn in H.
        rewrite in_app_iff in *. cbn. tauto. }
  apply G. intros t Ht. apply in_or_app. left. auto.
Qed.
Lemma first_rows_repeat d n :
  first_rows [] (all_targets (repeat d (S n))) = first_rows [] (ot_targ (o_targets d)).
Proof.
  cbn [repeat]. unfold all_targets. cbn [flat_map]. apply first_rows_app. intros t Ht.
  apply in_flat_map in Ht as (d' & Hd & Ht). apply repeat_spec in Hd. subst d'.
  now apply in_map.
Qed.
Lemma all_revisions_repeat d n rev : all_revisions (repeat d (S n)) rev
  = Z.max rev (ot_revision (o_targets d)).
Proof.
  revert rev. induction n as [|n IH]; intros rev; [reflexivity|].
  change (all_revisions (repeat d (S (S n))) rev)
    with (all_revisions (repeat d (S n)) (Z.max rev (ot_revision (o_targets d)))).
  rewrite IH. lia.
Qed.
