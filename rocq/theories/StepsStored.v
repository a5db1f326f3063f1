(** Merging in steps when the first result goes through a file: the parts. *)
From Coq Require Import Lia.
From Verif Require Import BaseLemmas DateModel DateSpec FileModel FileSpec FileProofs MergeModel MergeSpec
  MergeProofs MergeNames MergeNamed MergeTables MergeTargets MergeHeader MergeData MergeWhole MergeFacts MergeSteps
  MergeStepsSpec MergeStepsWhole FitsModel IOSpec.
Open Scope list_scope.
Open Scope Z_scope.

(** ** Targets: CATEGORY is not merged *)

Section Targets.
Variable E : cfitsio.
Let s := stored_target1 E false.

Lemma row_stored t t' (r q : Z) rows rows' h r1 rows1 h1 :
  s t' = s t -> map s rows' = map s rows -> merge_target_row t (r, rows, h) = Ok (r1, rows1, h1) ->
  exists rows1', merge_target_row t' (q, rows', h) = Ok (q, rows1', h1) /\ map s rows1' = map s rows1.
Proof.
  intros Et Er H. assert (En : tg_target t' = tg_target t) by exact (f_equal tg_target Et).
  assert (El : List.length rows' = List.length rows) by (rewrite <- (map_length s rows'), Er; apply map_length).
  unfold merge_target_row in *. rewrite En, El. destruct (hash_lookup h (tg_target t)).
  - injection H as <- <- <-. eauto.
  - apply bind_inv in H as (u & Eu & H). injection H as <- <- <-. rewrite Eu. cbn [bind]. eexists. split; [reflexivity|].
    rewrite !map_app, Er. f_equal. cbn [map]. f_equal. exact (f_equal (tg_set_target_id _) Et).
Qed.
Lemma rows_stored l l' : map s l' = map s l -> forall (r q : Z) rows rows' h r1 rows1 h1, map s rows' = map s rows ->
  foreach l merge_target_row (r, rows, h) = Ok (r1, rows1, h1) ->
  exists rows1', foreach l' merge_target_row (q, rows', h) = Ok (q, rows1', h1) /\ map s rows1' = map s rows1.
Proof.
  revert l'. induction l as [|t l IH]; intros [|t' l'] El r q rows rows' h r1 rows1 h1 Er H; try discriminate.
  - injection H as <- <- <-. exists rows'. auto.
  - assert (Et : s t' = s t) by exact (f_equal (hd (s t)) El).
    assert (E2 : map s l' = map s l) by exact (f_equal (@tl _) El).
    cbn [foreach] in *. apply bind_inv in H as ([[r2 rows2] h2] & H2 & H).
    destruct (row_stored t t' r q rows rows' h r2 rows2 h2 Et Er H2) as (rows2' & K & Er2). rewrite K. cbn [bind].
    eapply IH; eauto.
Qed.
Lemma table_stored d d' (r q : Z) rows rows' h r1 rows1 h1 :
  wf_targets (o_targets d) = true -> wf_targets (o_targets d') = true ->
  map s (ot_targ (o_targets d')) = map s (ot_targ (o_targets d)) -> map s rows' = map s rows ->
  merge_target_table d (r, rows, h) = Ok (r1, rows1, h1) ->
  exists q1 rows1', merge_target_table d' (q, rows', h) = Ok (q1, rows1', h1) /\ map s rows1' = map s rows1.
Proof.
  intros W W' Ed Er H. unfold merge_target_table in *.
  rewrite for_foreach with (body := merge_target_row) in H by (now apply len_is_eq).
  rewrite for_foreach with (body := merge_target_row) by (now apply len_is_eq).
  eexists. eapply rows_stored; eauto.
Qed.
Lemma tables_stored l : Forall (fun d => wf_targets (o_targets d) = true) l ->
  forall (r q : Z) rows rows' h r1 rows1 h1, map s rows' = map s rows ->
  foreach l merge_target_table (r, rows, h) = Ok (r1, rows1, h1) ->
  exists q1 rows1', foreach l merge_target_table (q, rows', h) = Ok (q1, rows1', h1) /\ map s rows1' = map s rows1.
Proof.
  induction 1 as [|d l W _ IH]; intros r q rows rows' h r1 rows1 h1 Er H.
  - injection H as <- <- <-. exists q, rows'. auto.
  - cbn [foreach] in *. apply bind_inv in H as ([[r2 rows2] h2] & H2 & H).
    destruct (table_stored d d r q rows rows' h r2 rows2 h2 W W eq_refl Er H2) as (q2 & rows2' & K & Er2).
    rewrite K. cbn [bind]. eapply IH; eauto.
Qed.
Lemma targets_stored d d' ib r rows h : Forall (fun d => wf_targets (o_targets d) = true) (d :: ib) ->
  wf_targets (o_targets d') = true -> map s (ot_targ (o_targets d')) = map s (ot_targ (o_targets d)) ->
  foreach (d :: ib) merge_target_table (2, [], hash_new) = Ok (r, rows, h) ->
  exists q rows', foreach (d' :: ib) merge_target_table (2, [], hash_new) = Ok (q, rows', h) /\ map s rows' = map s rows.
Proof.
  intros W W' Ed H. inversion_clear W as [|? ? Wd Wb]. cbn [foreach] in *. apply bind_inv in H as ([[r2 rows2] h2] & H2 & H).
  destruct (table_stored d d' 2 2 [] [] hash_new r2 rows2 h2 Wd W' Ed eq_refl H2) as (q2 & rows2' & K & Er2).
  rewrite K. cbn [bind]. eapply tables_stored; eauto.
Qed.
Lemma find_stored p l l' : (forall t t', s t' = s t -> p t' = p t) -> map s l' = map s l ->
  option_map s (find p l') = option_map s (find p l).
Proof.
  intros Hp. revert l'. induction l as [|t l IH]; intros [|t' l'] El; try discriminate; [reflexivity|].
  assert (Et : s t' = s t) by exact (f_equal (hd (s t)) El).
  assert (E2 : map s l' = map s l) by exact (f_equal (@tl _) El).
  cbn [find]. rewrite (Hp t t' Et). destruct (p t); [exact (f_equal Some Et)|auto].
Qed.
Lemma replace_stored d d' h id : wf_targets (o_targets d) = true -> wf_targets (o_targets d') = true ->
  map s (ot_targ (o_targets d')) = map s (ot_targ (o_targets d)) ->
  replace_target_id d' h id = replace_target_id d h id.
Proof.
  intros W W' Ed. unfold replace_target_id, oi_fits_lookup_target. rewrite !search_ok by assumption. cbn [bind].
  match goal with |- context [find ?p (ot_targ (o_targets d'))] => assert (F := find_stored p _ _ (fun t t' K => ltac:(exact (f_equal (fun x => tg_target_id x =? id) K))) Ed) end.
  destruct (find _ (ot_targ (o_targets d'))) as [t'|], (find _ (ot_targ (o_targets d))) as [t|]; try discriminate; [|reflexivity].
  assert (En : tg_target t' = tg_target t) by exact (f_equal (fun x => match x with Some y => tg_target y | None => ""%string end) F).
  now rewrite En.
Qed.
End Targets.

(** ** Data tables *)

Section Data.
Context {X R : Type}.
Variables (copy : dtab X R -> res (dtab X R)) (id : R -> Z) (set_id : Z -> R -> R).
Lemma self_stored h d d' a i c t rev x f :
  (forall k, replace_target_id d' h k = replace_target_id d h k) ->
  (forall n, replace_optional a n = n) -> (forall n, replace_name i n = n) -> (forall n, replace_optional c n = n) ->
  (forall r, id (f r) = id r) -> (forall n r, set_id n (f r) = f (set_id n r)) ->
  len_is (tb_numrec t) (tb_record t) = true ->
  copy t = Ok t -> copy (stored_dtab rev x f t) = Ok (stored_dtab rev x f t) ->
  merge_data_table copy id set_id h d a i c t = Ok t ->
  merge_data_table copy id set_id h d' a i c (stored_dtab rev x f t) = Ok (stored_dtab rev x f t).
Proof.
  intros HR Ka Ki Kc Hid Hset Ln C1 C2 H. unfold merge_data_table in *. rewrite C1 in H. rewrite C2.
  cbn [bind] in *. cbv zeta in *.
  cbn [tb_record set_corrname set_insname set_arrname tb_numrec tb_arrname tb_insname tb_corrname stored_dtab] in *.
  rewrite Ka, Ki, Kc in *. apply bind_inv in H as (rec & Er & H). injection H as H.
  assert (E0 : rec = tb_record t) by exact (f_equal tb_record H). subst rec.
  pose proof (update_records_inv _ _ _ _ Ln Er) as F.
  rewrite update_records_same.
  - reflexivity.
  - unfold len_is in *. now rewrite map_length.
  - intros r' Hr'. apply in_map_iff in Hr' as (r & <- & Hr). rewrite Hid, HR.
    assert (K : (n <- replace_target_id d h (id r) ;; Ok (set_id n r)) = Ok r).
    { clear -F Hr. revert Hr F. generalize (tb_record t). intros l Hr F.
      assert (G : forall l m, Forall2 (fun r r' => (n <- replace_target_id d h (id r) ;; Ok (set_id n r)) = Ok r') l m -> l = m ->
        forall r, In r l -> (n <- replace_target_id d h (id r) ;; Ok (set_id n r)) = Ok r).
      { clear. intros l m F. induction F as [|x y l m K F IH]; intros Em r [].
        - injection Em as <- Em. now subst.
        - injection Em as _ Em. auto. }
      exact (G l l F eq_refl r Hr). }
    apply bind_inv in K as (n & En & K). injection K as K. rewrite En. cbn [bind]. now rewrite Hset, K.
Qed.
End Data.

Section Prefix.
Context {T : Type}.
Variables (tabs : oi_fits -> list T) (g : oi_fits -> hash string -> hash string -> hash string -> T -> res T).
Lemma step_prefix d a i c l : forall p n s, foreach l (step g d a i c) (p, n) = Ok s ->
  exists r m, s = (p ++ r, m) /\ forall q, foreach l (step g d a i c) (q, n) = Ok (q ++ r, m).
Proof.
  induction l as [|t l IH]; intros p n s H.
  - injection H as <-. exists [], n. rewrite app_nil_r. split; [reflexivity|]. intros q. cbn. now rewrite app_nil_r.
  - cbn [foreach] in H. unfold step at 1 in H. apply bind_inv in H as (s1 & H1 & H). apply bind_inv in H1 as (t' & Et & H1).
    injection H1 as <-. cbn [fst snd] in H. apply IH in H as (r & m & -> & Hq).
    exists (t' :: r), m. rewrite <- app_assoc. split; [reflexivity|]. intros q. cbn [foreach]. unfold step at 1. rewrite Et. cbn [bind fst snd].
    rewrite Hq, <- app_assoc. reflexivity.
Qed.
Lemma inputs_prefix ib : forall ha hi hc p n s,
  for_inputs ib ha hi hc (fun d a i c s => foreach (tabs d) (step g d a i c) s) (p, n) = Ok s ->
  exists r m, s = (p ++ r, m)
    /\ forall q, for_inputs ib ha hi hc (fun d a i c s => foreach (tabs d) (step g d a i c) s) (q, n) = Ok (q ++ r, m).
Proof.
  induction ib as [|d ib IH]; intros ha hi hc p n s H.
  - injection H as <-. exists [], n. rewrite app_nil_r. split; [reflexivity|]. intros q. cbn. now rewrite app_nil_r.
  - cbn [for_inputs] in *. destruct ha as [|a ha], hi as [|i hi], hc as [|c hc]; try discriminate.
    apply bind_inv in H as (s1 & H1 & H). apply step_prefix in H1 as (r1 & m1 & -> & K1).
    apply IH in H as (r2 & m2 & -> & K2). exists (r1 ++ r2), m2. rewrite app_assoc. split; [reflexivity|].
    intros q. rewrite K1. cbn [bind]. rewrite K2, app_assoc. reflexivity.
Qed.

(** The first input replaced by one whose tables are [st] of its tables *)
Lemma data_stored (st : T -> T) ib d1 d1' a i c hb hib hcb l n :
  tabs d1' = map st (tabs d1) -> (forall t, In t (tabs d1) -> g d1 a i c t = Ok t) ->
  (forall t, In t (tabs d1) -> g d1' a i c (st t) = Ok (st t)) ->
  for_inputs (d1 :: ib) (a :: hb) (i :: hib) (c :: hcb)
    (fun d a i c s => foreach (tabs d) (step g d a i c) s) ([], 0) = Ok (l, n) ->
  exists rest, l = tabs d1 ++ rest
    /\ for_inputs (d1' :: ib) (a :: hb) (i :: hib) (c :: hcb)
         (fun d a i c s => foreach (tabs d) (step g d a i c) s) ([], 0) = Ok (map st (tabs d1) ++ rest, n).
Proof.
  intros Et Self Self' H. cbn [for_inputs] in *. rewrite (run_self tabs g g (fun _ _ _ _ _ _ K => K)) in H by exact Self. cbn [bind fst snd app] in H.
  apply inputs_prefix in H as (r & m & Es & Hq). apply pair_equal_spec in Es as [-> ->]. exists r. split; [reflexivity|].
  rewrite (run_self tabs g g (fun _ _ _ _ _ _ K => K)).
  - cbn [bind fst snd app]. rewrite Et, map_length. apply Hq.
  - rewrite Et. intros t Ht. apply in_map_iff in Ht as (t0 & <- & Ht). auto.
Qed.
End Prefix.
