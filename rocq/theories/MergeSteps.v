(** Merging the result of a merge with further inputs: running the merge again over its own
    output brings it to the state in which it was. *)
From Verif Require Import BaseLemmas FileModel FileSpec FileProofs MergeModel MergeSpec
  MergeProofs MergeNames MergeNamed MergeTables MergeTargets MergeHeader MergeData MergeWhole MergeFacts.
From Coq Require Import Lia.
Open Scope Z_scope.

(** ** Named tables *)

Section Replay.
Context {A : Type}.
Variables (name : A -> string) (set_name : string -> A -> A) (literal : string).
Variables (matching : A -> list A -> res (option A)) (copy : A -> res A).
Variables (good : A -> Prop) (same : A -> A -> Prop).
Hypothesis name_set : forall n c, name (set_name n c) = n.
Hypothesis good_set : forall n c, good c -> good (set_name n c).
Hypothesis same_set : forall a n c, same a c -> same a (set_name n c).
Hypothesis matching_sound : forall a l c, good a -> Forall good l ->
  matching a l = Ok (Some c) -> In c l /\ same a c.
Hypothesis copy_sound : forall a c, good a -> copy a = Ok c -> good c /\ name c = name a /\ same a c.
Hypothesis matching_copy : forall a c0 c l, good a -> Forall good l -> matching a l = Ok None ->
  copy a = Ok c0 -> (c = c0 \/ exists n, c = set_name n c0) -> matching c l = Ok None.
Hypothesis copy_copy : forall a c0 c, good a -> copy a = Ok c0 ->
  (c = c0 \/ exists n, c = set_name n c0) -> copy c = Ok c.

Let merge_table := merge_table name set_name literal matching copy.
Let merge_tables := merge_tables name set_name literal matching copy.
Let empty := @empty_tables A.

(** [h] maps the names in [l] to themselves *)
Definition keeps_names (l : list A) (h : hash string) : Prop :=
  forall n m, hash_lookup h n = Some m -> m = n /\ In n (map name l).
Definition replayed (out : tables A) : Prop :=
  NoDup (map name (tl_list out)) ->
  exists h, foreach (tl_list out) merge_table (hash_new, empty) = Ok (h, out)
    /\ keeps_names (tl_list out) h.

Lemma NoDup_app_l {B} (l m : list B) : NoDup (l ++ m) -> NoDup l.
Proof. induction l as [|x l IH]; cbn; intros H; [constructor|]. inversion H; subst. constructor; [|auto].
  intros K. apply H2. apply in_or_app. now left. Qed.

Lemma replay_table a h out h' out' : good a -> tables_inv name good out -> replayed out ->
  merge_table a (h, out) = Ok (h', out') -> tables_inv name good out' /\ replayed out'.
Proof.
  intros Ga I R H.
  destruct (merge_table_inv name set_name literal matching copy good same name_set good_set same_set
    matching_sound copy_sound a h out h' out' Ga I H) as (c & _ & _ & _ & I' & Hc).
  split; [exact I'|]. destruct Hc as [[-> _]|(M & c0 & Ec & El & En & Hc)]; [exact R|].
  intros D. rewrite El in D. rewrite map_app in D. cbn [map] in D.
  destruct (R (NoDup_app_l _ _ D)) as (hx & F & K).
  assert (Cc : c = c0 \/ exists n, c = set_name n c0) by (destruct Hc as [[Hc _]|Hc]; subst c; eauto).
  pose proof I as (I1 & I2 & I3).
  assert (L : hash_lookup (tl_hash out) (name c) = None).
  { rewrite I3. destruct (latest_named name (tl_list out) (name c)) as [x|] eqn:E; [|reflexivity].
    exfalso. unfold latest_named in E. apply find_some in E as [Hx Ex]. apply str_eqb_eq in Ex.
    apply in_rev in Hx. clear -D Hx Ex. apply NoDup_remove_2 in D. rewrite app_nil_r in D. apply D.
    rewrite <- Ex. now apply in_map. }
  assert (E' : merge_table c (hx, out) = Ok (hash_insert hx (name c) (Some (name c)), out')).
  { unfold merge_table, MergeModel.merge_table in *.
    rewrite (matching_copy a c0 c _ Ga I2 M Ec Cc). cbn [bind]. rewrite (copy_copy a c0 c Ga Ec Cc). cbn [bind].
    rewrite L. f_equal. f_equal. clear -H El M Ec. rewrite M in H. cbn [bind] in H. rewrite Ec in H. cbn [bind] in H.
    injection H as _ H. rewrite <- H in El. cbn [tl_list] in El. apply app_inv_head in El. injection El as El.
    rewrite <- H. rewrite El. reflexivity. }
  exists (hash_insert hx (name c) (Some (name c))). rewrite El. split.
  - rewrite foreach_app, F. cbn [bind foreach]. now rewrite E'.
  - intros n m Hn. rewrite map_app, in_app_iff. cbn [map In].
    destruct (string_dec n (name c)) as [->|Hd].
    + rewrite hash_lookup_insert_same in Hn. injection Hn as <-. auto.
    + rewrite hash_lookup_insert_other in Hn by exact Hd. apply K in Hn as [-> Hn]. auto.
Qed.

Lemma replay_empty : replayed empty.
Proof. intros _. exists hash_new. split; [reflexivity|]. intros n m H. discriminate H. Qed.

Lemma replay_tables lists hs out : Forall (Forall good) lists -> merge_tables lists empty = Ok (hs, out) ->
  tables_inv name good out /\ replayed out.
Proof.
  intros G H. unfold merge_tables, MergeModel.merge_tables in H. cbn [empty tl_list empty_tables assert_ bind] in H.
  apply (foreach_invariant (fun pre (s : list (hash string) * tables A) =>
    tables_inv name good (snd s) /\ replayed (snd s))) in H; cbn [fst snd] in *.
  - exact H.
  - split; [apply empty_inv|exact replay_empty].
  - intros pre l [hs1 o1] [hs2 o2] J Hin Hb. cbn [fst snd] in *. inv_bind Hb. destruct a as [h o]. injection Hb as <- <-.
    rewrite Forall_forall in G. specialize (G l Hin). rewrite Forall_forall in G.
    apply (foreach_invariant (fun pre (s : hash string * tables A) =>
      tables_inv name good (snd s) /\ replayed (snd s))) in E; cbn [fst snd] in *.
    + exact E.
    + exact J.
    + intros p a [h1 t1] [h2 t2] [J1 J2] Ha Hb. cbn [fst snd] in *. exact (replay_table a h1 t1 h2 t2 (G a Ha) J1 J2 Hb).
Qed.

(** The hash tables made so far do not matter for the rest. *)
Let input (l : list A) (s : list (hash string) * tables A) :=
  let '(hashes, out) := s in
  r <- foreach l merge_table (hash_new, out) ;; let '(h, out) := r in Ok (hashes ++ [h], out).
Lemma inputs_after lists hs out hs' out' : foreach lists input (hs, out) = Ok (hs', out') ->
  exists hb, hs' = hs ++ hb /\ length hb = length lists
    /\ forall hs0, foreach lists input (hs0, out) = Ok (hs0 ++ hb, out').
Proof.
  revert hs out. induction lists as [|l lists IH]; intros hs out H.
  - injection H as <- <-. exists []. rewrite app_nil_r. split; [reflexivity|]. split; [reflexivity|].
    intros hs0. cbn. now rewrite app_nil_r.
  - cbn [foreach] in H. apply bind_inv in H as ([h1 o1] & E & H). unfold input in E. apply bind_inv in E as ([h o] & E & E1).
    injection E1 as <- <-. destruct (IH _ _ H) as (hb & -> & Ln & Hb). exists (h :: hb).
    rewrite <- app_assoc. split; [reflexivity|]. split; [cbn; now rewrite Ln|].
    intros hs0. cbn [foreach]. unfold input at 1. rewrite E. cbn [bind]. rewrite Hb, <- app_assoc. reflexivity.
Qed.

Lemma tables_in_steps la lb hs out h1 t1 : Forall (Forall good) la ->
  merge_tables (la ++ lb) empty = Ok (hs, out) -> merge_tables la empty = Ok (h1, t1) ->
  NoDup (map name (tl_list t1)) ->
  exists hx hb, hs = h1 ++ hb /\ length h1 = length la /\ length hb = length lb
    /\ merge_tables (tl_list t1 :: lb) empty = Ok (hx :: hb, out) /\ keeps_names (tl_list t1) hx.
Proof.
  intros G H H1 D. destruct (replay_tables la h1 t1 G H1) as [_ R]. destruct (R D) as (hx & F & K).
  unfold merge_tables, MergeModel.merge_tables in *. cbn [empty tl_list empty_tables assert_ bind] in *.
  fold input in H, H1. rewrite foreach_app in H. apply bind_inv in H as ([h1' t1'] & E & H).
  fold input in E. rewrite H1 in E. injection E as <- <-.
  destruct (inputs_after la [] _ h1 t1 H1) as (ha & Eh & La & _). cbn [app] in Eh. subst ha.
  destruct (inputs_after lb h1 t1 hs out H) as (hb & -> & Lb & Hb).
  exists hx, hb. split; [reflexivity|]. split; [exact La|]. split; [exact Lb|]. split; [|exact K].
  change (foreach (tl_list t1 :: lb) input ([], empty) = Ok (hx :: hb, out)).
  cbn [foreach]. unfold input at 1. rewrite F. cbn [bind app]. exact (Hb [hx]).
Qed.
End Replay.

(** ** Targets *)

Lemma replay_row t (r : Z) rows h r' rows' h' :
  (forall q, foreach rows merge_target_row (q, [], hash_new) = Ok (q, rows, h)) ->
  merge_target_row t (r, rows, h) = Ok (r', rows', h') ->
  r' = r /\ (forall q, foreach rows' merge_target_row (q, [], hash_new) = Ok (q, rows', h'))
  /\ forall n k, hash_lookup h n = Some k -> hash_lookup h' n = Some k.
Proof.
  intros R H. unfold merge_target_row in H. destruct (hash_lookup h (tg_target t)) eqn:L.
  - injection H as <- <- <-. auto.
  - apply bind_inv in H as (u & E & H). injection H as <- <- <-. split; [reflexivity|]. split.
    + intros q. rewrite foreach_app, R. cbn [bind foreach]. unfold merge_target_row.
      cbn [tg_target tg_set_target_id]. rewrite L, E. reflexivity.
    + intros n k Hn. rewrite hash_lookup_insert_other; [exact Hn|]. intros ->. congruence.
Qed.

Lemma replay_rows d r rows h r' rows' h' : wf_targets (o_targets d) = true ->
  (forall q, foreach rows merge_target_row (q, [], hash_new) = Ok (q, rows, h)) ->
  merge_target_table d (r, rows, h) = Ok (r', rows', h') ->
  r <= r' /\ (forall q, foreach rows' merge_target_row (q, [], hash_new) = Ok (q, rows', h'))
  /\ forall n k, hash_lookup h n = Some k -> hash_lookup h' n = Some k.
Proof.
  intros W R H. unfold merge_target_table in H. rewrite max_revision in H.
  rewrite for_foreach with (body := merge_target_row) in H by (now apply len_is_eq).
  set (m := Z.max r _) in *.
  apply (foreach_invariant (fun p (s : target_state) => fst (fst s) = m
    /\ (forall q, foreach (snd (fst s)) merge_target_row (q, [], hash_new) = Ok (q, snd (fst s), snd s))
    /\ forall n k, hash_lookup h n = Some k -> hash_lookup (snd s) n = Some k)) in H; cbn [fst snd] in *.
  - destruct H as (-> & H). split; [unfold m; lia|exact H].
  - auto.
  - intros p t [[r1 rows1] h1] [[r2 rows2] h2] (E & R1 & L1) _ Hb. cbn [fst snd] in *. subst r1.
    destruct (replay_row t m rows1 h1 r2 rows2 h2 R1 Hb) as (-> & R2 & L2). auto.
Qed.

Lemma replay_targets ins s r rows h : Forall (fun d => wf_targets (o_targets d) = true) ins ->
  (forall q, foreach (snd (fst s)) merge_target_row (q, [], hash_new) = Ok (q, snd (fst s), snd s)) ->
  foreach ins merge_target_table s = Ok (r, rows, h) ->
  fst (fst s) <= r /\ (forall q, foreach rows merge_target_row (q, [], hash_new) = Ok (q, rows, h))
  /\ forall n k, hash_lookup (snd s) n = Some k -> hash_lookup h n = Some k.
Proof.
  intros W R H. rewrite Forall_forall in W.
  apply (foreach_invariant (fun p (s' : target_state) => fst (fst s) <= fst (fst s')
    /\ (forall q, foreach (snd (fst s')) merge_target_row (q, [], hash_new) = Ok (q, snd (fst s'), snd s'))
    /\ forall n k, hash_lookup (snd s) n = Some k -> hash_lookup (snd s') n = Some k)) in H; cbn [fst snd] in *.
  - exact H.
  - split; [lia|auto].
  - intros p d [[r1 rows1] h1] [[r2 rows2] h2] (E & R1 & L1) Hd Hb. cbn [fst snd] in *.
    destruct (replay_rows d r1 rows1 h1 r2 rows2 h2 (W d Hd) R1 Hb) as (E2 & R2 & L2). split; [lia|]. auto.
Qed.

Lemma targets_in_steps ia ib d r rows h r1 h1 : Forall (fun d => wf_targets (o_targets d) = true) (ia ++ ib) ->
  foreach (ia ++ ib) merge_target_table (2, [], hash_new) = Ok (r, rows, h) ->
  foreach ia merge_target_table (2, [], hash_new) = Ok (r1, ot_targ (o_targets d), h1) ->
  o_targets d = mk_oi_target r1 (Z.of_nat (length (ot_targ (o_targets d)))) (ot_targ (o_targets d)) false ->
  foreach (d :: ib) merge_target_table (2, [], hash_new) = Ok (r, rows, h)
  /\ forall n k, hash_lookup h1 n = Some k -> hash_lookup h n = Some k.
Proof.
  intros W H H1 E. apply Forall_app in W as [Wa Wb].
  rewrite foreach_app, H1 in H. cbn [bind] in H.
  destruct (replay_targets ia (2, [], hash_new) r1 (ot_targ (o_targets d)) h1 Wa (fun _ => eq_refl) H1) as (L & R & _).
  destruct (replay_targets ib (r1, ot_targ (o_targets d), h1) r rows h Wb R H) as (_ & _ & M).
  split; [|exact M]. cbn [foreach].
  assert (E1 : merge_target_table d (2, [], hash_new) = Ok (r1, ot_targ (o_targets d), h1)).
  { unfold merge_target_table. rewrite max_revision.
    rewrite for_foreach with (body := merge_target_row) by (rewrite E; reflexivity).
    cbn [fst] in L. replace (Z.max 2 (ot_revision (o_targets d))) with r1 by (rewrite E; cbn; lia). apply R. }
  rewrite E1. exact H.
Qed.

(** ** Data tables *)

Lemma for_from_mono {S} n i (f g : Z -> S -> res S) s s' :
  (forall i s s', f i s = Ok s' -> g i s = Ok s') -> for_from n i f s = Ok s' -> for_from n i g s = Ok s'.
Proof.
  intros M. revert i s. induction n as [|n IH]; intros i s H; [exact H|]. cbn [for_from] in *.
  apply bind_inv in H as (s1 & E & H). rewrite (M _ _ _ E). cbn [bind]. auto.
Qed.
Lemma update_records_mono {R} n (f g : R -> res R) l l' :
  (forall r r', f r = Ok r' -> g r = Ok r') -> update_records n f l = Ok l' -> update_records n g l = Ok l'.
Proof.
  intros M. unfold update_records, for_. apply for_from_mono. intros i s s' H.
  apply bind_inv in H as (r & E & H). apply bind_inv in H as (r' & E1 & H). rewrite E. cbn [bind].
  rewrite (M _ _ E1). exact H.
Qed.
Lemma update_records_same {R} n (f : R -> res R) l : len_is n l = true ->
  (forall r, In r l -> f r = Ok r) -> update_records n f l = Ok l.
Proof.
  intros Ln H. destruct (update_records_progress n f l Ln) as (out & E); [eauto|].
  pose proof (update_records_inv n f l out Ln E) as F. rewrite E. f_equal. clear E Ln.
  induction F as [|r r' l l' K F IH]; [reflexivity|].
  rewrite H in K by now left. injection K as <-. f_equal. apply IH. intros; apply H; now right.
Qed.
Lemma foreach_mono {A S} (l : list A) (f g : A -> S -> res S) s s' :
  (forall a s s', In a l -> f a s = Ok s' -> g a s = Ok s') -> foreach l f s = Ok s' -> foreach l g s = Ok s'.
Proof.
  revert s. induction l as [|a l IH]; intros s M H; [exact H|]. cbn [foreach] in *.
  apply bind_inv in H as (s1 & E & H). rewrite (M a _ _ (or_introl eq_refl) E). cbn [bind].
  apply IH; [|exact H]. intros; apply M; auto. now right.
Qed.
Lemma for_inputs_mono {S} ins ha hi hc (f g : oi_fits -> hash string -> hash string -> hash string -> S -> res S) s s' :
  (forall d a i c s s', In d ins -> f d a i c s = Ok s' -> g d a i c s = Ok s') ->
  for_inputs ins ha hi hc f s = Ok s' -> for_inputs ins ha hi hc g s = Ok s'.
Proof.
  revert ha hi hc s. induction ins as [|d ins IH]; intros ha hi hc s M H; [exact H|]. cbn [for_inputs] in *.
  destruct ha as [|a ha], hi as [|i hi], hc as [|c hc]; try discriminate H.
  apply bind_inv in H as (s1 & E & H). rewrite (M _ _ _ _ _ _ (or_introl eq_refl) E). cbn [bind].
  apply IH; [|exact H]. intros; apply M; auto. now right.
Qed.
Lemma for_inputs_app {S} ia ib ha hb hia hib hca hcb
  (f : oi_fits -> hash string -> hash string -> hash string -> S -> res S) s :
  length ha = length ia -> length hia = length ia -> length hca = length ia ->
  for_inputs (ia ++ ib) (ha ++ hb) (hia ++ hib) (hca ++ hcb) f s
  = (s' <- for_inputs ia ha hia hca f s ;; for_inputs ib hb hib hcb f s').
Proof.
  revert ha hia hca s. induction ia as [|d ia IH]; intros [|a ha] [|i hia] [|c hca] s L1 L2 L3; try discriminate; [reflexivity|].
  cbn [for_inputs app]. destruct (f d a i c s); cbn [bind]; auto.
Qed.

Lemma replace_id_mono d h1 h id n : (forall n k, hash_lookup h1 n = Some k -> hash_lookup h n = Some k) ->
  replace_target_id d h1 id = Ok n -> replace_target_id d h id = Ok n.
Proof.
  intros M H. unfold replace_target_id in *. apply bind_inv in H as (t & E & H). rewrite E. cbn [bind].
  destruct t as [t|]; [|discriminate H]. destruct (hash_lookup h1 (tg_target t)) eqn:L; [|discriminate H].
  rewrite (M _ _ L). exact H.
Qed.

Section Steps.
Context {T : Type}.
Variables (tabs : oi_fits -> list T).
Variables (f g : oi_fits -> hash string -> hash string -> hash string -> T -> res T).
(** [f] with the TARGET_IDs of the first inputs, [g] with those of all *)
Hypothesis mono : forall d a i c t t', f d a i c t = Ok t' -> g d a i c t = Ok t'.

Lemma run_self d a i c l s : (forall t, In t l -> g d a i c t = Ok t) ->
  foreach l (step g d a i c) s = Ok (fst s ++ l, snd s + Z.of_nat (length l)).
Proof.
  revert s. induction l as [|t l IH]; intros s H.
  - cbn. rewrite app_nil_r, Z.add_0_r. now destruct s.
  - cbn [foreach]. unfold step at 1. rewrite (H t) by now left. cbn [bind]. rewrite IH by (intros; apply H; now right).
    cbn [fst snd length]. rewrite <- app_assoc. f_equal. f_equal. lia.
Qed.

Lemma data_in_steps ia ib d1 ha hb hia hib hca hcb a i c n1 s :
  length ha = length ia -> length hia = length ia -> length hca = length ia ->
  for_inputs ia ha hia hca (fun d a i c s => foreach (tabs d) (step f d a i c) s) ([], 0) = Ok (tabs d1, n1) ->
  n1 = Z.of_nat (length (tabs d1)) ->
  for_inputs (ia ++ ib) (ha ++ hb) (hia ++ hib) (hca ++ hcb)
    (fun d a i c s => foreach (tabs d) (step g d a i c) s) ([], 0) = Ok s ->
  (forall t, In t (tabs d1) -> g d1 a i c t = Ok t) ->
  for_inputs (d1 :: ib) (a :: hb) (i :: hib) (c :: hcb)
    (fun d a i c s => foreach (tabs d) (step g d a i c) s) ([], 0) = Ok s.
Proof.
  intros L1 L2 L3 E N H Self. rewrite for_inputs_app in H by assumption.
  rewrite (for_inputs_mono ia ha hia hca _ (fun d a i c s => foreach (tabs d) (step g d a i c) s) _ _
    (fun d a i c s s' _ => foreach_mono (tabs d) (step f d a i c) (step g d a i c) s s'
      (fun t s s' _ K => ltac:(unfold step in *; apply bind_inv in K as (x & K & K'); rewrite (mono _ _ _ _ _ _ K); exact K'))) E) in H.
  cbn [bind] in H. cbn [for_inputs]. rewrite run_self by exact Self. cbn [bind fst snd app]. rewrite Z.add_0_l, <- N. exact H.
Qed.
End Steps.
