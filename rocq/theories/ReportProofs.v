(** Proofs about the storage of check results and the shared string. *)
From Verif Require Import BaseLemmas FileModel FileProofs MergeProofs CheckModel CheckSpec CheckProofs CheckWhole ToolModel ToolSpec ReportModel ReportSpec.
From Coq Require Import Lia.
Open Scope list_scope.
Open Scope nat_scope.

(** ** Lists *)

Lemma set_nth_length {A} i (a : A) l : i < length l -> length (set_nth i a l) = length l.
Proof. intros H. unfold set_nth. rewrite app_length. cbn [length]. rewrite firstn_length, skipn_length. lia. Qed.
Lemma set_nth_same {A} i (a : A) l : i < length l -> nth_error (set_nth i a l) i = Some a.
Proof.
  intros H. unfold set_nth. rewrite nth_error_app2; rewrite firstn_length; [|lia].
  replace (i - Nat.min i (length l)) with 0 by lia. reflexivity.
Qed.
Lemma set_nth_other {A} i j (a : A) l : i < length l -> j <> i -> nth_error (set_nth i a l) j = nth_error l j.
Proof.
  intros H N. unfold set_nth. destruct (Nat.lt_ge_cases j i).
  - rewrite nth_error_app1 by (rewrite firstn_length; lia). rewrite <- (firstn_skipn i l) at 2.
    rewrite nth_error_app1 by (rewrite firstn_length; lia). reflexivity.
  - rewrite nth_error_app2; rewrite firstn_length; [|lia].
    replace (j - Nat.min i (length l)) with (S (j - S i)) by lia. cbn [nth_error].
    rewrite <- (firstn_skipn (S i) l) at 2. rewrite nth_error_app2; rewrite firstn_length; [|lia].
    f_equal. lia.
Qed.
Lemma set_nth_twice {A} i (a b : A) l : i < length l -> set_nth i a (set_nth i b l) = set_nth i a l.
Proof.
  intros H. unfold set_nth. f_equal.
  - rewrite firstn_app, firstn_firstn, firstn_length. replace (i - Nat.min i (length l)) with 0 by lia.
    rewrite firstn_O, app_nil_r. f_equal. lia.
  - f_equal. rewrite skipn_app, firstn_length. replace (S i - Nat.min i (length l)) with 1 by lia.
    rewrite skipn_all2 by (rewrite firstn_length; lia). reflexivity.
Qed.
Lemma set_nth_id {A} i (a : A) l : nth_error l i = Some a -> set_nth i a l = l.
Proof.
  intros H. unfold set_nth. rewrite <- (firstn_skipn i l) at 3. f_equal.
  revert l H. induction i as [|i IH]; intros [|b l] H; cbn in *; try discriminate.
  - congruence.
  - apply IH, H.
Qed.
Lemma both_length {A B} (P : A -> B -> Prop) l r : Forall2 P l r -> length l = length r.
Proof. intros H. induction H; cbn; congruence. Qed.
Lemma nth_error_lt {A} (l : list A) i a : nth_error l i = Some a -> i < length l.
Proof. intros H. apply nth_error_Some. congruence. Qed.

(** ** A struct and what is in its chunk *)

Definition points (l : list string) (p : option nat) (s : option string) : Prop :=
  match p, s with
  | None, None => True
  | Some i, Some t => nth_error l i = Some t
  | _, _ => False
  end.
Definition rep (l : list string) (st : struct) (r : check_result) : Prop :=
  rs_level st = cr_level r /\ rs_numBreach st = cr_numBreach r
  /\ points l (rs_description st) (cr_description r) /\ Forall2 (points l) (rs_location st) (cr_location r).

Lemma points_more l x p s : points l p s -> points (l ++ x) p s.
Proof.
  destruct p, s; cbn; auto. intros H. rewrite nth_error_app1; [exact H|]. exact (nth_error_lt _ _ _ H).
Qed.
Lemma points_new l s : points (l ++ [s]) (Some (length l)) (Some s).
Proof. cbn. rewrite nth_error_app2, Nat.sub_diag by lia. reflexivity. Qed.
Lemma all_points_more l x ps ss : Forall2 (points l) ps ss -> Forall2 (points (l ++ x)) ps ss.
Proof. intros H. induction H; constructor; auto using points_more. Qed.

Lemma list_set_both {A B} (P : A -> B -> Prop) l r i a b : Forall2 P l r -> P a b ->
  match list_set r i b with
  | Some r' => exists l', list_set l i a = Some l' /\ Forall2 P l' r'
  | None => list_set l i a = None
  end.
Proof.
  intros H Hab. revert i. induction H as [|x y l r Hxy H IH]; intros [|i]; cbn [list_set]; auto.
  - eexists. split; [reflexivity|]. now constructor.
  - specialize (IH i). destruct (list_set r i b).
    + destruct IH as (l' & -> & HF). eexists. split; [reflexivity|]. now constructor.
    + rewrite IH. reflexivity.
Qed.
Lemma put_both {A B} (P : A -> B -> Prop) l r i a b : Forall2 P l r -> P a b ->
  match put r i b with
  | Ok r' => exists l', put l i a = Ok l' /\ Forall2 P l' r'
  | Abort => False
  | UB => put l i a = UB
  end.
Proof.
  intros H Hab. unfold put. destruct (i <? 0)%Z; [reflexivity|].
  pose proof (list_set_both P l r (Z.to_nat i) a b H Hab) as L. destruct (list_set r (Z.to_nat i) b).
  - destruct L as (l' & -> & HF). eauto.
  - rewrite L. reflexivity.
Qed.

(** the memory with the chunk [c] holding [l] *)
Definition with_chunk (c : nat) (l : list string) (m : memory) : memory :=
  mk_memory (set_nth c (Some l) (m_chunks m)) (m_results m) (m_pGStr m).
Lemma chunk_nth c m l : chunk c m = Ok l <-> nth_error (m_chunks m) c = Some (Some l).
Proof. unfold chunk. destruct (nth_error _ c) as [[?|]|]; split; intros H; congruence. Qed.
Lemma with_chunk_same c l m x : nth_error (m_chunks m) c = Some x -> chunk c (with_chunk c l m) = Ok l.
Proof. intros H. apply chunk_nth. cbn. apply set_nth_same. exact (nth_error_lt _ _ _ H). Qed.
Lemma with_chunk_twice c l l' m x : nth_error (m_chunks m) c = Some x ->
  with_chunk c l' (with_chunk c l m) = with_chunk c l' m.
Proof. intros H. unfold with_chunk. cbn. rewrite set_nth_twice by exact (nth_error_lt _ _ _ H). reflexivity. Qed.
Lemma with_chunk_id c l m : chunk c m = Ok l -> with_chunk c l m = m.
Proof. intros H. apply chunk_nth in H. unfold with_chunk. rewrite (set_nth_id _ _ _ H). now destruct m. Qed.
Lemma insert_ok c l m s : chunk c m = Ok l -> chunk_insert c s m = Ok (length l, with_chunk c (l ++ [s]) m).
Proof. intros H. unfold chunk_insert. rewrite H. reflexivity. Qed.

Lemma set_refines m k st l r level d loc : m_results m k = Some st -> chunk (rs_chunk st) m = Ok l -> rep l st r ->
  match set_result level d loc r with
  | Ok r' => exists st' l', store_set k level d loc m = Ok (put_result k st' (with_chunk (rs_chunk st) l' m))
      /\ rs_chunk st' = rs_chunk st /\ rep l' st' r'
  | Abort => store_set k level d loc m = Abort
  | UB => store_set k level d loc m = UB
  end.
Proof.
  intros Hk Hc (Hl & Hn & Hd & Hp). unfold store_set, the_result, set_result. rewrite Hk. cbn [bind]. rewrite Hl, Hn.
  set (lv := if (level >? cr_level r)%Z then level else cr_level r).
  set (c := rs_chunk st) in *. pose proof (proj1 (chunk_nth _ _ _) Hc) as Hx.
  (* the description *)
  assert (D : match (match cr_description r with
                     | None => Ok (Some d) | Some e => do assert_ (str_eqb d e) ;; Ok (Some e) end) with
    | Ok d' => exists p l1, match rs_description st with
         | None => r0 <- chunk_insert c d m ;; Ok (Some (fst r0), snd r0)
         | Some p0 => d0 <- chunk_string c (Some p0) m ;; do assert_ (str_eqb d d0) ;; Ok (Some p0, m)
         end = Ok (p, with_chunk c l1 m) /\ points l1 p d' /\ Forall2 (points l1) (rs_location st) (cr_location r)
    | Abort => match rs_description st with
         | None => r0 <- chunk_insert c d m ;; Ok (Some (fst r0), snd r0)
         | Some p0 => d0 <- chunk_string c (Some p0) m ;; do assert_ (str_eqb d d0) ;; Ok (Some p0, m)
         end = Abort
    | UB => False
    end).
  { destruct (cr_description r) as [e|], (rs_description st) as [p0|]; cbn [points] in Hd; try contradiction.
    - cbn [chunk_string]. rewrite Hc. cbn [bind]. rewrite Hd. cbn [bind]. unfold assert_. destruct (str_eqb d e); cbn [bind].
      + exists (Some p0), l. rewrite with_chunk_id by exact Hc. auto.
      + reflexivity.
    - rewrite (insert_ok _ _ _ _ Hc). cbn [bind fst snd]. exists (Some (length l)), (l ++ [d]).
      split; [reflexivity|]. split; [apply points_new|]. now apply all_points_more. }
  destruct (match cr_description r with
            | None => Ok (Some d) | Some e => do assert_ (str_eqb d e) ;; Ok (Some e) end) as [d'| |];
    [|rewrite D; reflexivity|contradiction].
  destruct D as (p & l1 & -> & Hp1 & Hloc). cbn [bind].
  pose proof (with_chunk_same c l1 m _ Hx) as Hc1.
  destruct (cr_numBreach r + 1 <? MAX_REPORT)%Z.
  - rewrite (insert_ok _ _ _ loc Hc1). cbn [bind fst snd]. rewrite (with_chunk_twice _ _ _ _ _ Hx).
    pose proof (put_both (points (l1 ++ [loc])) _ _ (cr_numBreach r + 1 - 1)%Z _ _ (all_points_more _ [loc] _ _ Hloc) (points_new l1 loc)) as P.
    destruct (put (cr_location r) (cr_numBreach r + 1 - 1) (Some loc)) as [r'| |]; [|contradiction|rewrite P; reflexivity].
    destruct P as (ps & -> & HF). cbn [bind]. eexists. exists (l1 ++ [loc]). split; [reflexivity|]. split; [reflexivity|].
    repeat split; cbn; auto using points_more.
  - destruct (cr_numBreach r + 1 =? MAX_REPORT)%Z.
    + set (tr := "[List truncated]"%string).
      rewrite (insert_ok _ _ _ tr Hc1). cbn [bind fst snd]. rewrite (with_chunk_twice _ _ _ _ _ Hx).
      pose proof (put_both (points (l1 ++ [tr])) _ _ (MAX_REPORT - 1)%Z _ _ (all_points_more _ [tr] _ _ Hloc) (points_new l1 tr)) as P.
      destruct (put (cr_location r) (MAX_REPORT - 1) (Some tr)) as [r'| |]; [|contradiction|rewrite P; reflexivity].
      destruct P as (ps & -> & HF). cbn [bind]. eexists. exists (l1 ++ [tr]). split; [reflexivity|]. split; [reflexivity|].
      repeat split; cbn; auto using points_more.
    + cbn [bind]. eexists. exists l1. split; [reflexivity|]. split; [reflexivity|]. repeat split; cbn; auto.
Qed.

Lemma string_at l c m p s : chunk c m = Ok l -> points l p s -> chunk_string c p m = fmt_s s.
Proof.
  intros Hc Hp. destruct p as [i|], s as [t|]; cbn in *; try contradiction; auto. rewrite Hc. cbn [bind]. rewrite Hp. reflexivity.
Qed.
Lemma get_both {A B} (P : A -> B -> Prop) l r i : Forall2 P l r ->
  match get r i with
  | Ok b => exists a, get l i = Ok a /\ P a b
  | Abort => False
  | UB => get l i = UB
  end.
Proof.
  intros H. unfold get. destruct (i <? 0)%Z; [reflexivity|]. generalize (Z.to_nat i). clear i.
  induction H as [|x y l r Hxy H IH]; intros [|i]; cbn [nth_error]; eauto. apply IH.
Qed.
Lemma for_ext {S} (f g : Z -> S -> res S) : (forall i s, f i s = g i s) -> forall n s, for_ n f s = for_ n g s.
Proof.
  intros H n. unfold for_. generalize 0%Z. induction (Z.to_nat n) as [|k IH]; intros i s; cbn [for_from]; [reflexivity|].
  rewrite H. destruct (g i s); cbn [bind]; auto.
Qed.
Lemma format_refines moves m k st l r : m_results m k = Some st -> chunk (rs_chunk st) m = Ok l -> rep l st r ->
  store_format moves k m = (t <- format_check_result r ;;
    match t with None => Ok (None, m) | Some t => Ok (Some (fst (write_text moves t m)), snd (write_text moves t m)) end).
Proof.
  intros Hk Hc (Hl & Hn & Hd & Hp). unfold store_format, the_result, format_check_result. rewrite Hk. cbn [bind]. rewrite Hl, Hn.
  destruct (cr_level r =? OI_BREACH_NONE)%Z; [reflexivity|]. destruct (get oi_breach_level_desc (cr_level r)); cbn [bind]; auto.
  rewrite (string_at _ _ _ _ _ Hc Hd). destruct (fmt_s (cr_description r)); cbn [bind]; auto.
  rewrite (for_ext _ (fun i s => l0 <- get (cr_location r) i ;; l0 <- fmt_s l0 ;; Ok (s ++ "    " ++ l0 ++ newline)%string)).
  - destruct (for_ _ _ _); cbn [bind]; auto.
  - intros i s. pose proof (get_both _ _ _ i Hp) as G. destruct (get (cr_location r) i) as [b| |]; [|contradiction|rewrite G; reflexivity].
    destruct G as (a2 & -> & Ha). cbn [bind]. rewrite (string_at _ _ _ _ _ Hc Ha). reflexivity.
Qed.
Lemma init_rep c : rep [] (mk_struct OI_BREACH_NONE None 0 (repeat None (Z.to_nat MAX_REPORT)) c) (closed []).
Proof. rewrite closed_init. repeat split. cbn [rs_location init_check_result cr_location]. induction (Z.to_nat MAX_REPORT); cbn; constructor; cbn; auto. Qed.

(** ** Sequences of calls *)

Section Session.
Variable moves : nat -> bool.
Variable fmt : string -> f64 -> string.
Notation run := (run_calls moves fmt).
Notation step := (call_step moves fmt).

Lemma status_snoc k h c : status_of k (h ++ [c]) = next_status k (status_of k h) c.
Proof. unfold status_of. rewrite fold_left_app. reflexivity. Qed.
Lemma answers_after_snoc b h c : answers_after fmt b (h ++ [c]) = answers_after fmt b h ++ answer fmt (b ++ h) c.
Proof.
  revert b. induction h as [|x h IH]; intros b; cbn [app answers_after].
  - rewrite !app_nil_r. reflexivity.
  - rewrite IH, <- !app_assoc. reflexivity.
Qed.
Lemma answers_snoc h c : answers fmt (h ++ [c]) = answers fmt h ++ answer fmt h c.
Proof. exact (answers_after_snoc [] h c). Qed.
Lemma shown_after_snoc b h c : shown_after fmt b (h ++ [c]) = shown_after fmt b h ++ shows fmt (b ++ h) c.
Proof.
  revert b. induction h as [|x h IH]; intros b; cbn [app shown_after].
  - rewrite !app_nil_r. reflexivity.
  - rewrite IH, <- !app_assoc. reflexivity.
Qed.
Lemma shown_snoc h c : shown fmt (h ++ [c]) = shown fmt h ++ shows fmt h c.
Proof. exact (shown_after_snoc [] h c). Qed.
Lemma run_snoc h c : run (h ++ [c]) = (s <- run h ;; step c s).
Proof.
  unfold run_calls. rewrite foreach_app. destruct (foreach h _ _) as [s| |]; cbn [bind foreach]; auto.
  destruct (step c s); reflexivity.
Qed.

Definition good (vs : list violation) : Prop :=
  levels_ok vs /\ match vs with [] => True | v :: _ => Forall (fun w => v_desc w = v_desc v) vs end.
(** what the memory holds for the struct [k] *)
Definition kept (m : memory) (k : nat) (s : status) : Prop :=
  match s with
  | Never => m_results m k = None
  | Holding vs => exists st l, m_results m k = Some st /\ chunk (rs_chunk st) m = Ok l /\ rep l st (closed vs) /\ good vs
  | Released vs => exists st, m_results m k = Some st /\ nth_error (m_chunks m) (rs_chunk st) = Some None
      /\ rs_level st = cr_level (closed vs) /\ good vs
  end.
Definition apart (m : memory) : Prop :=
  (forall k st, m_results m k = Some st -> rs_chunk st < length (m_chunks m))
  /\ (forall j k a b, m_results m j = Some a -> m_results m k = Some b -> rs_chunk a = rs_chunk b -> j = k).
Definition returned (p : option nat) (a : option string) : Prop :=
  match p, a with None, None => True | Some _, Some _ => True | _, _ => False end.
Record inv (h : list api_call) (s : session) : Prop := mk_inv {
  i_kept : forall k, kept (fst (fst s)) k (status_of k h);
  i_apart : apart (fst (fst s));
  i_ptrs : Forall2 returned (snd (fst s)) (answers fmt h);
  i_newest : forall i t, newest (answers fmt h) i t -> exists g, m_pGStr (fst (fst s)) = Some g /\ gs_str g = t
     /\ nth_error (snd (fst s)) i = Some (Some (gs_block g));
  i_shown : snd s = shown fmt h;
  i_live : live (fst (fst s)) + frees h = inits h }.

Lemma newest_more l i t : newest l i t -> newest (l ++ [None]) i t.
Proof.
  intros (l1 & n & -> & H). exists l1, (S n). split; [|exact H]. rewrite <- app_assoc. cbn [app]. do 2 f_equal.
  replace (S n) with (n + 1) by lia. rewrite repeat_app. reflexivity.
Qed.
Lemma newest_none l i t : newest (l ++ [None]) i t -> newest l i t.
Proof.
  intros (l1 & n & E & H). destruct n as [|n].
  - cbn [repeat] in E. apply app_inj_tail in E as (_ & E). discriminate.
  - exists l1, n. split; [|exact H]. replace (S n) with (n + 1) in E by lia. rewrite repeat_app in E. cbn [repeat] in E.
    change (l1 ++ Some t :: repeat None n ++ [None]) with (l1 ++ (Some t :: repeat None n) ++ [None]) in E.
    rewrite app_assoc in E. now apply app_inj_tail in E as (-> & _).
Qed.
Lemma newest_some l i t u : newest (l ++ [Some u]) i t -> t = u /\ i = length l.
Proof.
  intros (l1 & n & E & H). destruct n as [|n].
  - cbn [repeat] in E. apply app_inj_tail in E as (-> & E). split; [congruence|auto].
  - replace (S n) with (n + 1) in E by lia. rewrite repeat_app in E. cbn [repeat] in E.
    change (l1 ++ Some t :: repeat None n ++ [None]) with (l1 ++ (Some t :: repeat None n) ++ [None]) in E.
    rewrite app_assoc in E. apply app_inj_tail in E as (_ & E). discriminate.
Qed.
Lemma newest_exists l : (exists i t, newest l i t) \/ (forall a, In a l -> a = None).
Proof.
  induction l as [|a l IH] using rev_ind; [right; intros a []|]. destruct a as [t|].
  - left. exists (length l), t, l, 0. auto.
  - destruct IH as [(i & t & H)|IH]; [left; exists i, t; now apply newest_more|].
    right. intros a Ha. apply in_app_or in Ha as [Ha|[<-|[]]]; auto.
Qed.
Lemma newest_nth l i t : newest l i t -> nth_error l i = Some (Some t).
Proof. intros (l1 & n & -> & <-). rewrite nth_error_app2, Nat.sub_diag by lia. reflexivity. Qed.

Lemma live_set c l m l0 : chunk c m = Ok l0 -> live (with_chunk c l m) = live m.
Proof.
  intros H. apply chunk_nth in H. unfold live. cbn [with_chunk m_chunks]. rewrite <- (set_nth_id _ _ _ H) at 2.
  unfold set_nth. rewrite !filter_app. cbn [filter]. rewrite !app_length. reflexivity.
Qed.
Lemma live_free c m l0 : chunk c m = Ok l0 ->
  live (mk_memory (set_nth c None (m_chunks m)) (m_results m) (m_pGStr m)) + 1 = live m.
Proof.
  intros H. apply chunk_nth in H. unfold live. cbn [m_chunks]. rewrite <- (set_nth_id _ _ _ H) at 2.
  unfold set_nth. rewrite !filter_app. cbn [filter]. rewrite !app_length. cbn [length]. lia.
Qed.
Lemma counts_snoc h c : inits (h ++ [c]) = inits h + (match c with CInit _ => 1 | _ => 0 end)
  /\ frees (h ++ [c]) = frees h + (match c with CFree _ => 1 | _ => 0 end).
Proof. unfold inits, frees. rewrite !filter_app, !app_length. destruct c; split; reflexivity. Qed.

Lemma inv_start : inv [] (m_start, [], []).
Proof.
  split; cbn; auto.
  - split; intros; discriminate.
  - intros i t (l1 & n & E & _). now destruct l1.
Qed.

(** the text of what a struct holds *)
Lemma format_holding vs : good vs -> format_check_result (closed vs) = Ok (report_of (Holding vs)).
Proof.
  intros (L & D). assert (R : reported vs (closed vs)) by (unfold reported; cbn; auto).
  destruct vs as [|v vs]; [exact (proj1 (format_none _ R))|]. exact (format_ok _ _ v R L eq_refl).
Qed.
Lemma level_zero vs : good vs -> (cr_level (closed vs) =? OI_BREACH_NONE)%Z = match vs with [] => true | _ => false end.
Proof.
  intros (L & _). destruct vs as [|v vs]; [reflexivity|]. apply Z.eqb_neq. cbn [closed cr_level map fold_right]. unfold OI_BREACH_NONE.
  destruct (L v (or_introl eq_refl)) as [-> | ->]; lia.
Qed.

(** parts of the invariant that a change of the chunks of one struct leaves alone *)
Lemma kept_other m k j s chs res : k <> j -> apart m -> (forall i, i <> j -> res i = m_results m i) ->
  (forall c, (forall st, m_results m j = Some st -> c <> rs_chunk st) -> c < length (m_chunks m) -> nth_error chs c = nth_error (m_chunks m) c) ->
  forall g, kept m k s -> kept (mk_memory chs res g) k s.
Proof.
  intros N (B & A) Hr Hc g. destruct s as [|vs|vs]; cbn [kept m_results m_chunks].
  - rewrite Hr by exact N. auto.
  - intros (st & l & H1 & H2 & H3). exists st, l. rewrite Hr by exact N. split; [exact H1|]. split; [|exact H3].
    apply chunk_nth. cbn [m_chunks]. rewrite Hc; [now apply chunk_nth| |exact (B _ _ H1)].
    intros st' H' E. apply N. exact (A _ _ _ _ H1 H' E).
  - intros (st & H1 & H2 & H3). exists st. rewrite Hr by exact N. split; [exact H1|]. split; [|exact H3].
    rewrite Hc; [exact H2| |exact (B _ _ H1)]. intros st' H' E. apply N. exact (A _ _ _ _ H1 H' E).
Qed.
Lemma kept_text m k s g : kept m k s -> kept (mk_memory (m_chunks m) (m_results m) g) k s.
Proof. destruct s; cbn [kept m_results m_chunks]; auto. Qed.

Lemma status_other k j h c : k <> j -> (c = CInit j \/ (exists a d t, c = CSet j a d t) \/ c = CFree j) ->
  status_of k (h ++ [c]) = status_of k h.
Proof.
  intros N [->|[(a & d & t & ->)| ->]]; rewrite status_snoc; cbn [next_status]; rewrite (proj2 (Nat.eqb_neq j k)) by congruence; auto;
    destruct (status_of k h); reflexivity.
Qed.

Lemma init_inv k h s : inv h s -> exists s', step (CInit k) s = Ok s' /\ inv (h ++ [CInit k]) s'.
Proof.
  destruct s as ((m & ps) & out). intros [K A P N S L]. cbn [fst snd] in *. eexists. split; [reflexivity|].
  split; cbn [fst snd].
  - intros j. destruct (Nat.eq_dec j k) as [->|Nj].
    + rewrite status_snoc. cbn [next_status]. rewrite Nat.eqb_refl. cbn [kept]. do 2 eexists. cbn [store_init put_result m_results].
      rewrite Nat.eqb_refl. split; [reflexivity|]. split; [|split; [apply init_rep|]].
      * apply chunk_nth. cbn. rewrite nth_error_app2, Nat.sub_diag by lia. reflexivity.
      * split; [intros v []|exact I].
    + rewrite (status_other j k) by auto. apply (kept_other m j k); auto.
      * intros i Hi. cbn. rewrite (proj2 (Nat.eqb_neq i k)) by exact Hi. reflexivity.
      * intros c _ Hc. cbn. apply nth_error_app1, Hc.
  - destruct A as (B & A). split; cbn [store_init put_result m_results m_chunks].
    + intros j st. rewrite app_length. cbn [length]. destruct (Nat.eqb j k); [intros [= <-]; cbn; lia|]. intros H. specialize (B _ _ H). lia.
    + intros i j a b. destruct (Nat.eqb_spec i k), (Nat.eqb_spec j k); try congruence.
      * intros [= <-] H E. cbn in E. specialize (B _ _ H). lia.
      * intros H [= <-] E. cbn in E. specialize (B _ _ H). lia.
      * apply A.
  - rewrite answers_snoc. cbn [answer]. rewrite app_nil_r. exact P.
  - rewrite answers_snoc. cbn [answer]. rewrite app_nil_r. exact N.
  - rewrite shown_snoc. cbn [shows]. rewrite app_nil_r. exact S.
  - destruct (counts_snoc h (CInit k)) as (-> & ->). unfold live in *. cbn [store_init put_result m_chunks].
    rewrite filter_app, app_length. cbn [filter length]. lia.
Qed.

Lemma good_snoc vs v : good vs -> (v_level v = 1 \/ v_level v = 2)%Z -> Forall (fun w => v_desc w = v_desc v) vs -> good (vs ++ [v]).
Proof.
  intros (L & D) Lv Dv. split.
  - intros w Hw. apply in_app_or in Hw as [Hw|[<-|[]]]; auto.
  - destruct vs as [|w vs]; cbn [app].
    + repeat constructor.
    + inversion Dv as [|? ? E F]; subst. apply Forall_app in D as _ || idtac. change (w :: vs ++ [v]) with ((w :: vs) ++ [v]).
      apply Forall_app. split; [exact D|]. repeat constructor. congruence.
Qed.

Lemma set_inv k a d t h s : inv h s -> may_call fmt h (CSet k a d t) ->
  exists s', step (CSet k a d t) s = Ok s' /\ inv (h ++ [CSet k a d t]) s'.
Proof.
  destruct s as ((m & ps) & out). intros [K A P N S L] (La & vs & Hs & Hd). cbn [fst snd] in *.
  pose proof (K k) as Kk. rewrite Hs in Kk. destruct Kk as (st & l & Hk & Hc & Hr & G).
  pose proof (set_refines m k st l (closed vs) a d t Hk Hc Hr) as R.
  set (v := mk_violation a d t). pose proof (closed_step vs v) as C. unfold set_violation in C. cbn [v v_level v_desc v_text] in C.
  rewrite C in R by (destruct La; subst; lia). clear C.
  assert (R' : exists st' l', store_set k a d t m = Ok (put_result k st' (with_chunk (rs_chunk st) l' m))
     /\ rs_chunk st' = rs_chunk st /\ rep l' st' (closed (vs ++ [v]))).
  { destruct vs as [|w vs]; cbn [map hd_error] in R; [exact R|]. inversion Hd; subst. rewrite str_eqb_refl in R. exact R. }
  destruct R' as (st' & l' & E & Ec & Hr'). cbn [call_step]. rewrite E. cbn [bind]. eexists. split; [reflexivity|].
  pose proof (proj1 (chunk_nth _ _ _) Hc) as Hx. pose proof (nth_error_lt _ _ _ Hx) as Hlt.
  split; cbn [fst snd].
  - intros j. destruct (Nat.eq_dec j k) as [->|Nj].
    + rewrite status_snoc, Hs. cbn [next_status]. rewrite Nat.eqb_refl. cbn [kept put_result m_results]. rewrite Nat.eqb_refl.
      exists st', l'. split; [reflexivity|]. rewrite Ec. split; [|split; [exact Hr'|]].
      * apply chunk_nth. cbn. apply set_nth_same, Hlt.
      * apply good_snoc; auto.
    + rewrite (status_other j k) by eauto 10. apply (kept_other m j k); auto.
      * intros i Hi. cbn. rewrite (proj2 (Nat.eqb_neq i k)) by exact Hi. reflexivity.
      * intros c Hn Hcl. cbn. apply set_nth_other; [exact Hlt|]. apply Hn, Hk.
  - destruct A as (B & A). split; cbn [put_result with_chunk m_results m_chunks].
    + intros j b. rewrite set_nth_length by exact Hlt. destruct (Nat.eqb j k); [intros [= <-]; congruence|]. apply B.
    + intros i j x y. destruct (Nat.eqb_spec i k), (Nat.eqb_spec j k); try congruence.
      * intros [= <-] H Exy. subst i. symmetry. apply (A j k y st); auto. congruence.
      * intros H [= <-] Exy. subst j. apply (A i k x st); auto. congruence.
      * apply A.
  - rewrite answers_snoc. cbn [answer]. rewrite app_nil_r. exact P.
  - rewrite answers_snoc. cbn [answer]. rewrite app_nil_r. exact N.
  - rewrite shown_snoc. cbn [shows]. rewrite app_nil_r. exact S.
  - destruct (counts_snoc h (CSet k a d t)) as (-> & ->). pose proof (live_set _ l' _ _ Hc) as Ls. unfold live in *.
    cbn [put_result with_chunk m_chunks] in *. lia.
Qed.

Lemma free_inv k h s : inv h s -> may_call fmt h (CFree k) -> exists s', step (CFree k) s = Ok s' /\ inv (h ++ [CFree k]) s'.
Proof.
  destruct s as ((m & ps) & out). intros [K A P N S L] (vs & Hs). cbn [fst snd] in *.
  pose proof (K k) as Kk. rewrite Hs in Kk. destruct Kk as (st & l & Hk & Hc & Hr & G).
  cbn [call_step]. unfold store_free, the_result. rewrite Hk. cbn [bind]. rewrite Hc. cbn [bind]. eexists. split; [reflexivity|].
  pose proof (proj1 (chunk_nth _ _ _) Hc) as Hx. pose proof (nth_error_lt _ _ _ Hx) as Hlt.
  split; cbn [fst snd].
  - intros j. destruct (Nat.eq_dec j k) as [->|Nj].
    + rewrite status_snoc, Hs. cbn [next_status]. rewrite Nat.eqb_refl. cbn [kept m_results m_chunks]. exists st.
      split; [exact Hk|]. split; [apply set_nth_same, Hlt|]. split; [apply Hr|exact G].
    + rewrite (status_other j k) by auto. apply (kept_other m j k); auto.
      intros c Hn Hcl. apply set_nth_other; [exact Hlt|]. apply Hn, Hk.
  - destruct A as (B & A). split; cbn [m_results m_chunks]; [|exact A]. intros j b. rewrite set_nth_length by exact Hlt. apply B.
  - rewrite answers_snoc. cbn [answer]. rewrite app_nil_r. exact P.
  - rewrite answers_snoc. cbn [answer]. rewrite app_nil_r. exact N.
  - rewrite shown_snoc. cbn [shows]. rewrite app_nil_r. exact S.
  - destruct (counts_snoc h (CFree k)) as (-> & ->). pose proof (live_free _ _ _ Hc). lia.
Qed.

Lemma same_status k h c : (forall j s, next_status j s c = s) -> status_of k (h ++ [c]) = status_of k h.
Proof. intros H. rewrite status_snoc. apply H. Qed.

Lemma text_inv t h m ps out c : inv h (m, ps, out) -> (forall j s, next_status j s c = s) -> answer fmt h c = [Some t] ->
  shows fmt h c = [] -> inits [c] = 0 -> frees [c] = 0 ->
  inv (h ++ [c]) (snd (write_text moves t m), ps ++ [Some (fst (write_text moves t m))], out).
Proof.
  intros [K A P N S L] Hc Ha Hs Hi Hf. cbn [fst snd] in *. split; cbn [fst snd].
  - intros k. rewrite same_status by exact Hc. unfold write_text. cbn [snd]. apply kept_text, K.
  - exact A.
  - rewrite answers_snoc, Ha. apply Forall2_app; [exact P|]. repeat constructor.
  - intros i u Hu. rewrite answers_snoc, Ha in Hu. apply newest_some in Hu as (-> & ->). unfold write_text. cbn [fst snd m_pGStr].
    eexists. split; [reflexivity|]. split; [destruct (m_pGStr m); reflexivity|].
    rewrite <- (both_length _ _ _ P). rewrite nth_error_app2, Nat.sub_diag by lia. reflexivity.
  - rewrite shown_snoc, Hs, app_nil_r. exact S.
  - unfold inits, frees in *. rewrite !filter_app, !app_length. unfold live in *. cbn [write_text snd m_chunks] in *. lia.
Qed.

Lemma format_inv k h s : inv h s -> may_call fmt h (CFormat k) -> exists s', step (CFormat k) s = Ok s' /\ inv (h ++ [CFormat k]) s'.
Proof.
  destruct s as ((m & ps) & out). intros I0 M. pose proof I0 as [K A P N S L]. cbn [fst snd] in *. cbn [call_step]. pose proof (K k) as Kk.
  assert (Q : store_format moves k m = match report_of (status_of k h) with
     | None => Ok (None, m) | Some t => Ok (Some (fst (write_text moves t m)), snd (write_text moves t m)) end).
  { destruct M as [(vs & Hs)|Hs]; rewrite Hs in *.
    - destruct Kk as (st & l & Hk & Hc & Hr & G). rewrite (format_refines _ _ _ _ _ _ Hk Hc Hr), (format_holding _ G). reflexivity.
    - destruct Kk as (st & Hk & Hc & Hl & G). unfold store_format, the_result. rewrite Hk. cbn [bind]. rewrite Hl. reflexivity. }
  rewrite Q. destruct (report_of (status_of k h)) as [t|] eqn:R; cbn [bind fst snd].
  - eexists. split; [reflexivity|]. apply text_inv; auto. cbn [answer]. now rewrite R.
  - eexists. split; [reflexivity|]. split; cbn [fst snd]; auto.
    + intros j. rewrite same_status by auto. apply K.
    + rewrite answers_snoc. cbn [answer]. rewrite R. apply Forall2_app; [exact P|]. repeat constructor.
    + intros i u Hu. rewrite answers_snoc in Hu. cbn [answer] in Hu. rewrite R in Hu. apply newest_none in Hu.
      destruct (N i u Hu) as (g & H1 & H2 & H3). exists g. repeat split; auto.
      rewrite nth_error_app1; [exact H3|exact (nth_error_lt _ _ _ H3)].
    + rewrite shown_snoc. cbn [shows]. rewrite app_nil_r. exact S.
    + destruct (counts_snoc h (CFormat k)) as (-> & ->). lia.
Qed.

Lemma print_newest m ps g i b : m_pGStr m = Some g -> nth_error ps i = Some (Some b) ->
  (t <- print_at (Some b) m ;; Ok t) = if Nat.eqb b (gs_block g) then Ok (gs_str g) else UB.
Proof. intros H _. unfold print_at. rewrite H. destruct (Nat.eqb b (gs_block g)); reflexivity. Qed.

Lemma step_inv c h s : inv h s -> may_call fmt h c -> exists s', step c s = Ok s' /\ inv (h ++ [c]) s'.
Proof.
  intros I0 M. destruct c as [k|k a d t|k|k|o|f|i].
  - now apply init_inv.
  - now apply set_inv.
  - now apply free_inv.
  - now apply format_inv.
  - destruct s as ((m & ps) & out). destruct M as (t & Ht). cbn [call_step]. rewrite Ht. cbn [bind].
    pose proof (text_inv t h m ps out (CSummary o) I0) as T. destruct (write_text moves t m). eexists. split; [reflexivity|].
    apply T; auto. cbn [answer]. rewrite Ht. reflexivity.
  - destruct s as ((m & ps) & out). cbn [call_step].
    pose proof (text_inv (format_oi_filter fmt f) h m ps out (CCriteria f) I0) as T.
    destruct (write_text moves (format_oi_filter fmt f) m). eexists. split; [reflexivity|]. apply T; auto.
  - destruct s as ((m & ps) & out). destruct M as (t & Ht). destruct I0 as [K A P N S L]. cbn [fst snd] in *.
    destruct (N i t Ht) as (g & H1 & H2 & H3). cbn [call_step]. rewrite H3. cbn [print_at]. rewrite H1, Nat.eqb_refl. cbn [bind].
    eexists. split; [reflexivity|]. split; cbn [fst snd]; auto.
    + intros j. rewrite same_status by auto. apply K.
    + rewrite answers_snoc. cbn [answer]. rewrite app_nil_r. exact P.
    + rewrite answers_snoc. cbn [answer]. rewrite app_nil_r. exact N.
    + rewrite shown_snoc. cbn [shows]. rewrite (newest_nth _ _ _ Ht), S, H2. reflexivity.
    + destruct (counts_snoc h (CPrint i)) as (-> & ->). lia.
Qed.

Lemma proper_prefix h c : proper fmt (h ++ [c]) -> proper fmt h /\ may_call fmt h c.
Proof.
  intros H. split; [|exact (H h c [] eq_refl)]. intros b x a ->. apply (H b x (a ++ [c])). rewrite <- app_assoc. reflexivity.
Qed.
Lemma proper_run h : proper fmt h -> exists s, run h = Ok s /\ inv h s.
Proof.
  induction h as [|c h IH] using rev_ind; intros H; [exists (m_start, [], []); split; [reflexivity|apply inv_start]|].
  apply proper_prefix in H as (H & M). destruct (IH H) as (s & E & I0). rewrite run_snoc, E. cbn [bind]. now apply step_inv.
Qed.

Lemma run_ok h : proper fmt h -> exists m ps, run h = Ok (m, ps, shown fmt h)
  /\ (live m + frees h = inits h)%nat /\ length ps = length (answers fmt h).
Proof.
  intros H. destruct (proper_run h H) as (((m & ps) & out) & E & [K A P N S L]). cbn [fst snd] in *. subst out.
  exists m, ps. split; [exact E|]. split; [exact L|]. exact (both_length _ _ _ P).
Qed.

(** ** Calls that may not be made *)

Lemma free_misuse h k : proper fmt h -> (forall vs, status_of k h <> Holding vs) -> run (h ++ [CFree k]) = UB.
Proof.
  intros H M. destruct (proper_run h H) as (((m & ps) & out) & E & [K A P N S L]). cbn [fst snd] in *.
  rewrite run_snoc, E. cbn [bind call_step]. unfold store_free, the_result. specialize (K k). destruct (status_of k h) as [|vs|vs].
  - cbn [kept] in K. rewrite K. reflexivity.
  - destruct (M vs eq_refl).
  - destruct K as (st & -> & Hc & _). cbn [bind]. unfold chunk. rewrite Hc. reflexivity.
Qed.
Lemma format_misuse h k : proper fmt h -> status_of k h = Never \/ (exists v vs, status_of k h = Released (v :: vs)) ->
  run (h ++ [CFormat k]) = UB.
Proof.
  intros H M. destruct (proper_run h H) as (((m & ps) & out) & E & [K A P N S L]). cbn [fst snd] in *.
  rewrite run_snoc, E. cbn [bind call_step]. unfold store_format, the_result. specialize (K k). destruct M as [M|(v & vs & M)]; rewrite M in K.
  - cbn [kept] in K. rewrite K. reflexivity.
  - destruct K as (st & -> & Hc & Hl & G). cbn [bind]. rewrite Hl, (level_zero _ G).
    destruct (get oi_breach_level_desc (cr_level (closed (v :: vs)))) eqn:Eg; cbn [bind].
    + unfold chunk_string, chunk. rewrite Hc. destruct (rs_description st); reflexivity.
    + unfold get in Eg. destruct (cr_level _ <? 0)%Z; [discriminate|]. destruct (nth_error oi_breach_level_desc _); discriminate.
    + reflexivity.
Qed.
Lemma set_misuse h k a d t : proper fmt h -> (forall vs, status_of k h <> Holding vs) -> run (h ++ [CSet k a d t]) = UB.
Proof.
  intros H M. destruct (proper_run h H) as (((m & ps) & out) & E & [K A P N S L]). cbn [fst snd] in *.
  rewrite run_snoc, E. cbn [bind call_step]. unfold store_set, the_result. specialize (K k). destruct (status_of k h) as [|vs|vs].
  - cbn [kept] in K. rewrite K. reflexivity.
  - destruct (M vs eq_refl).
  - destruct K as (st & -> & Hc & _). cbn [bind]. unfold chunk_insert, chunk_string, chunk. rewrite Hc.
    destruct (rs_description st); reflexivity.
Qed.
Lemma set_other h k a d t v vs : proper fmt h -> status_of k h = Holding (v :: vs) -> (0 <= a)%Z -> d <> v_desc v ->
  run (h ++ [CSet k a d t]) = Abort.
Proof.
  intros H Hs Ha Hd. destruct (proper_run h H) as (((m & ps) & out) & E & [K A P N S L]). cbn [fst snd] in *.
  rewrite run_snoc, E. cbn [bind call_step]. specialize (K k). rewrite Hs in K. destruct K as (st & l & Hk & Hc & Hr & G).
  pose proof (set_refines m k st l _ a d t Hk Hc Hr) as R. pose proof (closed_step (v :: vs) (mk_violation a d t) Ha) as C.
  unfold set_violation in C. cbn [v_level v_desc v_text map hd_error] in C. rewrite C in R. apply str_eqb_neq in Hd. rewrite Hd in R.
  rewrite R. reflexivity.
Qed.

(** printing NULL, or a string that was never returned *)
Lemma print_null h i : proper fmt h -> (forall t, nth_error (answers fmt h) i <> Some (Some t)) -> run (h ++ [CPrint i]) = UB.
Proof.
  intros H M. destruct (proper_run h H) as (((m & ps) & out) & E & [K A P N S L]). cbn [fst snd] in *.
  rewrite run_snoc, E. cbn [bind call_step]. destruct (nth_error ps i) as [[b|]|] eqn:Ep; [|reflexivity|reflexivity].
  exfalso. revert i M Ep. clear -P. induction P as [|p a ps as' Hp P IH]; intros [|i] M Ep; cbn in *; try discriminate.
  - destruct p, a; try contradiction; try discriminate. eapply M. reflexivity.
  - eapply IH; eauto.
Qed.
(** printing a string after a later one was formatted *)
Lemma print_stale h i j t : proper fmt h -> newest (answers fmt h) j t -> i <> j ->
  run (h ++ [CPrint i]) = UB \/ exists m ps, run (h ++ [CPrint i]) = Ok (m, ps, shown fmt h ++ [t]).
Proof.
  intros H Hn Hij. destruct (proper_run h H) as (((m & ps) & out) & E & [K A P N S L]). cbn [fst snd] in *. subst out.
  destruct (N j t Hn) as (g & H1 & H2 & H3). rewrite run_snoc, E. cbn [bind call_step].
  destruct (nth_error ps i) as [[b|]|]; [|left; reflexivity|left; reflexivity]. unfold print_at. rewrite H1.
  destruct (Nat.eqb b (gs_block g)); [|left; reflexivity]. right. exists m, ps. cbn [bind]. rewrite H2. reflexivity.
Qed.
End Session.
