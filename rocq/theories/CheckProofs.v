(** Every check of oicheck.c reports a list of violations. *)
From Verif Require Import BaseLemmas FileModel FileSpec FileProofs MergeProofs CheckModel CheckSpec.
From Coq Require Import Lia.
Open Scope Z_scope.

(** ** Reporting a list of violations *)

Definition set_violation (v : violation) (r : check_result) : res check_result :=
  set_result (v_level v) (v_desc v) (v_text v) r.
Definition report (vs : list violation) (r : check_result) : res check_result :=
  foreach vs set_violation r.

Lemma report_app vs ws r : report (vs ++ ws) r = (r <- report vs r ;; report ws r).
Proof. apply foreach_app. Qed.
Lemma report_when b level desc text r :
  report (when b level desc text) r = breach_if b level desc (short text) r.
Proof.
  unfold when, breach_if, report. destruct b; [|reflexivity].
  cbn [foreach]. unfold set_violation. cbn [v_level v_desc v_text].
  destruct (set_result _ _ _ r); reflexivity.
Qed.

(** The closed form of a report *)
Definition closed (vs : list violation) : check_result :=
  mk_check_result (fold_right Z.max 0 (map v_level vs)) (hd_error (map v_desc vs))
    (Z.of_nat (length vs)) (slots (map v_text vs)).

Lemma closed_init : closed [] = init_check_result.
Proof. reflexivity. Qed.

Lemma put_at {A} (pre : list A) a post i v : i = Z.of_nat (length pre) ->
  put (pre ++ a :: post) i v = Ok (pre ++ v :: post).
Proof. intros ->. apply put_middle. Qed.

Lemma fold_max_app l x : 0 <= x -> fold_right Z.max 0 (l ++ [x]) = Z.max x (fold_right Z.max 0 l).
Proof. intros H. induction l as [|a l IH]; cbn [app fold_right]; [lia|]. rewrite IH. lia. Qed.

Lemma closed_step vs v : 0 <= v_level v ->
  set_violation v (closed vs) =
    match hd_error (map v_desc vs) with
    | Some d => if str_eqb (v_desc v) d then Ok (closed (vs ++ [v])) else Abort
    | None => Ok (closed (vs ++ [v]))
    end.
Proof.
  intros L. unfold set_violation, set_result. cbn [closed cr_level cr_description cr_numBreach cr_location].
  set (loc' := if _ <? MAX_REPORT then _ else _).
  assert (E : loc' = Ok (slots (map v_text (vs ++ [v])))).
  { unfold loc', slots. rewrite map_app, app_length, !map_length. cbn [map length].
    set (n := length vs).
    destruct (Z.ltb_spec (Z.of_nat n + 1) MAX_REPORT) as [H|H]; unfold MAX_REPORT in *.
    - destruct (Nat.ltb_spec n 10); [|lia]. destruct (Nat.ltb_spec (n + 1) 10); [|lia].
      replace (10 - n)%nat with (S (10 - (n + 1))) by lia. cbn [repeat].
      rewrite (put_at _ _ _ _ _) by (rewrite !map_length; fold n; lia).
      rewrite map_app, <- app_assoc. reflexivity.
    - destruct (Nat.ltb_spec (n + 1) 10); [lia|].
      destruct (Z.eqb_spec (Z.of_nat n + 1) 10) as [E|E].
      + destruct (Nat.ltb_spec n 10); [|lia]. replace (10 - n)%nat with 1%nat by lia. cbn [repeat].
        rewrite (put_at _ _ _ _ _) by (rewrite !map_length; fold n; lia).
        rewrite firstn_app, map_length. fold n. replace (9 - n)%nat with 0%nat by lia.
        rewrite firstn_O, app_nil_r, firstn_all2 by (rewrite map_length; fold n; lia). reflexivity.
      + destruct (Nat.ltb_spec n 10); [lia|].
        rewrite firstn_app, map_length. fold n. replace (9 - n)%nat with 0%nat by lia.
        rewrite firstn_O, app_nil_r. reflexivity. }
  rewrite E. clear E loc'.
  assert (F : (if v_level v >? fold_right Z.max 0 (map v_level vs) then v_level v
               else fold_right Z.max 0 (map v_level vs)) = fold_right Z.max 0 (map v_level (vs ++ [v]))).
  { rewrite map_app. cbn [map]. rewrite fold_max_app by exact L. rewrite Z.gtb_ltb.
    destruct (Z.ltb_spec (fold_right Z.max 0 (map v_level vs)) (v_level v)); lia. }
  rewrite F. clear F.
  assert (N : Z.of_nat (length vs) + 1 = Z.of_nat (length (vs ++ [v]))) by (rewrite app_length; cbn [length]; lia).
  rewrite N. clear N. destruct vs as [|w vs]; cbn [hd_error map].
  - reflexivity.
  - unfold assert_. destruct (str_eqb (v_desc v) (v_desc w)); reflexivity.
Qed.

Lemma report_closed vs ws d : (forall v, In v (vs ++ ws) -> v_desc v = d /\ 0 <= v_level v) ->
  report ws (closed vs) = Ok (closed (vs ++ ws)).
Proof.
  revert vs. induction ws as [|v ws IH]; intros vs H.
  - rewrite app_nil_r. reflexivity.
  - unfold report. cbn [foreach]. rewrite closed_step by (apply (H v); apply in_or_app; right; left; reflexivity).
    assert (Hd : v_desc v = d) by (apply (H v); apply in_or_app; right; left; reflexivity).
    specialize (IH (vs ++ [v])). rewrite <- app_assoc in IH. cbn [app] in IH.
    destruct vs as [|w vs]; cbn [hd_error map].
    + cbn [bind]. apply IH, H.
    + assert (Hw : v_desc w = d) by (apply (H w); left; reflexivity).
      rewrite Hd, Hw, str_eqb_refl. cbn [bind]. apply IH, H.
Qed.

(** Violations of one description are reported. *)
Definition uniform (d : string) (vs : list violation) : Prop :=
  forall v, In v vs -> v_desc v = d /\ (v_level v = 1 \/ v_level v = 2).
Lemma report_reports vs d : uniform d vs -> reports (report vs init_check_result) vs.
Proof.
  intros U. exists (closed vs). split.
  - rewrite <- closed_init. apply (report_closed [] vs d). intros v Hv. destruct (U v Hv). split; [auto|lia].
  - unfold reported. cbn. auto.
Qed.

Lemma report_mixed vs v ws d : vs <> [] -> uniform d vs -> v_desc v <> d -> 0 <= v_level v ->
  report (vs ++ v :: ws) init_check_result = Abort.
Proof.
  intros Hn U Hv L. rewrite report_app.
  rewrite <- closed_init, (report_closed [] vs d) by (intros w Hw; destruct (U w Hw); split; [auto|lia]).
  cbn [app bind]. unfold report. cbn [foreach]. rewrite closed_step by exact L.
  destruct vs as [|w vs]; [congruence|]. cbn [hd_error map].
  destruct (U w) as [Hw _]; [left; reflexivity|]. rewrite Hw.
  apply str_eqb_neq in Hv. rewrite Hv. reflexivity.
Qed.

(** ** Uniformity *)

Lemma uniform_nil d : uniform d [].
Proof. intros v []. Qed.
Lemma uniform_app d vs ws : uniform d vs -> uniform d ws -> uniform d (vs ++ ws).
Proof. intros U V v Hv. apply in_app_or in Hv as [Hv|Hv]; auto. Qed.
Lemma uniform_when d b level text : (level = 1 \/ level = 2) -> uniform d (when b level d text).
Proof. intros L. unfold when. destruct b; [|apply uniform_nil]. intros v [<-|[]]. cbn. auto. Qed.
Lemma uniform_flat {A} d (f : A -> list violation) l : (forall a, uniform d (f a)) -> uniform d (flat_map f l).
Proof. intros H v Hv. apply in_flat_map in Hv as (a & _ & Hv). exact (H a v Hv). Qed.
Lemma uniform_over {A} d place what (l : list A) f : (forall p a, uniform d (f p a)) ->
  uniform d (over place what l f).
Proof. intros H. apply uniform_flat. intros. apply H. Qed.

Ltac uniform :=
  repeat (lazymatch goal with
  | |- uniform _ (_ ++ _) => apply uniform_app
  | |- uniform _ (when _ _ _ _) => apply uniform_when; auto
  | |- uniform _ (over_tables _ _ _) => apply uniform_over; intros ? ?
  | |- uniform _ (over_records _ _ _) => apply uniform_over; intros ? ?
  | |- uniform _ (over_channels _ _ _) => apply uniform_over; intros ? ?
  | |- uniform _ (flat_map _ _) => apply uniform_flat; intros ?
  | |- uniform _ [] => apply uniform_nil
  | |- uniform _ (if ?b then _ else _) => destruct b
  end; cbv beta zeta).

(** ** From loops to lists of violations *)

Definition numbered_from {A} (k : Z) (l : list A) : list (Z * A) :=
  combine (map (fun i => k + Z.of_nat i) (seq 0 (length l))) l.
Lemma numbered_from_cons {A} k (a : A) l : numbered_from k (a :: l) = (k, a) :: numbered_from (k + 1) l.
Proof.
  unfold numbered_from. cbn [length seq map combine]. f_equal; [f_equal; lia|].
  rewrite <- seq_shift, map_map. f_equal. apply map_ext. intros. lia.
Qed.
Lemma numbered_eq {A} (l : list A) : numbered l = numbered_from 1 l.
Proof. reflexivity. Qed.

Lemma foreach_report {A} (body : A -> check_result -> res check_result) (f : A -> list violation) l r :
  (forall a r, In a l -> body a r = report (f a) r) ->
  foreach l body r = report (flat_map f l) r.
Proof.
  revert r. induction l as [|a l IH]; intros r H; [reflexivity|].
  cbn [foreach flat_map]. rewrite report_app, (H a r) by (left; reflexivity).
  destruct (report (f a) r); try reflexivity. cbn [bind]. apply IH. intros. apply H. right. auto.
Qed.

Lemma foreach_at_report {A} (body : Z -> A -> check_result -> res check_result)
  (f : Z * A -> list violation) l k r :
  (forall k a r, In a l -> body k a r = report (f (k, a)) r) ->
  foreach_at k l body r = report (flat_map f (numbered_from k l)) r.
Proof.
  revert k r. induction l as [|a l IH]; intros k r H; [reflexivity|].
  rewrite numbered_from_cons. cbn [foreach_at flat_map]. rewrite report_app, (H k a r) by (left; reflexivity).
  destruct (report (f (k, a)) r); try reflexivity. cbn [bind]. apply IH. intros. apply H. right. auto.
Qed.

Lemma each_table_report {A} name (body : Z -> A -> check_result -> res check_result)
  (f : string -> A -> list violation) l r :
  (forall k a r, In a l -> body k a r = report (f (at_table name k) a) r) ->
  each_table l body r = report (over_tables name l f) r.
Proof. intros H. unfold each_table, over_tables, over. rewrite numbered_eq. apply foreach_at_report. exact H. Qed.

(** A for loop reading element [i] of a list *)
Lemma for_at_gen {A S} (body : Z -> A -> S -> res S) (l pre : list A) (s : S) :
  for_from (length l) (Z.of_nat (length pre)) (fun i s => a <- get (pre ++ l) i ;; body i a s) s
  = foreach_at (Z.of_nat (length pre)) l body s.
Proof.
  revert pre s. induction l as [|a l IH]; intros pre s; [reflexivity|].
  cbn [length for_from foreach_at]. rewrite get_middle, bind_Ok.
  destruct (body _ a s) as [s'| |]; try reflexivity. cbn [bind].
  specialize (IH (pre ++ [a]) s'). rewrite <- app_assoc in IH. cbn [app] in IH.
  rewrite app_length in IH. cbn [length] in IH.
  replace (Z.of_nat (length pre) + 1) with (Z.of_nat (length pre + 1)) by lia. exact IH.
Qed.
Lemma for_at {A S} n (body : Z -> A -> S -> res S) (l : list A) (s : S) : len_is n l = true ->
  for_ n (fun i s => a <- get l i ;; body i a s) s = foreach_at 0 l body s.
Proof.
  intros H. apply len_is_eq in H. subst n. unfold for_. rewrite Nat2Z.id.
  apply (for_at_gen body l []).
Qed.

Lemma foreach_at_shift {A S} k d (body : Z -> A -> S -> res S) l s :
  foreach_at k l body s = foreach_at (k + d) l (fun i => body (i - d)) s.
Proof.
  revert k s. induction l as [|a l IH]; intros k s; [reflexivity|]. cbn [foreach_at].
  replace (k + d - d) with k by lia. destruct (body k a s); try reflexivity. cbn [bind].
  rewrite IH. f_equal. lia.
Qed.

Lemma for_records_report {A} n place what (body : Z -> A -> check_result -> res check_result)
  (f : string -> A -> list violation) (l : list A) r : len_is n l = true ->
  (forall i a r, In a l -> body i a r = report (f (place ++ what ++ fmt_d (i + 1))%string a) r) ->
  for_ n (fun i r => a <- get l i ;; body i a r) r = report (over place what l f) r.
Proof.
  intros L H. rewrite (for_at n body l r L), (foreach_at_shift 0 1). unfold over. rewrite numbered_eq.
  apply foreach_at_report. intros k a r' Ha. rewrite H by exact Ha. cbn [fst snd].
  replace (k - 1 + 1) with k by lia. reflexivity.
Qed.

Lemma for_ext {S} n (b1 b2 : Z -> S -> res S) s : (forall i s, 0 <= i < n -> b1 i s = b2 i s) ->
  for_ n b1 s = for_ n b2 s.
Proof. intros H. unfold for_. apply for_from_ext. intros i s' Hi. apply H. lia. Qed.
