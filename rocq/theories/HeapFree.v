(** Freeing tables and datasets. *)
From Coq Require Import Lia Permutation.
From Verif Require Import HeapSpec BaseLemmas HeapProofs HeapDup HeapTables.
Open Scope Z_scope.

(** [h'] is [h] without the blocks [l] *)
Definition without (h h' : heap) (l : list addr) : Prop :=
  (forall a, In a l -> ~ live h' a) /\ (forall a, ~ In a l -> lookup h' a = lookup h a).

Lemma without_nil h : without h h [].
Proof. split; [intros a [] | reflexivity]. Qed.
Lemma without_app h h1 h2 l m : without h h1 l -> without h1 h2 m -> without h h2 (l ++ m).
Proof.
  intros [A1 A2] [B1 B2]. split.
  - intros a Hi. apply in_app_iff in Hi. destruct (in_dec Z.eq_dec a m) as [Hm|Hm]; [apply B1, Hm|].
    destruct Hi as [Hi|Hi]; [|contradiction]. unfold live. rewrite B2 by exact Hm. apply A1, Hi.
  - intros a Hn. rewrite B2, A2; [reflexivity | |]; intros H; apply Hn, in_app_iff; tauto.
Qed.
Lemma without_perm h h' l m : (forall a, In a l <-> In a m) -> without h h' l -> without h h' m.
Proof. intros H [A B]. split; intros a Ha; [apply A, H, Ha | apply B; rewrite H; exact Ha]. Qed.

Lemma free_one h a : live h a -> exists h', free h (Some a) = Ok h' /\ without h h' [a].
Proof.
  intros Hl. unfold free. unfold live in Hl. destruct (lookup h a) eqn:E; [|contradiction].
  eexists. split; [reflexivity|]. split.
  - intros x [<-|[]]. unfold live. rewrite lookup_remove, Z.eqb_refl. congruence.
  - intros x Hx. rewrite lookup_remove. destruct (Z.eqb_spec a x); [|reflexivity].
    exfalso. apply Hx. left. assumption.
Qed.

(** free() of the fields of one struct, here [p[i]] *)
Lemma free_loop (body : string -> heap -> res heap) p i h0 l1 r l2 :
  lookup h0 p = Some (l1 ++ r :: l2) -> i = Z.of_nat (List.length l1) ->
  forall fs (es : list (addr * block)) h,
    (forall f h, (forall a, live h0 a -> ~ In a (map fst es) -> lookup h a = lookup h0 a) ->
                 body f h = free_field p i f h) ->
    forall fs' es' done,
    es = done ++ es' -> incl fs' fs ->
    Forall2 (fun f e => getf r f = Some (Ptr (Some (fst e))) /\ live h0 (fst e)) fs' es' ->
    ~ In p (map fst es) -> NoDup (map fst es) -> without h0 h (map fst done) ->
    exists h', foreach fs' body h = Ok h' /\ without h0 h' (map fst es).
Proof.
  intros Hp Hi fs es h Hb fs' es' done He _ Hf. revert h done He.
  induction Hf as [|f e fs' es' (F1 & F2) Hf IH]; intros h done He Hnp Hnd Hw.
  - exists h. split; [reflexivity|]. rewrite He, app_nil_r. exact Hw.
  - assert (Hin : ~ In (fst e) (map fst done)).
    { rewrite He, map_app in Hnd. cbn [map] in Hnd. apply NoDup_remove_2 in Hnd.
      intros Hx. apply Hnd, in_app_iff. left. exact Hx. }
    assert (Hsub : forall a, ~ In a (map fst es) -> ~ In a (map fst done)).
    { intros a Ha Hx. apply Ha. rewrite He, map_app, in_app_iff. left. exact Hx. }
    destruct Hw as [W1 W2].
    assert (Hp' : lookup h p = Some (l1 ++ r :: l2)) by (rewrite W2; [exact Hp | apply Hsub, Hnp]).
    destruct (free_one h (fst e)) as (h1 & E1 & V).
    { unfold live. rewrite W2; assumption. }
    destruct (IH h1 (done ++ [e])) as (h' & E2 & W).
    { rewrite He, <- app_assoc. reflexivity. } { exact Hnp. } { exact Hnd. }
    { rewrite map_app. cbn [map]. eapply without_app; [split; [exact W1 | exact W2] | exact V]. }
    exists h'. cbn [foreach]. rewrite Hb by (intros a _ Ha; apply W2, Hsub, Ha).
    unfold free_field. rewrite (load_ptr_at _ _ _ _ _ _ _ _ Hp' Hi F1). cbn [bind]. rewrite E1. cbn [bind].
    split; [exact E2 | exact W].
Qed.

Lemma points_live h s f n e : points h s f n e -> live h (fst e).
Proof. intros (_ & H & _). unfold live. rewrite H. discriminate. Qed.

Lemma free_flat_frees count fields : frees (flat count fields) (free_arrays fields).
Proof.
  intros h p s n vs arrs vecs [Hs Hn Hk Ha Hv Hu].
  cbn [flat sh_count sh_arrays sh_vectors] in *. injection Hk as <-.
  assert (Hvn : concat vecs = []).
  { clear - Hv. induction Hv as [|r es rs vecs H Hv IH]; [reflexivity|]. inversion H; subst. exact IH. }
  unfold storage in *. rewrite Hvn, app_nil_r in *. inversion Hu as [|? ? Hnp Hnd]; subst.
  destruct (free_loop (fun f h => free_field p 0 f h) p 0 h [] s [] Hs eq_refl fields arrs h) with
    (fs' := fields) (es' := arrs) (done := @nil (addr * block)) as (h' & E & W); try assumption.
  - reflexivity.
  - reflexivity.
  - apply incl_refl.
  - eapply Forall2_impl; [|exact Ha]. intros f e H. split; [apply H | eapply points_live, H].
  - apply without_nil.
  - exists h'. split; [exact E | exact W].
Qed.

Lemma free_rows vs fs (body : Z -> heap -> res heap) (inner : Z -> string -> heap -> res heap) rq rows h0 p :
  fs = map fst vs -> lookup h0 rq = Some rows -> live h0 p ->
  forall rest vecs doneR h,
    rows = doneR ++ rest ->
    Forall2 (fun r es => Forall2 (fun v e => points h0 r (fst v) (snd v) e) vs es) rest vecs ->
    NoDup (p :: rq :: map fst (concat vecs)) ->
    (forall i h, lookup h p = lookup h0 p -> body i h = foreach fs (inner i) h) ->
    (forall i f h, lookup h p = lookup h0 p -> inner i f h = free_field rq i f h) ->
    (forall a, a = p \/ a = rq \/ In a (map fst (concat vecs)) -> lookup h a = lookup h0 a) ->
    exists h', for_from (List.length rest) (Z.of_nat (List.length doneR)) body h = Ok h'
      /\ without h h' (map fst (concat vecs)).
Proof.
  intros -> Hrq Hlp rest. induction rest as [|r rest IH]; intros vecs doneR h Hr Hv Hnd Hbody Hinner Heq.
  - inversion Hv; subst. exists h. split; [reflexivity | apply without_nil].
  - destruct (Forall2_uncons _ _ _ _ Hv) as (es & vecs' & -> & Hes & Hv'). clear Hv.
    cbn [concat] in *. rewrite map_app in *.
    inversion Hnd as [|? ? Np Hnd1]; subst. inversion Hnd1 as [|? ? Nr Hnd2]; subst.
    assert (Hpe : ~ In p (map fst es)) by (intros X; apply Np; right; apply in_app_iff; left; exact X).
    assert (Hre : ~ In rq (map fst es)) by (intros X; apply Nr; apply in_app_iff; left; exact X).
    assert (Hdis : forall a, In a (map fst (concat vecs')) -> ~ In a (map fst es)).
    { intros a Ha Hx. clear - Hnd2 Ha Hx. induction (map fst es) as [|y l IH]; [contradiction|].
      inversion Hnd2 as [|? ? N1 N2]; subst. destruct Hx as [->|Hx]; [|apply IH; assumption].
      apply N1, in_app_iff. right. exact Ha. }
    destruct (free_loop (inner (Z.of_nat (List.length doneR))) rq (Z.of_nat (List.length doneR)) h doneR r rest) with
      (fs := map fst vs) (es := es) (h := h) (fs' := map fst vs) (es' := es) (done := @nil (addr * block))
      as (h1 & E1 & W1).
    { rewrite Heq by tauto. exact Hrq. } { reflexivity. }
    { intros f h2 H2. apply Hinner. rewrite H2; [apply Heq; tauto | | exact Hpe].
      unfold live. rewrite Heq by tauto. exact Hlp. }
    { reflexivity. } { apply incl_refl. }
    { assert (Hle : forall e, In e es -> lookup h (fst e) = lookup h0 (fst e)).
      { intros e He. apply Heq. right. right. apply in_app_iff. left. apply in_map, He. }
      clear - Hes Hle. induction Hes as [|v e vs es H Hes IH]; cbn [map]; constructor.
      - split; [apply H|]. unfold live. rewrite Hle by (left; reflexivity). eapply points_live, H.
      - apply IH. intros e' He'. apply Hle. right. exact He'. }
    { exact Hre. }
    { clear - Hnd2. induction (map fst es) as [|y l IH]; [constructor|]. inversion Hnd2 as [|? ? N1 N2]; subst.
      constructor; [intros X; apply N1, in_app_iff; left; exact X | apply IH, N2]. }
    { apply without_nil. }
    destruct (IH vecs' (doneR ++ [r]) h1) as (h' & E2 & W2).
    { rewrite <- app_assoc. reflexivity. } { exact Hv'. }
    { constructor; [|constructor].
      - intros [X|X]; apply Np; [left; exact X | right; apply in_app_iff; right; exact X].
      - intros X. apply Nr, in_app_iff. right. exact X.
      - clear - Hnd2. induction (map fst es) as [|y l IH]; [exact Hnd2|]. apply IH. inversion Hnd2; assumption. }
    { exact Hbody. } { exact Hinner. }
    { intros a Ha. destruct W1 as [_ W1]. rewrite W1.
      - apply Heq. rewrite in_app_iff. tauto.
      - destruct Ha as [->|[->|Ha]]; [exact Hpe | exact Hre | apply Hdis, Ha]. }
    exists h'. cbn [for_from List.length]. rewrite Hbody by (apply Heq; tauto). rewrite E1. cbn [bind].
    replace (Z.of_nat (List.length doneR) + 1) with (Z.of_nat (List.length (doneR ++ [r])))
      by (rewrite app_length; cbn; lia).
    split; [exact E2|]. eapply without_app; eassumption.
Qed.

Lemma free_records_frees vectors (flds : heap -> addr -> res (list string)) :
  (forall s vs, vectors s = Some vs -> forall h p, lookup h p = Some [s] -> flds h p = Ok (map fst vs)) ->
  frees (records vectors) (free_records flds).
Proof.
  intros Hfl h p s n vs arrs vecs [Hs Hn Hk Ha Hv Hu].
  cbn [records sh_count sh_arrays sh_vectors] in *.
  destruct (Forall2_uncons _ _ _ _ Ha) as ([rq rows] & arrs0 & -> & (A1 & A2 & A3) & A4).
  inversion A4; subst arrs0. clear A4 Ha. cbn [fst snd] in A1, A2, A3.
  cbn [flat_map snd] in Hv. rewrite app_nil_r in Hv. unfold storage in *. cbn [map fst app] in *.
  unfold free_records. rewrite (load_num_at h p s "numrec" n Hs Hn). cbn [bind].
  match goal with |- context [for_ n ?b h] => set (body := b) end.
  destruct (free_rows vs (map fst vs) body
    (fun i f h => q <- load_ptr h p 0 "record" ;; r <- deref q ;; free_field r i f h) rq rows h p) with
    (rest := rows) (vecs := vecs) (doneR := @nil struct) (h := h) as (h1 & E & W); try assumption; try reflexivity.
  { unfold live. rewrite Hs. discriminate. }
  { intros i h2 H2. unfold body. rewrite (Hfl s vs Hk h2 p) by (rewrite H2; exact Hs). reflexivity. }
  { intros i f h2 H2. rewrite Hs in H2. rewrite (load_ptr_at h2 p [] s [] 0 "record" (Some rq) H2 eq_refl A1). reflexivity. }
  assert (En : for_ n body h = Ok h1) by (unfold for_; rewrite <- A3, Nat2Z.id; exact E).
  rewrite En. cbn [bind]. inversion Hu as [|? ? Np Hu1]; subst. inversion Hu1 as [|? ? Nr _]; subst.
  destruct W as [W1 W2].
  assert (Hp1 : lookup h1 p = Some [s]) by (rewrite W2; [exact Hs | intros X; apply Np; right; exact X]).
  unfold free_field. rewrite (load_ptr_at h1 p [] s [] 0 "record" (Some rq) Hp1 eq_refl A1). cbn [bind].
  destruct (free_one h1 rq) as (h2 & E2 & V).
  { unfold live. rewrite W2, A2; [discriminate | exact Nr]. }
  exists h2. split; [exact E2|].
  eapply without_perm; [|eapply without_app; [split; [exact W1 | exact W2] | exact V]].
  intros a. rewrite in_app_iff. cbn. tauto.
Qed.

(** ** What a table is depends only on its own storage *)

Lemma table_at_frame T h h' p s n vs arrs vecs :
  table_at T h p s n vs arrs vecs ->
  (forall a, In a (p :: storage arrs vecs) -> lookup h' a = lookup h a) ->
  table_at T h' p s n vs arrs vecs.
Proof.
  intros [Hs Hn Hk Ha Hv Hu] Heq. constructor; try assumption.
  - rewrite Heq by (left; reflexivity). exact Hs.
  - assert (H : forall e, In e arrs -> lookup h' (fst e) = lookup h (fst e)).
    { intros e He. apply Heq. right. apply in_app_iff. left. apply in_map, He. }
    clear - Ha H. induction Ha as [|f e fs arrs (A & B & C) Ha IH]; constructor.
    + repeat split; try assumption. rewrite H by (left; reflexivity). exact B.
    + apply IH. intros e' He'. apply H. right. exact He'.
  - assert (H : forall es e, In es vecs -> In e es -> lookup h' (fst e) = lookup h (fst e)).
    { intros es e Hes He. apply Heq. right. apply in_app_iff. right. apply in_map, in_concat. exists es. tauto. }
    clear - Hv H. induction Hv as [|r es rs vecs Hes Hv IH]; constructor.
    + assert (H' : forall e, In e es -> lookup h' (fst e) = lookup h (fst e)) by (intros e; apply (H es e); left; reflexivity).
      clear - Hes H'. induction Hes as [|v e vs es (A & B & C) Hes IH]; constructor.
      * repeat split; try assumption. rewrite H' by (left; reflexivity). exact B.
      * apply IH. intros e' He'. apply H'. right. exact He'.
    + apply IH. intros es' e Hes' He. apply (H es' e); [right; exact Hes' | exact He].
Qed.

Lemma owned_frame T h h' p bs : owned T h p bs ->
  (forall a, In a (p :: bs) -> lookup h' a = lookup h a) -> owned T h' p bs.
Proof.
  intros (s & n & vs & arrs & vecs & H & ->) Heq. exists s, n, vs, arrs, vecs. split; [|reflexivity].
  eapply table_at_frame; eassumption.
Qed.
Lemma owned_live T h p bs : owned T h p bs -> live h p.
Proof. intros (s & n & vs & arrs & vecs & H & _). unfold live. rewrite (ta_struct _ _ _ _ _ _ _ _ H). discriminate. Qed.

(** ** Datasets *)

Definition all_blocks (l : list addr) (bss : list (list addr)) : list addr := l ++ concat bss.

Lemma free_list_ok T fr : frees T fr ->
  forall l bss h, Forall2 (owned T h) l bss -> NoDup (l ++ concat bss) ->
  exists h', free_list fr l h = Ok h' /\ without h h' (l ++ concat bss).
Proof.
  intros Hfr l. induction l as [|p l IH]; intros bss h Ho Hnd.
  - inversion Ho; subst. exists h. split; [reflexivity | apply without_nil].
  - destruct (Forall2_uncons _ _ _ _ Ho) as (bs & bss' & -> & (s & n & vs & arrs & vecs & Ht & Hbs) & Ho'). clear Ho.
    destruct (Hfr h p s n vs arrs vecs Ht) as (h1 & E1 & W1). rewrite <- Hbs in W1.
    assert (Nb : ~ In p bs).
    { rewrite Hbs. pose proof (ta_distinct _ _ _ _ _ _ _ _ Ht) as X. inversion X; assumption. }
    destruct (free_one h1 p) as (h2 & E2 & V).
    { unfold live. rewrite (proj2 W1) by exact Nb. rewrite (ta_struct _ _ _ _ _ _ _ _ Ht). discriminate. }
    assert (W : without h h2 (bs ++ [p])) by (eapply without_app; eassumption).
    cbn [concat app] in Hnd.
    assert (Hdis : forall a, In a (l ++ concat bss') -> ~ In a (bs ++ [p])).
    { inversion Hnd as [|? ? Np Hnd1]; subst x l0. intros a Ha Hx. apply in_app_iff in Hx.
      assert (Hpm : Permutation (l ++ bs ++ concat bss') (bs ++ l ++ concat bss')).
      { rewrite !app_assoc. apply Permutation_app_tail, Permutation_app_comm. }
      destruct Hx as [Hx|[<-|[]]].
      - pose proof (Permutation_NoDup Hpm Hnd1) as Hn. clear - Hn Hx Ha. induction bs as [|y bs IH]; [contradiction|].
        cbn [app] in Hn. inversion Hn as [|? ? N1 N2]; subst. destruct Hx as [->|Hx]; [|apply IH; assumption].
        apply N1, in_app_iff. right. exact Ha.
      - apply Np. rewrite !in_app_iff in *. tauto. }
    destruct (IH bss' h2) as (h' & E3 & W3).
    { assert (Hfr2 : forall q qs, In q l -> In qs bss' -> owned T h q qs -> owned T h2 q qs).
      { intros q qs Hq Hqs Hoq. eapply owned_frame; [exact Hoq|]. intros a Ha. apply W, Hdis, in_app_iff.
        destruct Ha as [<-|Ha]; [left; exact Hq | right; apply in_concat; exists qs; tauto]. }
      clear - Ho' Hfr2. induction Ho' as [|q qs l bss H Ho IH]; constructor.
      - apply Hfr2; [left; reflexivity | left; reflexivity | exact H].
      - apply IH. intros q' qs' Hq Hqs. apply Hfr2; right; assumption. }
    { inversion Hnd as [|? ? _ Hnd1]; subst x l0. clear - Hnd1.
      assert (Hpm : Permutation (l ++ bs ++ concat bss') (bs ++ l ++ concat bss')).
      { rewrite !app_assoc. apply Permutation_app_tail, Permutation_app_comm. }
      pose proof (Permutation_NoDup Hpm Hnd1) as Hn. clear - Hn. induction bs as [|y bs IH]; [exact Hn|].
      apply IH. inversion Hn; assumption. }
    exists h'. unfold free_list in *. cbn [foreach]. rewrite E1. cbn [bind]. rewrite E2. cbn [bind].
    split; [exact E3|]. eapply without_perm; [|eapply without_app; [exact W | exact W3]].
    intros a. cbn [concat app]. rewrite !in_app_iff. cbn. rewrite !in_app_iff. tauto.
Qed.
