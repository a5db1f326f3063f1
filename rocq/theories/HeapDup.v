(** Copying whole tables. *)
From Coq Require Import Lia.
From Verif Require Import HeapSpec BaseLemmas HeapProofs.
Open Scope Z_scope.

Lemma Forall2_impl {A B} (P Q : A -> B -> Prop) l m :
  (forall a b, P a b -> Q a b) -> Forall2 P l m -> Forall2 Q l m.
Proof. intros H F. induction F; constructor; auto. Qed.
Lemma Forall2_len {A B} (P : A -> B -> Prop) l m : Forall2 P l m -> List.length l = List.length m.
Proof. intros F. induction F; cbn; congruence. Qed.
Lemma Forall2_in_l {A B} (P : A -> B -> Prop) l m a : Forall2 P l m -> In a l -> exists b, In b m /\ P a b.
Proof.
  intros F. induction F as [|x y l m H F IH]; intros Hi; [contradiction|].
  destruct Hi as [->|Hi]; [exists y; split; [left; reflexivity | exact H]|].
  destruct (IH Hi) as (b & Hb & Hp). exists b. split; [right; exact Hb | exact Hp].
Qed.

Lemma Forall2_uncons {A B} (P : A -> B -> Prop) a l m : Forall2 P (a :: l) m ->
  exists b m', m = b :: m' /\ P a b /\ Forall2 P l m'.
Proof. intros F. inversion F as [|? b ? m' H1 H2]; subst. exists b, m'. repeat split; assumption. Qed.

Section Dup.
Variable malloc : heap -> addr.
Hypothesis Hfresh : fresh malloc.

Lemma dup_arrays_ok count fields p h s n arrs :
  lookup h p = Some [s] -> num s count = Some n -> 0 < n ->
  Forall2 (fun f e => points h s f n e) fields arrs -> NoDup fields ->
  exists p' h' qs,
    dup_arrays malloc count fields p h = Ok (p', h')
    /\ List.length qs = List.length arrs
    /\ NoDup (p' :: qs) /\ (forall q, In q (p' :: qs) -> ~ live h q)
    /\ lookup h' p' = Some [sets s fields qs]
    /\ Forall2 (fun e q => lookup h' q = Some (snd e)) arrs qs
    /\ (forall a, ~ In a (p' :: qs) -> lookup h' a = lookup h a).
Proof.
  intros Hp Hn Hpos Hf Hd. unfold dup_arrays.
  rewrite (memdup_ok malloc h p [s] 1 Hp eq_refl) by lia. cbn [bind fst snd]. cbv zeta. cbv zeta.
  set (p' := malloc h). set (h1 := (p', [s]) :: h).
  assert (Hp' : lookup h p' = None) by apply Hfresh.
  assert (Hne : p <> p') by (intros E; rewrite <- E in Hp'; congruence).
  assert (Hl1 : forall a, a <> p' -> lookup h1 a = lookup h a).
  { intros a Ha. unfold h1. rewrite lookup_cons. destruct (Z.eqb_spec p' a); congruence. }
  assert (Hs1 : lookup h1 p' = Some [s]) by (unfold h1; rewrite lookup_cons, Z.eqb_refl; reflexivity).
  assert (Hp1 : lookup h1 p = Some [s]) by (rewrite Hl1; assumption).
  set (its := map (fun fe => mk_item (fst fe) (fst fe) n (snd fe)) (combine fields arrs)).
  destruct (copy_loop malloc Hfresh
              (fun f h => n <- load_num h p 0 count ;; memdup_field malloc p p' 0 f f n h)
              p p' 0 h1 [] s [] [] [] Hne Hp1 eq_refl) with (cs := fields) (its := its) (h := h1) (ro := s)
    as (h' & qs & F & Fl & Fd & Ff & Fo & Fc & Fa).
  { unfold live. rewrite Hs1. discriminate. } { reflexivity. }
  { unfold its. clear its. induction Hf as [|f e fields arrs H Hf IH]; cbn [combine map]; constructor.
    - intros h2 Hs. cbn [it_dst it_src it_n fst].
      rewrite (load_num_at h2 p s count n); [reflexivity | | exact Hn].
      rewrite Hs; [exact Hp1 | exact Hne | unfold live; rewrite Hp1; discriminate].
    - apply IH. inversion Hd; assumption. }
  { unfold its. clear its Hd. induction Hf as [|f e fields arrs H Hf IH]; cbn [combine map]; constructor; [|exact IH].
    cbn [it_dst it_src it_n it_e fst snd]. destruct H as (A & B & C).
    assert (fst e <> p') by (intros E; rewrite E in B; congruence).
    repeat split; try assumption; [rewrite Hl1; assumption | rewrite A; discriminate]. }
  { intros a _ _. reflexivity. } { exact Hs1. }
  assert (Hlen : List.length its = List.length arrs).
  { unfold its. rewrite map_length, combine_length, (Forall2_len _ _ _ Hf). lia. }
  assert (Hmap : map it_dst its = fields).
  { unfold its. clear - Hf. induction Hf; cbn; [reflexivity|]. f_equal. exact IHHf. }
  change ((p', [s]) :: h) with h1. rewrite F. cbn [bind].
  assert (Hnq : ~ In p' qs) by (intros Hx; apply (Ff _ Hx); unfold live; rewrite Hs1; discriminate).
  exists p', h', qs. split; [reflexivity|]. split; [lia|]. split; [constructor; assumption|].
  split.
  { intros q [<-|Hx] Hl; [exact (Hl Hp')|]. apply (Ff q Hx). unfold live.
    rewrite Hl1 by (intros ->; contradiction). exact Hl. }
  split; [rewrite Fo, Hmap; reflexivity|]. split.
  { clear - Fc Hf. unfold its in Fc. revert qs Fc. induction Hf as [|f e fields arrs H Hf IH]; intros qs Fc.
    - inversion Fc. constructor.
    - cbn [combine map] in Fc. inversion Fc as [|? q ? qs' H1 H2]; subst. constructor; [exact H1 | apply IH, H2]. }
  intros a Ha. rewrite Fa; [apply Hl1 | | ]; intros E; apply Ha; [left; symmetry; exact E | left; symmetry; exact E | right; exact E].
Qed.

(** [set_rows rs fs qss]: each record with its own new pointers *)
Fixpoint set_rows (rs : list struct) (fs : list string) (qss : list (list addr)) : list struct :=
  match rs, qss with
  | r :: rs', qs :: qss' => sets r fs qs :: set_rows rs' fs qss'
  | _, _ => []
  end.

Lemma rows_loop {B} (body : Z -> heap -> res heap) (inner : Z -> B -> heap -> res heap) (cs : list B)
  fs rIn rOut h1 rows :
  rIn <> rOut -> lookup h1 rIn = Some rows -> live h1 rOut ->
  (forall i h, same_but rOut h1 h -> body i h = foreach cs (inner i) h) ->
  forall rest itss done doneIn h,
    rows = doneIn ++ rest -> List.length done = List.length doneIn ->
    Forall2 (fun r its =>
      map it_dst its = fs
      /\ Forall2 (fun c it => forall i h, same_but rOut h1 h ->
           inner i c h = memdup_field malloc rIn rOut i (it_dst it) (it_src it) (it_n it) h) cs its
      /\ Forall (fun it => points h1 r (it_src it) (it_n it) (it_e it) /\ 0 < it_n it
                      /\ fst (it_e it) <> rOut /\ getf r (it_dst it) <> None) its) rest itss ->
    same_but rOut h1 h -> lookup h rOut = Some (done ++ rest) ->
    exists h' qss,
      for_from (List.length rest) (Z.of_nat (List.length done)) body h = Ok h'
      /\ Forall2 (fun its qs => List.length qs = List.length its
                   /\ Forall2 (fun it q => lookup h' q = Some (snd (it_e it))) its qs) itss qss
      /\ NoDup (concat qss) /\ (forall q, In q (concat qss) -> ~ live h q)
      /\ lookup h' rOut = Some (done ++ set_rows rest fs qss)
      /\ (forall a, a <> rOut -> ~ In a (concat qss) -> lookup h' a = lookup h a).
Proof.
  intros Hne Hin Hout Hbody rest. induction rest as [|r rest IH]; intros itss done doneIn h Hr Hl Hit Hs Hp.
  - inversion Hit; subst. exists h, []. cbn. repeat split; try constructor; try exact Hp; intros; contradiction.
  - destruct (Forall2_uncons _ _ _ _ Hit) as (its & itss' & -> & (H1 & H2 & H3) & Hit'). clear Hit.
    assert (Hl1 : forall a, live h1 a -> live h a).
    { intros a Ha. destruct (Z.eq_dec a rOut) as [->|Hn].
      - unfold live. rewrite Hp. discriminate.
      - unfold live. rewrite (Hs a Hn Ha). exact Ha. }
    assert (Hc : forall h2, same_but rOut h h2 -> same_but rOut h1 h2).
    { intros h2 Hsb a Ha Hla. rewrite Hsb; [apply Hs; assumption | exact Ha | apply Hl1, Hla]. }
    destruct (copy_loop malloc Hfresh (inner (Z.of_nat (List.length done))) rIn rOut
                (Z.of_nat (List.length done)) h doneIn r rest done rest Hne) with (cs := cs) (its := its) (h := h) (ro := r)
      as (h2 & qs & F & Fl & Fd & Ff & Fo & Fc & Fa).
    { rewrite Hs; [rewrite Hin, Hr; reflexivity | exact Hne | unfold live; rewrite Hin; discriminate]. }
    { congruence. } { apply Hl1, Hout. } { reflexivity. }
    { eapply Forall2_impl; [|exact H2]. intros c it H h3 Hs3. apply H, Hc, Hs3. }
    { eapply Forall_impl; [|exact H3]. intros it ((P1 & P2 & P3) & A & B' & C).
      repeat split; try assumption. rewrite Hs; [exact P2 | exact B' | unfold live; rewrite P2; discriminate]. }
    { intros a _ _. reflexivity. } { exact Hp. }
    assert (Hs2 : same_but rOut h1 h2).
    { apply Hc. intros a Ha Hla. apply Fa; [exact Ha|]. intros Hx. exact (Ff a Hx Hla). }
    destruct (IH itss' (done ++ [sets r fs qs]) (doneIn ++ [r]) h2) as (h' & qss & G & Gl & Gd & Gf & Go & Ga).
    { rewrite <- app_assoc. exact Hr. } { rewrite !app_length. cbn. lia. } { exact Hit'. } { exact Hs2. }
    { rewrite Fo, H1, <- app_assoc. reflexivity. }
    exists h', (qs :: qss). cbn [for_from List.length]. rewrite Hbody by exact Hs. rewrite F. cbn [bind].
    assert (Elen : Z.of_nat (List.length (done ++ [sets r fs qs])) = Z.of_nat (List.length done) + 1)
      by (rewrite app_length; cbn; lia).
    rewrite <- Elen. split; [exact G|].
    assert (Hqr : forall q, In q qs -> q <> rOut).
    { intros q Hq ->. apply (Ff _ Hq). unfold live. rewrite Hp. discriminate. }
    assert (Hq2 : forall q, In q qs -> live h2 q).
    { intros q Hq. clear - Fc Hq Fl. induction Fc as [|it q0 its qs H Fc IH]; [contradiction|].
      destruct Hq as [->|Hq]; [unfold live; rewrite H; discriminate|]. apply IH; [cbn in Fl; lia | exact Hq]. }
    assert (Hdis : forall q, In q qs -> ~ In q (concat qss)).
    { intros q Hq Hx. exact (Gf q Hx (Hq2 q Hq)). }
    split.
    { constructor; [|exact Gl]. split; [exact Fl|].
      clear - Fc Ga Hqr Hdis. induction Fc as [|it q its qs H Fc IH]; constructor.
      - rewrite Ga; [exact H | apply Hqr; left; reflexivity | apply Hdis; left; reflexivity].
      - apply IH; intros x Hx; [apply Hqr | apply Hdis]; right; exact Hx. }
    cbn [concat]. split.
    { clear - Fd Gd Hdis. induction Fd as [|q qs Hn Fd IH]; [exact Gd|]. cbn [app]. constructor.
      - rewrite in_app_iff. intros [H|H]; [contradiction|]. apply (Hdis q); [left; reflexivity | exact H].
      - apply IH. intros x Hx. apply Hdis. right. exact Hx. }
    split.
    { intros q Hq. apply in_app_iff in Hq. destruct Hq as [Hq|Hq]; [apply Ff, Hq|].
      intros Hlv. apply (Gf q Hq). unfold live.
      destruct (Z.eq_dec q rOut) as [->|Hn]; [rewrite Fo; discriminate|].
      rewrite Fa; [exact Hlv | exact Hn |]. intros Hx. exact (Hdis q Hx Hq). }
    split; [rewrite Go; cbn [set_rows]; rewrite <- app_assoc; reflexivity|].
    intros a Ha Hx. rewrite in_app_iff in Hx. rewrite Ga; [|exact Ha | tauto]. apply Fa; [exact Ha | tauto].
Qed.
End Dup.
