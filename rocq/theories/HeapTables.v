(** Copies of tables are equal and separate, for both kinds of tables. *)
From Coq Require Import Lia.
From Verif Require Import HeapSpec BaseLemmas HeapProofs HeapDup.
Open Scope Z_scope.

Lemma NoDup_app_intro {A} (l m : list A) : NoDup l -> NoDup m -> (forall x, In x l -> ~ In x m) -> NoDup (l ++ m).
Proof.
  intros Hl Hm Hd. induction Hl as [|x l Hn Hl IH]; [exact Hm|]. cbn [app]. constructor.
  - rewrite in_app_iff. intros [H|H]; [contradiction|]. apply (Hd x); [left; reflexivity | exact H].
  - apply IH. intros y Hy. apply Hd. right. exact Hy.
Qed.

Lemma num_setf s f g q : num (setf s f (Ptr q)) g = if str_eqb f g then None else num s g.
Proof.
  unfold num. rewrite getf_setf. destruct (str_eqb f g); [|reflexivity]. destruct (getf s g); reflexivity.
Qed.
Lemma num_sets fs : forall s qs g, ~ In g fs -> num (sets s fs qs) g = num s g.
Proof. intros s qs g H. unfold num. rewrite getf_sets_other by exact H. reflexivity. Qed.

Lemma map_fst_combine {A B} (l : list A) : forall (m : list B), List.length l = List.length m -> map fst (combine l m) = l.
Proof. induction l as [|a l IH]; intros [|b m] H; try discriminate; [reflexivity|]. cbn in *. f_equal. apply IH. lia. Qed.
Lemma map_snd_combine {A B} (l : list A) : forall (m : list B), List.length l = List.length m -> map snd (combine l m) = m.
Proof. induction l as [|a l IH]; intros [|b m] H; try discriminate; [reflexivity|]. cbn in *. f_equal. apply IH. lia. Qed.

(** the new blocks are exactly those given *)
Lemma newly h h' (l : list addr) :
  (forall q, In q l -> ~ live h q) -> (forall q, In q l -> live h' q) ->
  (forall a, ~ In a l -> lookup h' a = lookup h a) ->
  forall a, In a l <-> (~ live h a /\ live h' a).
Proof.
  intros H1 H2 H3 a. split; [intros H; split; [apply H1 | apply H2]; exact H|].
  intros [Ha Hb]. destruct (in_dec Z.eq_dec a l) as [H|H]; [exact H|].
  exfalso. apply Ha. unfold live. rewrite <- (H3 a H). exact Hb.
Qed.

Lemma dup_flat_copies count fields :
  NoDup fields -> ~ In count fields ->
  copies (flat count fields) [] (fun malloc => dup_arrays malloc count fields).
Proof.
  intros Hd Hc malloc h p s n vs arrs vecs Hf [Hs Hn Hk Ha Hv Hu] Hpos _.
  cbn [flat sh_count sh_arrays sh_vectors] in *. injection Hk as <-.
  destruct (dup_arrays_ok malloc Hf count fields p h s n arrs Hs Hn Hpos Ha Hd)
    as (p' & h' & qs & E & L & D & N & S & F & O).
  assert (Hvn : concat vecs = []).
  { clear - Hv. induction Hv as [|r es rs vecs H Hv IH]; [reflexivity|]. inversion H; subst. exact IH. }
  pose (arrs' := combine qs (map snd arrs)).
  assert (Hlen : List.length qs = List.length (map snd arrs)) by (rewrite map_length; exact L).
  assert (Hfst : map fst arrs' = qs) by (apply map_fst_combine, Hlen).
  assert (Hsnd : map snd arrs' = map snd arrs) by (apply map_snd_combine, Hlen).
  assert (Hst : storage arrs' vecs = qs) by (unfold storage; rewrite Hvn, Hfst; apply app_nil_r).
  assert (Hlive : forall q, In q (p' :: qs) -> live h' q).
  { intros q [<-|Hq]; [unfold live; rewrite S; discriminate|].
    clear - F Hq. induction F as [|e q0 arrs qs H F IH]; [contradiction|].
    destruct Hq as [->|Hq]; [unfold live; rewrite H; discriminate | apply IH, Hq]. }
  exists p', h', (sets s fields qs), arrs', vecs. split; [exact E|]. split.
  { constructor; cbn [flat sh_count sh_arrays sh_vectors].
    - exact S.
    - rewrite num_sets by exact Hc. exact Hn.
    - reflexivity.
    - assert (G : Forall2 (fun f q => getf (sets s fields qs) f = Some (Ptr (Some q))) fields qs).
      { apply getf_sets; [exact Hd | | rewrite L; symmetry; apply (Forall2_len _ _ _ Ha)].
        intros f Hi. destruct (Forall2_in_l _ _ _ _ Ha Hi) as (e & _ & G & _). rewrite G. discriminate. }
      clear Hfst Hsnd Hst. unfold arrs'. clear arrs'. clear - Ha F G. revert G. generalize (sets s fields qs) as s'. intros s' G.
      revert qs F G. induction Ha as [|f e fields arrs (A & B & C) Ha IH]; intros qs F G.
      + inversion G; subst. constructor.
      + destruct (Forall2_uncons _ _ _ _ F) as (q & qs' & -> & F1 & F2).
        destruct (Forall2_uncons _ _ _ _ G) as (q1 & qs1 & E1 & G1 & G2). injection E1 as <- <-.
        cbn [map combine]. constructor; [|apply IH; assumption].
        repeat split; cbn [fst snd]; assumption.
    - replace (flat_map snd arrs') with (flat_map snd arrs).
      + eapply Forall2_impl; [|exact Hv]. intros r [|e0 es] H; [constructor | inversion H].
      + rewrite !flat_map_concat_map. f_equal. symmetry. exact Hsnd.
    - rewrite Hst. exact D. }
  split.
  { repeat split.
    - apply erase_sets, incl_refl.
    - rewrite <- (map_map snd (map (erase (map fst []))) arrs'), <- (map_map snd (map (erase (map fst []))) arrs).
      f_equal. exact Hsnd. }
  rewrite Hst. split.
  - intros a Hla. apply O. intros Hi. exact (N a Hi Hla).
  - apply newly; assumption.
Qed.

(** ** Tables of records *)

Section Items.
Variables (except : list string) (w : Z) (h : heap) (rOut : addr).

Definition call_for (vs : list (string * Z)) (c : copy) (v : string * Z) : Prop :=
  fst (fst c) = fst v /\ In (snd (fst c), snd v) vs /\ (if snd c then w * w else w) = snd v
  /\ (fst (fst c) = snd (fst c) \/ In (fst (fst c)) except).

Lemma items_exist (r : struct) (vs : list (string * Z)) (es : list (addr * block)) :
  Forall2 (fun v e => points h r (fst v) (snd v) e) vs es ->
  Forall (fun v => 0 < snd v) vs -> (forall e, In e es -> fst e <> rOut) ->
  forall cs vs' es',
    Forall2 (call_for vs) cs vs' -> Forall2 (fun v e => points h r (fst v) (snd v) e) vs' es' ->
    Forall (fun v => 0 < snd v) vs' ->
    exists its,
      map it_dst its = map fst vs'
      /\ Forall2 (fun v it => it_n it = snd v /\ Z.of_nat (List.length (snd (it_e it))) = snd v) vs' its
      /\ Forall2 (fun (c : copy) it => it_dst it = fst (fst c) /\ it_src it = snd (fst c)
                              /\ it_n it = if snd c then w * w else w) cs its
      /\ Forall (fun it => points h r (it_src it) (it_n it) (it_e it) /\ 0 < it_n it
                      /\ fst (it_e it) <> rOut /\ getf r (it_dst it) <> None) its
      /\ named except vs' (map it_e its) = named except vs' es'.
Proof.
  intros Hp Hpos Hr cs vs' es' Hc. revert es'.
  induction Hc as [|c v cs vs' (C1 & C2 & C3 & C4) Hc IH]; intros es' He Hw.
  - inversion He; subst. exists []. repeat split; constructor.
  - destruct (Forall2_uncons _ _ _ _ He) as (e & es1 & -> & He1 & He2).
    destruct (IH es1 He2 (Forall_inv_tail Hw)) as (its & I1 & I2 & I3 & I4 & I5).
    destruct (Forall2_in_l _ _ _ _ Hp C2) as (e0 & Hin & Hpt). cbn [fst snd] in Hpt.
    exists (mk_item (fst v) (snd (fst c)) (snd v) e0 :: its).
    split; [cbn; f_equal; exact I1|].
    split; [constructor; [split; [reflexivity | apply Hpt] | exact I2]|].
    split; [constructor; [|exact I3]; cbn; rewrite C1, C3; repeat split|].
    split.
    { constructor; [|exact I4]. cbn. repeat split; try apply Hpt.
      - apply (Forall_inv Hw).
      - apply Hr, Hin.
      - destruct He1 as (G & _). rewrite G. discriminate. }
    unfold named in *. cbn [map combine filter fst it_e].
    destruct C4 as [C4|C4].
    + assert (snd e0 = snd e) as ->.
      { destruct Hpt as (P1 & P2 & _), He1 as (Q1 & Q2 & _). rewrite <- C4, C1 in P1.
        rewrite P1 in Q1. injection Q1 as Q1. rewrite Q1 in P2. congruence. }
      rewrite I5. reflexivity.
    + rewrite C1 in C4.
      assert (X : existsb (str_eqb (fst v)) except = true).
      { apply existsb_exists. exists (fst v). split; [exact C4 | apply str_eqb_refl]. }
      rewrite X. cbn [negb]. exact I5.
Qed.
End Items.

Definition vectors_of (its : list item) : list block := map (fun it => snd (it_e it)) its.

Lemma set_rows_erase fs rs : forall qss, List.length qss = List.length rs ->
  map (erase fs) (set_rows rs fs qss) = map (erase fs) rs.
Proof.
  induction rs as [|r rs IH]; intros [|qs qss] H; try discriminate; [reflexivity|].
  cbn [set_rows map]. rewrite IH by (cbn in H; lia). f_equal. apply erase_sets, incl_refl.
Qed.
Lemma set_rows_length fs rs : forall qss, List.length qss = List.length rs ->
  List.length (set_rows rs fs qss) = List.length rs.
Proof. induction rs as [|r rs IH]; intros [|qs qss] H; try discriminate; [reflexivity|]. cbn in *. f_equal. apply IH. lia. Qed.

Lemma str_neq_in (f : string) (l : list string) : ~ In f l -> forall g, In g l -> f <> g.
Proof. intros H g Hg ->. contradiction. Qed.

Lemma dup_records_copies vectors except
  (cps : heap -> addr -> res (list copy)) :
  (forall s q, vectors (setf s "record" (Ptr q)) = vectors s) ->
  (forall s vs, vectors s = Some vs -> NoDup (map fst vs) /\
     exists cs w, num s "nwave" = Some w /\ Forall2 (call_for except w vs) cs vs
       /\ forall h p, lookup h p = Some [s] -> cps h p = Ok cs) ->
  copies (records vectors) except (fun malloc => dup_records malloc cps).
Proof.
  intros Hvec Hcps malloc h p s n vs arrs vecs Hf [Hs Hn Hk Ha Hv Hu] Hpos Hvpos.
  cbn [records sh_count sh_arrays sh_vectors] in *.
  destruct (Hcps s vs Hk) as (Hdv & cs & w & Hw & Hcs & Hcp).
  assert (Hd1 : NoDup ["record"%string]) by (constructor; [intros [] | constructor]).
  destruct (dup_arrays_ok malloc Hf "numrec" ["record"%string] p h s n arrs Hs Hn Hpos Ha Hd1)
    as (p' & h1 & qs & E & L & D & N & S & F & O).
  destruct (Forall2_uncons _ _ _ _ Ha) as ([rIn rows] & arrs0 & -> & (A1 & A2 & A3) & A4).
  inversion A4; subst arrs0. clear A4. cbn [fst snd] in A1, A2, A3.
  destruct qs as [|rOut [|? ?]]; try discriminate. clear L.
  destruct (Forall2_uncons _ _ _ _ F) as (x & l & EF & Frow & _). injection EF as <- <-. cbn [snd] in Frow. clear F.
  cbn [flat_map snd] in Hv. rewrite app_nil_r in Hv.
  set (s1 := sets s ["record"%string] [rOut]) in *.
  assert (Hlp : live h p) by (unfold live; rewrite Hs; discriminate).
  assert (HlrIn : live h rIn) by (unfold live; rewrite A2; discriminate).
  assert (Hold : forall a, live h a -> lookup h1 a = lookup h a).
  { intros a Hla. apply O. intros Hi. exact (N a Hi Hla). }
  assert (Hnr : ~ live h rOut) by (apply N; right; left; reflexivity).
  assert (Hnp : ~ live h p') by (apply N; left; reflexivity).
  assert (Hpr : p' <> rOut) by (inversion D as [|? ? X _]; intros ->; apply X; left; reflexivity).
  assert (HprIn : p <> rOut) by (intros ->; contradiction).
  assert (HrIO : rIn <> rOut) by (intros ->; contradiction).
  assert (Hg1 : getf s1 "record" = Some (Ptr (Some rOut))).
  { unfold s1. cbn [sets]. rewrite getf_setf, str_eqb_refl, A1. reflexivity. }
  (* the MEMDUP calls for each record *)
  assert (Hits : exists itss, Forall2 (fun r its =>
      map it_dst its = map fst vs
      /\ Forall2 (fun v it => it_n it = snd v /\ Z.of_nat (List.length (snd (it_e it))) = snd v) vs its
      /\ Forall2 (fun (c : copy) it => it_dst it = fst (fst c) /\ it_src it = snd (fst c)
                              /\ it_n it = if snd c then w * w else w) cs its
      /\ Forall (fun it => points h1 r (it_src it) (it_n it) (it_e it) /\ 0 < it_n it
                      /\ fst (it_e it) <> rOut /\ getf r (it_dst it) <> None) its) rows itss
      /\ map (fun its => named except vs (map it_e its)) itss = map (named except vs) vecs).
  { clear - Hv Hcs Hvpos Hold Hnr. induction Hv as [|r es rows vecs H Hv IH].
    - exists []. split; [constructor | reflexivity].
    - destruct IH as (itss & I1 & I2).
      assert (H' : Forall2 (fun v e => points h1 r (fst v) (snd v) e) vs es).
      { eapply Forall2_impl; [|exact H]. intros v e (P1 & P2 & P3). repeat split; try assumption.
        rewrite Hold; [exact P2 | unfold live; rewrite P2; discriminate]. }
      destruct (items_exist except w h1 rOut r vs es H' Hvpos) with (cs := cs) (vs' := vs) (es' := es)
        as (its & J1 & J2 & J3 & J4 & J5); try assumption.
      { intros e He E. clear - H He E Hnr. induction H as [|v e0 vs es (P1 & P2 & P3) H IH]; [contradiction|].
        destruct He as [->|He]; [|apply IH, He]. apply Hnr. unfold live. rewrite <- E, P2. discriminate. }
      exists (its :: itss). split; [constructor; [repeat split; assumption | exact I1]|].
      cbn [map]. rewrite J5, I2. reflexivity. }
  destruct Hits as (itss & Hits & Hnamed).
  unfold dup_records. rewrite E. cbn [bind fst snd].
  assert (Hp1 : lookup h1 p = Some [s]) by (rewrite Hold; assumption).
  rewrite (load_num_at h1 p s "numrec" n Hp1 Hn). cbn [bind].
  match goal with |- context [for_ n ?b h1] => set (body := b) end.
  set (inner := fun (i : Z) (c : copy) (h : heap) =>
     let '(dst, src, sq) := c in
     q <- load_ptr h p 0 "record" ;; rIn <- deref q ;;
     q' <- load_ptr h p' 0 "record" ;; rOut <- deref q' ;;
     w <- load_num h p 0 "nwave" ;;
     memdup_field malloc rIn rOut i dst src (if (sq : bool) then w * w else w) h).
  assert (Hsb : forall h2, same_but rOut h1 h2 -> lookup h2 p = Some [s] /\ lookup h2 p' = Some [s1]).
  { intros h2 Hsb. split.
    - rewrite Hsb; [exact Hp1 | exact HprIn | unfold live; rewrite Hp1; discriminate].
    - rewrite Hsb; [exact S | exact Hpr | unfold live; rewrite S; discriminate]. }
  destruct (rows_loop malloc Hf body inner cs (map fst vs) rIn rOut h1 rows HrIO) with
    (rest := rows) (itss := itss) (done := @nil struct) (doneIn := @nil struct) (h := h1)
    as (h' & qss & G & Gl & Gd & Gf & Go & Ga).
  { rewrite Hold; [exact A2 | exact HlrIn]. }
  { unfold live. rewrite Frow. discriminate. }
  { intros i h2 H2. unfold body. rewrite (Hcp h2 p) by (apply Hsb, H2). reflexivity. }
  { reflexivity. } { reflexivity. }
  { eapply Forall2_impl; [|exact Hits]. intros r its (I1 & _ & I3 & I4). split; [exact I1|]. split; [|exact I4].
    eapply Forall2_impl; [|exact I3]. intros [[dst src] sq] it (J1 & J2 & J3) i h2 H2. cbn [fst snd] in *.
    destruct (Hsb h2 H2) as [B1 B2]. unfold inner.
    rewrite (load_ptr_at h2 p [] s [] 0 "record" (Some rIn) B1 eq_refl A1). cbn [bind deref].
    rewrite (load_ptr_at h2 p' [] s1 [] 0 "record" (Some rOut) B2 eq_refl Hg1). cbn [bind deref].
    rewrite (load_num_at h2 p s "nwave" w B1 Hw). cbn [bind]. rewrite J1, J2, J3. reflexivity. }
  { intros a _ _. reflexivity. } { exact Frow. }
  cbn [List.length app] in G, Go.
  assert (Gn : for_ n body h1 = Ok h').
  { unfold for_. rewrite <- A3, Nat2Z.id. exact G. }
  rewrite Gn. cbn [bind].
  set (rows' := set_rows rows (map fst vs) qss) in *.
  assert (Hlq : List.length qss = List.length rows).
  { rewrite <- (Forall2_len _ _ _ Gl). symmetry. apply (Forall2_len _ _ _ Hits). }
  set (vecs' := map (fun iq => combine (snd iq) (vectors_of (fst iq))) (combine itss qss)).
  assert (Hcat : map fst (concat vecs') = concat qss).
  { unfold vecs'. clear - Gl. induction Gl as [|its qs itss qss (H & _) Gl IH]; [reflexivity|].
    cbn [combine map concat]. rewrite map_app, IH. f_equal. cbn [fst snd].
    apply map_fst_combine. unfold vectors_of. rewrite map_length. exact H. }
  assert (Hnewlive : forall q, In q (concat qss) -> live h' q).
  { intros q Hq. clear - Gl Hq. induction Gl as [|its qs itss qss (_ & H) Gl IH]; [contradiction|].
    cbn [concat] in Hq. apply in_app_iff in Hq. destruct Hq as [Hq|Hq]; [|apply IH, Hq].
    clear - H Hq. induction H as [|it q0 its qs H _ IH]; [contradiction|].
    destruct Hq as [->|Hq]; [unfold live; rewrite H; discriminate | apply IH, Hq]. }
  assert (Hp'c : ~ In p' (concat qss)).
  { intros Hi. apply (Gf _ Hi). unfold live. rewrite S. discriminate. }
  assert (Hroc : ~ In rOut (concat qss)).
  { intros Hi. apply (Gf _ Hi). unfold live. rewrite Frow. discriminate. }
  assert (Hp' : lookup h' p' = Some [s1]) by (rewrite Ga; [exact S | exact Hpr | exact Hp'c]).
  assert (Hst : storage [(rOut, rows')] vecs' = rOut :: concat qss).
  { unfold storage. rewrite Hcat. reflexivity. }
  assert (Hnl : forall q, In q (concat qss) -> ~ live h q).
  { intros q Hq Hl. apply (Gf q Hq). unfold live. rewrite (Hold q Hl). exact Hl. }
  exists p', h', s1, [(rOut, rows')], vecs'. split; [reflexivity|]. split.
  { constructor; cbn [records sh_count sh_arrays sh_vectors].
    - exact Hp'.
    - unfold s1. rewrite num_sets; [exact Hn | intros [X|[]]; discriminate].
    - unfold s1. cbn [sets]. rewrite Hvec. exact Hk.
    - constructor; [|constructor]. repeat split; cbn [fst snd]; [exact Hg1 | exact Go|].
      unfold rows'. rewrite set_rows_length by exact Hlq. exact A3.
    - cbn [flat_map snd]. rewrite app_nil_r. unfold rows', vecs'.
      clear - Hits Gl Hdv. revert qss Gl. induction Hits as [|r its rows itss (I1 & I2 & I3 & I4) Hits IH]; intros qss Gl.
      + inversion Gl; subst. constructor.
      + destruct (Forall2_uncons _ _ _ _ Gl) as (qs & qss' & -> & (Q1 & Q2) & Gl').
        cbn [set_rows combine map fst snd]. constructor; [|apply IH, Gl'].
        assert (X : Forall2 (fun f q => getf (sets r (map fst vs) qs) f = Some (Ptr (Some q))) (map fst vs) qs).
        { apply getf_sets; [exact Hdv | | rewrite Q1, <- I1, map_length; reflexivity].
          rewrite <- I1. intros f Hi. apply in_map_iff in Hi. destruct Hi as (it & <- & Hi).
          rewrite Forall_forall in I4. apply (I4 it Hi). }
        revert X. generalize (sets r (map fst vs) qs) as r'. intros r' X. unfold vectors_of.
        clear - I2 Q2 X. revert qs Q2 X.
        induction I2 as [|v it vs its (J1 & J2) I2 IH]; intros qs Q2 X; [inversion X; subst; constructor|].
        destruct (Forall2_uncons _ _ _ _ Q2) as (q & qs' & -> & Q3 & Q4).
        cbn [map] in X. destruct (Forall2_uncons _ _ _ _ X) as (q1 & qs1 & E1 & X1 & X2). injection E1 as <- <-.
        cbn [map combine]. constructor; [|apply IH; assumption].
        repeat split; cbn [fst snd]; assumption.
    - rewrite Hst. constructor; [|constructor; assumption].
      intros [X|X]; [congruence | contradiction]. }
  split.
  { repeat split; cbn [records sh_arrays].
    - unfold s1. apply erase_sets, incl_refl.
    - cbn [map snd]. unfold rows'. rewrite set_rows_erase by exact Hlq. reflexivity.
    - rewrite <- Hnamed. unfold vecs'. clear - Gl.
      induction Gl as [|its qs itss qss (Q1 & _) Gl IH]; [reflexivity|].
      cbn [combine map fst snd]. rewrite IH. f_equal. unfold named. f_equal. f_equal.
      rewrite map_snd_combine by (unfold vectors_of; rewrite map_length; exact Q1).
      unfold vectors_of. rewrite map_map. reflexivity. }
  rewrite Hst. split.
  - intros a Hla. rewrite Ga; [apply Hold, Hla | intros ->; contradiction | intros Hi; exact (Hnl a Hi Hla)].
  - apply newly.
    + intros q [<-|[<-|Hq]]; [exact Hnp | exact Hnr | apply Hnl, Hq].
    + intros q [<-|[<-|Hq]]; [unfold live; rewrite Hp'; discriminate
                             | unfold live; rewrite Go; discriminate | apply Hnewlive, Hq].
    + intros a Hi. rewrite Ga; [apply O; intros [X|[X|[]]]; apply Hi; [left | right; left]; exact X
        | intros X; apply Hi; right; left; symmetry; exact X | intros X; apply Hi; right; right; exact X].
Qed.
