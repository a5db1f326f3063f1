(** Allocation gives tables storage of their own. *)
From Coq Require Import Lia.
From Verif Require Import HeapSpec BaseLemmas HeapProofs HeapDup HeapTables HeapFree.
Open Scope Z_scope.

Lemma store_at h p l1 r l2 i f v : lookup h p = Some (l1 ++ r :: l2) -> i = Z.of_nat (List.length l1) ->
  getf r f <> None -> store h p i f v = Ok (replace h p (l1 ++ setf r f v :: l2)).
Proof.
  intros Hp Hi Hf. unfold store. rewrite Hp, (get_mid _ _ _ _ Hi). cbn [bind].
  destruct (getf r f) eqn:E; [|contradiction]. rewrite (put_at_middle _ _ _ _ _ Hi). reflexivity.
Qed.

(** the value [v] put into the fields [fs] *)
Definition setv (s : struct) (fs : list string) (v : field) : struct :=
  fold_left (fun s f => setf s f v) fs s.
Lemma getf_setv_other fs v : forall s g, ~ In g fs -> getf (setv s fs v) g = getf s g.
Proof.
  induction fs as [|f fs IH]; intros s g Hn; [reflexivity|]. cbn [setv fold_left]. fold (setv (setf s f v) fs v).
  rewrite IH by (intros H; apply Hn; right; exact H). rewrite getf_setf.
  destruct (str_eqb f g) eqn:E; [|reflexivity]. apply str_eqb_eq in E. exfalso. apply Hn. left. exact E.
Qed.
Lemma getf_setf_some s f v g : getf s g <> None -> getf (setf s f v) g <> None.
Proof. rewrite getf_setf. destruct (str_eqb f g), (getf s g); try discriminate; tauto. Qed.
Lemma getf_setv fs v : forall s g, In g fs -> getf s g <> None -> getf (setv s fs v) g = Some v.
Proof.
  induction fs as [|f fs IH]; intros s g Hi Hs; [contradiction|]. cbn [setv fold_left]. fold (setv (setf s f v) fs v).
  destruct (in_dec String.string_dec g fs) as [H|H].
  - apply IH; [exact H | apply getf_setf_some, Hs].
  - rewrite getf_setv_other by exact H. destruct Hi as [->|Hi]; [|contradiction].
    rewrite getf_setf, str_eqb_refl. destruct (getf s g); [reflexivity | contradiction].
Qed.
Lemma getf_sets_some fs : forall s qs g, getf s g <> None -> getf (sets s fs qs) g <> None.
Proof.
  induction fs as [|f fs IH]; intros s qs g H; [exact H|]. destruct qs as [|q qs]; [exact H|].
  cbn [sets]. apply IH, getf_setf_some, H.
Qed.
Lemma getf_setv_some fs v : forall s g, getf s g <> None -> getf (setv s fs v) g <> None.
Proof.
  induction fs as [|f fs IH]; intros s g H; [exact H|]. cbn [setv fold_left]. apply IH, getf_setf_some, H.
Qed.
Lemma erase_setv names fs v : forall s, incl fs names -> erase names (setv s fs v) = erase names s.
Proof.
  induction fs as [|f fs IH]; intros s Hi; [reflexivity|]. cbn [setv fold_left]. fold (setv (setf s f v) fs v).
  rewrite IH by (intros x Hx; apply Hi; right; exact Hx). apply erase_setf, Hi. left. reflexivity.
Qed.

Lemma store_loop p l1 l2 i v fs : i = Z.of_nat (List.length l1) -> forall h r,
  lookup h p = Some (l1 ++ r :: l2) -> (forall f, In f fs -> getf r f <> None) ->
  exists h', foreach fs (fun f h => store h p i f v) h = Ok h'
    /\ lookup h' p = Some (l1 ++ setv r fs v :: l2)
    /\ forall a, a <> p -> lookup h' a = lookup h a.
Proof.
  intros Hi. induction fs as [|f fs IH]; intros h r Hp Hf.
  - exists h. repeat split. exact Hp.
  - cbn [foreach]. rewrite (store_at _ _ _ _ _ _ f v Hp Hi) by (apply Hf; left; reflexivity). cbn [bind].
    destruct (IH (replace h p (l1 ++ setf r f v :: l2)) (setf r f v)) as (h' & E & L & O).
    { rewrite lookup_replace, Z.eqb_refl. reflexivity. }
    { intros g Hg. apply getf_setf_some, Hf. right. exact Hg. }
    exists h'. split; [exact E|]. split; [exact L|]. intros a Ha. rewrite O by exact Ha.
    rewrite lookup_replace. destruct (Z.eqb_spec p a); congruence.
Qed.

Section Alloc.
Variable malloc : heap -> addr.
Hypothesis Hfresh : fresh malloc.
Variable uninit : string -> Z -> struct.

Definition raw (f : string) (n : Z) : block := map (fun j => uninit f (Z.of_nat j)) (seq 0 (Z.to_nat n)).
Lemma raw_length f n : 0 < n -> Z.of_nat (List.length (raw f n)) = n.
Proof. intros H. unfold raw. rewrite map_length, seq_length. lia. Qed.

Lemma new_loop p i l1 l2 n fs : 0 < n -> i = Z.of_nat (List.length l1) ->
  forall h r, lookup h p = Some (l1 ++ r :: l2) -> (forall f, In f fs -> getf r f <> None) ->
  exists h' qs,
    foreach fs (fun f h => new_field malloc uninit p i f n h) h = Ok h'
    /\ List.length qs = List.length fs
    /\ NoDup qs /\ (forall q, In q qs -> ~ live h q)
    /\ lookup h' p = Some (l1 ++ sets r fs qs :: l2)
    /\ Forall2 (fun f q => lookup h' q = Some (raw f n)) fs qs
    /\ (forall a, a <> p -> ~ In a qs -> lookup h' a = lookup h a).
Proof.
  intros Hn Hi. induction fs as [|f fs IH]; intros h r Hp Hf.
  - exists h, []. cbn. repeat split; try constructor; try exact Hp; intros; contradiction.
  - set (q := malloc h). pose proof (Hfresh h) as Hq. fold q in Hq.
    assert (Hqp : q <> p) by (intros E; rewrite E in Hq; congruence).
    assert (E1 : new_field malloc uninit p i f n h
                 = Ok (replace ((q, raw f n) :: h) p (l1 ++ setf r f (Ptr (Some q)) :: l2))).
    { unfold new_field, chkmalloc. destruct (Z.ltb_spec 0 n); [|lia]. cbn [bind].
      apply store_at; [|exact Hi | apply Hf; left; reflexivity].
      rewrite lookup_cons. fold q. destruct (Z.eqb_spec q p); [contradiction | exact Hp]. }
    set (h1 := replace ((q, raw f n) :: h) p (l1 ++ setf r f (Ptr (Some q)) :: l2)) in *.
    assert (L1 : forall a, a <> p -> a <> q -> lookup h1 a = lookup h a).
    { intros a A1 A2. unfold h1. rewrite lookup_replace, lookup_cons.
      destruct (Z.eqb_spec p a); [congruence|]. destruct (Z.eqb_spec q a); congruence. }
    assert (Lq : lookup h1 q = Some (raw f n)).
    { unfold h1. rewrite lookup_replace, lookup_cons, Z.eqb_refl. destruct (Z.eqb_spec p q); congruence. }
    assert (Lp : lookup h1 p = Some (l1 ++ setf r f (Ptr (Some q)) :: l2)).
    { unfold h1. rewrite lookup_replace, Z.eqb_refl. reflexivity. }
    destruct (IH h1 (setf r f (Ptr (Some q))) Lp) as (h' & qs & F & Fl & Fd & Ff & Fo & Fc & Fa).
    { intros g Hg. apply getf_setf_some, Hf. right. exact Hg. }
    assert (Hqn : ~ In q qs) by (intros Hx; apply (Ff _ Hx); unfold live; rewrite Lq; discriminate).
    exists h', (q :: qs). cbn [foreach]. rewrite E1. cbn [bind].
    split; [exact F|]. split; [cbn; lia|]. split; [constructor; assumption|]. split.
    { intros x [<-|Hx] Hl; [exact (Hl Hq)|]. apply (Ff x Hx). unfold live.
      destruct (Z.eq_dec x p) as [->|]; [rewrite Lp; discriminate|].
      rewrite L1; [exact Hl | assumption | intros ->; contradiction]. }
    split; [exact Fo|]. split.
    { constructor; [rewrite Fa; [exact Lq | exact Hqp | exact Hqn] | exact Fc]. }
    intros a Ha Hx. rewrite Fa; [|exact Ha | intros Hy; apply Hx; right; exact Hy].
    apply L1; [exact Ha | intros ->; apply Hx; left; reflexivity].
Qed.

Lemma alloc_flat count fields p n h s :
  NoDup fields -> ~ In count fields -> 0 < n -> lookup h p = Some [s] ->
  (forall f, In f (count :: fields) -> getf s f <> None) ->
  exists h' s' arrs,
    alloc_arrays malloc uninit count fields p n h = Ok h'
    /\ table_at (flat count fields) h' p s' n [] arrs (map (fun _ => []) (flat_map snd arrs))
    /\ erase (count :: fields) s' = erase (count :: fields) s
    /\ (forall a, a <> p -> live h a -> lookup h' a = lookup h a)
    /\ (forall a, In a (map fst arrs) <-> (~ live h a /\ live h' a)).
Proof.
  intros Hd Hc Hn Hp Hm. unfold alloc_arrays.
  destruct (new_loop p 0 [] [] n fields Hn eq_refl h s Hp) as (h1 & qs & F & Fl & Fd & Ff & Fo & Fc & Fa).
  { intros f Hf. apply Hm. right. exact Hf. }
  cbn [app] in Fo. rewrite F. cbn [bind].
  rewrite (store_at h1 p [] (sets s fields qs) [] 0 count (Num n) Fo eq_refl).
  2:{ apply getf_sets_some, Hm. left. reflexivity. }
  cbn [app]. set (s' := setf (sets s fields qs) count (Num n)). set (h' := replace h1 p [s']).
  assert (Lp : lookup h' p = Some [s']) by (unfold h'; rewrite lookup_replace, Z.eqb_refl; reflexivity).
  assert (La : forall a, a <> p -> lookup h' a = lookup h1 a).
  { intros a Ha. unfold h'. rewrite lookup_replace. destruct (Z.eqb_spec p a); congruence. }
  assert (Hqp : forall q, In q qs -> q <> p).
  { intros q Hq ->. apply (Ff p Hq). unfold live. rewrite Hp. discriminate. }
  pose (arrs := combine qs (map (fun f => raw f n) fields)).
  assert (Hfst : map fst arrs = qs) by (apply map_fst_combine; rewrite map_length; exact Fl).
  assert (Hz : concat (map (fun _ : struct => @nil (addr * block)) (flat_map snd arrs)) = []).
  { induction (flat_map snd arrs) as [|x l IH]; [reflexivity | exact IH]. }
  exists h', s', arrs. split; [reflexivity|]. split.
  { constructor; cbn [flat sh_count sh_arrays sh_vectors].
    - exact Lp.
    - unfold num, s'. rewrite getf_setf, str_eqb_refl.
      destruct (getf (sets s fields qs) count) eqn:E; [reflexivity|].
      exfalso. revert E. apply getf_sets_some, Hm. left. reflexivity.
    - reflexivity.
    - assert (G : Forall2 (fun f q => getf s' f = Some (Ptr (Some q))) fields qs).
      { assert (G0 := getf_sets fields s qs Hd (fun f Hf => Hm f (or_intror Hf)) Fl).
        revert G0. unfold s'. generalize (sets s fields qs) as s0. intros s0 G0. clear - G0 Hc.
        induction G0 as [|f q fs qs H G0 IH]; constructor; [|apply IH; intros X; apply Hc; right; exact X].
        rewrite getf_setf. destruct (str_eqb count f) eqn:E; [|exact H].
        apply str_eqb_eq in E. exfalso. apply Hc. left. symmetry. exact E. }
      unfold arrs. clear arrs Hfst Hz. clear - G Fc La Hqp Hn. revert G La. generalize h' as hh, s' as s0. clear s' h'. intros hh s0 G La.
      revert G Hqp. induction Fc as [|f q fs qs H Fc IH]; intros G Hqp; [constructor|].
      destruct (Forall2_uncons _ _ _ _ G) as (q1 & qs1 & E1 & G1 & G2). injection E1 as <- <-.
      cbn [map combine]. constructor; [|apply IH; [exact G2 | intros x Hx; apply Hqp; right; exact Hx]].
      repeat split; cbn [fst snd]; [exact G1 | rewrite La by (apply Hqp; left; reflexivity); exact H | apply raw_length, Hn].
    - clear. induction (flat_map snd arrs) as [|x l IH]; constructor; [constructor | exact IH].
    - unfold storage. rewrite Hz, app_nil_r, Hfst. constructor; [intros X; apply (Hqp p X eq_refl) | exact Fd]. }
  split.
  { unfold s'. rewrite erase_setf by (left; reflexivity). apply erase_sets. intros x Hx. right. exact Hx. }
  rewrite Hfst. split.
  { intros a Ha Hla. rewrite La by exact Ha. apply Fa; [exact Ha|]. intros Hi. exact (Ff a Hi Hla). }
  intros a. split.
  - intros Hi. split; [apply Ff, Hi|]. unfold live. rewrite La by (apply Hqp, Hi).
    clear - Fc Hi. induction Fc as [|f q fs qs H Fc IH]; [contradiction|].
    destruct Hi as [->|Hi]; [rewrite H; discriminate | apply IH, Hi].
  - intros [A1 A2]. destruct (in_dec Z.eq_dec a qs) as [Hi|Hi]; [exact Hi|]. exfalso.
    assert (Hap : a <> p) by (intros ->; apply A1; unfold live; rewrite Hp; discriminate).
    apply A1. unfold live. rewrite <- (Fa a Hap Hi), <- (La a Hap). exact A2.
Qed.

Lemma alloc_rows p r0 s vectors nulls w :
  0 < w -> NoDup vectors -> (forall f, In f vectors -> ~ In f nulls) -> p <> r0 ->
  getf s "record" = Some (Ptr (Some r0)) ->
  forall rest done h,
    lookup h p = Some [s] -> lookup h r0 = Some (done ++ rest) ->
    Forall (fun r => forall f, In f (vectors ++ nulls) -> getf r f <> None) rest ->
    exists h' rows vecs,
      for_from (List.length rest) (Z.of_nat (List.length done)) (fun i h =>
         q <- load_ptr h p 0 "record" ;; r <- deref q ;;
         h <- foreach vectors (fun f h => new_field malloc uninit r i f w h) h ;;
         foreach nulls (fun f h => store h r i f (Ptr None)) h) h = Ok h'
      /\ List.length rows = List.length rest
      /\ lookup h' r0 = Some (done ++ rows)
      /\ Forall2 (fun r es => Forall2 (fun f e => points h' r f w e) vectors es) rows vecs
      /\ Forall (fun r => forall f, In f nulls -> getf r f = Some (Ptr None)) rows
      /\ NoDup (map fst (concat vecs))
      /\ (forall a, In a (map fst (concat vecs)) -> ~ live h a)
      /\ (forall a, a <> r0 -> ~ In a (map fst (concat vecs)) -> lookup h' a = lookup h a).
Proof.
  intros Hw Hdv Hvn Hpr Hrec rest. induction rest as [|r rest IH]; intros done h Hp Hr Hm.
  - exists h, [], []. cbn. repeat split; try constructor; try exact Hr; intros; contradiction.
  - cbn [for_from List.length].
    rewrite (load_ptr_at h p [] s [] 0 "record" (Some r0) Hp eq_refl Hrec). cbn [bind deref].
    destruct (new_loop r0 (Z.of_nat (List.length done)) done rest w vectors Hw eq_refl h r Hr)
      as (h1 & qs & F & Fl & Fd & Ff & Fo & Fc & Fa).
    { intros f Hf. apply (Forall_inv Hm), in_app_iff. left. exact Hf. }
    rewrite F. cbn [bind].
    destruct (store_loop r0 done rest (Z.of_nat (List.length done)) (Ptr None) nulls eq_refl h1 _ Fo)
      as (h2 & G & Gl & Ga).
    { intros f Hf. apply getf_sets_some, (Forall_inv Hm), in_app_iff. right. exact Hf. }
    rewrite G. cbn [bind]. set (r' := setv (sets r vectors qs) nulls (Ptr None)) in *.
    assert (Hqr : forall q, In q qs -> q <> r0).
    { intros q Hq ->. apply (Ff _ Hq). unfold live. rewrite Hr. discriminate. }
    assert (Hpq : ~ In p qs) by (intros Hx; apply (Ff _ Hx); unfold live; rewrite Hp; discriminate).
    assert (Hp2 : lookup h2 p = Some [s]).
    { rewrite Ga by exact Hpr. rewrite Fa by assumption. exact Hp. }
    destruct (IH (done ++ [r']) h2 Hp2) as (h' & rows & vecs & K & Kl & Kr & Kv & Kn & Kd & Kf & Ka).
    { rewrite Gl, <- app_assoc. reflexivity. }
    { exact (Forall_inv_tail Hm). }
    assert (Elen : Z.of_nat (List.length (done ++ [r'])) = Z.of_nat (List.length done) + 1)
      by (rewrite app_length; cbn; lia).
    rewrite Elen in K.
    pose (es := combine qs (map (fun f => raw f w) vectors)).
    assert (Hes : map fst es = qs) by (apply map_fst_combine; rewrite map_length; exact Fl).
    assert (Hq2 : forall q, In q qs -> live h2 q).
    { intros q Hq. unfold live. rewrite Ga by (apply Hqr, Hq). clear - Fc Hq.
      induction Fc as [|f q0 fs qs H Fc IH]; [contradiction|]. destruct Hq as [->|Hq]; [rewrite H; discriminate | apply IH, Hq]. }
    assert (Hdis : forall q, In q qs -> ~ In q (map fst (concat vecs))) by (intros q Hq Hx; exact (Kf q Hx (Hq2 q Hq))).
    exists h', (r' :: rows), (es :: vecs). split; [exact K|]. split; [cbn; lia|].
    split; [rewrite Kr, <- app_assoc; reflexivity|]. split.
    { constructor; [|exact Kv].
      assert (X : Forall2 (fun f q => getf r' f = Some (Ptr (Some q))) vectors qs).
      { assert (X0 := getf_sets vectors r qs Hdv (fun f Hf => Forall_inv Hm f (proj2 (in_app_iff _ _ _) (or_introl Hf))) Fl).
        unfold r'. revert X0. generalize (sets r vectors qs) as r1. intros r1 X0. clear - X0 Hvn.
        induction X0 as [|f q fs qs H X0 IH]; constructor; [|apply IH; intros g Hg; apply Hvn; right; exact Hg].
        rewrite getf_setv_other by (apply Hvn; left; reflexivity). exact H. }
      unfold es. clear es Hes. clear - X Fc Ga Ka Hqr Hdis Hw. revert X Hqr Hdis. generalize r' as r1. clear r'. intros r1 X.
      revert X. induction Fc as [|f q fs qs H Fc IH]; intros X Hqr Hdis; [constructor|].
      destruct (Forall2_uncons _ _ _ _ X) as (q1 & qs1 & E1 & X1 & X2). injection E1 as <- <-.
      cbn [map combine]. constructor.
      - repeat split; cbn [fst snd]; [exact X1 | | apply raw_length, Hw].
        rewrite Ka; [|apply Hqr; left; reflexivity | apply Hdis; left; reflexivity].
        rewrite Ga by (apply Hqr; left; reflexivity). exact H.
      - apply IH; [exact X2 | |]; intros x Hx; [apply Hqr | apply Hdis]; right; exact Hx. }
    split.
    { constructor; [|exact Kn]. intros f Hf. unfold r'. apply getf_setv; [exact Hf|].
      apply getf_sets_some, (Forall_inv Hm), in_app_iff. right. exact Hf. }
    cbn [concat]. rewrite map_app, Hes. split; [apply NoDup_app_intro; assumption|]. split.
    { intros a Ha. apply in_app_iff in Ha. destruct Ha as [Ha|Ha]; [apply Ff, Ha|]. intros Hl.
      apply (Kf a Ha). unfold live. destruct (Z.eq_dec a r0) as [->|Hn]; [rewrite Gl; discriminate|].
      rewrite Ga by exact Hn. rewrite Fa; [exact Hl | exact Hn | intros Hx; exact (Hdis a Hx Ha)]. }
    intros a Ha Hx. rewrite in_app_iff in Hx. rewrite Ka; [|exact Ha | tauto]. rewrite Ga by exact Ha.
    apply Fa; [exact Ha | tauto].
Qed.

Lemma alloc_recs vectors nulls flags p n w h s :
  NoDup vectors -> (forall f, In f vectors -> ~ In f nulls) ->
  ~ In "record"%string flags -> ~ In "numrec"%string flags -> ~ In "nwave"%string flags ->
  0 < n -> 0 < w -> lookup h p = Some [s] ->
  let mem := "numrec"%string :: "record"%string :: "nwave"%string :: flags in
  (forall f, In f mem -> getf s f <> None) ->
  (forall i f, In f (vectors ++ nulls) -> getf (uninit "record" i) f <> None) ->
  exists h' s' rec rows vecs,
    alloc_records malloc uninit vectors nulls flags p n w h = Ok h'
    /\ lookup h' p = Some [s'] /\ num s' "numrec" = Some n /\ num s' "nwave" = Some w
    /\ (forall f, In f flags -> num s' f = Some 0)
    /\ erase mem s' = erase mem s
    /\ points h' s' "record" n (rec, rows)
    /\ Forall2 (fun r es => Forall2 (fun f e => points h' r f w e) vectors es) rows vecs
    /\ Forall (fun r => forall f, In f nulls -> getf r f = Some (Ptr None)) rows
    /\ NoDup (p :: rec :: map fst (concat vecs))
    /\ (forall a, a <> p -> live h a -> lookup h' a = lookup h a)
    /\ (forall a, In a (rec :: map fst (concat vecs)) <-> (~ live h a /\ live h' a)).
Proof.
  intros Hdv Hvn Hf1 Hf2 Hf3 Hn Hw Hp mem Hm Hu. unfold alloc_records.
  destruct (new_loop p 0 [] [] n ["record"%string] Hn eq_refl h s Hp) as (h1 & qs & F & Fl & Fd & Ff & Fo & Fc & Fa).
  { intros f [<-|[]]. apply Hm. right. left. reflexivity. }
  cbn [foreach] in F. destruct (new_field malloc uninit p 0 "record" n h) as [h1'| |] eqn:E1; cbn [bind] in F; try discriminate.
  injection F as ->. cbn [bind].
  destruct qs as [|r0 [|? ?]]; try discriminate. clear Fl.
  destruct (Forall2_uncons _ _ _ _ Fc) as (x & l & EF & Frow & _). injection EF as <- <-. clear Fc.
  cbn [app sets] in Fo. set (s1 := setf s "record" (Ptr (Some r0))) in *.
  assert (Hnr : ~ live h r0) by (apply Ff; left; reflexivity).
  assert (Hpr : p <> r0) by (intros <-; apply Hnr; unfold live; rewrite Hp; discriminate).
  assert (Hg : getf s1 "record" = Some (Ptr (Some r0))).
  { unfold s1. rewrite getf_setf, str_eqb_refl. destruct (getf s "record") eqn:E; [reflexivity|].
    exfalso. revert E. apply Hm. right. left. reflexivity. }
  destruct (alloc_rows p r0 s1 vectors nulls w Hw Hdv Hvn Hpr Hg (raw "record" n) [] h1 Fo Frow)
    as (h2 & rows & vecs & K & Kl & Kr & Kv & Kn & Kd & Kf & Ka).
  { apply Forall_forall. intros r Hr. unfold raw in Hr. apply in_map_iff in Hr. destruct Hr as (j & <- & _).
    intros f Hf. apply Hu, Hf. }
  cbn [app List.length] in K, Kr.
  assert (Hlen : List.length (raw "record" n) = Z.to_nat n) by (unfold raw; rewrite map_length, seq_length; reflexivity).
  rewrite Hlen in K. change (Z.of_nat 0) with 0 in K. unfold for_. rewrite K. cbn [bind].
  assert (Hpc : ~ In p (map fst (concat vecs))) by (intros X; apply (Kf _ X); unfold live; rewrite Fo; discriminate).
  assert (Hrc : ~ In r0 (map fst (concat vecs))) by (intros X; apply (Kf _ X); unfold live; rewrite Frow; discriminate).
  assert (L2 : lookup h2 p = Some [s1]) by (rewrite Ka by assumption; exact Fo).
  assert (M1 : forall f, In f mem -> getf s1 f <> None) by (intros f Hf; apply getf_setf_some, Hm, Hf).
  rewrite (store_at h2 p [] s1 [] 0 "numrec" (Num n) L2 eq_refl) by (apply M1; left; reflexivity).
  cbn [bind app]. set (s2 := setf s1 "numrec" (Num n)). set (h3 := replace h2 p [s2]).
  assert (L3 : lookup h3 p = Some [s2]) by (unfold h3; rewrite lookup_replace, Z.eqb_refl; reflexivity).
  rewrite (store_at h3 p [] s2 [] 0 "nwave" (Num w) L3 eq_refl)
    by (apply getf_setf_some, M1; right; right; left; reflexivity).
  cbn [bind app]. set (s3 := setf s2 "nwave" (Num w)). set (h4 := replace h3 p [s3]).
  assert (L4 : lookup h4 p = Some [s3]) by (unfold h4; rewrite lookup_replace, Z.eqb_refl; reflexivity).
  destruct (store_loop p [] [] 0 (Num 0) flags eq_refl h4 s3 L4) as (h' & G & Gl & Ga).
  { intros f Hf. apply getf_setf_some, getf_setf_some, M1. right. right. right. exact Hf. }
  cbn [app] in Gl. set (s' := setv s3 flags (Num 0)) in *.
  assert (O : forall a, a <> p -> lookup h' a = lookup h2 a).
  { intros a Ha. rewrite Ga by exact Ha. unfold h4, h3. rewrite !lookup_replace. destruct (Z.eqb_spec p a); congruence. }
  assert (N2 : getf s2 "nwave" <> None) by (apply getf_setf_some, M1; right; right; left; reflexivity).
  assert (N1 : getf s1 "numrec" <> None) by (apply M1; left; reflexivity).
  assert (Hpv : forall q, In q (map fst (concat vecs)) -> q <> p) by (intros q Hq ->; contradiction).
  assert (Kv' : Forall2 (fun r es => Forall2 (fun f e => points h' r f w e) vectors es) rows vecs).
  { clear - Kv O Hpv. induction Kv as [|r es rows vecs H Kv IH]; constructor.
    - assert (X : forall q, In q (map fst es) -> q <> p).
      { intros q Hq. apply Hpv. cbn [concat]. rewrite map_app. apply in_app_iff. left. exact Hq. }
      clear - H O X. induction H as [|f e fs es (P1 & P2 & P3) H IH]; constructor.
      + repeat split; try assumption. rewrite O; [exact P2 | apply X; left; reflexivity].
      + apply IH. intros q Hq. apply X. right. exact Hq.
    - apply IH. intros q Hq. apply Hpv. cbn [concat]. rewrite map_app. apply in_app_iff. right. exact Hq. }
  exists h', s', r0, rows, vecs. split; [exact G|]. split; [exact Gl|].
  split.
  { unfold num, s'. rewrite getf_setv_other by exact Hf2. unfold s3. rewrite getf_setf. cbn [str_eqb].
    change (str_eqb "nwave" "numrec") with false. unfold s2. cbv beta iota. rewrite getf_setf, str_eqb_refl.
    destruct (getf s1 "numrec"); [reflexivity | contradiction]. }
  split.
  { unfold num, s'. rewrite getf_setv_other by exact Hf3. unfold s3. rewrite getf_setf, str_eqb_refl.
    destruct (getf s2 "nwave"); [reflexivity | contradiction]. }
  split.
  { intros f Hf. unfold num, s'. rewrite getf_setv; [reflexivity | exact Hf|].
    apply getf_setf_some, getf_setf_some, M1. right. right. right. exact Hf. }
  split.
  { unfold s'. rewrite erase_setv by (intros x Hx; right; right; right; exact Hx).
    unfold s3, s2, s1. rewrite !erase_setf; [reflexivity | | | ]; cbn; tauto. }
  assert (Lr : lookup h' r0 = Some rows) by (rewrite O by congruence; exact Kr).
  split.
  { repeat split; cbn [fst snd].
    - unfold s'. rewrite getf_setv_other by exact Hf1. unfold s3, s2. rewrite !getf_setf.
      change (str_eqb "nwave" "record") with false. change (str_eqb "numrec" "record") with false. exact Hg.
    - exact Lr.
    - rewrite Kl, Hlen. lia. }
  split; [exact Kv'|]. split; [exact Kn|]. split.
  { constructor; [intros [X|X]; [congruence | contradiction]|]. constructor; assumption. }
  assert (Hnl : forall a, In a (map fst (concat vecs)) -> ~ live h a).
  { intros a Ha Hl. apply (Kf a Ha). unfold live. destruct (Z.eq_dec a p) as [->|Hap]; [contradiction|].
    rewrite Fa; [exact Hl | exact Hap|]. intros [<-|[]]. contradiction. }
  split.
  { intros a Ha Hl. rewrite O by exact Ha. rewrite Ka; [|intros ->; contradiction | intros Hi; exact (Hnl a Hi Hl)].
    apply Fa; [exact Ha|]. intros [<-|[]]. contradiction. }
  intros a. split.
  - intros [<-|Ha]; split; [exact Hnr | unfold live; rewrite Lr; discriminate | apply Hnl, Ha|].
    clear - Kv' Ha. induction Kv' as [|r es rows vecs H Kv IH]; [contradiction|].
    cbn [concat] in Ha. rewrite map_app in Ha. apply in_app_iff in Ha. destruct Ha as [Ha|Ha]; [|apply IH, Ha].
    clear - H Ha. induction H as [|f e fs es (P1 & P2 & P3) H IH]; [contradiction|].
    destruct Ha as [<-|Ha]; [unfold live; rewrite P2; discriminate | apply IH, Ha].
  - intros [A1 A2]. destruct (in_dec Z.eq_dec a (r0 :: map fst (concat vecs))) as [Hi|Hi]; [exact Hi|]. exfalso.
    assert (Hap : a <> p) by (intros ->; apply A1; unfold live; rewrite Hp; discriminate).
    apply A1. unfold live. rewrite <- (Fa a Hap); [|intros [<-|[]]; apply Hi; left; reflexivity].
    rewrite <- (Ka a); [|intros ->; apply Hi; left; reflexivity | intros X; apply Hi; right; exact X].
    rewrite <- (O a Hap). exact A2.
Qed.
End Alloc.

Lemma Forall2_names {h r w} (names : list string) (es : list (addr * block)) :
  Forall2 (fun f e => points h r f w e) names es ->
  Forall2 (fun (v : string * Z) e => points h r (fst v) (snd v) e) (map (fun f => (f, w)) names) es.
Proof. intros F. induction F as [|f e fs es H F IH]; cbn [map]; constructor; [exact H | exact IH]. Qed.

Ltac nodup := repeat constructor; cbn; intros H; repeat (destruct H as [H|H]; try discriminate); contradiction.

Theorem alloc_tables k malloc uninit h p s n w :
  fresh malloc -> 0 < n -> 0 < w -> lookup h p = Some [s] ->
  (forall f, In f (members k) -> getf s f <> None) ->
  (forall i f, In f (vectors_given k ++ vectors_null k) -> getf (uninit "record"%string i) f <> None) ->
  exists h' s' arrs vecs,
    alloc_of k malloc uninit p n w h = Ok h'
    /\ table_at (shape_of k) h' p s' n (map (fun f => (f, w)) (vectors_given k)) arrs vecs
    /\ channels k s' w
    /\ Forall (fun r => forall f, In f (vectors_null k) -> getf r f = Some (Ptr None)) (flat_map snd arrs)
    /\ erase (members k) s' = erase (members k) s
    /\ (forall a, a <> p -> live h a -> lookup h' a = lookup h a)
    /\ (forall a, In a (storage arrs vecs) <-> (~ live h a /\ live h' a)).
Proof.
  intros Hf Hn Hw Hp Hm Hu.
  assert (Flat : forall count fields, NoDup fields -> ~ In count fields ->
    (forall f, In f (count :: fields) -> getf s f <> None) ->
    exists h' s' arrs vecs,
    alloc_arrays malloc uninit count fields p n h = Ok h'
    /\ table_at (flat count fields) h' p s' n [] arrs vecs
    /\ True
    /\ Forall (fun r => forall f, In f [] -> getf r f = Some (Ptr None)) (flat_map snd arrs)
    /\ erase (count :: fields ++ []) s' = erase (count :: fields ++ []) s
    /\ (forall a, a <> p -> live h a -> lookup h' a = lookup h a)
    /\ (forall a, In a (storage arrs vecs) <-> (~ live h a /\ live h' a))).
  { intros count fields Hd Hc Hmf.
    destruct (alloc_flat malloc Hf uninit count fields p n h s Hd Hc Hn Hp Hmf) as (h' & s' & arrs & E & T & Er & O & I).
    exists h', s', arrs, (map (fun _ => []) (flat_map snd arrs)).
    split; [exact E|]. split; [exact T|]. split; [exact Logic.I|]. split; [apply Forall_forall; intros r _ f []|].
    rewrite app_nil_r. split; [exact Er|]. split; [exact O|].
    intros a. rewrite <- I. unfold storage.
    replace (concat (map (fun _ : struct => @nil (addr * block)) (flat_map snd arrs))) with (@nil (addr * block)).
    - rewrite app_nil_r. reflexivity.
    - clear. induction (flat_map snd arrs) as [|x l IH]; [reflexivity | exact IH]. }
  assert (Recs : forall vecf vectors nulls flags,
    NoDup vectors -> (forall f, In f vectors -> ~ In f nulls) ->
    ~ In "record"%string flags -> ~ In "numrec"%string flags -> ~ In "nwave"%string flags ->
    (forall f, In f ("numrec"%string :: "record"%string :: "nwave"%string :: flags) -> getf s f <> None) ->
    (forall i f, In f (vectors ++ nulls) -> getf (uninit "record"%string i) f <> None) ->
    (forall s', num s' "nwave" = Some w -> (forall f, In f flags -> num s' f = Some 0) ->
       vecf s' = Some (map (fun f => (f, w)) vectors)) ->
    exists h' s' arrs vecs,
    alloc_records malloc uninit vectors nulls flags p n w h = Ok h'
    /\ table_at (records vecf) h' p s' n (map (fun f => (f, w)) vectors) arrs vecs
    /\ num s' "nwave" = Some w
    /\ Forall (fun r => forall f, In f nulls -> getf r f = Some (Ptr None)) (flat_map snd arrs)
    /\ erase ("numrec"%string :: "record"%string :: "nwave"%string :: flags) s'
         = erase ("numrec"%string :: "record"%string :: "nwave"%string :: flags) s
    /\ (forall a, a <> p -> live h a -> lookup h' a = lookup h a)
    /\ (forall a, In a (storage arrs vecs) <-> (~ live h a /\ live h' a))).
  { intros vecf vectors nulls flags Hd Hvn H1 H2 H3 Hmf Huf Hvec.
    destruct (alloc_recs malloc Hf uninit vectors nulls flags p n w h s Hd Hvn H1 H2 H3 Hn Hw Hp Hmf Huf)
      as (h' & s' & rec & rows & vecs & E & L & A1 & A2 & A3 & Er & Pt & Fv & Fn & Nd & O & I).
    exists h', s', [(rec, rows)], vecs. split; [exact E|]. split.
    { constructor; cbn [records sh_count sh_arrays sh_vectors].
      - exact L. - exact A1. - apply Hvec; assumption.
      - constructor; [exact Pt | constructor].
      - cbn [flat_map snd]. rewrite app_nil_r.
        eapply Forall2_impl; [|exact Fv]. intros r es H. apply Forall2_names, H.
      - exact Nd. }
    split; [exact A2|]. cbn [flat_map snd]. rewrite app_nil_r.
    split; [exact Fn|]. split; [exact Er|]. split; [exact O | exact I]. }
  assert (Own : forall names s', num s' "nwave" = Some w ->
            of_nwave names s' = Some (map (fun f => (f, w)) names)).
  { intros names s' Hs. unfold of_nwave. rewrite Hs. reflexivity. }
  destruct k; cbn [alloc_of shape_of vectors_given vectors_null channels members app sh_count sh_arrays] in *.
  - apply (Flat "ntarget"%string ["targ"]%string); [nodup | cbn; intuition discriminate | exact Hm].
  - apply (Flat "nelement"%string ["elem"]%string); [nodup | cbn; intuition discriminate | exact Hm].
  - apply (Flat "nwave"%string ["eff_wave"; "eff_band"]%string); [nodup | cbn; intuition discriminate | exact Hm].
  - apply (Flat "ncorr"%string ["iindx"; "jindx"; "corr"]%string); [nodup | cbn; intuition discriminate | exact Hm].
  - apply (Recs _ ["jxx"; "jyy"; "jxy"; "jyx"]%string [] []); try (intros X; exact X); try assumption;
      [nodup | intros f _ X; exact X | intros s' Hs _; apply Own, Hs].
  - apply (Recs _ ["visamp"; "visamperr"; "visphi"; "visphierr"; "flag"]%string
             ["visrefmap"; "rvis"; "rviserr"; "ivis"; "iviserr"]%string ["usevisrefmap"; "usecomplex"]%string);
      try assumption; try (cbn; intuition discriminate).
    + nodup.
    + intros f Hx Hy. cbn in Hx. repeat (destruct Hx as [<-|Hx]; [cbn in Hy; intuition discriminate|]). exact Hx.
    + intros s' Hs Hfl. cbv beta. rewrite Hs, (Hfl "usevisrefmap"%string), (Hfl "usecomplex"%string) by (cbn; tauto). reflexivity.
  - apply (Recs _ ["vis2data"; "vis2err"; "flag"]%string [] []); try (intros X; exact X); try assumption;
      [nodup | intros f _ X; exact X | intros s' Hs _; apply Own, Hs].
  - apply (Recs _ ["t3amp"; "t3amperr"; "t3phi"; "t3phierr"; "flag"]%string [] []); try (intros X; exact X); try assumption;
      [nodup | intros f _ X; exact X | intros s' Hs _; apply Own, Hs].
  - apply (Recs _ ["fluxdata"; "fluxerr"; "flag"]%string [] []); try (intros X; exact X); try assumption;
      [nodup | intros f _ X; exact X | intros s' Hs _; apply Own, Hs].
Qed.

Theorem alloc_none k malloc uninit h p n w : n <= 0 -> alloc_of k malloc uninit p n w h = Abort.
Proof.
  intros Hn. assert (E : forall f, new_field malloc uninit p 0 f n h = Abort).
  { intros f. unfold new_field, chkmalloc. destruct (Z.ltb_spec 0 n); [lia | reflexivity]. }
  destruct k; cbn [alloc_of];
    unfold alloc_oi_target, alloc_oi_array, alloc_oi_wavelength, alloc_oi_corr, alloc_oi_inspol, alloc_oi_vis,
      alloc_oi_vis2, alloc_oi_t3, alloc_oi_flux, alloc_arrays, alloc_records; cbn [foreach]; rewrite E; reflexivity.
Qed.
Theorem alloc_no_channels k malloc uninit h p s n w :
  fresh malloc -> 0 < n -> w <= 0 -> lookup h p = Some [s] -> getf s "record" <> None -> vectors_given k <> [] ->
  alloc_of k malloc uninit p n w h = Abort.
Proof.
  intros Hf Hn Hw Hp Hr Hk.
  assert (X : forall f fs nulls flags, alloc_records malloc uninit (f :: fs) nulls flags p n w h = Abort).
  { intros f fs nulls flags. unfold alloc_records.
    destruct (new_loop malloc Hf uninit p 0 [] [] n ["record"%string] Hn eq_refl h s Hp) as (h1 & qs & F & Fl & _ & _ & Fo & _).
    { intros g [<-|[]]. exact Hr. }
    cbn [foreach] in F. destruct (new_field malloc uninit p 0 "record" n h) as [h1'| |] eqn:E1; cbn [bind] in F; try discriminate.
    injection F as ->. cbn [bind]. destruct qs as [|r0 [|? ?]]; try discriminate. cbn [app sets] in Fo.
    unfold for_. destruct (Z.to_nat n) eqn:En; [lia|]. cbn [for_from].
    rewrite (load_ptr_at h1 p [] (setf s "record" (Ptr (Some r0))) [] 0 "record" (Some r0) Fo eq_refl).
    2:{ rewrite getf_setf, str_eqb_refl. destruct (getf s "record"); [reflexivity | contradiction]. }
    cbn [bind deref foreach]. unfold new_field, chkmalloc. destruct (Z.ltb_spec 0 w); [lia | reflexivity]. }
  destruct k; cbn [vectors_given] in Hk; try contradiction; apply X.
Qed.
