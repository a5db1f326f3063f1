(** Storage of the column formats. *)
From Coq Require Import Lia Ascii.
From Verif Require Import BaseLemmas TformModel TformSpec.
Open Scope list_scope.
Open Scope Z_scope.

Lemma lookup_remove h a x : lookup (remove h a) x = if x =? a then None else lookup h x.
Proof.
  induction h as [|[a' b] h IH].
  - cbn. now destruct (x =? a).
  - assert (E : remove ((a', b) :: h) a = if a' =? a then remove h a else (a', b) :: remove h a)
      by (unfold remove; cbn; now destruct (a' =? a)).
    rewrite E. cbn [lookup]. destruct (Z.eqb_spec a' a) as [Ea|Na].
    + rewrite IH. subst a'. rewrite (Z.eqb_sym a x). now destruct (x =? a).
    + cbn [lookup]. rewrite IH. destruct (Z.eqb_spec a' x) as [Ex|Nx]; [|reflexivity]. subst x.
      destruct (Z.eqb_spec a' a); [contradiction|reflexivity].
Qed.
Lemma write_ok h p pre c0 post c i : lookup h p = Some (pre ++ c0 :: post) -> i = Z.of_nat (List.length pre) ->
  exists h', write p i c h = Ok h' /\ lookup h' p = Some (pre ++ c :: post)
    /\ forall x, x <> p -> lookup h' x = lookup h x.
Proof.
  intros L ->. unfold write. rewrite L, app_length. cbn [List.length].
  replace ((0 <=? Z.of_nat (List.length pre)) && (Z.of_nat (List.length pre) <? Z.of_nat (List.length pre + Datatypes.S (List.length post))))
    with true by (symmetry; apply andb_true_iff; split; [apply Z.leb_le|apply Z.ltb_lt]; lia).
  eexists. split; [reflexivity|]. rewrite Nat2Z.id. split.
  - cbn [lookup]. rewrite Z.eqb_refl. rewrite firstn_app, Nat.sub_diag, firstn_all. cbn [firstn]. rewrite app_nil_r.
    rewrite skipn_app, skipn_all2 by lia. replace (List.length pre + 1 - List.length pre)%nat with 1%nat by lia. reflexivity.
  - intros x N. cbn [lookup]. destruct (Z.eqb_spec p x); [congruence|]. rewrite lookup_remove.
    destruct (Z.eqb_spec x p); [contradiction|reflexivity].
Qed.
Lemma put_text_ok p k s : forall pre h i, i = Z.of_nat (List.length pre) ->
  lookup h p = Some (pre ++ repeat Raw (String.length s + 1 + k)) ->
  exists h', put_text p i s h = Ok h'
    /\ lookup h' p = Some (pre ++ map Ch (list_ascii_of_string s) ++ Ch "000"%char :: repeat Raw k)
    /\ forall x, x <> p -> lookup h' x = lookup h x.
Proof.
  induction s as [|c s IH]; intros pre h i Hi L; cbn [put_text String.length list_ascii_of_string map app] in *.
  - cbn [Nat.add repeat] in L. exact (write_ok h p pre Raw (repeat Raw k) _ i L Hi).
  - cbn [Nat.add repeat] in L. destruct (write_ok h p pre Raw _ (Ch c) i L Hi) as (h1 & E1 & L1 & O1).
    rewrite E1. cbn [bind].
    destruct (IH (pre ++ [Ch c]) h1 (i + 1)) as (h2 & E2 & L2 & O2).
    { rewrite app_length. cbn [List.length]. lia. }
    { rewrite L1, <- app_assoc. reflexivity. }
    exists h2. split; [exact E2|]. split; [rewrite L2, <- app_assoc; reflexivity|].
    intros x N. rewrite O2 by exact N. now apply O1.
Qed.
Lemma substring_all s : forall m, (String.length s <= m)%nat -> substring 0 m s = s.
Proof.
  induction s as [|c s IH]; intros [|m] H; cbn [String.length substring] in *; try reflexivity; [lia|]. rewrite IH by lia. reflexivity.
Qed.
Lemma substring_len s : forall m, (String.length (substring 0 m s) <= m)%nat.
Proof.
  induction s as [|c s IH]; intros [|m]; cbn [String.length substring]; try lia. specialize (IH m). lia.
Qed.
Lemma length_app_str a b : String.length (a ++ b) = (String.length a + String.length b)%nat.
Proof. induction a as [|c a IH]; cbn; [reflexivity|now rewrite IH]. Qed.

Section Tform.
Variable malloc : heap -> addr.
Hypothesis Hm : fresh malloc.

(** a block, and a pointer to it at the next place *)
Lemma begin_ok n h a ps k : 0 < n -> lookup h a = Some (map Pt ps ++ repeat Raw (Datatypes.S k)) ->
  let p := malloc h in
  lookup h p = None /\ p <> a /\ alloc malloc n h = Ok (p, (p, repeat Raw (Z.to_nat n)) :: h)
  /\ exists h1, write a (Z.of_nat (List.length ps)) (Pt p) ((p, repeat Raw (Z.to_nat n)) :: h) = Ok h1
     /\ read_ptr a (Z.of_nat (List.length ps)) h1 = Ok p
     /\ lookup h1 a = Some (map Pt (ps ++ [p]) ++ repeat Raw k)
     /\ lookup h1 p = Some (repeat Raw (Z.to_nat n))
     /\ forall x, x <> a -> x <> p -> lookup h1 x = lookup h x.
Proof.
  intros Hn L p. assert (F : lookup h p = None) by apply Hm.
  assert (N : p <> a) by (intros ->; congruence).
  split; [exact F|]. split; [exact N|]. split.
  { unfold alloc, chkmalloc. destruct (Z.ltb_spec 0 n); [reflexivity|lia]. }
  set (h0 := (p, repeat Raw (Z.to_nat n)) :: h).
  assert (L0 : lookup h0 a = Some (map Pt ps ++ Raw :: repeat Raw k)).
  { unfold h0. cbn [lookup]. destruct (Z.eqb_spec p a); [contradiction|]. exact L. }
  destruct (write_ok h0 a (map Pt ps) Raw _ (Pt p) (Z.of_nat (List.length ps)) L0) as (h1 & E1 & L1 & O1); [now rewrite map_length|].
  exists h1. split; [exact E1|]. split; [|split; [|split]].
  - unfold read_ptr. rewrite L1. rewrite <- (map_length Pt ps). rewrite get_middle. reflexivity.
  - rewrite L1, map_app, <- app_assoc. reflexivity.
  - rewrite O1 by exact N. unfold h0. cbn [lookup]. now rewrite Z.eqb_refl.
  - intros x Na Np. rewrite O1 by exact Na. unfold h0. cbn [lookup]. destruct (Z.eqb_spec p x); [congruence|reflexivity].
Qed.

Lemma question t : (exists rest, t = String "?" rest)
  \/ String.get 0 t <> Some "?"%char
     /\ (forall v tf i h, make_one malloc v tf i t h
         = (r <- alloc malloc (strlen t + 1) h ;; h <- write tf i (Pt (fst r)) (snd r) ;;
            p <- read_ptr tf i h ;; put_text p 0 t h))
     /\ forall v, format_text v t = t.
Proof.
  destruct t as [|c rest]; [right; split; [discriminate|split; reflexivity]|].
  destruct (ascii_dec c "?") as [->|N]; [left; eauto|]. right. split; [cbn; congruence|].
  destruct c as [b0 b1 b2 b3 b4 b5 b6 b7].
  destruct b0, b1, b2, b3, b4, b5, b6, b7; try (split; reflexivity). now destruct N.
Qed.

Lemma make_one_ok value t h a ps k i : lookup h a = Some (map Pt ps ++ repeat Raw (Datatypes.S k)) ->
  i = Z.of_nat (List.length ps) -> roomy value t ->
  exists p h', make_one malloc value a i t h = Ok h' /\ lookup h p = None /\ p <> a
    /\ lookup h' a = Some (map Pt (ps ++ [p]) ++ repeat Raw k) /\ text_at h' p (format_text value t)
    /\ forall x, x <> a -> x <> p -> lookup h' x = lookup h x.
Proof.
  intros L -> R. exists (malloc h). destruct (question t) as [(rest & ->)|(Q & Em & Et)].
  - cbn [make_one format_text]. cbv zeta. specialize (R eq_refl).
    set (size := strlen (String "?" rest) + 4).
    assert (Hs : size = Z.of_nat (String.length rest) + 5) by (unfold size, strlen; cbn [String.length]; lia).
    destruct (begin_ok size h a ps k ltac:(lia) L) as (F & N & Ea & h1 & E1 & P1 & L1 & B1 & O1).
    rewrite Ea. cbn [bind fst snd]. rewrite E1. cbn [bind]. rewrite P1. cbn [bind].
    unfold snprintf. destruct (Z.ltb_spec 0 size); [|lia].
    rewrite substring_all by (rewrite length_app_str; lia).
    destruct (put_text_ok (malloc h) (4 - String.length (fmt_d value)) (fmt_d value ++ rest) [] h1 0 eq_refl) as (h2 & E2 & L2 & O2).
    { rewrite B1. cbn [app]. rewrite length_app_str. do 2 f_equal. lia. }
    rewrite E2. cbn [bind fst snd]. unfold assert_. destruct (Z.ltb_spec (strlen (fmt_d value ++ rest)) size) as [_|H2];
      [|exfalso; unfold strlen in H2; rewrite length_app_str in H2; lia].
    cbn [bind]. exists h2. split; [reflexivity|]. split; [exact F|]. split; [exact N|].
    split; [rewrite O2 by congruence; exact L1|]. split; [eexists; exact L2|].
    intros x Na Np. rewrite O2 by exact Np. now apply O1.
  - rewrite Em, Et. destruct (begin_ok (strlen t + 1) h a ps k ltac:(unfold strlen; lia) L) as (F & N & Ea & h1 & E1 & P1 & L1 & B1 & O1).
    rewrite Ea. cbn [bind fst snd]. rewrite E1. cbn [bind]. rewrite P1. cbn [bind].
    destruct (put_text_ok (malloc h) 0 t [] h1 0 eq_refl) as (h2 & E2 & L2 & O2).
    { rewrite B1. cbn [app]. unfold strlen. do 2 f_equal. lia. }
    exists h2. split; [exact E2|]. split; [exact F|]. split; [exact N|].
    split; [rewrite O2 by congruence; exact L1|]. split; [eexists; exact L2|].
    intros x Na Np. rewrite O2 by exact Np. now apply O1.
Qed.
Lemma make_one_abort value t h a ps k i : lookup h a = Some (map Pt ps ++ repeat Raw (Datatypes.S k)) ->
  i = Z.of_nat (List.length ps) -> ~ roomy value t -> make_one malloc value a i t h = Abort.
Proof.
  intros L -> R. destruct (question t) as [(rest & ->)|(Q & Em & Et)]; [|exfalso; apply R; intros H; contradiction].
  assert (R' : (4 < String.length (fmt_d value))%nat).
  { destruct (Nat.le_gt_cases (String.length (fmt_d value)) 4) as [H|H]; [|exact H]. exfalso. apply R. intros _. exact H. }
  cbn [make_one]. cbv zeta. set (size := strlen (String "?" rest) + 4).
  assert (Hs : size = Z.of_nat (String.length rest) + 5) by (unfold size, strlen; cbn [String.length]; lia).
  destruct (begin_ok size h a ps k ltac:(lia) L) as (F & N & Ea & h1 & E1 & P1 & L1 & B1 & O1).
  rewrite Ea. cbn [bind fst snd]. rewrite E1. cbn [bind]. rewrite P1. cbn [bind].
  unfold snprintf. destruct (Z.ltb_spec 0 size); [|lia].
  pose proof (substring_len (fmt_d value ++ rest) (Z.to_nat (size - 1))) as Hl.
  set (s := substring 0 (Z.to_nat (size - 1)) (fmt_d value ++ rest)) in *.
  destruct (put_text_ok (malloc h) (Z.to_nat size - 1 - String.length s) s [] h1 0 eq_refl) as (h2 & E2 & _).
  { rewrite B1. cbn [app]. do 2 f_equal. lia. }
  rewrite E2. cbn [bind fst snd]. unfold assert_. destruct (Z.ltb_spec (strlen (fmt_d value ++ rest)) size) as [H2|_]; [|reflexivity].
  exfalso. unfold strlen in H2. rewrite length_app_str in H2. lia.
Qed.

(** what the loop has done *)
Definition begun (h : heap) (a : addr) (value : Z) (h' : heap) (ps : list addr) (done : list string) (k : nat) : Prop :=
  lookup h' a = Some (map Pt ps ++ repeat Raw k) /\ NoDup (a :: ps)
  /\ Forall2 (text_at h') ps (map (format_text value) done) /\ Forall (fun p => lookup h p = None) ps
  /\ forall x, ~ In x (a :: ps) -> lookup h' x = lookup h x.
Lemma text_kept h h' p s : lookup h' p = lookup h p -> text_at h p s -> text_at h' p s.
Proof. intros E (k & L). exists k. now rewrite E. Qed.
Lemma begun_next h a value h' ps done t k i : i = Z.of_nat (List.length ps) ->
  begun h a value h' ps done (Datatypes.S k) -> roomy value t ->
  exists p h2, make_one malloc value a i t h' = Ok h2 /\ begun h a value h2 (ps ++ [p]) (done ++ [t]) k.
Proof.
  intros Hi (L & ND & T & Fr & O) R. destruct (make_one_ok value t h' a ps k i L Hi R) as (p & h2 & E & F & N & L2 & T2 & O2).
  exists p, h2. split; [exact E|].
  assert (Np : ~ In p ps).
  { intros I. clear - T I F. induction T as [|q s qs ss Tq T IH]; [contradiction|]. destruct I as [<-|I]; [|auto].
    destruct Tq as (k & Lk). congruence. }
  assert (Na : ~ In a ps) by (now inversion ND).
  split; [exact L2|]. split; [|split; [|split]].
  - constructor; [rewrite in_app_iff; intros [H|[H|[]]]; [contradiction|congruence]|].
    apply NoDup_cons_iff in ND as [_ ND].
    clear - ND Np. induction ps as [|q ps IH]; cbn; [repeat constructor; intros []|].
    apply NoDup_cons_iff in ND as [Q ND]. constructor; [|apply IH; [exact ND|intros I; apply Np; now right]].
    rewrite in_app_iff. intros [H|[H|[]]]; [contradiction|]. apply Np. now left.
  - rewrite map_app. apply Forall2_app; [|repeat constructor; exact T2].
    clear - T O2 Np Na. induction T as [|q s qs ss Tq T IH]; constructor.
    + eapply text_kept; [|exact Tq]. apply O2; intros ->; [apply Na|apply Np]; now left.
    + apply IH; intros I; [apply Np|apply Na]; now right.
  - apply Forall_app. split; [exact Fr|]. constructor; [|constructor].
    rewrite <- F. symmetry. apply O. intros [H|H]; [congruence|contradiction].
  - intros x Hx. cbn [In] in Hx. rewrite in_app_iff in Hx. cbn [In] in Hx. rewrite O2 by intuition congruence. apply O. cbn [In]. intuition congruence.
Qed.
Lemma begun_start n h : 0 < n -> alloc malloc n h = Ok (malloc h, (malloc h, repeat Raw (Z.to_nat n)) :: h)
  /\ lookup h (malloc h) = None /\ forall value, begun h (malloc h) value ((malloc h, repeat Raw (Z.to_nat n)) :: h) [] [] (Z.to_nat n).
Proof.
  intros Hn. split; [unfold alloc, chkmalloc; destruct (Z.ltb_spec 0 n); [reflexivity|lia]|]. split; [apply Hm|].
  intros value. split; [cbn [lookup]; now rewrite Z.eqb_refl|]. split; [repeat constructor; intros []|]. split; [constructor|]. split; [constructor|].
  intros x Hx. cbn [lookup]. destruct (Z.eqb_spec (malloc h) x); [exfalso; apply Hx; now left|reflexivity].
Qed.
Lemma loop_ok h a value rest : forall h' ps done, List.length ps = List.length done ->
  begun h a value h' ps done (List.length rest) -> Forall (roomy value) rest ->
  exists h2 ps2, for_from (List.length rest) (Z.of_nat (List.length done))
      (fun i h => t <- get (done ++ rest) i ;; make_one malloc value a i t h) h' = Ok h2
    /\ begun h a value h2 ps2 (done ++ rest) 0.
Proof.
  induction rest as [|t rest IH]; intros h' ps done Hl B R.
  - exists h', ps. split; [reflexivity|]. now rewrite app_nil_r.
  - apply Forall_cons_iff in R as [R1 R]. cbn [List.length for_from]. rewrite get_middle. cbn [bind].
    destruct (begun_next h a value h' ps done t _ (Z.of_nat (List.length done)) ltac:(now rewrite Hl) B R1) as (p & h2 & E & B2). rewrite E. cbn [bind].
    destruct (IH h2 (ps ++ [p]) (done ++ [t])) as (h3 & ps3 & E3 & B3); [rewrite !app_length, Hl; reflexivity|exact B2|exact R|].
    rewrite <- app_assoc in E3, B3. cbn [app] in E3, B3. rewrite app_length in E3. cbn [List.length] in E3.
    exists h3, ps3. split; [|exact B3]. rewrite <- E3. f_equal. lia.
Qed.
Lemma loop_abort h a value rest : forall h' ps done, List.length ps = List.length done ->
  begun h a value h' ps done (List.length rest) -> ~ Forall (roomy value) rest ->
  for_from (List.length rest) (Z.of_nat (List.length done))
      (fun i h => t <- get (done ++ rest) i ;; make_one malloc value a i t h) h' = Abort.
Proof.
  induction rest as [|t rest IH]; intros h' ps done Hl B R; [exfalso; apply R; constructor|].
  cbn [List.length for_from]. rewrite get_middle. cbn [bind].
  assert (D : roomy value t \/ ~ roomy value t).
  { unfold roomy. destruct (Nat.le_gt_cases (String.length (fmt_d value)) 4); [left; auto|].
    destruct (question t) as [(r & ->)|(Q & _)]; [right|left; intros H'; contradiction]. intros H'. specialize (H' eq_refl). lia. }
  destruct D as [D|D].
  - destruct (begun_next h a value h' ps done t _ (Z.of_nat (List.length done)) ltac:(now rewrite Hl) B D) as (p & h2 & E & B2). rewrite E. cbn [bind].
    specialize (IH h2 (ps ++ [p]) (done ++ [t])). rewrite <- app_assoc in IH. cbn [app] in IH.
    rewrite (app_length done) in IH. cbn [List.length] in IH.
    replace (Z.of_nat (List.length done) + 1) with (Z.of_nat (List.length done + 1)) by lia.
    apply IH; [rewrite app_length, Hl; reflexivity|exact B2|]. intros F. apply R. now constructor.
  - destruct B as (L & _). now rewrite (make_one_abort value t h' a ps _ (Z.of_nat (List.length done)) L ltac:(now rewrite Hl) D).
Qed.

Theorem make_ok template value h : template <> [] -> Forall (roomy value) template ->
  exists a ps h', make_tform malloc template (Z.of_nat (List.length template)) value h = Ok (a, h')
    /\ strings_at h' a ps (map (format_text value) template)
    /\ Forall (fun p => lookup h p = None) (a :: ps)
    /\ forall x, ~ In x (a :: ps) -> lookup h' x = lookup h x.
Proof.
  intros Ne R. destruct (begun_start (Z.of_nat (List.length template)) h) as (Ea & F & B); [destruct template; [contradiction|cbn; lia]|].
  unfold make_tform. rewrite Ea. cbn [bind fst snd]. unfold for_. specialize (B value). rewrite Nat2Z.id in *.
  destruct (loop_ok h (malloc h) value template _ [] [] eq_refl B R) as (h2 & ps & E & (L & ND & T & Fr & O)).
  cbn [app List.length Z.of_nat] in E. rewrite E. cbn [bind]. exists (malloc h), ps, h2. split; [reflexivity|].
  cbn [repeat] in L. rewrite app_nil_r in L. split; [split; [exact L|split; [exact ND|exact T]]|]. split; [now constructor|exact O].
Qed.
Theorem make_abort template value h : template <> [] -> ~ Forall (roomy value) template ->
  make_tform malloc template (Z.of_nat (List.length template)) value h = Abort.
Proof.
  intros Ne R. destruct (begun_start (Z.of_nat (List.length template)) h) as (Ea & F & B); [destruct template; [contradiction|cbn; lia]|].
  unfold make_tform. rewrite Ea. cbn [bind fst snd]. unfold for_. specialize (B value). rewrite Nat2Z.id in *.
  pose proof (loop_abort h (malloc h) value template _ [] [] eq_refl B R) as E.
  cbn [app List.length Z.of_nat] in E. now rewrite E.
Qed.
End Tform.

(** ** Freeing *)
Lemma free_ok h p : lookup h p <> None -> exists h', free p h = Ok h' /\ lookup h' p = None /\ forall x, x <> p -> lookup h' x = lookup h x.
Proof.
  intros L. unfold free. destruct (lookup h p) eqn:E; [|contradiction]. eexists. split; [reflexivity|].
  split; [rewrite lookup_remove, Z.eqb_refl; reflexivity|]. intros x N. rewrite lookup_remove. destruct (Z.eqb_spec x p); [contradiction|reflexivity].
Qed.
Lemma free_loop a rest : forall pre h, lookup h a = Some (map Pt (pre ++ rest)) -> NoDup (a :: rest) ->
  Forall (fun p => lookup h p <> None) rest ->
  exists h', for_from (List.length rest) (Z.of_nat (List.length pre)) (fun i h => p <- read_ptr a i h ;; free p h) h = Ok h'
    /\ Forall (fun p => lookup h' p = None) rest /\ forall x, ~ In x rest -> lookup h' x = lookup h x.
Proof.
  induction rest as [|p rest IH]; intros pre h L ND F; cbn [List.length for_from].
  - exists h. split; [reflexivity|]. split; [constructor|reflexivity].
  - apply NoDup_cons_iff in ND as [Na ND]. apply NoDup_cons_iff in ND as [Np ND]. apply Forall_cons_iff in F as [Fp F].
    unfold read_ptr at 1. rewrite L, map_app. cbn [map]. rewrite <- (map_length Pt pre), get_middle. cbn [bind]. rewrite map_length.
    destruct (free_ok h p Fp) as (h1 & E1 & L1 & O1). rewrite E1. cbn [bind].
    destruct (IH (pre ++ [p]) h1) as (h2 & E2 & F2 & O2).
    + rewrite O1 by (intros ->; apply Na; now left). rewrite L, <- app_assoc. reflexivity.
    + constructor; [intros I; apply Na; now right|exact ND].
    + rewrite Forall_forall in *. intros q Hq. rewrite O1 by (intros ->; contradiction). now apply F.
    + rewrite app_length in E2. cbn [List.length] in E2.
      replace (Z.of_nat (List.length pre) + 1) with (Z.of_nat (List.length pre + 1)) by lia.
      exists h2. split; [exact E2|]. split.
      * constructor; [|exact F2]. now rewrite O2.
      * intros x Hx. cbn [In] in Hx. rewrite O2 by tauto. apply O1. intros ->. apply Hx. now left.
Qed.
Theorem free_tform_ok h a ps texts : strings_at h a ps texts ->
  exists h', free_tform a (Z.of_nat (List.length texts)) h = Ok h'
    /\ Forall (fun p => lookup h' p = None) (a :: ps) /\ forall x, ~ In x (a :: ps) -> lookup h' x = lookup h x.
Proof.
  intros (L & ND & T). unfold free_tform, for_. rewrite Nat2Z.id. assert (Hl : List.length ps = List.length texts) by (clear - T; induction T; cbn; congruence). rewrite <- Hl.
  destruct (free_loop a ps [] h L ND) as (h1 & E1 & F1 & O1).
  { clear - T. induction T as [|q s qs ss (k & Lk) T IH]; constructor; [congruence|exact IH]. }
  cbn [List.length Z.of_nat] in E1. rewrite E1. cbn [bind].
  assert (Na : ~ In a ps) by (now inversion ND).
  destruct (free_ok h1 a) as (h2 & E2 & L2 & O2); [rewrite O1 by exact Na; congruence|].
  exists h2. split; [exact E2|]. split.
  - constructor; [exact L2|]. rewrite Forall_forall in *. intros q Hq. rewrite O2 by (intros ->; contradiction). now apply F1.
  - intros x Hx. cbn [In] in Hx. rewrite O2 by intuition congruence. apply O1. tauto.
Qed.
Theorem make_free malloc template value h : fresh malloc -> template <> [] -> Forall (roomy value) template ->
  exists a h1 h2, make_tform malloc template (Z.of_nat (List.length template)) value h = Ok (a, h1)
    /\ free_tform a (Z.of_nat (List.length template)) h1 = Ok h2 /\ forall x, lookup h2 x = lookup h x.
Proof.
  intros Hm Ne R. destruct (make_ok malloc Hm template value h Ne R) as (a & ps & h1 & E & S & F & O).
  destruct (free_tform_ok h1 a ps _ S) as (h2 & E2 & F2 & O2). rewrite map_length in E2.
  exists a, h1, h2. split; [exact E|]. split; [exact E2|]. intros x.
  destruct (in_dec Z.eq_dec x (a :: ps)) as [I|I].
  - rewrite Forall_forall in F, F2. now rewrite (F x I), (F2 x I).
  - rewrite O2 by exact I. now apply O.
Qed.
