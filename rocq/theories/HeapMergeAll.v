(** Merging: copies of all tables of one kind. *)
From Coq Require Import Lia Permutation.
From Verif Require Import HeapSpec HeapMergeSpec BaseLemmas HeapProofs HeapDup HeapTables HeapFree HeapAlloc
  HeapMain HeapGrow HeapFilterTab HeapFilterAll HeapFilterHeld HeapFilterApply HeapMergeTab HeapMergeTarget.
Open Scope Z_scope.

Lemma getf_erase names s f : ~ In f names -> getf (erase names s) f = getf s f.
Proof.
  intros Hf. unfold erase. induction s as [|[k v] s IH]; [reflexivity|]. cbn [filter fst].
  destruct (existsb (str_eqb k) names) eqn:E; cbn [negb getf].
  - destruct (str_eqb k f) eqn:Ek; [|exact IH]. exfalso. apply Hf. apply str_eqb_eq in Ek. subst k.
    apply existsb_exists in E. destruct E as (x & Hx & Ex). apply str_eqb_eq in Ex. subst x. exact Hx.
  - rewrite IH. reflexivity.
Qed.

Section Merge.
Variable malloc : heap -> addr.
Hypothesis Hfresh : fresh malloc.
Variable rename : string -> Z -> string.

(** ** One copy *)
Lemma dup_ok k p h s n vs arrs vecs : table_at (shape_of k) h p s n vs arrs vecs -> 0 < n -> Forall (fun v => 0 < snd v) vs ->
  exists q h' s' arrs' vecs', dup_of k malloc p h = Ok (q, h')
    /\ table_at (shape_of k) h' q s' n vs arrs' vecs' /\ grows h h' (q :: storage arrs' vecs')
    /\ (forall f, ~ In f (sh_arrays (shape_of k)) -> getf s' f = getf s f)
    /\ map (fun e => map (erase (map fst vs)) (snd e)) arrs' = map (fun e => map (erase (map fst vs)) (snd e)) arrs.
Proof.
  intros Ht Hn Hv.
  destruct (dup_copies k malloc h p s n vs arrs vecs Hfresh Ht Hn Hv) as (q & h' & s' & arrs' & vecs' & E & Ht' & (S1 & S2 & _) & Ho & Hi).
  exists q, h', s', arrs', vecs'. split; [exact E|]. split; [exact Ht'|]. split; [|split; [|exact S2]].
  - split; [exact (ta_distinct _ _ _ _ _ _ _ _ Ht')|]. split; [intros a Ha; apply Hi, Ha|].
    intros a Ha. destruct (lookup h a) eqn:La.
    + rewrite Ho, La; [reflexivity | unfold live; rewrite La; discriminate].
    + destruct (lookup h' a) eqn:L'; [|reflexivity]. exfalso. apply Ha, Hi. unfold live. rewrite La, L'.
      split; [intros X; apply X; reflexivity | discriminate].
  - intros f Hf. rewrite <- (getf_erase (sh_arrays (shape_of k)) s' f Hf), S1. apply getf_erase, Hf.
Qed.

(** ** Tables with names *)
Definition named_table (f : string) (h : heap) (q : addr) : Prop := exists y, called h f q y.
Lemma named_grows f h h' l q : named_table f h q -> grows h h' l -> named_table f h' q.
Proof.
  intros (y & s & L & B) G. exists y, s. split; [|exact B]. rewrite (grows_keep _ _ _ _ G); [exact L|].
  unfold live. rewrite L. discriminate.
Qed.
Lemma name_taken_ok f x h out : (forall q, In q out -> named_table f h q) -> exists b, name_taken f out x h = Ok b.
Proof.
  induction out as [|q out IH]; intros H; [exists false; reflexivity|]. cbn [name_taken].
  destruct (H q (or_introl eq_refl)) as (y & s & L & B). rewrite (load_bytes_at h q [] s [] 0 f y L eq_refl B). cbn [bind].
  destruct (str_eqb y x); [exists true; reflexivity|]. apply IH. intros r Hr. apply H. right. exact Hr.
Qed.

Lemma add_copy_ok k f p out h s n vs arrs vecs x : plain (shape_of k) f ->
  table_at (shape_of k) h p s n vs arrs vecs -> 0 < n -> Forall (fun v => 0 < snd v) vs -> bytes s f = Some x ->
  (forall q, In q out -> named_table f h q) ->
  exists q h' bs, add_copy rename (dup_of k malloc) f p out h = Ok (q, h')
    /\ owned (shape_of k) h' q bs /\ grows h h' (q :: bs) /\ named_table f h' q.
Proof.
  intros Hp Ht Hn Hv Hx Hout. unfold add_copy.
  destruct (dup_ok k p h s n vs arrs vecs Ht Hn Hv) as (q & h1 & s1 & arrs1 & vecs1 & E1 & T1 & G1 & S1 & _).
  rewrite E1. cbn [bind fst snd].
  assert (B1 : bytes s1 f = Some x) by (unfold bytes; rewrite S1 by apply Hp; exact Hx).
  rewrite (load_bytes_at h1 q [] s1 [] 0 f x (ta_struct _ _ _ _ _ _ _ _ T1) eq_refl B1). cbn [bind].
  destruct (name_taken_ok f x h1 out) as (b & Eb); [intros r Hr; exact (named_grows f h h1 _ r (Hout r Hr) G1)|].
  rewrite Eb. cbn [bind]. destruct b.
  - destruct (table_store _ h1 q s1 n vs arrs1 vecs1 f (Bytes (rename x (Z.of_nat (List.length out) + 1))) T1 Hp (bytes_not_none _ _ _ B1))
      as (h2 & E2 & T2 & O2).
    rewrite E2. cbn [bind]. exists q, h2, (storage arrs1 vecs1). split; [reflexivity|].
    split; [do 5 eexists; split; [exact T2 | reflexivity]|]. split.
    + apply (grows_write h h1 h2 _ q G1); [left; reflexivity | unfold live; rewrite (ta_struct _ _ _ _ _ _ _ _ T2); discriminate | exact O2].
    + eexists. eexists. split; [exact (ta_struct _ _ _ _ _ _ _ _ T2)|]. unfold bytes.
      rewrite getf_setf_same by exact (bytes_not_none _ _ _ B1). reflexivity.
  - exists q, h1, (storage arrs1 vecs1). split; [reflexivity|]. split; [do 5 eexists; split; [exact T1 | reflexivity]|].
    split; [exact G1|]. exists x, s1. split; [exact (ta_struct _ _ _ _ _ _ _ _ T1) | exact B1].
Qed.

(** ** Inputs *)
Section Input.
Variables (h : heap) (t : addr).

Lemma input_at hb i T p : input h t i -> sees h t hb -> In (T, p) (listed i) ->
  exists s n vs arrs vecs, table_at T h p s n vs arrs vecs /\ table_at T hb p s n vs arrs vecs
    /\ 0 < n /\ Forall (fun v => 0 < snd v) vs.
Proof.
  intros (ts & bss & [_ Hl _] & Hm & Nt) S Hin.
  destruct (Forall2_in_l _ _ _ _ Hl Hin) as (bs & Hbs & s & n & vs & arrs & vecs & Htab & ->). cbn [fst snd] in Htab.
  destruct (mg_sizes _ _ Hm _ _ _ _ _ _ _ Hin Htab) as [Hn Hv].
  exists s, n, vs, arrs, vecs. split; [exact Htab|]. split; [|split; assumption].
  eapply table_at_frame; [exact Htab|]. intros a Ha. apply S; [exact (table_live _ _ _ _ _ _ _ _ Htab a Ha)|].
  intros ->. apply Nt. right. unfold blocks. rewrite !in_app_iff. right. destruct Ha as [<-|Ha].
  - left. apply in_map_iff. exists (T, p). split; [reflexivity | exact Hin].
  - right. apply in_concat. exists (storage arrs vecs). tauto.
Qed.
Lemma input_called hb i T p f x : input h t i -> sees h t hb -> In (T, p) (listed i) -> called h f p x ->
  exists s n vs arrs vecs, table_at T hb p s n vs arrs vecs /\ 0 < n /\ Forall (fun v => 0 < snd v) vs
    /\ bytes s f = Some x.
Proof.
  intros Hi S Hin (s & Ls & B). destruct (input_at hb i T p Hi S Hin) as (s' & n & vs & arrs & vecs & H0 & Hb & Hn & Hv).
  pose proof (ta_struct _ _ _ _ _ _ _ _ H0) as X. rewrite Ls in X. injection X as <-.
  exists s, n, vs, arrs, vecs. tauto.
Qed.

(** the output tables of one kind so far *)
Definition made (T : shape) (f : string) (h0 hc : heap) (out : list addr) : Prop :=
  exists bss, Forall2 (owned T hc) out bss /\ grows h0 hc (out ++ concat bss) /\ forall q, In q out -> named_table f hc q.
Definition names_in (out : list addr) (tb : ptr_hash) : Prop := forall x d, find_ptr tb x = Some d -> In d out.

Lemma merge_named_loop k same f i h0 l : plain (shape_of k) f -> input h t i -> sees h t h0 ->
  (forall p, In p l -> In (shape_of k, p) (listed i) /\ exists x, called h f p x) ->
  forall tb out hc, made (shape_of k) f h0 hc out -> names_in out tb ->
  exists tb' out' h', foreach l (fun p st =>
    let '(t, out, h) := st in
    r <- match match_table same p out h with
         | Some q => Ok (q, out, h)
         | None => r <- add_copy rename (dup_of k malloc) f p out h ;; Ok (fst r, (out ++ [fst r])%list, snd r)
         end ;;
    x <- load_bytes (snd r) p 0 f ;;
    Ok ((x, fst (fst r)) :: t, snd (fst r), snd r)) (tb, out, hc) = Ok (tb', out', h')
    /\ made (shape_of k) f h0 h' out' /\ names_in out' tb' /\ incl out out'
    /\ (forall x, known tb x -> known tb' x)
    /\ (forall p x, In p l -> called h f p x -> known tb' x).
Proof.
  intros Hpl Hi S0. induction l as [|p l IH]; intros Hl tb out hc M N.
  - exists tb, out, hc. split; [reflexivity|]. split; [exact M|]. split; [exact N|]. split; [apply incl_refl|].
    split; [intros x Hx; exact Hx | intros p x []].
  - destruct (Hl p (or_introl eq_refl)) as (Hin & x & Hx). cbn [foreach].
    assert (Sees : forall hc, made (shape_of k) f h0 hc out -> sees h t hc).
    { intros hd (bss & _ & G & _). exact (sees_grows _ _ _ _ _ S0 G). }
    assert (Step : exists q out1 h1,
      match match_table same p out hc with
      | Some q => Ok (q, out, hc)
      | None => r <- add_copy rename (dup_of k malloc) f p out hc ;; Ok (fst r, (out ++ [fst r])%list, snd r)
      end = Ok (q, out1, h1) /\ made (shape_of k) f h0 h1 out1 /\ In q out1 /\ incl out out1).
    { destruct (match_table same p out hc) as [q|] eqn:Em.
      - exists q, out, hc. split; [reflexivity|]. split; [exact M|]. split; [|apply incl_refl].
        unfold match_table in Em. apply find_some in Em. apply Em.
      - destruct (input_called hc i _ p f x Hi (Sees hc M) Hin Hx) as (s & n & vs & arrs & vecs & Ht & Hn & Hv & Hb).
        destruct M as (bss & Ho & G & Hnm).
        destruct (add_copy_ok k f p out hc s n vs arrs vecs x Hpl Ht Hn Hv Hb Hnm) as (q & h1 & bs & E1 & O1 & G1 & N1).
        rewrite E1. cbn [bind fst snd]. exists q, (out ++ [q]), h1. split; [reflexivity|]. split.
        + exists (bss ++ [bs]). split; [|split].
          * apply Forall2_app; [|constructor; [exact O1 | constructor]].
            eapply owned_tables_grow; [exact Ho | exact G1|]. intros a Ha. apply G, Ha.
          * eapply grows_perm; [apply perm_add | eapply grows_app; eassumption].
          * intros r Hr. apply in_app_iff in Hr. destruct Hr as [Hr|[<-|[]]]; [exact (named_grows f hc h1 _ r (Hnm r Hr) G1) | exact N1].
        + split; [apply in_app_iff; right; left; reflexivity | intros a Ha; apply in_app_iff; left; exact Ha]. }
    destruct Step as (q & out1 & h1 & E1 & M1 & Q1 & I1). rewrite E1. cbn [bind fst snd].
    assert (S1 : sees h t h1) by (destruct M1 as (bss & _ & G & _); exact (sees_grows _ _ _ _ _ S0 G)).
    destruct (input_called h1 i _ p f x Hi S1 Hin Hx) as (s & n & vs & arrs & vecs & Ht & _ & _ & Hb).
    rewrite (load_bytes_at h1 p [] s [] 0 f x (ta_struct _ _ _ _ _ _ _ _ Ht) eq_refl Hb). cbn [bind].
    destruct (IH (fun p' Hp' => Hl p' (or_intror Hp')) ((x, q) :: tb) out1 h1 M1) as (tb' & out' & h' & E' & M' & N' & I' & K' & R').
    { intros y d Hd. rewrite find_ptr_cons in Hd. destruct (str_eqb x y); [injection Hd as <-; exact Q1 | exact (I1 d (N y d Hd))]. }
    exists tb', out', h'. split; [exact E'|]. split; [exact M'|]. split; [exact N'|].
    split; [intros a Ha; apply I', I1, Ha|]. split.
    + intros y Hy. apply K', known_cons. right. exact Hy.
    + intros p' y [<-|Hp'] Hy; [|exact (R' p' y Hp' Hy)]. apply K', known_cons. left.
      destruct Hx as (s1 & L1 & B1), Hy as (s2 & L2 & B2). rewrite L1 in L2. injection L2 as <-. congruence.
Qed.

(** the hash table of a dataset has the names of its tables *)
Definition names_of (f : string) (tables : fits_ptrs -> list addr) (out : list addr) (i : fits_ptrs) (tb : ptr_hash) : Prop :=
  names_in out tb /\ forall p x, In p (tables i) -> called h f p x -> known tb x.

Lemma merge_all_named_ok k same f tables is h0 : plain (shape_of k) f -> (forall i, In i is -> input h t i) -> sees h t h0 ->
  (forall i p, In i is -> In p (tables i) -> In (shape_of k, p) (listed i) /\ exists x, called h f p x) ->
  exists hs out h', merge_all_named rename (dup_of k malloc) same f tables is h0 = Ok (hs, out, h')
    /\ made (shape_of k) f h0 h' out /\ Forall2 (names_of f tables out) is hs.
Proof.
  intros Hpl Hi S0 Hl. unfold merge_all_named.
  match goal with |- context [foreach is ?b _] => set (body := b) end.
  assert (Loop : forall is1 hs out hc, (forall i, In i is1 -> In i is) -> made (shape_of k) f h0 hc out ->
    exists hs' out' h', foreach is1 body (hs, out, hc) = Ok ((hs ++ hs')%list, out', h')
      /\ made (shape_of k) f h0 h' out' /\ incl out out' /\ Forall2 (names_of f tables out') is1 hs').
  { induction is1 as [|i is1 IH]; intros hs out hc Hsub M.
    - exists [], out, hc. rewrite app_nil_r. split; [reflexivity|]. split; [exact M|]. split; [apply incl_refl | constructor].
    - cbn [foreach]. unfold body at 1. cbv beta iota.
      destruct (merge_named_loop k same f i h0 (tables i) Hpl (Hi i (Hsub i (or_introl eq_refl))) S0
                  (fun p Hp => Hl i p (Hsub i (or_introl eq_refl)) Hp) [] out hc M) as (tb & out1 & h1 & E1 & M1 & N1 & I1 & _ & K1).
      { intros x d X. discriminate. }
      assert (E2 : merge_named rename (dup_of k malloc) same f (tables i) out hc = Ok (tb, out1, h1)) by exact E1.
      rewrite E2. cbn [bind fst snd].
      destruct (IH (hs ++ [tb])%list out1 h1 (fun j Hj => Hsub j (or_intror Hj)) M1) as (hs' & out' & h' & E' & M' & I' & F').
      exists (tb :: hs'), out', h'. split; [etransitivity; [exact E' | rewrite <- app_assoc; reflexivity]|]. split; [exact M'|].
      split; [intros a Ha; apply I', I1, Ha|]. constructor; [|exact F']. split; [|exact K1].
      intros x d Hd. exact (I' d (N1 x d Hd)). }
  destruct (Loop is [] [] h0) as (hs' & out' & h' & E' & M' & _ & F').
  { intros i Hin. exact Hin. }
  { exists []. split; [constructor|]. split; [apply grows_refl | intros q []]. }
  exists hs', out', h'. split; [exact E'|]. split; [exact M' | exact F'].
Qed.

(** ** Numbers of targets *)
Lemma for_find {A} (body : Z -> option A -> res (option A)) (P : A -> Prop) :
  (forall k x, body k (Some x) = Ok (Some x)) -> (forall k x, body k None = Ok (Some x) -> P x) ->
  forall m k st x, (forall y, st = Some y -> P y) -> for_from m k body st = Ok (Some x) -> P x.
Proof.
  intros Hs Hn. induction m as [|m IH]; intros k st x Hst E; cbn [for_from] in E.
  - injection E as E. exact (Hst x E).
  - destruct (body k st) as [st'| |] eqn:Eb; cbn [bind] in E; try discriminate.
    apply (IH (k + 1) st' x); [|exact E]. intros y ->. destruct st as [z|].
    + rewrite Hs in Eb. injection Eb as ->. exact (Hst y eq_refl).
    + exact (Hn k y Eb).
Qed.
Lemma target_name_frame pT id hb h1 : (forall a, live hb a -> lookup h1 a = lookup hb a) ->
  forall s, lookup hb pT = Some [s] -> (forall a, getf s "targ" = Some (Ptr (Some a)) -> live hb a) ->
  target_name pT id h1 = target_name pT id hb.
Proof.
  intros K s Ls Hlive. unfold target_name.
  assert (Lp : lookup h1 pT = lookup hb pT) by (apply K; unfold live; rewrite Ls; discriminate).
  assert (E1 : load_num h1 pT 0 "ntarget" = load_num hb pT 0 "ntarget") by (unfold load_num, load; rewrite Lp; reflexivity).
  assert (E2 : load_ptr h1 pT 0 "targ" = load_ptr hb pT 0 "targ") by (unfold load_ptr, load; rewrite Lp; reflexivity).
  rewrite E1. destruct (load_num hb pT 0 "ntarget") as [n| |]; cbn [bind]; try reflexivity.
  assert (E3 : forall q a, load_ptr hb pT 0 "targ" = Ok q -> deref q = Ok a -> lookup h1 a = lookup hb a).
  { intros q a Hq Ha. apply K, Hlive. unfold load_ptr, load in Hq. rewrite Ls in Hq.
    cbn [get Z.ltb Z.compare Z.to_nat nth_error bind] in Hq. destruct (getf s "targ") as [[|p|]|]; try discriminate.
    injection Hq as ->. destruct q; [injection Ha as ->; reflexivity | discriminate]. }
  assert (El : for_ n (fun j found => match found with
         | Some _ => Ok found
         | None => q <- load_ptr h1 pT 0 "targ" ;; a <- deref q ;; k <- load_num h1 a j "target_id" ;;
             Ok (if k =? id then Some (a, j) else None) end) None =
       for_ n (fun j found => match found with
         | Some _ => Ok found
         | None => q <- load_ptr hb pT 0 "targ" ;; a <- deref q ;; k <- load_num hb a j "target_id" ;;
             Ok (if k =? id then Some (a, j) else None) end) None).
  { unfold for_. apply for_from_ext. intros j [f|] _; [reflexivity|]. rewrite E2.
    destruct (load_ptr hb pT 0 "targ") as [q| |] eqn:Eq; cbn [bind]; try reflexivity.
    destruct (deref q) as [a| |] eqn:Ea; cbn [bind]; try reflexivity.
    unfold load_num, load. rewrite (E3 q a eq_refl Ea). reflexivity. }
  rewrite El.
  match goal with |- bind ?x _ = bind ?x _ => destruct x as [[[a j]|]| |] eqn:Ex; cbn [bind]; try reflexivity end.
  assert (Ha : exists q, load_ptr hb pT 0 "targ" = Ok q /\ deref q = Ok a).
  { unfold for_ in Ex. refine (for_find _ (fun y : addr * Z => exists q, load_ptr hb pT 0 "targ" = Ok q /\ deref q = Ok (fst y)) _ _ _ _ None (a, j) _ Ex).
    - intros k x. reflexivity.
    - intros k x. destruct (load_ptr hb pT 0 "targ") as [q| |]; cbn [bind]; try discriminate.
      destruct (deref q) as [b| |] eqn:Eb; cbn [bind]; try discriminate.
      destruct (load_num hb b k "target_id") as [z| |]; cbn [bind]; try discriminate. destruct (z =? id); [|discriminate].
      intros [= <-]. exists q. split; [reflexivity | exact Eb].
    - discriminate. }
  destruct Ha as (q & Eq & Ea). unfold load_bytes, load. rewrite (E3 q a Eq Ea). reflexivity.
Qed.

Lemma id_known hb i ids r : input h t i -> sees h t hb -> values hb ids ->
  (forall x, row_names h i x -> known ids x) -> has_target h i r ->
  exists id, num r "target_id" = Some id /\ id_ok hb ids (fp_targets i) id.
Proof.
  intros Hi S V Hk (id & rows & row & Hid & (s & a & Ls & Pa & La) & Hrow & Hr). exists id. split; [exact Hid|].
  assert (Hnt : exists n, fp_targets i <> t /\ a <> t /\ num s "ntarget" = Some n /\ Z.of_nat (List.length rows) = n).
  { destruct Hi as (ts & bss & [Ht _ _] & _ & Nt).
    destruct Ht as [(s1 & n1 & vs & arrs & vecs & [B1 B2 B3 B4 B5 B6] & ->)|(_ & s1 & B1 & B2 & B3)].
    - rewrite Ls in B1. injection B1 as <-. cbn [target_shape flat sh_count sh_arrays] in *.
      inversion B4 as [|? e ? l (Q1 & Q2 & Q3) _]; subst. rewrite Pa in Q1. injection Q1 as ->. rewrite La in Q2. injection Q2 as ->.
      exists (Z.of_nat (List.length (snd e))). split; [intros X; apply Nt; left; exact X|]. split; [|split; [exact B2 | reflexivity]].
      intros X. apply Nt. right. unfold blocks, storage. rewrite !in_app_iff. left. left. left. exact X.
    - rewrite Ls in B1. injection B1 as <-. rewrite Pa in B3. discriminate. }
  destruct Hnt as (n & Np & Na & Ln & Len).
  assert (Hm : mergeable h i) by (destruct Hi as (_ & _ & _ & Hm & _); exact Hm).
  assert (Hrows : rows_at h (fp_targets i) "targ" rows) by (exists s, a; tauto).
  assert (Lsb : lookup hb (fp_targets i) = Some [s]) by (rewrite S; [exact Ls | unfold live; rewrite Ls; discriminate | exact Np]).
  assert (Lab : lookup hb a = Some rows) by (rewrite S; [exact La | unfold live; rewrite La; discriminate | exact Na]).
  assert (Hx : exists x, target_name (fp_targets i) id hb = Ok x /\ row_names h i x).
  { unfold target_name. rewrite (load_num_at hb _ s "ntarget" n Lsb Ln). cbn [bind].
    match goal with |- context [for_ n ?b _] => set (body := b) end.
    destruct (for_total (fun j st => match st with
        | None => forall r', In r' (firstn (Z.to_nat j) rows) -> num r' "target_id" <> Some id
        | Some (a', j') => a' = a /\ exists r', get rows j' = Ok r' /\ In r' rows end) body n None) as (st & E & P).
    - lia.
    - intros r' [].
    - intros j [[a' j']|] Hj P; [exists (Some (a', j')); split; [reflexivity | exact P]|].
      unfold body. rewrite (load_ptr_at hb _ [] s [] 0 "targ" (Some a) Lsb eq_refl Pa). cbn [bind deref].
      destruct (get_nth rows j) as (r' & Er & Hr'); [lia|].
      destruct (mg_targets _ _ Hm rows r' Hrows Hr') as [_ B]. destruct (num r' "target_id") as [z|] eqn:Ez; [|contradiction].
      unfold load_num, load. rewrite Lab, Er. cbn [bind]. rewrite (num_some _ _ _ Ez). cbn [bind].
      destruct (Z.eqb_spec z id) as [->|Nz].
      + exists (Some (a, j)). split; [reflexivity|]. split; [reflexivity|]. exists r'. split; assumption.
      + exists None. split; [reflexivity|]. intros r1 H1. rewrite (firstn_next rows j r' Er (proj1 Hj)) in H1.
        apply in_app_iff in H1. destruct H1 as [H1|[<-|[]]]; [exact (P r1 H1)|]. rewrite Ez. congruence.
    - rewrite E. cbn [bind]. destruct st as [[a' j']|].
      + destruct P as (-> & r' & Er & Hr'). destruct (mg_targets _ _ Hm rows r' Hrows Hr') as [B _].
        destruct (bytes r' "target") as [x|] eqn:Ex; [|contradiction]. exists x. split.
        * unfold load_bytes, load. rewrite Lab, Er. cbn [bind]. rewrite (bytes_some _ _ _ Ex). reflexivity.
        * exists rows, r'. tauto.
      + exfalso. apply (P row); [|exact Hr]. rewrite firstn_all2 by lia. exact Hrow. }
  destruct Hx as (x & Ex & Hrn). specialize (Hk x Hrn). unfold known in Hk. destruct (find_ptr ids x) as [v|] eqn:Ev; [|contradiction].
  destruct (V x v Ev) as (k & Lk). exists x, v, k. split; [|split; [exact Ev | exact Lk]].
  intros h1 K. rewrite <- Ex. apply (target_name_frame (fp_targets i) id hb h1 K s Lsb).
  intros b Hb. rewrite Pa in Hb. injection Hb as <-. unfold live. rewrite Lab. discriminate.
Qed.

(** ** Tables with data *)
Lemma map_erase_in names rows rows' f r' : map (erase names) rows' = map (erase names) rows -> In r' rows' -> ~ In f names ->
  exists r, In r rows /\ getf r' f = getf r f.
Proof.
  intros E Hr Hf. assert (Hi : In (erase names r') (map (erase names) rows)) by (rewrite <- E; apply in_map, Hr).
  apply in_map_iff in Hi. destruct Hi as (r & Er & Hr0). exists r. split; [exact Hr0|].
  rewrite <- (getf_erase names r' f Hf), <- Er. apply getf_erase, Hf.
Qed.
Lemma record_array V h1 p s n vs arrs vecs : table_at (records V) h1 p s n vs arrs vecs ->
  exists rec rows, arrs = [(rec, rows)] /\ getf s "record" = Some (Ptr (Some rec)) /\ lookup h1 rec = Some rows.
Proof.
  intros [_ _ _ D _ _]. cbn [records sh_arrays] in D. inversion D as [|? e ? l (P1 & P2 & _) Hl]; subst. inversion Hl; subst.
  destruct e as [rec rows]. exists rec, rows. tauto.
Qed.

(** what a step needs to know about the hash tables, at the heap [hb] *)
Record tables_ok (hb : heap) (ids : ptr_hash) (i : fits_ptrs) (hs : name_hashes) : Prop := mk_tables_ok {
  to_arr : names_ok hb "arrname" (fst (fst hs));
  to_ins : names_ok hb "insname" (snd (fst hs));
  to_corr : names_ok hb "corrname" (snd hs);
  to_arr_known : forall p x, In p (fp_array i) -> called h "arrname" p x -> known (fst (fst hs)) x;
  to_ins_known : forall p x, In p (fp_wavelength i) -> called h "insname" p x -> known (snd (fst hs)) x;
  to_corr_known : forall p x, In p (fp_corr i) -> called h "corrname" p x -> known (snd hs) x;
  to_values : values hb ids;
  to_ids : forall x, row_names h i x -> known ids x }.

Lemma tables_ok_grows hb hc l ids i hs : tables_ok hb ids i hs -> grows hb hc l -> tables_ok hc ids i hs.
Proof.
  intros [A B C D E F V K] G.
  assert (X : forall f tb, names_ok hb f tb -> names_ok hc f tb).
  { intros f tb Hn x d Hd. destruct (Hn x d Hd) as (s & y & Ls & Hy). exists s, y. split; [|exact Hy].
    rewrite (grows_keep _ _ _ _ G); [exact Ls | unfold live; rewrite Ls; discriminate]. }
  constructor; try (apply X; assumption); try assumption.
  intros x v Hv. destruct (V x v Hv) as (k & Lk). exists k. rewrite (grows_keep _ _ _ _ G); [exact Lk|]. unfold live. rewrite Lk. discriminate.
Qed.

Definition renaming (k : table_kind) := match k with KInspol => rename_inspol | _ => rename_data end.
Definition tables (k : table_kind) : fits_ptrs -> list addr :=
  match k with KInspol => fp_inspol | KVis => fp_vis | KVis2 => fp_vis2 | KT3 => fp_t3 | KFlux => fp_flux | _ => fun _ => [] end.

Lemma resolved f (l : list addr) x tb : (forall p y, In p l -> called h f p y -> known tb y) -> resolves h f l x -> known tb x.
Proof. intros H (p & Hp & Hc). exact (H p x Hp Hc). Qed.

Lemma data_step k hb ids i hs p : In k [KInspol; KVis; KVis2; KT3; KFlux] -> input h t i -> sees h t hb ->
  tables_ok hb ids i hs -> In p (tables k i) ->
  exists q h' bs, (r <- dup_of k malloc p hb ;; h <- renaming k ids i hs (fst r) (snd r) ;; Ok (fst r, h)) = Ok (q, h')
    /\ owned (shape_of k) h' q bs /\ grows hb h' (q :: bs).
Proof.
  intros Hk Hi S Tk Hp. destruct (kind_plain k Hk) as [Hpl Hsh].
  assert (Hin : In (shape_of k, p) (listed i)).
  { apply listed_in. cbn in Hk. intuition (subst k; cbn [shape_of tables] in *; tauto). }
  assert (Hm : mergeable h i) by (destruct Hi as (_ & _ & _ & Hm & _); exact Hm).
  assert (Hall : In p (fp_inspol i ++ fp_vis i ++ fp_vis2 i ++ fp_t3 i ++ fp_flux i)).
  { rewrite !in_app_iff. cbn in Hk. intuition (subst k; cbn [tables] in *; tauto). }
  destruct (input_at hb i _ p Hi S Hin) as (s & n & vs & arrs & vecs & H0 & Hb & Hn & Hv).
  destruct (dup_ok k p hb s n vs arrs vecs Hb Hn Hv) as (q & h1 & s1 & arrs1 & vecs1 & E1 & T1 & G1 & S1 & R1).
  rewrite E1. cbn [bind fst snd]. rewrite Hsh in *.
  destruct (record_array _ _ _ _ _ _ _ _ H0) as (rec0 & rows & -> & P0 & L0).
  destruct (record_array _ _ _ _ _ _ _ _ T1) as (rec & rows1 & -> & P1 & L1).
  cbn [map snd] in R1. injection R1 as R1.
  assert (Hrows : rows_at h p "record" rows).
  { exists s, rec0. split; [exact (ta_struct _ _ _ _ _ _ _ _ H0)|]. split; assumption. }
  assert (Hvs : forall f, In f ["target_id"; "insname"]%string -> ~ In f (map fst vs)).
  { intros f Hf. destruct Hpl as (_ & _ & _ & Pv). exact (Pv s vs f (ta_kinds _ _ _ _ _ _ _ _ H0) Hf). }
  assert (Hids : forall r, In r rows1 -> exists id, num r "target_id" = Some id /\ id_ok hb ids (fp_targets i) id).
  { intros r Hr. destruct (map_erase_in _ _ _ "target_id" r R1 Hr) as (r0 & Hr0 & Er); [apply Hvs; left; reflexivity|].
    destruct (id_known hb i ids r0 Hi S (to_values _ _ _ _ Tk) (to_ids _ _ _ _ Tk) (mg_records _ _ Hm p rows r0 Hall Hrows Hr0)) as (id & A & B).
    exists id. split; [|exact B]. unfold num in *. rewrite Er. exact A. }
  assert (K1 : keeps hb h1) by (intros a Ha; exact (grows_keep _ _ _ _ G1 Ha)).
  assert (Nq : ~ live hb q) by (apply G1; left; reflexivity).
  assert (Nr : ~ live hb rec) by (apply G1; right; left; reflexivity).
  assert (Hs1 : forall f x, called h f p x -> f <> "record"%string -> bytes s1 f = Some x).
  { intros f x (s0 & Ls & Hx) Hf. rewrite (ta_struct _ _ _ _ _ _ _ _ H0) in Ls. injection Ls as <-. unfold bytes in *.
    rewrite S1; [exact Hx|]. cbn [records sh_arrays]. intros [X|[]]. congruence. }
  destruct hs as [[ha hw] hc]. destruct Tk as [A B C D E F V K]. cbn [fst snd] in *.
  destruct (mg_arrname _ _ Hm p Hall) as (xa & Ca & Ra).
  assert (Ka : xa = EmptyString \/ known ha xa).
  { destruct Ra as [Ra|Ra]; [left; exact Ra | right; exact (resolved "arrname" _ _ _ D Ra)]. }
  assert (Done : exists h2 s2 rows2, renaming k ids i (ha, hw, hc) q h1 = Ok h2
      /\ table_at (records (vectors_of k)) h2 q s2 n vs [(rec, rows2)] vecs1
      /\ (forall a, a <> q -> a <> rec -> lookup h2 a = lookup h1 a)).
  { assert (Hk2 : k = KInspol \/ In k [KVis; KVis2; KT3; KFlux]) by (cbn in *; intuition).
    destruct Hk2 as [->|Hk2].
    - cbn [renaming]. eapply (rename_inspol_ok hb _ ids i ha hw hc h1 q s1 n vs rec rows1 vecs1 xa K1 Hpl A B T1); try assumption.
      { apply Hs1; [exact Ca | discriminate]. }
      intros r Hr. destruct (map_erase_in _ _ _ "insname" r R1 Hr) as (r0 & Hr0 & Er); [apply Hvs; right; left; reflexivity|].
      destruct (mg_inspol _ _ Hm p rows r0 Hp Hrows Hr0) as (x & Hx & Rx). exists x. split.
      + unfold bytes in *. rewrite Er. exact Hx.
      + exact (resolved "insname" _ _ _ E Rx).
    - assert (Hd : In p (fp_vis i ++ fp_vis2 i ++ fp_t3 i ++ fp_flux i)).
      { rewrite !in_app_iff. cbn in Hk2. intuition (subst k; cbn [tables] in *; tauto). }
      destruct (mg_insname _ _ Hm p Hd) as (xi & Ci & Ri). destruct (mg_corrname _ _ Hm p Hd) as (xc & Cc & Rc).
      assert (Er : renaming k ids i (ha, hw, hc) q h1 = rename_data ids i (ha, hw, hc) q h1).
      { cbn in Hk2. intuition (subst k; reflexivity). }
      rewrite Er.
      apply (rename_data_ok hb _ ids i ha hw hc h1 q s1 n vs rec rows1 vecs1 xa xi xc K1 Hpl A B C T1); try assumption.
      + apply Hs1; [exact Ca | discriminate].
      + apply Hs1; [exact Ci | discriminate].
      + exact (resolved "insname" _ _ _ E Ri).
      + apply Hs1; [exact Cc | discriminate].
      + destruct Rc as [Rc|Rc]; [left; exact Rc | right; exact (resolved "corrname" _ _ _ F Rc)]. }
  destruct Done as (h2 & s2 & rows2 & E2 & T2 & O2). rewrite E2. cbn [bind].
  exists q, h2, (storage [(rec, rows2)] vecs1). split; [reflexivity|].
  split; [do 5 eexists; split; [exact T2 | reflexivity]|].
  change (storage [(rec, rows2)] vecs1) with (storage [(rec, rows1)] vecs1). apply (grows_modify hb h1 h2 _ G1).
  - intros a Ha. apply O2; intros ->; apply Ha; [left | right; left]; reflexivity.
  - intros a Ha. exact (table_live _ _ _ _ _ _ _ _ T2 a Ha).
Qed.

Lemma merge_all_data_ok k ids ds h0 : In k [KInspol; KVis; KVis2; KT3; KFlux] -> sees h t h0 ->
  (forall d, In d ds -> input h t (fst d) /\ tables_ok h0 ids (fst d) (snd d)) ->
  exists out h' bss, merge_all_data (dup_of k malloc) (renaming k ids) (tables k) ds h0 = Ok (out, h')
    /\ Forall2 (owned (shape_of k) h') out bss /\ grows h0 h' (out ++ concat bss)
    /\ List.length out = List.length (flat_map (fun d => tables k (fst d)) ds).
Proof.
  intros Hk S0 Hd. unfold merge_all_data.
  match goal with |- context [foreach ds ?b _] => set (outer := b) end.
  set (good := fun (m : nat) (st : list addr * heap) => exists bss, Forall2 (owned (shape_of k) (snd st)) (fst st) bss
              /\ grows h0 (snd st) (fst st ++ concat bss) /\ List.length (fst st) = m).
  assert (Inner : forall d l st m, In d ds -> incl l (tables k (fst d)) -> good m st ->
    exists st', foreach l (fun p st =>
      r <- dup_of k malloc p (snd st) ;;
      h <- renaming k ids (fst d) (snd d) (fst r) (snd r) ;;
      Ok ((fst st ++ [fst r])%list, h)) st = Ok st' /\ good (m + List.length l)%nat st').
  { intros d l. induction l as [|p l IH]; intros st m Hin Hl G.
    - exists st. split; [reflexivity|]. cbn [List.length]. rewrite Nat.add_0_r. exact G.
    - destruct st as [out hc]. destruct G as (bss & Ho & G & Hlen). cbn [fst snd] in *. cbn [foreach fst snd].
      destruct (Hd d Hin) as [Hi Ht].
      destruct (data_step k hc ids (fst d) (snd d) p Hk Hi (sees_grows _ _ _ _ _ S0 G) (tables_ok_grows _ _ _ _ _ _ Ht G) (Hl p (or_introl eq_refl)))
        as (q & h1 & bs & E1 & O1 & G1).
      destruct (dup_of k malloc p hc) as [[q' h']| |]; cbn [bind fst snd] in *; try discriminate.
      destruct (renaming k ids (fst d) (snd d) q' h') as [h2| |]; cbn [bind] in *; try discriminate. injection E1 as -> ->.
      destruct (IH ((out ++ [q])%list, h1) (S m)) as (st' & E' & G').
      { exact Hin. } { intros a Ha. apply Hl. right. exact Ha. }
      { exists (bss ++ [bs]). cbn [fst snd]. split; [|split].
        - apply Forall2_app; [|constructor; [exact O1 | constructor]].
          eapply owned_tables_grow; [exact Ho | exact G1|]. intros a Ha. apply G, Ha.
        - eapply grows_perm; [apply perm_add | eapply grows_app; eassumption].
        - rewrite app_length. cbn. lia. }
      exists st'. split; [exact E'|]. cbn [List.length]. replace (m + S (List.length l))%nat with (S m + List.length l)%nat by lia. exact G'. }
  assert (Outer : forall ds1 st m, incl ds1 ds -> good m st ->
    exists st', foreach ds1 outer st = Ok st' /\ good (m + List.length (flat_map (fun d => tables k (fst d)) ds1))%nat st').
  { induction ds1 as [|d ds1 IH]; intros st m Hsub G.
    - exists st. split; [reflexivity|]. cbn [flat_map List.length]. rewrite Nat.add_0_r. exact G.
    - cbn [foreach]. unfold outer at 1.
      destruct (Inner d (tables k (fst d)) st m (Hsub d (or_introl eq_refl)) (incl_refl _) G) as (st1 & E1 & G1). rewrite E1. cbn [bind].
      destruct (IH st1 _ (fun a Ha => Hsub a (or_intror Ha)) G1) as (st2 & E2 & G2). exists st2. split; [exact E2|].
      cbn [flat_map]. rewrite app_length, Nat.add_assoc. exact G2. }
  destruct (Outer ds ([], h0) 0%nat (incl_refl _)) as ([out h'] & E & bss & Ho & G & Hlen).
  { exists []. split; [constructor|]. split; [apply grows_refl | reflexivity]. }
  exists out, h', bss. split; [exact E|]. split; [exact Ho|]. split; [exact G | exact Hlen].
Qed.
End Input.
End Merge.
