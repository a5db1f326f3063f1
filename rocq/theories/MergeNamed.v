(** Invariants of merging tables that are referred to by name. *)
From Verif Require Import BaseLemmas FileModel FileSpec FileProofs MergeModel MergeSpec
  MergeProofs MergeNames.
From Coq Require Import Lia.
Open Scope Z_scope.

Section Named.
Context {A : Type}.
Variables (name : A -> string) (set_name : string -> A -> A) (literal : string).
Variables (matching : A -> list A -> res (option A)) (copy : A -> res A).
Variables (good : A -> Prop) (same : A -> A -> Prop).
Hypothesis name_set : forall n c, name (set_name n c) = n.
Hypothesis good_set : forall n c, good c -> good (set_name n c).
Hypothesis same_set : forall a n c, same a c -> same a (set_name n c).
Hypothesis matching_sound : forall a l c, good a -> Forall good l ->
  matching a l = Ok (Some c) -> In c l /\ same a c.
Hypothesis copy_sound : forall a c, good a -> copy a = Ok c -> good c /\ name c = name a /\ same a c.

Let merge_table := merge_table name set_name literal matching copy.
Let merge_tables := merge_tables name set_name literal matching copy.

(** Latest table of a name *)
Definition latest_named (l : list A) (n : string) : option A :=
  find (fun c => str_eqb (name c) n) (rev l).

Definition tables_inv (out : tables A) : Prop :=
  tl_num out = Z.of_nat (length (tl_list out)) /\ Forall good (tl_list out)
  /\ forall n, hash_lookup (tl_hash out) n = latest_named (tl_list out) n.

Lemma latest_app l c n : latest_named (l ++ [c]) n =
  if str_eqb (name c) n then Some c else latest_named l n.
Proof. unfold latest_named. rewrite rev_app_distr. reflexivity. Qed.
Lemma latest_none l n : latest_named l n = None -> ~ In n (map name l).
Proof.
  unfold latest_named. intros H Hin. apply in_map_iff in Hin as (c & <- & Hc).
  apply in_rev in Hc. pose proof (find_none _ _ H _ Hc) as E. cbn in E.
  now rewrite str_eqb_refl in E.
Qed.
Lemma latest_unique l c : NoDup (map name l) -> In c l -> latest_named l (name c) = Some c.
Proof.
  intros Hd Hc. unfold latest_named.
  destruct (find _ (rev l)) as [c'|] eqn:E.
  - apply find_some in E as (Hc' & E). apply str_eqb_eq in E. apply in_rev in Hc'.
    f_equal. clear -Hd Hc Hc' E. induction l as [|x l IH]; [contradiction|].
    cbn in Hd. inversion Hd as [|? ? Hn Hd']; subst. destruct Hc as [->|Hc], Hc' as [->|Hc']; auto.
    + exfalso. apply Hn. rewrite <- E. now apply in_map.
    + exfalso. apply Hn. rewrite E. now apply in_map.
  - apply latest_none in E. exfalso. apply E. now apply in_map.
Qed.

(** One step *)
Lemma merge_table_inv a h out h' out' :
  good a -> tables_inv out -> merge_table a (h, out) = Ok (h', out') ->
  exists c, same a c /\ In c (tl_list out') /\ h' = hash_insert h (name a) (Some (name c))
    /\ tables_inv out'
    /\ ((out' = out /\ matching a (tl_list out) = Ok (Some c))
        \/ (matching a (tl_list out) = Ok None
            /\ exists c0, copy a = Ok c0 /\ tl_list out' = tl_list out ++ [c]
               /\ tl_num out' = tl_num out + 1
               /\ ((c = c0 /\ ~ In (name a) (map name (tl_list out)))
                   \/ c = set_name (new_name literal (name a) (tl_num out)) c0))).
Proof.
  intros Ga (I1 & I2 & I3) H. unfold merge_table, MergeModel.merge_table in H.
  inv_bind H. destruct a0 as [c|].
  - injection H as <- <-. exists c. destruct (matching_sound a _ c Ga I2 E) as [Hin Hs].
    split; [exact Hs|]. split; [exact Hin|]. split; [reflexivity|].
    split; [repeat split; auto|]. left. auto.
  - inv_bind H. destruct (copy_sound a a0 Ga E0) as (Gc & Nc & Sc).
    set (c := match hash_lookup (tl_hash out) (name a0) with
              | Some _ => set_name (new_name literal (name a0) (tl_num out)) a0
              | None => a0 end) in H.
    assert (Hc : good c /\ same a c /\ ((c = a0 /\ ~ In (name a) (map name (tl_list out)))
                \/ c = set_name (new_name literal (name a) (tl_num out)) a0)).
    { unfold c. rewrite I3. destruct (latest_named (tl_list out) (name a0)) eqn:L.
      - rewrite Nc. split; [auto|]. split; [auto|]. right. reflexivity.
      - apply latest_none in L. rewrite Nc in L. auto. }
    clearbody c. destruct Hc as (Hc1 & Hc2 & Hc3). injection H as <- <-. exists c.
    cbn [tl_list tl_hash tl_num].
    split; [exact Hc2|]. split; [apply in_or_app; right; now left|]. split; [reflexivity|].
    split; [|right; split; [exact E|exists a0; auto]].
    unfold tables_inv. cbn [tl_list tl_hash tl_num].
    split; [rewrite app_length; cbn; lia|]. split; [apply Forall_app; auto|].
    intros n. rewrite latest_app. destruct (str_eqb (name c) n) eqn:En.
    + apply str_eqb_eq in En. subst n. apply hash_lookup_insert_same.
    + apply str_eqb_neq in En. rewrite hash_lookup_insert_other by auto. apply I3.
Qed.

(** The hash table [h] of an input with tables [l] *)
Definition renames (l : list A) (h : hash string) (outl : list A) : Prop :=
  (forall n, ~ In n (map name l) -> hash_lookup h n = None)
  /\ (forall p1 a p2, l = p1 ++ a :: p2 -> ~ In (name a) (map name p2) ->
        exists c, In c outl /\ same a c /\ hash_lookup h (name a) = Some (name c)).

Lemma renames_the_one l h outl n a : renames l h outl -> the_one name l n a ->
  exists c, In c outl /\ same a c /\ hash_lookup h n = Some (name c).
Proof.
  intros [_ R] (p1 & p2 & -> & <- & Hn). apply (R p1 a p2 eq_refl).
  intros Hin. apply in_map_iff in Hin as (b & E & Hb). apply (Hn b); auto.
  apply in_or_app. now right.
Qed.

Lemma renames_more l h outl ext : renames l h outl -> renames l h (outl ++ ext).
Proof.
  intros [R1 R2]. split; [exact R1|]. intros p1 a p2 E Hn.
  destruct (R2 p1 a p2 E Hn) as (c & Hc & ?). exists c. split; auto. apply in_or_app. now left.
Qed.

(** The tables of one input *)
Lemma merge_input l out h out' : Forall good l -> tables_inv out ->
  foreach l merge_table (hash_new, out) = Ok (h, out') ->
  tables_inv out' /\ (exists ext, tl_list out' = tl_list out ++ ext)
  /\ renames l h (tl_list out').
Proof.
  intros Gl I H.
  apply (foreach_invariant (fun pre (s : hash string * tables A) =>
    tables_inv (snd s) /\ (exists ext, tl_list (snd s) = tl_list out ++ ext)
    /\ renames pre (fst s) (tl_list (snd s)))) in H; cbn [fst snd] in *.
  - exact H.
  - split; [exact I|]. split; [exists []; now rewrite app_nil_r|].
    split; [reflexivity|]. intros [|? ?]; discriminate.
  - intros pre a [h1 o1] [h2 o2] (J & (ext & Ex) & R1 & R2) Hin Hb. cbn [fst snd] in *.
    rewrite Forall_forall in Gl.
    destruct (merge_table_inv a h1 o1 h2 o2 (Gl a Hin) J Hb)
      as (c & Sc & Ic & -> & J' & Hcase).
    split; [exact J'|].
    assert (X : exists e2, tl_list o2 = tl_list o1 ++ e2).
    { destruct Hcase as [[-> _]|(_ & c0 & _ & -> & _)]; eauto.
      exists []. now rewrite app_nil_r. }
    destruct X as (e2 & X).
    split; [exists (ext ++ e2); rewrite X, Ex, app_assoc; reflexivity|].
    split.
    + intros n Hn. rewrite map_app in Hn. rewrite hash_lookup_insert_other.
      * apply R1. intros K. apply Hn. apply in_or_app. now left.
      * intros ->. apply Hn. apply in_or_app. right. now left.
    + intros p1 b p2 E Hn.
      destruct (string_dec (name b) (name a)) as [Eq|Ne].
      * destruct p2 as [|y p2] using rev_ind.
        -- apply app_inj_tail in E as [_ ->]. exists c. rewrite hash_lookup_insert_same. auto.
        -- exfalso. apply Hn. rewrite app_comm_cons, app_assoc in E.
           apply app_inj_tail in E as [_ ->]. rewrite Eq, map_app. apply in_or_app. right. now left.
      * rewrite hash_lookup_insert_other by auto.
        destruct p2 as [|y p2] using rev_ind.
        -- apply app_inj_tail in E as [_ ->]. contradiction.
        -- clear IHp2. rewrite app_comm_cons, app_assoc in E.
           apply app_inj_tail in E as [E ->].
           destruct (R2 p1 b p2 E) as (c' & Hc' & Hs & Hl).
           { intros K. apply Hn. rewrite map_app. apply in_or_app. now left. }
           exists c'. rewrite X. split; [apply in_or_app; now left|auto].
Qed.

Definition empty_tables : tables A := mk_tables [] hash_new 0.
Lemma empty_inv : tables_inv empty_tables.
Proof. repeat split; constructor. Qed.

(** All inputs *)
Lemma merge_tables_inv lists hs out : Forall (Forall good) lists ->
  merge_tables lists empty_tables = Ok (hs, out) ->
  tables_inv out /\ Forall2 (fun l h => renames l h (tl_list out)) lists hs.
Proof.
  intros G H. unfold merge_tables, MergeModel.merge_tables in H. cbn [tl_list empty_tables assert_ bind] in H.
  apply (foreach_invariant (fun pre (s : list (hash string) * tables A) =>
    tables_inv (snd s) /\ Forall2 (fun l h => renames l h (tl_list (snd s))) pre (fst s))) in H;
    cbn [fst snd] in *.
  - exact H.
  - split; [apply empty_inv|constructor].
  - intros pre l [hs1 o1] [hs2 o2] (I & F) Hin Hb. cbn [fst snd] in *.
    inv_bind Hb. destruct a as [h o]. injection Hb as <- <-.
    rewrite Forall_forall in G.
    destruct (merge_input l o1 h o (G l Hin) I E) as (I' & (ext & X) & R).
    split; [exact I'|]. apply Forall2_app; [|auto].
    rewrite X. clear -F. induction F; constructor; auto using renames_more.
Qed.

(** A property of tables kept by copying and renaming holds of all output tables. *)
Lemma merge_tables_all (Q P : A -> Prop) lists hs out : Forall (Forall good) lists ->
  Forall (Forall Q) lists ->
  (forall a c, good a -> Q a -> copy a = Ok c ->
     P c /\ forall n, fits_value n = true -> P (set_name n c)) ->
  merge_tables lists empty_tables = Ok (hs, out) -> Forall P (tl_list out).
Proof.
  intros G HQ HP H. unfold merge_tables, MergeModel.merge_tables in H.
  cbn [tl_list empty_tables assert_ bind] in H.
  apply (foreach_invariant (fun pre (s : list (hash string) * tables A) =>
    tables_inv (snd s) /\ Forall P (tl_list (snd s)))) in H; cbn [fst snd] in *.
  - apply H.
  - split; [apply empty_inv|constructor].
  - intros pre l [hs1 o1] [hs2 o2] (I & F) Hin Hb. cbn [fst snd] in *.
    inv_bind Hb. destruct a as [h o]. injection Hb as <- <-.
    rewrite Forall_forall in G, HQ. specialize (G l Hin). specialize (HQ l Hin).
    apply (foreach_invariant (fun pre (s : hash string * tables A) =>
      tables_inv (snd s) /\ Forall P (tl_list (snd s)))) in E; cbn [fst snd] in *; auto.
    intros pre' a [h1 t1] [h2 t2] (J & Fp) Ha Hb. cbn [fst snd] in *.
    rewrite Forall_forall in G, HQ.
    destruct (merge_table_inv a h1 t1 h2 t2 (G a Ha) J Hb) as (c & _ & _ & _ & J' & Hcase).
    split; [exact J'|]. destruct Hcase as [[-> _]|(_ & c0 & Ec & -> & _ & Hn)]; [exact Fp|].
    apply Forall_app. split; [exact Fp|]. constructor; [|constructor].
    destruct (HP a c0 (G a Ha) (HQ a Ha) Ec) as [P1 P2]. destruct Hn as [[-> _]| ->]; auto.
    apply P2, new_name_fits.
Qed.

(** No output table was added while a match for its original was there. *)
Lemma merge_tables_fresh lists hs out : Forall (Forall good) lists ->
  merge_tables lists empty_tables = Ok (hs, out) ->
  forall l1 b l2, tl_list out = l1 ++ b :: l2 ->
    Forall good l1 /\ exists a c0, good a /\ matching a l1 = Ok None /\ copy a = Ok c0
      /\ (b = c0 \/ exists n, b = set_name n c0).
Proof.
  intros G H. unfold merge_tables, MergeModel.merge_tables in H.
  cbn [tl_list empty_tables assert_ bind] in H.
  set (Fr := fun (l : list A) => forall l1 b l2, l = l1 ++ b :: l2 ->
    Forall good l1 /\ exists a c0, good a /\ matching a l1 = Ok None /\ copy a = Ok c0
      /\ (b = c0 \/ exists n, b = set_name n c0)).
  apply (foreach_invariant (fun pre (s : list (hash string) * tables A) =>
    tables_inv (snd s) /\ Fr (tl_list (snd s)))) in H; cbn [fst snd] in *.
  - apply H.
  - split; [apply empty_inv|]. intros [|? ?]; discriminate.
  - intros pre l [hs1 o1] [hs2 o2] (I & F) Hin Hb. cbn [fst snd] in *.
    inv_bind Hb. destruct a as [h o]. injection Hb as <- <-.
    rewrite Forall_forall in G. specialize (G l Hin).
    apply (foreach_invariant (fun pre (s : hash string * tables A) =>
      tables_inv (snd s) /\ Fr (tl_list (snd s)))) in E; cbn [fst snd] in *; auto.
    intros pre' a [h1 t1] [h2 t2] (J & Fp) Ha Hb. cbn [fst snd] in *.
    rewrite Forall_forall in G.
    destruct (merge_table_inv a h1 t1 h2 t2 (G a Ha) J Hb) as (c & _ & _ & _ & J' & Hcase).
    split; [exact J'|]. destruct Hcase as [[-> _]|(Hm & c0 & Ec & -> & _ & Hn)]; [exact Fp|].
    intros l1 b l2 El. destruct l2 as [|x l2].
    + apply app_inj_tail in El as [<- <-]. split; [apply J|]. exists a, c0.
      split; [auto|]. split; [exact Hm|]. split; [exact Ec|].
      destruct Hn as [[-> _]| ->]; eauto.
    + destruct (exists_last (l := x :: l2)) as (l2' & y & E2); [discriminate|].
      rewrite E2 in El. rewrite app_comm_cons, app_assoc in El.
      apply app_inj_tail in El as [El _]. eapply Fp; eauto.
Qed.

(** Without matching every table is copied, in order. *)
Lemma merge_tables_copied lists hs out : Forall (Forall good) lists ->
  (forall a l, matching a l = Ok None) ->
  merge_tables lists empty_tables = Ok (hs, out) -> Forall2 same (concat lists) (tl_list out).
Proof.
  intros G HM H. unfold merge_tables, MergeModel.merge_tables in H.
  cbn [tl_list empty_tables assert_ bind] in H.
  apply (foreach_invariant (fun pre (s : list (hash string) * tables A) =>
    tables_inv (snd s) /\ Forall2 same (concat pre) (tl_list (snd s)))) in H; cbn [fst snd] in *.
  - apply H.
  - split; [apply empty_inv|constructor].
  - intros pre l [hs1 o1] [hs2 o2] (I & F) Hin Hb. cbn [fst snd] in *.
    inv_bind Hb. destruct a as [h o]. injection Hb as <- <-.
    rewrite Forall_forall in G. specialize (G l Hin).
    rewrite concat_app. cbn [concat]. rewrite app_nil_r.
    apply (foreach_invariant (fun pre' (s : hash string * tables A) =>
      tables_inv (snd s) /\ Forall2 same (concat pre ++ pre') (tl_list (snd s)))) in E;
      cbn [fst snd] in *; auto.
    + rewrite app_nil_r. auto.
    + intros pre' a [h1 t1] [h2 t2] (J & Fp) Ha Hb. cbn [fst snd] in *.
      rewrite Forall_forall in G.
      destruct (merge_table_inv a h1 t1 h2 t2 (G a Ha) J Hb) as (c & Sc & _ & _ & J' & Hcase).
      split; [exact J'|]. destruct Hcase as [[_ Hm]|(_ & c0 & Ec & -> & _ & _)].
      * rewrite HM in Hm. discriminate.
      * rewrite app_assoc. apply Forall2_app; auto.
Qed.

(** Number of tables copied: at most as many as there are inputs. *)

(** ** Distinct names *)
Section Distinct.
Hypothesis letter : ends_in_letter literal.
Hypothesis short : (String.length literal <= 60)%nat.

Definition names_inv (out : tables A) : Prop :=
  NoDup (map name (tl_list out))
  /\ Forall (fun c => ~ looks_generated literal (name c)
                      \/ exists k, k <= tl_num out /\ generated literal k (name c)) (tl_list out).

Lemma generated_looks k s : generated literal k s -> looks_generated literal s.
Proof. intros [H G]. exists k. auto. Qed.

Lemma merge_tables_distinct lists hs out : Forall (Forall good) lists ->
  (forall l a, In l lists -> In a l -> ~ looks_generated literal (name a)
                                       /\ fits_value (name a) = true) ->
  Z.of_nat (length (concat lists)) < 10000 ->
  merge_tables lists empty_tables = Ok (hs, out) -> NoDup (map name (tl_list out)).
Proof using All.
  intros G HN Hlen H. unfold merge_tables, MergeModel.merge_tables in H.
  cbn [tl_list empty_tables assert_ bind] in H.
  assert (K : forall a h1 t1 h2 t2, good a -> ~ looks_generated literal (name a) ->
    fits_value (name a) = true -> tables_inv t1 -> names_inv t1 -> tl_num t1 < 9999 ->
    merge_table a (h1, t1) = Ok (h2, t2) ->
    tables_inv t2 /\ names_inv t2 /\ tl_num t2 <= tl_num t1 + 1).
  { intros a h1 t1 h2 t2 Ga Na Fa J [N1 N2] Hn Hb.
    destruct (merge_table_inv a h1 t1 h2 t2 Ga J Hb) as (c & _ & _ & _ & J' & Hcase).
    split; [exact J'|]. destruct Hcase as [[-> _]|(_ & c0 & Ec & El & En & Hc)].
    { split; [split; auto|lia]. }
    split; [|lia]. unfold names_inv. rewrite El, En, map_app.
    pose proof J as (Jn & _). 
    assert (N2' : Forall (fun c => ~ looks_generated literal (name c)
      \/ exists k, k <= tl_num t1 + 1 /\ generated literal k (name c)) (tl_list t1)).
    { eapply Forall_impl; [|exact N2]. intros x [?|(k & ? & ?)]; [now left|].
      right. exists k. split; [lia|auto]. }
    destruct (copy_sound a c0 Ga Ec) as (_ & Nc & _).
    assert (Hnew : ~ In (name c) (map name (tl_list t1))
      /\ (~ looks_generated literal (name c)
          \/ exists k, k <= tl_num t1 + 1 /\ generated literal k (name c))).
    { destruct Hc as [[-> Hni]| ->].
      - rewrite Nc. auto.
      - rewrite name_set.
        assert (Gn : generated literal (tl_num t1 + 1) (new_name literal (name a) (tl_num t1))).
        { apply new_name_generated; auto. lia. }
        split; [|right; exists (tl_num t1 + 1); split; [lia|exact Gn]].
        intros Hin. apply in_map_iff in Hin as (x & Ex & Hx).
        rewrite Forall_forall in N2. destruct (N2 x Hx) as [Np|(k & Hk & Gk)]; rewrite Ex in *.
        + apply Np. eapply generated_looks; eauto.
        + pose proof (generated_inj literal _ _ _ letter Gn Gk). lia. }
    destruct Hnew as [H1 H2]. split.
    - clear -N1 H1. cbn. revert N1 H1. generalize (map name (tl_list t1)) as l.
      intros l Hd Hn. apply NoDup_rev in Hd. rewrite <- (rev_involutive (l ++ [name c])).
      apply NoDup_rev. rewrite rev_app_distr. cbn. constructor; auto.
      intros Hin. apply Hn. now apply in_rev.
    - apply Forall_app. split; [exact N2'|]. constructor; auto. }
  assert (G2 : forall rest hs1 o1, (forall l, In l rest -> In l lists) ->
    tables_inv o1 -> names_inv o1 ->
    tl_num o1 + Z.of_nat (length (concat rest)) < 10000 ->
    foreach rest (fun l s => let '(hashes, out) := s in
      r <- foreach l merge_table (hash_new, out) ;;
      let '(h, out) := r in Ok (hashes ++ [h], out)) (hs1, o1) = Ok (hs, out) ->
    NoDup (map name (tl_list out))).
  { induction rest as [|l rest IH]; intros hs1 o1 Hin I N Hb Hf.
    - injection Hf as _ <-. apply N.
    - cbn in Hf, Hb. rewrite app_length in Hb. inv_bind Hf. inv_bind E. destruct a0 as [h o].
      injection E as <-.
      assert (X : tables_inv o /\ names_inv o /\ tl_num o <= tl_num o1 + Z.of_nat (length l)).
      { assert (L : tl_num o1 + Z.of_nat (length l) < 10000) by lia.
        assert (Hl : In l lists) by (apply Hin; now left).
        assert (Gl : Forall good l) by (rewrite Forall_forall in G; auto).
        clear -K E0 I N L Hl Gl HN. revert E0. generalize (@hash_new string) as h0.
        revert o1 I N L. assert (HN' : forall a, In a l -> ~ looks_generated literal (name a)
          /\ fits_value (name a) = true) by (intros; eapply HN; eauto). clear HN Hl.
        induction l as [|a l IHl]; intros o1 I N L h0 E0.
        - injection E0 as _ <-. cbn. auto with zarith.
        - cbn in E0, L. inv_bind E0. destruct a0 as [h1 o2]. inversion Gl; subst.
          destruct (HN' a) as [A1 A2]; [now left|].
          destruct (K a h0 o1 h1 o2) as (I2 & N2 & L2); auto; [lia|].
          destruct (IHl H2 (fun a Ha => HN' a (or_intror Ha)) o2 I2 N2 ltac:(lia) h1 E0)
            as (? & ? & ?). split; [auto|]. split; [auto|]. cbn. lia. }
      destruct X as (X1 & X2 & X3).
      eapply (IH (hs1 ++ [h]) o); eauto; [|lia]. intros; apply Hin; now right. }
  eapply (G2 lists [] empty_tables); eauto.
  - apply empty_inv.
  - split; constructor.
Qed.
End Distinct.

(** ** Merging again *)
Section Again.
Hypothesis matching_more : forall a l c ext, matching a l = Ok (Some c) ->
  matching a (l ++ ext) = Ok (Some c).
Variable self : A -> Prop.
Hypothesis matching_self : forall a l c0 c, good a -> self a -> Forall good l ->
  copy a = Ok c0 -> (c = c0 \/ exists n, c = set_name n c0) -> In c l ->
  exists c', matching a l = Ok (Some c').

(** After an input was merged, all its tables have a match. *)
Lemma merged_have_matches l h0 out h out' : Forall good l -> Forall self l -> tables_inv out ->
  foreach l merge_table (h0, out) = Ok (h, out') ->
  Forall (fun a => exists c, matching a (tl_list out') = Ok (Some c)) l.
Proof using All.
  revert h0 out. induction l as [|a l IH]; intros h0 out Gl Sl I H; [constructor|].
  cbn in H. inv_bind H. destruct a0 as [h1 o1]. inversion Gl as [|? ? Ga Gr]; inversion Sl as [|? ? Sa Sr]; subst.
  pose proof E as E'.
  destruct (merge_table_inv a h0 out h1 o1 Ga I E) as (c & _ & Ic & _ & I1 & Hcase).
  assert (M : exists c', matching a (tl_list o1) = Ok (Some c')).
  { destruct Hcase as [[-> Hm]|(_ & c0 & Ec & El & _ & Hc)]; [eauto|].
    eapply (matching_self a (tl_list o1) c0 c); auto.
    - apply I1.
    - destruct Hc as [[-> _]| ->]; eauto. }
  constructor.
  - destruct M as (c' & M). exists c'.
    assert (X : exists ext, tl_list out' = tl_list o1 ++ ext).
    { clear IH M Ic Hcase E E' Sl Gl Sr.
      revert h1 o1 I1 H. induction l as [|b l IHl]; intros h1 o1 I1 H.
      - injection H as _ <-. exists []. now rewrite app_nil_r.
      - cbn in H. inv_bind H. destruct a0 as [h2 o2]. inversion Gr as [|? ? Gb Gs]; subst.
        destruct (merge_table_inv b h1 o1 h2 o2 Gb I1 E) as (cc & _ & _ & _ & I2 & Hcase).
        destruct (IHl Gs h2 o2 I2 H) as (e & ->).
        destruct Hcase as [[-> _]|(_ & c0 & _ & -> & _)]; eauto.
        rewrite <- app_assoc. eauto. }
    destruct X as (ext & ->). now apply matching_more.
  - eapply IH; eauto.
Qed.

(** Merging tables that all have matches changes nothing. *)
Lemma merge_again l h0 out : Forall (fun a => exists c, matching a (tl_list out) = Ok (Some c)) l ->
  exists h, foreach l merge_table (h0, out) = Ok (h, out).
Proof.
  revert h0. induction l as [|a l IH]; intros h0 H; [cbn; eauto|].
  inversion H as [|? ? [c Hc] Hr]; subst. cbn. unfold merge_table at 1, MergeModel.merge_table.
  rewrite Hc. cbn [bind]. apply IH. exact Hr.
Qed.

Lemma merge_tables_repeat l n hs out : Forall good l -> Forall self l ->
  merge_tables [l] empty_tables = Ok (hs, out) ->
  exists hs', merge_tables (repeat l (S n)) empty_tables = Ok (hs', out)
    /\ length hs' = S n.
Proof using All.
  intros Gl Sl H. unfold merge_tables, MergeModel.merge_tables in *.
  cbn [tl_list empty_tables assert_ bind] in *. cbn [foreach repeat] in *.
  inv_bind H. injection H as ->. inv_bind E. destruct a as [h o]. injection E as <- <-.
  change (MergeModel.merge_table name set_name literal matching copy) with merge_table in E0 |- *.
  rewrite E0. cbn [bind].
  pose proof (merged_have_matches l hash_new empty_tables h o Gl Sl empty_inv E0) as M.
  assert (G : forall n hs1, exists hs', foreach (repeat l n) (fun l s =>
      let '(hashes, out) := s in
      r <- foreach l merge_table (hash_new, out) ;;
      let '(h, out) := r in Ok (hashes ++ [h], out)) (hs1, o) = Ok (hs', o)
      /\ length hs' = (length hs1 + n)%nat).
  { clear -M. induction n as [|n IH]; intros hs1; cbn.
    - exists hs1. split; [reflexivity|lia].
    - destruct (merge_again l hash_new o M) as (h & ->). cbn [bind].
      destruct (IH (hs1 ++ [h])) as (hs' & -> & L). exists hs'. split; [reflexivity|].
      rewrite L, app_length. cbn. lia. }
  destruct (G n [h]) as (hs' & E & L). exists hs'. split; [exact E|]. rewrite L. reflexivity.
Qed.
End Again.

(** ** Progress *)
Section Progress.
Variable able : A -> Prop.
Hypothesis matching_total : forall a l, good a -> Forall good l -> exists m, matching a l = Ok m.
Hypothesis copy_total : forall a, good a -> able a -> exists c, copy a = Ok c.

Lemma merge_table_progress a h out : good a -> able a -> tables_inv out ->
  exists h' out', merge_table a (h, out) = Ok (h', out') /\ tables_inv out'.
Proof using All.
  intros Ga Aa I. destruct (matching_total a (tl_list out) Ga (proj1 (proj2 I))) as (m & Em).
  assert (X : exists r, merge_table a (h, out) = Ok r).
  { unfold merge_table, MergeModel.merge_table. rewrite Em. cbn [bind]. destruct m; [eauto|].
    destruct (copy_total a Ga Aa) as (c & ->). cbn [bind]. eauto. }
  destruct X as ([h' out'] & E). exists h', out'. split; [exact E|].
  destruct (merge_table_inv a h out h' out' Ga I E) as (c & _ & _ & _ & I' & _). exact I'.
Qed.
Lemma merge_tables_progress lists : Forall (Forall good) lists -> Forall (Forall able) lists ->
  exists hs out, merge_tables lists empty_tables = Ok (hs, out) /\ length hs = length lists.
Proof using All.
  intros G Ab. unfold merge_tables, MergeModel.merge_tables.
  cbn [tl_list empty_tables assert_ bind].
  destruct (foreach_progress (fun pre (s : list (hash string) * tables A) =>
      tables_inv (snd s) /\ length (fst s) = length pre)
    (fun l s => let '(hashes, out) := s in
      r <- foreach l merge_table (hash_new, out) ;;
      let '(h, out) := r in Ok (hashes ++ [h], out)) lists ([], empty_tables))
    as ([hs out] & E & _ & L).
  - split; [apply empty_inv|reflexivity].
  - intros pre l post [hs o] El [I L]. cbn [fst snd] in *.
    assert (Hin : In l lists) by (rewrite El; apply in_or_app; right; now left).
    rewrite Forall_forall in G, Ab. specialize (G l Hin). specialize (Ab l Hin).
    destruct (foreach_progress (fun pre (s : hash string * tables A) => tables_inv (snd s))
      merge_table l (hash_new, o)) as ([h o'] & E & I').
    + exact I.
    + intros pre' a post' [h1 o1] El' I1. cbn [snd] in *.
      assert (Ha : In a l) by (rewrite El'; apply in_or_app; right; now left).
      rewrite Forall_forall in G, Ab.
      destruct (merge_table_progress a h1 o1 (G a Ha) (Ab a Ha) I1) as (h' & o' & E & I').
      eexists. split; [exact E|exact I'].
    + rewrite E. cbn [bind]. eexists. split; [reflexivity|]. cbn [fst snd] in *.
      split; [exact I'|]. rewrite !app_length. cbn. lia.
  - exists hs, out. split; [exact E|exact L].
Qed.
End Progress.
End Named.
