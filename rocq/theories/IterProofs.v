(** The iterators visit the accepted data in order. *)
From Verif Require Import Base BaseLemmas FloatModel Types FileModel FileSpec FileProofs FilterModel FilterSpec FilterLemmas FilterProofs FilterRecords FilterTables FilterApply FilterFacts FilterResults IterModel IterSpec.
From Coq Require Import Lia.

Lemma set_filter_same {T} f (it : oi_iter T) : it_filter it = f -> set_filter f it = it.
Proof. intros <-. destruct it. reflexivity. Qed.

Lemma number_app {A} (l m : list A) i : number i (l ++ m) = number i l ++ number (i + Z.of_nat (length l)) m.
Proof.
  revert i. induction l as [|a l IH]; intros i; cbn [number app length]; [f_equal; lia|].
  rewrite IH. do 3 f_equal. lia.
Qed.

Section Walk.
Context {X R : Type}.
Variable d : oi_fits.

(** Tables an iterator can walk over *)
Definition walkable (t : dtab X R) : Prop :=
  0 < tb_nwave t /\ 0 < tb_numrec t /\ tb_numrec t = Z.of_nat (length (tb_record t)).

(** Data after a position: channel [j] of record [i] of table [t] is the next one
    if there is such a channel *)
Definition ahead (n : Z) (t : dtab X R) (rest : list (dtab X R)) (i j : nat) : list (datum X R) :=
  match nth_error (tb_record t) i with
  | Some r => map (fun c => (n, t, Z.of_nat i, r, Z.of_nat c)) (seq j (Z.to_nat (tb_nwave t) - j))
  | None => []
  end
  ++ flat_map (record_data n t) (number (Z.of_nat (S i)) (skipn (S i) (tb_record t)))
  ++ flat_map table_data (number (n + 1) rest).

Definition state (f : filter_spec) (n : Z) (t : dtab X R) (rest : list (dtab X R)) (i j : nat) : oi_iter (dtab X R) :=
  mk_iter d f (t :: rest) (oi_fits_lookup_wavelength d (tb_insname t)) n (Z.of_nat i) (Z.of_nat j - 1).

Lemma ahead_first n t rest : walkable t ->
  table_data (n, t) ++ flat_map table_data (number (n + 1) rest) = ahead n t rest 0 0.
Proof.
  intros (H1 & H2 & H3). unfold ahead, table_data. cbn [fst snd].
  destruct (tb_record t) as [|r l]; [cbn in H3; lia|]. cbn [number flat_map nth_error skipn]. 
  rewrite <- app_assoc. f_equal. unfold record_data. cbn [fst snd]. now rewrite Nat.sub_0_r.
Qed.

Lemma nth_skipn {A} (l : list A) i r : nth_error l i = Some r -> skipn i l = r :: skipn (S i) l.
Proof.
  revert i. induction l as [|a l IH]; intros [|i] H; try discriminate; cbn in *; [congruence|]. now apply IH.
Qed.

Lemma advance_state f n t rest i j : walkable t -> (forall t', In t' rest -> walkable t') ->
  (i < length (tb_record t))%nat -> (j <= Z.to_nat (tb_nwave t))%nat ->
  match ahead n t rest i j with
  | [] => advance (state f n t rest i j) = None
  | (n', t', i', r', j') :: l =>
      exists rest' i1 j1, advance (state f n t rest i j) = Some (state f n' t' rest' i1 (S j1))
        /\ i' = Z.of_nat i1 /\ j' = Z.of_nat j1 /\ nth_error (tb_record t') i1 = Some r'
        /\ (j1 < Z.to_nat (tb_nwave t'))%nat
        /\ ahead n' t' rest' i1 (S j1) = l
        /\ walkable t' /\ (forall u, In u rest' -> walkable u)
  end.
Proof.
  intros Wt Wr Hi Hj. assert (W := Wt). destruct W as (W1 & W2 & W3).
  destruct (some_nth (tb_record t) i Hi) as [r Hr].
  unfold ahead at 1. rewrite Hr.
  destruct (Nat.eq_dec j (Z.to_nat (tb_nwave t))) as [->|Nj].
  - rewrite Nat.sub_diag. cbn [seq map app].
    unfold advance. cbn [state it_link it_iwave it_irec it_data it_filter it_wave it_extver].
    replace (Z.of_nat (Z.to_nat (tb_nwave t)) - 1 <? tb_nwave t - 1) with false by (symmetry; apply Z.ltb_ge; lia).
    destruct (Nat.eq_dec (S i) (length (tb_record t))) as [Ei|Ni].
    + rewrite skipn_all2 by lia. cbn [number flat_map app].
      replace (Z.of_nat i <? tb_numrec t - 1) with false by (symmetry; apply Z.ltb_ge; lia).
      destruct rest as [|t' rest']; [reflexivity|].
      assert (Wt' : walkable t') by (apply Wr; now left). assert (W := Wt'). destruct W as (V1 & V2 & V3).
      cbn [number flat_map].
      destruct (tb_record t') as [|r0 l0] eqn:ER; [cbn in V3; lia|].
      unfold table_data at 1. cbn [fst snd]. rewrite ER. cbn [number flat_map].
      unfold record_data at 1. cbn [fst snd].
      destruct (Z.to_nat (tb_nwave t')) as [|m] eqn:EN; [lia|]. cbn [seq map app].
      exists rest', 0%nat, 0%nat. split; [unfold state; do 2 f_equal|].
      split; [reflexivity|]. split; [reflexivity|]. split; [rewrite ER; reflexivity|]. split; [lia|].
      split; [|split; [exact Wt'|intros u Hu; apply Wr; now right]].
      unfold ahead. rewrite ER, EN. cbn [nth_error skipn]. rewrite <- app_assoc. f_equal.
      cbn [Nat.sub]. rewrite Nat.sub_0_r. reflexivity.
    + assert (Hi' : (S i < length (tb_record t))%nat) by lia.
      destruct (some_nth (tb_record t) (S i) Hi') as [r' Hr'].
      rewrite (nth_skipn _ _ _ Hr'). cbn [number flat_map]. unfold record_data at 1. cbn [fst snd].
      destruct (Z.to_nat (tb_nwave t)) as [|m] eqn:EN; [lia|]. cbn [seq map app].
      replace (Z.of_nat i <? tb_numrec t - 1) with true by (symmetry; apply Z.ltb_lt; lia).
      exists rest, (S i), 0%nat. split; [unfold state; do 2 f_equal; lia|].
      split; [reflexivity|]. split; [reflexivity|]. split; [exact Hr'|]. split; [lia|].
      split; [|split; assumption].
      unfold ahead. rewrite Hr', EN. cbn [Nat.sub]. rewrite Nat.sub_0_r, <- app_assoc. f_equal.
      f_equal. f_equal. f_equal. lia.
  - replace (Z.to_nat (tb_nwave t) - j)%nat with (S (Z.to_nat (tb_nwave t) - S j)) by lia.
    cbn [seq map app]. unfold advance. cbn [state it_link it_iwave it_irec it_data it_filter it_wave it_extver].
    replace (Z.of_nat j - 1 <? tb_nwave t - 1) with true by (symmetry; apply Z.ltb_lt; lia).
    exists rest, i, j. split; [unfold state; do 2 f_equal; lia|].
    split; [reflexivity|]. split; [reflexivity|]. split; [exact Hr|]. split; [lia|].
    split; [|split; assumption]. unfold ahead. rewrite Hr. reflexivity.
Qed.


Lemma length_record_data n (t : dtab X R) ir : length (record_data n t ir) = Z.to_nat (tb_nwave t).
Proof. unfold record_data. now rewrite map_length, seq_length. Qed.
Lemma length_flat_const {A B} (g : A -> list B) c l : (forall a, length (g a) = c) ->
  length (flat_map g l) = (length l * c)%nat.
Proof. intros H. induction l as [|a l IH]; cbn; [reflexivity|]. rewrite app_length, H, IH. reflexivity. Qed.
Lemma number_length {A} i (l : list A) : length (number i l) = length l.
Proof. revert i. induction l; intros i; cbn; auto. Qed.
Lemma length_tables n (l : list (dtab X R)) : (forall t, In t l -> walkable t) ->
  (length (flat_map table_data (number n l)) <= fold_right (fun t n => (table_turns t + n)%nat) O l)%nat.
Proof.
  revert n. induction l as [|t l IH]; intros n W; cbn [number flat_map fold_right length]; [lia|].
  rewrite app_length. specialize (IH (n + 1) (fun t' H => W t' (or_intror H))).
  assert (length (table_data (n, t)) <= table_turns t)%nat; [|lia].
  unfold table_data. cbn [fst snd]. rewrite (length_flat_const _ (Z.to_nat (tb_nwave t))) by (intros; apply length_record_data).
  rewrite number_length. destruct (W t (or_introl eq_refl)) as (_ & _ & W3). unfold table_turns. rewrite W3, Nat2Z.id. nia.
Qed.
Lemma length_ahead n t rest i j : walkable t -> (forall t', In t' rest -> walkable t') ->
  (i < length (tb_record t))%nat ->
  (length (ahead n t rest i j) <= fold_right (fun t n => (table_turns t + n)%nat) O (t :: rest))%nat.
Proof.
  intros W Wr Hi. unfold ahead. rewrite !app_length. cbn [fold_right].
  pose proof (length_tables (n + 1) rest Wr) as HT. set (m := fold_right _ _ _) in *. clearbody m.
  rewrite (length_flat_const _ (Z.to_nat (tb_nwave t))) by (intros; apply length_record_data).
  rewrite number_length, skipn_length. destruct W as (_ & _ & W3). unfold table_turns. rewrite W3, Nat2Z.id.
  assert (length match nth_error (tb_record t) i with
    | Some r => map (fun c => (n, t, Z.of_nat i, r, Z.of_nat c)) (seq j (Z.to_nat (tb_nwave t) - j))
    | None => [] end <= Z.to_nat (tb_nwave t))%nat.
  { destruct (nth_error (tb_record t) i); [rewrite map_length, seq_length; lia|cbn; lia]. }
  pose proof (Nat.mul_le_mono_r (length (tb_record t) - S i) (length (tb_record t)) (Z.to_nat (tb_nwave t))).
  rewrite Nat.mul_add_distr_r, Nat.mul_add_distr_l. lia.
Qed.

(** *** The search loop *)

Context (accept_kind : filter_spec -> bool) (accept_record : filter_spec -> R -> bool)
  (accept_channel : filter_spec -> oi_wavelength -> R -> Z -> res bool).
Notation next_loop := (next_loop accept_record accept_channel).
Notation accept_current := (accept_current accept_record accept_channel).
Notation iter_next := (iter_next accept_kind accept_record accept_channel).

(** The tables; [okb] decides which data are accepted *)
Variables (l0 : list (dtab X R)) (okb : datum X R -> bool) (f : filter_spec).
Hypothesis W : forall t, In t l0 -> walkable t.
Hypothesis OK : forall n t rest i j r, In t l0 ->
  nth_error (tb_record t) i = Some r -> (j < Z.to_nat (tb_nwave t))%nat ->
  accept_current (state f n t rest i (S j))
  = Ok (if okb (n, t, Z.of_nat i, r, Z.of_nat j) then Some (n, t, Z.of_nat i, r, Z.of_nat j) else None).

(** The iterator stands before the data [rem] *)
Definition at_pos (g : filter_spec) (it : oi_iter (dtab X R)) (rem : list (datum X R)) : Prop :=
  (it_link it = [] /\ it_filter it = g /\ rem = [])
  \/ exists n t rest i j, it = state g n t rest i j /\ rem = ahead n t rest i j
     /\ In t l0 /\ (forall u, In u rest -> In u l0)
     /\ (i < length (tb_record t))%nat /\ (j <= Z.to_nat (tb_nwave t))%nat.
(** ... and the datum just passed is [x] *)
Definition just_passed (it : oi_iter (dtab X R)) (x : datum X R) : Prop :=
  let '(n, t, i, r, j) := x in
  exists rest i1 j1, it = state (it_filter it) n t rest i1 (S j1) /\ In t l0
    /\ nth_error (tb_record t) i1 = Some r /\ (j1 < Z.to_nat (tb_nwave t))%nat
    /\ i = Z.of_nat i1 /\ j = Z.of_nat j1.

Lemma advance_at it rem : at_pos f it rem ->
  match rem with
  | [] => advance it = None
  | x :: rem' => exists it', advance it = Some it' /\ at_pos f it' rem'
      /\ accept_current it' = Ok (if okb x then Some x else None) /\ just_passed it' x
  end.
Proof.
  intros [(HL & _ & ->)|(n & t & rest & i & j & -> & -> & Ht & Hr & Hi & Hj)].
  - unfold advance. now rewrite HL.
  - pose proof (advance_state f n t rest i j (W t Ht) (fun u Hu => W u (Hr u Hu)) Hi Hj) as H.
    destruct (ahead n t rest i j) as [|[[[[n' t'] i'] r'] j'] l]; [exact H|].
    destruct H as (rest' & i1 & j1 & E & -> & -> & Hr' & Hj1 & El & _).
    exists (state f n' t' rest' i1 (S j1)). split; [exact E|].
    assert (HT : In t' (t :: rest) /\ forall u, In u rest' -> In u (t :: rest)).
    { unfold advance in E. cbn [state it_link it_iwave it_irec it_data it_filter it_wave it_extver] in E.
      destruct (_ <? _); [injection E; intros; subst; split; [now left|intros u Hu; now right]|].
      destruct (_ <? _); [injection E; intros; subst; split; [now left|intros u Hu; now right]|].
      destruct rest as [|t1 rest1]; [discriminate|]. injection E; intros; subst. split; [right; now left|].
      intros u Hu. right. now right. }
    assert (Ht' : In t' l0) by (destruct HT as [[->|H] _]; auto).
    assert (Hrest' : forall u, In u rest' -> In u l0) by (intros u Hu; destruct (proj2 HT u Hu) as [->|H]; auto).
    split; [|split].
    + right. exists n', t', rest', i1, (S j1). repeat (split; [auto; fail|]). split; [|lia].
      apply nth_error_Some. congruence.
    + now apply OK.
    + exists rest', i1, j1. cbn [state it_filter]. repeat (split; [auto; fail|]). reflexivity.
Qed.

(** Skip to the first accepted datum *)
Fixpoint first_ok (l : list (datum X R)) : option (datum X R * list (datum X R)) :=
  match l with
  | [] => None
  | x :: l' => if okb x then Some (x, l') else first_ok l'
  end.

Lemma next_loop_ok rem : forall fuel it, at_pos f it rem -> (length rem < fuel)%nat ->
  exists it', next_loop fuel it = Ok (it', option_map fst (first_ok rem))
    /\ at_pos f it' (match first_ok rem with Some (_, r) => r | None => [] end)
    /\ match first_ok rem with Some (x, _) => just_passed it' x | None => True end.
Proof.
  induction rem as [|x rem IH]; intros fuel it H HF; (destruct fuel as [|fuel]; [cbn in HF; lia|]);
    pose proof (advance_at it _ H) as A; cbn [IterModel.next_loop first_ok].
  - rewrite A. exists it. auto.
  - destruct A as (it' & -> & Hp & -> & Hj). cbn [bind]. destruct (okb x).
    + exists it'. auto.
    + apply IH; [exact Hp|]. cbn in HF. lia.
Qed.

Lemma at_pos_length it rem g : at_pos g it rem -> (length rem < fuel_of it)%nat.
Proof.
  intros [(HL & _ & ->)|(n & t & rest & i & j & -> & -> & Ht & Hr & Hi & Hj)]; unfold fuel_of.
  - rewrite HL. cbn. lia.
  - cbn [state it_link]. pose proof (length_ahead n t rest i j (W t Ht) (fun u Hu => W u (Hr u Hu)) Hi). lia.
Qed.
Lemma at_pos_filter g g' it rem : at_pos g it rem -> at_pos g' (set_filter g' it) rem.
Proof.
  intros [(HL & _ & ->)|(n & t & rest & i & j & -> & H)]; [left; cbn; auto|].
  right. exists n, t, rest, i, j. split; [reflexivity|exact H].
Qed.
Lemma just_passed_filter g it x : just_passed it x -> just_passed (set_filter g it) x.
Proof.
  destruct x as [[[[n t] i] r] j]. intros (rest & i1 & j1 & E & H). exists rest, i1, j1. split; [|exact H].
  rewrite E. reflexivity.
Qed.

(** One call; [g] is the filter as the caller gave it *)
Lemma iter_next_ok g it rem : fresh_filter g -> f = compiled g -> accept_kind g = true -> at_pos g it rem ->
  exists it', iter_next it = Ok (it', option_map fst (first_ok rem))
    /\ at_pos g it' (match first_ok rem with Some (_, r) => r | None => [] end)
    /\ match first_ok rem with Some (x, _) => just_passed it' x | None => True end.
Proof.
  intros HF Ef HK H.
  assert (EG : it_filter it = g) by (destruct H as [(_ & E & _)|(n & t & rest & i & j & -> & _)]; auto).
  assert (EC : set_pttns (compile (f_arrname_pttn g) (f_arrname g))
                (compile (f_insname_pttn g) (f_insname g))
                (compile (f_corrname_pttn g) (f_corrname g)) g = f).
  { rewrite Ef. destruct HF as (-> & -> & ->). reflexivity. }
  unfold IterModel.iter_next. rewrite EG, HK. cbn [negb]. rewrite EC.
  destruct (next_loop_ok rem (fuel_of it) (set_filter f it)) as (it' & E & Hp & Hj).
  - eapply at_pos_filter; eauto.
  - eapply at_pos_length; eauto.
  - rewrite E. cbn [bind]. eexists. split; [reflexivity|]. split.
    + assert (EN : set_pttns None None None f = g).
      { rewrite Ef. destruct g. destruct HF as (H1 & H2 & H3). cbn in *. now subst. }
      rewrite EN. eapply at_pos_filter; eauto.
    + destruct (first_ok rem) as [[x r]|]; [|exact I]. now apply just_passed_filter.
Qed.

Lemma first_ok_filter rem : match first_ok rem with
  | Some (x, r) => filter okb rem = x :: filter okb r
  | None => filter okb rem = [] end.
Proof. induction rem as [|x rem IH]; cbn [first_ok filter]; [reflexivity|]. destruct (okb x); auto. Qed.

Lemma calls_ok g : fresh_filter g -> f = compiled g -> accept_kind g = true -> forall n it rem, at_pos g it rem ->
  exists it', calls iter_next n it = Ok (it', nth_error (filter okb rem) n)
    /\ match nth_error (filter okb rem) n with Some x => just_passed it' x | None => True end.
Proof.
  intros HF Ef HK. induction n as [|n IH]; intros it rem H; cbn [calls];
    destruct (iter_next_ok g it rem HF Ef HK H) as (it' & -> & Hp & Hj); pose proof (first_ok_filter rem) as E;
    destruct (first_ok rem) as [[x r]|]; rewrite E; cbn [bind option_map fst nth_error].
  - eauto.
  - eauto.
  - apply IH. exact Hp.
  - destruct (IH it' [] Hp) as (it2 & E2 & H2). cbn [filter] in E2, H2. exists it2.
    rewrite E2. split; [|exact I]. now destruct n.
Qed.

Lemma init_at pf g : (pf = Some g \/ pf = None /\ g = init_oi_filter) ->
  at_pos g (iter_init l0 d pf) (all_data l0).
Proof.
  intros Hpf. assert (E : match pf with Some f => f | None => init_oi_filter end = g).
  { destruct Hpf as [->|[-> ->]]; reflexivity. }
  unfold iter_init. rewrite E. destruct l0 as [|t rest] eqn:EL; [left; cbn; auto|].
  assert (Wt : walkable t) by (apply W; now left).
  right. exists 1, t, rest, 0%nat, 0%nat. split; [reflexivity|]. split.
  - unfold all_data. cbn [number flat_map]. now apply ahead_first.
  - rewrite EL. split; [now left|]. split; [intros u Hu; now right|]. split; [|lia].
    destruct Wt as (_ & H & H'). lia.
Qed.
End Walk.
