(** Proofs about scripts: which datasets are destroyed. *)
From Verif Require Import Base BaseLemmas PyModel PySpec PyProofs.
From Coq Require Import Lia Permutation.
Open Scope list_scope.

(** ** Variables *)

Definition strip (l : list (string * binding)) : list (string * option binding) :=
  map (fun b => (fst b, match snd b with BFilter _ => None | b => Some b end)) l.
Lemma strip_refers h l l' : strip l = strip l' -> existsb (refers h) l = existsb (refers h) l'.
Proof.
  revert l'. induction l as [|[x b] l IH]; intros [|[x' b'] l'] H; try discriminate; [reflexivity|].
  cbn in *. injection H as _ Hb Hl. rewrite (IH _ Hl). f_equal. unfold refers. cbn.
  destruct b, b'; try discriminate; try reflexivity; congruence.
Qed.
Lemma strip_names l l' : strip l = strip l' -> map fst l = map fst l'.
Proof.
  intros H. apply (f_equal (map fst)) in H. unfold strip in H. rewrite !map_map in H. exact H.
Qed.
Lemma strip_filter x l l' f : strip l = strip l' -> lookup x l = Some (BFilter f) -> exists g, lookup x l' = Some (BFilter g).
Proof.
  revert l'. induction l as [|[y b] l IH]; intros [|[y' b'] l'] H; try discriminate.
  cbn in H. injection H as <- Hb Hl. cbn [lookup]. destruct (str_eqb y x); [|now apply IH].
  intros Hf. injection Hf as ->. destruct b'; try discriminate. eauto.
Qed.
Lemma strip_update x l f g : lookup x l = Some (BFilter f) -> strip (update x (BFilter g) l) = strip l.
Proof.
  induction l as [|[y b] l IH]; cbn [lookup update]; [discriminate|].
  destruct (str_eqb y x); intros H; cbn [strip map fst snd].
  - injection H as ->. reflexivity.
  - f_equal. now apply IH.
Qed.
Lemma lookup_none {A} x (l : list (string * A)) : ~ In x (map fst l) -> lookup x l = None.
Proof.
  induction l as [|[y a] l IH]; cbn [lookup map fst]; [reflexivity|]. intros N. unfold str_eqb.
  destruct (String.eqb_spec y x) as [->|]; [destruct N; now left|]. apply IH. intros H. apply N. now right.
Qed.
Lemma refers_unbind h x l : NoDup (map fst l) ->
  existsb (refers h) l = existsb (refers h) (unbind x l) || match lookup x l with Some (BData h') => Nat.eqb h' h | _ => false end.
Proof.
  unfold unbind. induction l as [|[y b] l IH]; [reflexivity|]. cbn [map fst]. intros N. inversion N as [|? ? N1 N2]; subst.
  cbn [existsb filter lookup fst]. unfold str_eqb in *. destruct (String.eqb_spec y x) as [->|]; cbn [negb existsb]; rewrite (IH N2).
  - rewrite (lookup_none _ _ N1). rewrite orb_false_r, orb_comm. unfold refers at 2. cbn [snd]. destruct b; reflexivity.
  - now rewrite orb_assoc.
Qed.
Lemma unbind_names {A} x (l : list (string * A)) : NoDup (map fst l) -> NoDup (map fst (unbind x l)) /\ ~ In x (map fst (unbind x l)).
Proof.
  unfold unbind. induction l as [|[y a] l IH]; [split; [constructor|intros []]|]. cbn [map fst]. intros N.
  inversion N as [|? ? N1 N2]; subst. destruct (IH N2) as [I1 I2]. cbn [filter fst]. unfold str_eqb in *.
  destruct (String.eqb_spec y x) as [->|Ny]; cbn [negb]; [auto|]. cbn [map fst]. split.
  - constructor; [|exact I1]. intros H. apply N1. apply in_map_iff in H as ([z b] & <- & H). apply filter_In in H as [H _].
    apply in_map_iff. exists (z, b). auto.
  - intros [H|H]; congruence.
Qed.

(** ** The account: [ts] are the datasets held by temporary objects *)

Record account (ts : list nat) (s : state) : Prop := mk_account {
  ac_alive : forall h c, nth_error (s_cells s) h = Some c ->
    c_alive c = negb (c_owned c) || c_pinned c || existsb (refers h) (s_vars s) || existsb (Nat.eqb h) ts;
  ac_once : NoDup ts;
  ac_there : forall h, In h ts -> (h < List.length (s_cells s))%nat;
  ac_held : forall h, existsb (refers h) (s_vars s) = true -> (h < List.length (s_cells s))%nat /\ ~ In h ts;
  ac_names : NoDup (map fst (s_vars s)) }.

Lemma existsb_eqb h ts : existsb (Nat.eqb h) ts = true <-> In h ts.
Proof.
  rewrite existsb_exists. split.
  - intros (x & H & E). apply Nat.eqb_eq in E. now subst.
  - intros H. exists h. split; [exact H|apply Nat.eqb_refl].
Qed.
Lemma existsb_eqb_false h ts : ~ In h ts -> existsb (Nat.eqb h) ts = false.
Proof. intros N. destruct (existsb (Nat.eqb h) ts) eqn:X; [|reflexivity]. now apply existsb_eqb in X. Qed.

Lemma account_perm ts ts' s : Permutation ts ts' -> account ts s -> account ts' s.
Proof.
  intros P [A O T H N]. constructor; auto.
  - intros h c Hc. rewrite (A h c Hc). f_equal. apply Bool.eq_iff_eq_true. rewrite !existsb_eqb. split; apply Permutation_in; [exact P|now symmetry].
  - eapply Permutation_NoDup; eassumption.
  - intros h X. apply T. eapply Permutation_in; [symmetry; exact P|exact X].
  - intros h Hr. destruct (H h Hr) as [H1 H2]. split; [exact H1|]. intros X. apply H2. eapply Permutation_in; [symmetry; exact P|exact X].
Qed.

Definition tmp (t : nat * bool) : list nat := if snd t then [fst t] else [].
Lemma account_drop t ts s : account (tmp t ++ ts) s -> account ts (drop t s).
Proof.
  destruct t as [h b]. unfold tmp, drop. cbn [fst snd]. destruct b; [|auto].
  cbn [app]. intros [A O T H N]. inversion O as [|? ? O1 O2]; subst. constructor; cbn [destroy s_cells s_vars]; auto.
  - intros h' c Hc. rewrite nth_set_cell in Hc. destruct (Nat.eqb_spec h' h) as [->|Nh].
    + destruct (nth_error (s_cells s) h) as [c0|] eqn:H0; [|discriminate]. cbn in Hc. injection Hc as <-.
      specialize (A h c0 H0). unfold destroyed. rewrite (existsb_eqb_false h ts O1).
      destruct (existsb (refers h) (s_vars s)) eqn:Hr.
      { destruct (H h Hr) as [_ Hn]. destruct Hn. now left. }
      destruct (c_owned c0) eqn:Ho, (c_pinned c0) eqn:Hp; cbn [andb negb c_alive c_owned c_pinned orb]; rewrite ?Ho, ?Hp; cbn; try reflexivity;
        rewrite A; reflexivity.
    + specialize (A h' c Hc). cbn [existsb] in A. apply Nat.eqb_neq in Nh. rewrite Nh in A. exact A.
  - intros h' Hin. rewrite length_set_cell. apply T. now right.
  - intros h' Hr. rewrite length_set_cell. destruct (H h' Hr) as [H1 H2]. split; [exact H1|]. intros Hin. apply H2. now right.
Qed.
Lemma account_new ts s v owned : account ts s -> account (fst (new_cell v owned s) :: ts) (snd (new_cell v owned s)).
Proof.
  intros [A O T H N]. cbn [new_cell fst snd].
  assert (Nt : ~ In (List.length (s_cells s)) ts) by (intros X; specialize (T _ X); lia).
  constructor; cbn [s_cells s_vars]; auto.
  - intros h c Hc. destruct (Nat.lt_ge_cases h (List.length (s_cells s))) as [L|G].
    + rewrite nth_error_app1 in Hc by exact L. specialize (A h c Hc). cbn [existsb].
      replace (Nat.eqb h (List.length (s_cells s))) with false by (symmetry; apply Nat.eqb_neq; lia). exact A.
    + assert (h = List.length (s_cells s)).
      { assert (nth_error (s_cells s ++ [mk_cell v owned true false []]) h <> None) by congruence.
        apply nth_error_Some in H0. rewrite app_length in H0. cbn in H0. lia. }
      subst h. rewrite nth_error_app2, Nat.sub_diag in Hc by lia. injection Hc as <-. cbn [c_alive c_owned c_pinned existsb].
      rewrite Nat.eqb_refl. cbn. now rewrite orb_true_r.
  - constructor; assumption.
  - intros h [<-|X]; rewrite app_length; cbn; [lia|]. specialize (T _ X). lia.
  - intros h Hr. destruct (H h Hr) as [H1 H2]. rewrite app_length. split; [lia|]. intros [X|X]; [lia|auto].
Qed.
Definition living (s : state) (h : nat) : Prop := exists c, nth_error (s_cells s) h = Some c /\ c_alive c = true.
Lemma account_pin t ts s : account (tmp t ++ ts) s -> living s (fst t) -> account ts (pin (fst t) s).
Proof.
  intros [A O T H N] (c0 & H0 & A0). assert (O2 : NoDup ts /\ (snd t = true -> ~ In (fst t) ts)).
  { unfold tmp in O. destruct (snd t); [|split; [exact O|discriminate]]. inversion O; subst. auto. }
  constructor; cbn [pin s_cells s_vars]; try tauto.
  - intros h c Hc. rewrite nth_set_cell in Hc. destruct (Nat.eqb_spec h (fst t)) as [->|Nh].
    + rewrite H0 in Hc. cbn in Hc. injection Hc as <-. cbn. rewrite A0. now rewrite orb_true_r.
    + specialize (A h c Hc). rewrite A. rewrite existsb_app. unfold tmp. destruct (snd t); [|reflexivity].
      cbn [existsb]. apply Nat.eqb_neq in Nh. rewrite Nh. reflexivity.
  - intros h X. rewrite length_set_cell. apply T. apply in_or_app. now right.
  - intros h Hr. rewrite length_set_cell. destruct (H h Hr) as [H1 H2]. split; [exact H1|]. intros X. apply H2, in_or_app. now right.
Qed.
Lemma living_pin s h h' : living s h -> living (pin h' s) h.
Proof.
  intros (c & H & A). unfold living. cbn. rewrite nth_set_cell. destruct (Nat.eqb_spec h h') as [->|]; [|eauto].
  rewrite H. cbn. eexists. split; [reflexivity|]. exact A.
Qed.
Lemma account_pins l : forall ts s, account (flat_map tmp l ++ ts) s -> Forall (fun t => living s (fst t)) l ->
  account ts (fold_left (fun s (t : nat * bool) => pin (fst t) s) l s).
Proof.
  induction l as [|t l IH]; intros ts s A L; [exact A|]. cbn [fold_left flat_map] in *. rewrite <- app_assoc in A.
  inversion L as [|? ? L1 L2]; subst. apply IH; [now apply account_pin|].
  eapply Forall_impl; [|exact L2]. intros t' H. now apply living_pin.
Qed.
Lemma wholes_living l vs s : wholes l s = Ok vs -> Forall (living s) l.
Proof.
  revert vs. induction l as [|h l IH]; intros vs H; [constructor|]. cbn [wholes] in H.
  apply bind_inv in H as (v & Hv & H). apply bind_inv in H as (r & Hr & H). constructor; [|eapply IH; eassumption].
  unfold whole, the_cell in Hv. destruct (nth_error (s_cells s) h) as [c|] eqn:Hc; [|discriminate].
  destruct (c_alive c) eqn:Ha; [|discriminate]. exists c. auto.
Qed.
Lemma account_vars ts s vars : account ts s -> strip vars = strip (s_vars s) -> account ts (mk_state (s_cells s) vars (s_disk s)).
Proof.
  intros [A O T H N] X. constructor; cbn [s_cells s_vars]; auto.
  - intros h c Hc. rewrite (strip_refers h _ _ X). auto.
  - intros h. rewrite (strip_refers h _ _ X). auto.
  - now rewrite (strip_names _ _ X).
Qed.
Lemma account_disk ts s d : account ts s -> account ts (mk_state (s_cells s) (s_vars s) d).
Proof. intros [A O T H N]. now constructor. Qed.
Lemma account_cells ts s h f : account ts s ->
  (forall c, c_alive (f c) = c_alive c /\ c_owned (f c) = c_owned c /\ c_pinned (f c) = c_pinned c) ->
  account ts (mk_state (set_cell h f (s_cells s)) (s_vars s) (s_disk s)).
Proof.
  intros [A O T H N] F. constructor; cbn [s_cells s_vars]; auto.
  - intros h' c Hc. rewrite nth_set_cell in Hc. destruct (Nat.eqb_spec h' h) as [->|]; [|auto].
    destruct (nth_error (s_cells s) h) as [c0|] eqn:H0; [|discriminate]. injection Hc as <-.
    destruct (F c0) as (-> & -> & ->). auto.
  - intros h'. rewrite length_set_cell. auto.
  - intros h'. rewrite length_set_cell. auto.
Qed.

Lemma account_rebind ts s x new : account ts s ->
  match new with Some (BData h) => ts = [h] \/ ts = [] /\ existsb (refers h) (s_vars s) = true | _ => ts = [] end ->
  account [] (rebind x (news x new) s).
Proof.
  intros [A O T H N] K.
  set (vars := news x new ++ unbind x (s_vars s)).
  set (old := match lookup x (s_vars s) with Some (BData h) => Some h | _ => None end).
  set (newh := match new with Some (BData h) => Some h | _ => None end).
  assert (Rv : forall h, existsb (refers h) vars = match newh with Some h' => Nat.eqb h' h | None => false end
                                                   || existsb (refers h) (unbind x (s_vars s))).
  { intros h. unfold vars, newh. rewrite existsb_app. f_equal. destruct new as [[h'| |]|]; try reflexivity.
    cbn. now rewrite orb_false_r. }
  assert (Ro : forall h, existsb (refers h) (s_vars s) = existsb (refers h) (unbind x (s_vars s))
                                                       || match old with Some h' => Nat.eqb h' h | None => false end).
  { intros h. rewrite (refers_unbind h x (s_vars s) N). f_equal. unfold old. destruct (lookup x (s_vars s)) as [[]|]; reflexivity. }
  assert (Nv : NoDup (map fst vars)).
  { destruct (unbind_names x (s_vars s) N) as [N1 N2]. unfold vars, news. destruct new; [|exact N1]. cbn. now constructor. }
  assert (Hn : forall h, newh = Some h -> (h < List.length (s_cells s))%nat
             /\ (existsb (refers h) (s_vars s) || existsb (Nat.eqb h) ts = true)).
  { intros h Hh. unfold newh in Hh. destruct new as [[h'| |]|]; try discriminate. injection Hh as ->. destruct K as [->|[-> K]].
    - split; [apply T; now left|]. cbn. rewrite Nat.eqb_refl. now rewrite orb_true_r.
    - split; [now apply H|]. now rewrite K. }
  assert (Ht : forall h, existsb (Nat.eqb h) ts = true -> newh = Some h).
  { intros h Hh. unfold newh. destruct new as [[h'| |]|]; try (subst ts; discriminate Hh). destruct K as [->|[-> _]]; [|discriminate].
    cbn in Hh. rewrite orb_false_r in Hh. apply Nat.eqb_eq in Hh. now subst. }
  assert (Held : forall h, existsb (refers h) vars = true -> (h < List.length (s_cells s))%nat).
  { intros h Hr. rewrite Rv in Hr. apply orb_prop in Hr as [Hr|Hr].
    - destruct newh as [h'|] eqn:E; [|discriminate]. apply Nat.eqb_eq in Hr. subst. now apply Hn.
    - apply H. rewrite Ro, Hr. reflexivity. }
  (** a cell other than the old one *)
  assert (Al : forall h c, nth_error (s_cells s) h = Some c -> old <> Some h \/ existsb (refers h) vars = true ->
             c_alive c = negb (c_owned c) || c_pinned c || existsb (refers h) vars || false).
  { intros h c Hc Hor. rewrite (A h c Hc), orb_false_r, <- orb_assoc. f_equal.
    destruct (existsb (refers h) vars) eqn:Ev.
    - rewrite Rv in Ev. apply orb_prop in Ev as [Ev|Ev].
      + destruct newh as [h'|] eqn:E; [|discriminate]. apply Nat.eqb_eq in Ev. subst. now apply Hn.
      + rewrite Ro, Ev. reflexivity.
    - destruct Hor as [Hor|]; [|discriminate]. rewrite Rv in Ev. apply orb_false_elim in Ev as [E1 E2].
      rewrite Ro, E2. cbn [orb]. destruct old as [h'|].
      + destruct (Nat.eqb_spec h' h) as [->|]; [congruence|]. cbn [orb].
        destruct (existsb (Nat.eqb h) ts) eqn:Et; [|reflexivity]. rewrite (Ht _ Et), Nat.eqb_refl in E1. discriminate.
      + cbn [orb]. destruct (existsb (Nat.eqb h) ts) eqn:Et; [|reflexivity]. rewrite (Ht _ Et), Nat.eqb_refl in E1. discriminate. }
  unfold rebind. fold vars.
  assert (Plain : (forall h, old = Some h -> existsb (refers h) vars = true) -> account [] (mk_state (s_cells s) vars (s_disk s))).
  { intros Ho. constructor; cbn [s_cells s_vars]; auto using NoDup_nil; try (intros ? XX; exfalso; exact XX).
    - intros h c Hc. cbn [existsb]. apply Al; [exact Hc|]. destruct old as [h'|]; [|left; discriminate].
      destruct (Nat.eq_dec h' h) as [->|]; [right; now apply Ho|left; congruence].
}
  unfold old in Plain, Al. destruct (lookup x (s_vars s)) as [[h0|h0 p|f]|]; try (apply Plain; intros ? ?; discriminate).
  destruct (existsb (refers h0) vars) eqn:E0; [apply Plain; intros ? Hh; injection Hh as <-; exact E0|].
  constructor; cbn [destroy s_cells s_vars existsb]; auto using NoDup_nil; try (intros ? XX; exfalso; exact XX).
  - intros h c Hc. rewrite nth_set_cell in Hc. destruct (Nat.eqb_spec h h0) as [->|Nh].
    + destruct (nth_error (s_cells s) h0) as [c0|] eqn:H0; [|discriminate]. injection Hc as <-. rewrite E0.
      specialize (A h0 c0 H0). unfold destroyed.
      destruct (c_owned c0) eqn:Ho, (c_pinned c0) eqn:Hp; cbn [andb negb c_alive c_owned c_pinned orb]; rewrite ?Ho, ?Hp; cbn; try reflexivity;
        rewrite A; reflexivity.
    + apply Al; [exact Hc|]. left. congruence.
  - intros h Hr. rewrite length_set_cell. auto.
Qed.

Section Scripts.
Variable E : cfitsio.
Variable fmt : string -> f64 -> string.
Variable pow_half : f64 -> f64.
Notation eval_owner := (eval_owner E pow_half).

Definition kept (ts : list nat) (s : state) (t : nat * bool) (s' : state) : Prop :=
  account (tmp t ++ ts) s' /\ (snd t = false -> existsb (refers (fst t)) (s_vars s') = true).

Lemma eval_owner_account o : forall ts s s' a, account ts s -> eval_owner o s = Ok (s', a) ->
  strip (s_vars s') = strip (s_vars s) /\ match a with Exc _ => account ts s' | Val t => kept ts s t s' end.
Proof.
  induction o as [x|f|f o IH|l IH] using owner_induction; intros ts s s' a A H.
  - cbn in H. injection H as <- <-. split; [reflexivity|].
    destruct (lookup x (s_vars s)) as [[h|h p|f]|] eqn:Hx; try exact A.
    split; [exact A|]. intros _. eapply lookup_refers; eassumption.
  - destruct f as [f|]; cbn [PyModel.eval_owner] in H.
    + apply bind_inv in H as ([v st] & _ & H). cbn [fst snd] in H.
      destruct (negb (st =? 0)%Z); [injection H as <- <-; auto|]. destruct v as [v|]; [|discriminate].
      injection H as <- <-. split; [reflexivity|]. split; [|discriminate].
      exact (account_new ts s v true A).
    + injection H as <- <-. split; [reflexivity|]. split; [|discriminate].
      exact (account_new ts s init_oi_fits true A).
  - cbn [PyModel.eval_owner] in H. destruct (lookup f (s_vars s)) as [[h|h p|g]|] eqn:Lf; try (injection H as <- <-; auto; fail).
    apply bind_inv in H as ([s1 b] & H1 & H). specialize (IH ts s s1 b A H1) as [X K].
    destruct b as [t|e]; [|injection H as <- <-; auto].
    apply bind_inv in H as (v & Hv & H). apply bind_inv in H as ([g' v'] & Ha & H). cbn [fst snd] in H. clear Ha.
    destruct (strip_filter f (s_vars s) (s_vars s1) g (eq_sym X) Lf) as [g1 L1].
    pose proof (strip_update f (s_vars s1) g1 g' L1) as X1.
    set (s2 := mk_state (s_cells s1) (update f (BFilter g') (s_vars s1)) (s_disk s1)) in *.
    destruct K as [K _]. pose proof (account_vars _ _ _ K X1) as K2. fold s2 in K2.
    injection H as <- <-. split.
    { transitivity (strip (s_vars s2)); [|cbn [s2 s_vars]; congruence]. unfold drop. destruct (snd t); reflexivity. }
    split; [|discriminate]. unfold tmp at 1. cbn [fst snd app].
    pose proof (account_new _ _ v' false K2) as K3. unfold new_cell in K3 |- *. cbn [fst snd] in K3 |- *.
    apply account_drop. eapply account_perm; [|exact K3]. apply Permutation_middle.
  - change (eval_owner (OMerge l) s) with
      (r <- eval_owners E pow_half l s ;;
       let '(s, a) := r in
       match a with
       | Exc e => Ok (s, Exc e)
       | Val ts =>
           vs <- wholes (map fst ts) s ;; v <- merge_oi_fits_list vs ;;
           let s := fold_left (fun s t => pin (fst t) s) ts s in
           let '(h, s) := new_cell v false s in Ok (s, Val (h, true))
       end) in H.
    apply bind_inv in H as ([s1 b] & H1 & H).
    assert (K : strip (s_vars s1) = strip (s_vars s)
                /\ match b with Exc _ => account ts s1 | Val us => account (flat_map tmp us ++ ts) s1 end).
    { clear H s' a. revert ts s s1 b A H1. induction IH as [|o l Ho _ IHl]; intros ts s s1 b A H1.
      - injection H1 as <- <-. auto.
      - cbn [eval_owners] in H1. apply bind_inv in H1 as ([s2 a] & H2 & H1). specialize (Ho ts s s2 a A H2) as [X2 K2].
        destruct a as [t|e]; [|injection H1 as <- <-; auto].
        apply bind_inv in H1 as ([s3 a] & H3 & H1). fold (eval_owners E pow_half) in H3.
        specialize (IHl (tmp t ++ ts) s2 s3 a (proj1 K2) H3) as [X3 K3]. destruct a as [us|e]; injection H1 as <- <-.
        + split; [congruence|]. cbn [flat_map]. eapply account_perm; [|exact K3].
          rewrite !app_assoc. apply Permutation_app_tail, Permutation_app_comm.
        + split; [|now apply account_drop]. transitivity (strip (s_vars s3)); [|congruence]. unfold drop. destruct (snd t); reflexivity. }
    destruct K as [X K]. destruct b as [us|e]; [|injection H as <- <-; auto].
    apply bind_inv in H as (vs & Hw & H). apply bind_inv in H as (v & _ & H). injection H as <- <-.
    assert (V : forall l s, s_vars (fold_left (fun s (t : nat * bool) => pin (fst t) s) l s) = s_vars s).
    { clear. induction l as [|t l IH]; intros s; [reflexivity|]. cbn [fold_left]. now rewrite IH. }
    split; [cbn [s_vars]; now rewrite V|]. split; [|discriminate].
    apply (account_new ts (fold_left (fun s t => pin (fst t) s) us s1) v false). apply account_pins; [exact K|].
    apply wholes_living in Hw. clear -Hw. rewrite Forall_map in Hw. exact Hw.
Qed.

Lemma with_owner_account {A} o ts s body s' (a : answer A) : account ts s -> with_owner E pow_half o s body = Ok (s', a) -> account ts s'.
Proof.
  intros Ac H. unfold with_owner in H. apply bind_inv in H as ([s1 b] & H1 & H).
  destruct (eval_owner_account o ts s s1 b Ac H1) as [_ K]. destruct b as [t|e].
  - apply bind_inv in H as (c & _ & H). injection H as <- <-. now apply account_drop, K.
  - injection H as <- <-. exact K.
Qed.
Lemma showing_account o ts s body s' ev : account ts s -> showing E pow_half o s body = Ok (s', ev) -> account ts s'.
Proof.
  intros Ac H. unfold showing in H. apply bind_inv in H as ([s1 a] & H1 & H). injection H as <- <-.
  eapply with_owner_account; eassumption.
Qed.
Lemma eval_part_account p : forall ts s s' a, account ts s -> eval_part E pow_half p s = Ok (s', a) -> account ts s'.
Proof.
  induction p as [y|o k i|o id|o arrname sta|p IH|p IH i]; intros ts s s' a A H; cbn [eval_part] in H;
    try (eapply with_owner_account; eassumption).
  - injection H as <- <-. exact A.
  - apply bind_inv in H as ([s1 b] & H1 & H). specialize (IH ts s s1 b A H1).
    destruct b as [[h q]|e]; [|injection H as <- <-; exact IH]. apply bind_inv in H as (u & _ & H). injection H as <- <-. exact IH.
  - apply bind_inv in H as ([s1 b] & H1 & H). specialize (IH ts s s1 b A H1).
    destruct b as [[h q]|e]; [|injection H as <- <-; exact IH]. apply bind_inv in H as (u & _ & H).
    apply bind_inv in H as (w & _ & H). injection H as <- <-. exact IH.
Qed.
Lemma eval_parts_account l : forall ts s s' a, account ts s -> eval_parts E pow_half l s = Ok (s', a) -> account ts s'.
Proof.
  induction l as [|p l IH]; intros ts s s' a A H; cbn [eval_parts] in H; [injection H as <- <-; exact A|].
  apply bind_inv in H as ([s1 b] & H1 & H). pose proof (eval_part_account p ts s s1 b A H1) as A1.
  destruct b as [t|e]; [|injection H as <- <-; exact A1]. apply bind_inv in H as ([s2 b] & H2 & H).
  injection H as <- <-. eapply IH; eassumption.
Qed.

Lemma exec_account c s s' ev : account [] s -> exec E fmt pow_half c s = Ok (s', ev) -> account [] s'.
Proof.
  intros A H. destruct c; cbn [exec] in H; try (eapply showing_account; eassumption).
  - apply bind_inv in H as ([s1 b] & H1 & H). destruct (eval_owner_account o [] s s1 b A H1) as [_ K].
    destruct b as [t|e]; injection H as <- <-; [|exact K]. destruct K as [K1 K2]. rewrite app_nil_r in K1.
    apply (account_rebind (tmp t) s1 x (Some (BData (fst t))) K1). unfold tmp. destruct (snd t); auto.
  - apply bind_inv in H as ([s1 b] & H1 & H). pose proof (eval_part_account p [] s s1 b A H1) as K.
    destruct b as [[h q]|e]; injection H as <- <-; [|exact K]. exact (account_rebind [] s1 y (Some (BPart h q)) K eq_refl).
  - destruct (lookup x (s_vars s)); injection H as <- <-; [|exact A]. exact (account_rebind [] s x None A eq_refl).
  - injection H as <- <-. exact (account_rebind [] s x (Some (BFilter init_oi_filter)) A eq_refl).
  - destruct (lookup x (s_vars s)) as [[h|h p|f]|]; try (injection H as <- <-; exact A).
    destruct (set_filter_attr a v f) as [g|e]; injection H as <- <-; [|exact A].
    exact (account_rebind [] s x (Some (BFilter g)) A eq_refl).
  - destruct (lookup x (s_vars s)) as [[h|h p|f]|]; try (injection H as <- <-; exact A).
    apply bind_inv in H as (w & _ & H). injection H as <- <-. exact A.
  - destruct (lookup x (s_vars s)) as [[h|h p|f]|]; try (injection H as <- <-; exact A).
    destruct (terminated f); [|discriminate]. injection H as <- <-. exact A.
  - apply bind_inv in H as ([s1 b] & H1 & H). pose proof (eval_part_account p [] s s1 b A H1) as K.
    destruct b as [[h q]|e]; [|injection H as <- <-; exact K]. apply bind_inv in H as (u & _ & H).
    apply bind_inv in H as (w & _ & H). injection H as <- <-. exact K.
  - apply bind_inv in H as ([s1 b] & H1 & H). destruct (eval_owner_account o [] s s1 b A H1) as [_ K].
    destruct b as [t|e]; [|injection H as <- <-; exact K]. apply bind_inv in H as (v & _ & H). apply bind_inv in H as (w & _ & H).
    injection H as <- <-. apply account_drop, account_disk, K.
  - apply bind_inv in H as ([s1 b] & H1 & H). destruct (eval_owner_account o [] s s1 b A H1) as [_ K].
    destruct b as [t|e]; [|injection H as <- <-; exact K]. apply bind_inv in H as ([s2 b] & H2 & H).
    pose proof (eval_parts_account l _ _ _ _ (proj1 K) H2) as K2. destruct b as [ps|e].
    2: { injection H as <- <-. now apply account_drop. }
    apply bind_inv in H as (u & _ & H). injection H as <- <-. apply account_drop.
    destruct ps as [|q ps].
    + apply (account_cells _ (mk_state (set_cell (fst t) _ (s_cells s2)) (s_vars s2) (s_disk s2)) (fst t)); [|intros c; auto].
      apply account_cells; [exact K2|intros c; auto].
    + apply account_cells; [exact K2|intros c; auto].
Qed.

Lemma run_account l : forall s s' evs, account [] s -> run_from E fmt pow_half l s = Ok (s', evs) -> account [] s'.
Proof.
  induction l as [|c l IH]; intros s s' evs A H; cbn [run_from] in H; [injection H as <- <-; exact A|].
  apply bind_inv in H as ([s1 ev] & H1 & H). pose proof (exec_account c s s1 ev A H1) as A1. cbn [fst snd] in H.
  destruct ev as [|v|e]; [| |injection H as <- <-; exact A1];
    (apply bind_inv in H as ([s2 evs2] & H2 & H); injection H as <- <-; eapply IH; eassumption).
Qed.

Lemma refers_lookup h l : NoDup (map fst l) -> existsb (refers h) l = true <-> exists x, lookup x l = Some (BData h).
Proof.
  intros N. split; [|intros [x Hx]; eapply lookup_refers; eassumption].
  induction l as [|[y b] l IH]; [discriminate|]. cbn [map fst] in N. inversion N as [|? ? N1 N2]; subst.
  cbn [existsb]. intros H. apply orb_prop in H as [H|H].
  - unfold refers in H. cbn in H. destruct b; try discriminate. apply Nat.eqb_eq in H. subst. exists y. cbn.
    unfold str_eqb. now rewrite String.eqb_refl.
  - destruct (IH N2 H) as [x Hx]. exists x. cbn [lookup]. unfold str_eqb. destruct (String.eqb_spec y x) as [->|]; [|exact Hx].
    rewrite (lookup_none _ _ N1) in Hx. discriminate.
Qed.

Lemma destroyed_iff l d s evs h c : run E fmt pow_half l d = Ok (s, evs) -> nth_error (s_cells s) h = Some c ->
  c_alive c = false <-> c_owned c = true /\ c_pinned c = false /\ forall x, lookup x (s_vars s) <> Some (BData h).
Proof.
  intros H Hc. assert (A0 : account [] (start d)).
  { constructor; cbn; auto using NoDup_nil; try (intros ? XX; exfalso; exact XX); try discriminate. intros h' c' H'. destruct h'; discriminate. }
  pose proof (run_account l _ _ _ A0 H) as [A _ _ _ N]. specialize (A h c Hc). cbn [existsb] in A. rewrite orb_false_r in A.
  pose proof (refers_lookup h (s_vars s) N) as R. rewrite A. split.
  - intros X. apply orb_false_elim in X as [X X3]. apply orb_false_elim in X as [X1 X2].
    split; [destruct (c_owned c); [reflexivity|discriminate]|]. split; [exact X2|]. intros x Hx.
    assert (existsb (refers h) (s_vars s) = true) by (apply R; eauto). congruence.
  - intros (O & P & V). rewrite O, P. cbn. destruct (existsb (refers h) (s_vars s)) eqn:X; [|reflexivity].
    destruct (proj1 R eq_refl) as [x Hx]. now destruct (V x).
Qed.

(** ** Scripts that only open files: no apply(), no merge() *)

Definition ours (s : state) : Prop := Forall (fun c => c_owned c = true /\ c_pinned c = false) (s_cells s).
Lemma ours_set h f s vars d : (forall c, c_owned (f c) = c_owned c /\ c_pinned (f c) = c_pinned c) -> ours s ->
  ours (mk_state (set_cell h f (s_cells s)) vars d).
Proof.
  intros F O. unfold ours in *. cbn [s_cells]. apply Forall_forall. intros c Hc. apply In_nth_error in Hc as [i Hi].
  rewrite nth_set_cell in Hi. rewrite Forall_forall in O. destruct (Nat.eqb i h).
  - destruct (nth_error (s_cells s) h) as [c0|] eqn:H0; [|discriminate]. injection Hi as <-. destruct (F c0) as [-> ->].
    apply O. eapply nth_error_In; eassumption.
  - apply O. eapply nth_error_In; eassumption.
Qed.
Lemma destroyed_flags c : c_owned (destroyed c) = c_owned c /\ c_pinned (destroyed c) = c_pinned c.
Proof. unfold destroyed. destruct (c_owned c && negb (c_pinned c)); auto. Qed.
Lemma ours_drop t s : ours s -> ours (drop t s).
Proof. intros O. unfold drop. destruct (snd t); [|exact O]. now apply ours_set; [apply destroyed_flags|]. Qed.
Lemma ours_rebind x new s : ours s -> ours (rebind x new s).
Proof.
  intros O. unfold rebind. destruct (lookup x (s_vars s)) as [[h| |]|]; try exact O.
  destruct (existsb _ _); [exact O|]. now apply (ours_set h destroyed (mk_state (s_cells s) _ (s_disk s))); [apply destroyed_flags|].
Qed.
Lemma ours_new v s : ours s -> ours (snd (new_cell v true s)).
Proof. intros O. unfold ours in *. cbn. apply Forall_app. split; [exact O|]. repeat constructor. Qed.

Lemma eval_owner_ours o s s' a : opens o = true -> ours s -> eval_owner o s = Ok (s', a) -> ours s'.
Proof.
  intros P O H. destruct o as [x|[f|]|f o|l]; try discriminate; cbn [PyModel.eval_owner] in H.
  - injection H as <- <-. exact O.
  - apply bind_inv in H as ([v st] & _ & H). cbn [fst snd] in H. destruct (negb (st =? 0)%Z); [injection H as <- <-; exact O|].
    destruct v as [v|]; [|discriminate]. injection H as <- <-. exact (ours_new v s O).
  - injection H as <- <-. exact (ours_new init_oi_fits s O).
Qed.
Lemma with_owner_ours {A} o s body s' (a : answer A) : opens o = true -> ours s -> with_owner E pow_half o s body = Ok (s', a) -> ours s'.
Proof.
  intros P O H. unfold with_owner in H. apply bind_inv in H as ([s1 b] & H1 & H). pose proof (eval_owner_ours _ _ _ _ P O H1) as O1.
  destruct b as [t|e]; [|injection H as <- <-; exact O1]. apply bind_inv in H as (c & _ & H). injection H as <- <-. now apply ours_drop.
Qed.
Lemma showing_ours o s body s' ev : opens o = true -> ours s -> showing E pow_half o s body = Ok (s', ev) -> ours s'.
Proof.
  intros P O H. unfold showing in H. apply bind_inv in H as ([s1 b] & H1 & H). injection H as <- <-. eapply with_owner_ours; eassumption.
Qed.
Lemma eval_part_ours p : forall s s' a, opens_part p = true -> ours s -> eval_part E pow_half p s = Ok (s', a) -> ours s'.
Proof.
  induction p as [y|o k i|o id|o arrname sta|p IH|p IH i]; intros s s' a P O H; cbn [eval_part opens_part] in *;
    try (eapply with_owner_ours; eassumption).
  - injection H as <- <-. exact O.
  - apply bind_inv in H as ([s1 b] & H1 & H). specialize (IH s s1 b P O H1).
    destruct b as [[h q]|e]; [|injection H as <- <-; exact IH]. apply bind_inv in H as (u & _ & H). injection H as <- <-. exact IH.
  - apply bind_inv in H as ([s1 b] & H1 & H). specialize (IH s s1 b P O H1).
    destruct b as [[h q]|e]; [|injection H as <- <-; exact IH]. apply bind_inv in H as (u & _ & H).
    apply bind_inv in H as (w & _ & H). injection H as <- <-. exact IH.
Qed.
Lemma eval_parts_ours l : forall s s' a, forallb opens_part l = true -> ours s -> eval_parts E pow_half l s = Ok (s', a) -> ours s'.
Proof.
  induction l as [|p l IH]; intros s s' a P O H; cbn [eval_parts forallb] in *; [injection H as <- <-; exact O|].
  apply andb_prop in P as [P1 P2]. apply bind_inv in H as ([s1 b] & H1 & H). pose proof (eval_part_ours p s s1 b P1 O H1) as O1.
  destruct b as [t|e]; [|injection H as <- <-; exact O1]. apply bind_inv in H as ([s2 b] & H2 & H).
  injection H as <- <-. eapply IH; eassumption.
Qed.
Lemma exec_ours c s s' ev : opens_stmt c = true -> ours s -> exec E fmt pow_half c s = Ok (s', ev) -> ours s'.
Proof.
  intros P O H. destruct c; cbn [exec opens_stmt] in *; try (eapply showing_ours; eassumption).
  - apply bind_inv in H as ([s1 b] & H1 & H). pose proof (eval_owner_ours o s s1 b P O H1) as K.
    destruct b as [t|e]; injection H as <- <-; [|exact K]. now apply ours_rebind.
  - apply bind_inv in H as ([s1 b] & H1 & H). pose proof (eval_part_ours p s s1 b P O H1) as K.
    destruct b as [[h q]|e]; injection H as <- <-; [|exact K]. now apply ours_rebind.
  - destruct (lookup x (s_vars s)); injection H as <- <-; [|exact O]. now apply ours_rebind.
  - injection H as <- <-. now apply ours_rebind.
  - destruct (lookup x (s_vars s)) as [[h|h p|f]|]; try (injection H as <- <-; exact O).
    destruct (set_filter_attr a v f) as [g|e]; injection H as <- <-; [|exact O]. now apply ours_rebind.
  - destruct (lookup x (s_vars s)) as [[h|h p|f]|]; try (injection H as <- <-; exact O).
    apply bind_inv in H as (w & _ & H). injection H as <- <-. exact O.
  - destruct (lookup x (s_vars s)) as [[h|h p|f]|]; try (injection H as <- <-; exact O).
    destruct (terminated f); [|discriminate]. injection H as <- <-. exact O.
  - apply bind_inv in H as ([s1 b] & H1 & H). pose proof (eval_part_ours p s s1 b P O H1) as K.
    destruct b as [[h q]|e]; [|injection H as <- <-; exact K]. apply bind_inv in H as (u & _ & H).
    apply bind_inv in H as (w & _ & H). injection H as <- <-. exact K.
  - apply bind_inv in H as ([s1 b] & H1 & H). pose proof (eval_owner_ours o s s1 b P O H1) as K.
    destruct b as [t|e]; [|injection H as <- <-; exact K]. apply bind_inv in H as (v & _ & H). apply bind_inv in H as (w & _ & H).
    injection H as <- <-. now apply ours_drop.
  - apply andb_prop in P as [P1 P2]. apply bind_inv in H as ([s1 b] & H1 & H). pose proof (eval_owner_ours o s s1 b P1 O H1) as K.
    destruct b as [t|e]; [|injection H as <- <-; exact K]. apply bind_inv in H as ([s2 b] & H2 & H).
    pose proof (eval_parts_ours l _ _ _ P2 K H2) as K2. destruct b as [ps|e].
    2: { injection H as <- <-. now apply ours_drop. }
    apply bind_inv in H as (u & _ & H). injection H as <- <-. apply ours_drop.
    destruct ps as [|q ps].
    + apply (ours_set (fst t) _ (mk_state (set_cell (fst t) _ (s_cells s2)) (s_vars s2) (s_disk s2))); [intros c; auto|].
      apply ours_set; [intros c; auto|exact K2].
    + apply ours_set; [intros c; auto|exact K2].
Qed.
Lemma run_ours l : forall s s' evs, forallb opens_stmt l = true -> ours s -> run_from E fmt pow_half l s = Ok (s', evs) -> ours s'.
Proof.
  induction l as [|c l IH]; intros s s' evs P O H; cbn [run_from forallb] in *; [injection H as <- <-; exact O|].
  apply andb_prop in P as [P1 P2].
  apply bind_inv in H as ([s1 ev] & H1 & H). pose proof (exec_ours c s s1 ev P1 O H1) as O1. cbn [fst snd] in H.
  destruct ev as [|v|e]; [| |injection H as <- <-; exact O1];
    (apply bind_inv in H as ([s2 evs2] & H2 & H); injection H as <- <-; eapply IH; eassumption).
Qed.
Lemma alive_iff_held l d s evs h c : forallb opens_stmt l = true -> run E fmt pow_half l d = Ok (s, evs) ->
  nth_error (s_cells s) h = Some c -> c_alive c = true <-> exists x, lookup x (s_vars s) = Some (BData h).
Proof.
  intros P H Hc. pose proof (run_ours l (start d) s evs P (Forall_nil _) H) as O. unfold ours in O. rewrite Forall_forall in O.
  destruct (O c (nth_error_In _ _ Hc)) as [O1 O2].
  assert (A0 : account [] (start d)).
  { constructor; cbn; auto using NoDup_nil; try (intros ? XX; exfalso; exact XX); try discriminate. intros h' c' H'. destruct h'; discriminate. }
  pose proof (run_account l _ _ _ A0 H) as [A _ _ _ N]. specialize (A h c Hc). cbn [existsb] in A. rewrite orb_false_r, O1, O2 in A. cbn in A.
  rewrite A. now apply refers_lookup.
Qed.
End Scripts.
