(** Proofs about scripts: a script that keeps its datasets does what its values say. *)
From Verif Require Import Base BaseLemmas FilterSpec PyModel PySpec.
From Coq Require Import Lia.
Open Scope list_scope.

(** ** Cells *)

Lemma nth_set_cell h f l h' : nth_error (set_cell h f l) h' = if Nat.eqb h' h then option_map f (nth_error l h) else nth_error l h'.
Proof.
  unfold set_cell. revert h h'. induction l as [|c l IH]; intros [|h] [|h']; cbn; try reflexivity.
  - destruct (Nat.eqb h' h); reflexivity.
  - exact (IH h h').
Qed.
Lemma length_set_cell h f l : List.length (set_cell h f l) = List.length l.
Proof.
  unfold set_cell. revert h. induction l as [|c l IH]; intros [|h]; cbn; try reflexivity.
  f_equal. exact (IH h).
Qed.

Definition good (h : nat) (v : oi_fits) (s : state) : Prop :=
  exists c, nth_error (s_cells s) h = Some c /\ c_alive c = true /\ c_freed c = [] /\ c_val c = v.
Definition unowned (h : nat) (s : state) : Prop :=
  exists c, nth_error (s_cells s) h = Some c /\ c_owned c = false.
(** [s'] comes from [s] by making datasets, destroying new ones and pinning *)
Record ext (s s' : state) : Prop := mk_ext {
  ext_vars : s_vars s' = s_vars s;
  ext_disk : s_disk s' = s_disk s;
  ext_length : (List.length (s_cells s) <= List.length (s_cells s'))%nat;
  ext_cells : forall h c, nth_error (s_cells s) h = Some c -> exists c', nth_error (s_cells s') h = Some c'
    /\ c_val c' = c_val c /\ c_owned c' = c_owned c /\ c_alive c' = c_alive c /\ c_freed c' = c_freed c }.

Lemma ext_refl s : ext s s.
Proof. constructor; auto. intros h c H. exists c. auto. Qed.
Lemma ext_trans a b c : ext a b -> ext b c -> ext a c.
Proof.
  intros [V1 D1 L1 C1] [V2 D2 L2 C2]. constructor; try congruence; try lia.
  intros h x H. destruct (C1 h x H) as (y & Hy & ? & ? & ? & ?). destruct (C2 h y Hy) as (z & Hz & ? & ? & ? & ?).
  exists z. repeat split; congruence.
Qed.
Lemma ext_good s s' h v : ext s s' -> good h v s -> good h v s'.
Proof.
  intros [_ _ _ C] (c & H & A & F & Vc). destruct (C h c H) as (c' & H' & V' & O' & A' & F').
  exists c'. repeat split; congruence.
Qed.
Lemma ext_unowned s s' h : ext s s' -> unowned h s -> unowned h s'.
Proof.
  intros [_ _ _ C] (c & H & O). destruct (C h c H) as (c' & H' & V' & O' & A' & F').
  exists c'. split; congruence.
Qed.
Lemma good_lt h v s : good h v s -> (h < List.length (s_cells s))%nat.
Proof. intros (c & H & _). apply nth_error_Some. congruence. Qed.

Lemma ext_new v owned s : ext s (snd (new_cell v owned s)).
Proof.
  constructor; cbn; try reflexivity.
  - rewrite app_length. lia.
  - intros h c H. exists c. rewrite nth_error_app1 by (apply nth_error_Some; congruence). auto.
Qed.
Lemma good_new v owned s : good (fst (new_cell v owned s)) v (snd (new_cell v owned s)).
Proof.
  exists (mk_cell v owned true false []). cbn. rewrite nth_error_app2, Nat.sub_diag by lia. auto.
Qed.
Lemma unowned_new v s : unowned (fst (new_cell v false s)) (snd (new_cell v false s)).
Proof.
  exists (mk_cell v false true false []). cbn. rewrite nth_error_app2, Nat.sub_diag by lia. auto.
Qed.
Lemma ext_destroy s0 s h : ext s0 s -> (List.length (s_cells s0) <= h)%nat -> ext s0 (destroy h s).
Proof.
  intros [V D L C] H. constructor; cbn; try assumption.
  - now rewrite length_set_cell.
  - intros h' c Hc. destruct (C h' c Hc) as (c' & H' & R). exists c'. split; [|exact R].
    rewrite nth_set_cell. destruct (Nat.eqb_spec h' h) as [->|]; [|exact H'].
    assert (h < List.length (s_cells s0))%nat by (apply nth_error_Some; congruence). lia.
Qed.
Lemma good_destroy_other s h h' v : h' <> h -> good h' v s -> good h' v (destroy h s).
Proof.
  intros N (c & H & R). exists c. cbn. rewrite nth_set_cell. apply Nat.eqb_neq in N. rewrite N. auto.
Qed.
Lemma good_destroy_unowned s h h' v : unowned h s -> good h' v s -> good h' v (destroy h s).
Proof.
  intros (x & Hx & O) (c & H & R). exists c. cbn. rewrite nth_set_cell. destruct (Nat.eqb_spec h' h) as [->|]; [|auto].
  rewrite Hx in *. injection H as ->. cbn. unfold destroyed. rewrite O. auto.
Qed.
Lemma unowned_destroy s h h' : unowned h' s -> unowned h' (destroy h s).
Proof.
  intros (c & H & O). cbn. unfold unowned. cbn. rewrite nth_set_cell.
  destruct (Nat.eqb_spec h' h) as [->|]; [|eauto]. rewrite H. cbn. exists (destroyed c). split; [reflexivity|].
  unfold destroyed. rewrite O. exact O.
Qed.
Lemma ext_pin s h : ext s (pin h s).
Proof.
  constructor; cbn; try reflexivity; [now rewrite length_set_cell|].
  intros h' c H. rewrite nth_set_cell. destruct (Nat.eqb_spec h' h) as [->|]; [|exists c; auto].
  rewrite H. cbn. exists (pinned c). auto.
Qed.
Lemma ext_pins ts s : ext s (fold_left (fun s (t : nat * bool) => pin (fst t) s) ts s).
Proof. revert s. induction ts as [|t ts IH]; intros s; [apply ext_refl|]. cbn. eapply ext_trans; [apply ext_pin|apply IH]. Qed.

(** A temporary object made since [s0] *)
Definition since (s0 : state) (t : nat * bool) : Prop := snd t = true -> (List.length (s_cells s0) <= fst t)%nat.
Lemma ext_drop s0 s t : ext s0 s -> since s0 t -> ext s0 (drop t s).
Proof. intros X S. unfold drop. destruct (snd t) eqn:B; [|exact X]. now apply ext_destroy, S. Qed.
Lemma since_ext s0 s1 t : ext s0 s1 -> since s1 t -> since s0 t.
Proof. intros X S B. pose proof (S B). pose proof (ext_length _ _ X). lia. Qed.

Lemma whole_good h v s : good h v s -> whole h s = Ok v.
Proof. intros (c & H & A & F & V). unfold whole, the_cell. rewrite H, A. cbn [bind]. rewrite F, V. reflexivity. Qed.
Lemma cell_good h v s : good h v s -> exists c, the_cell h s = Ok c /\ c_val c = v.
Proof. intros (c & H & A & F & V). exists c. unfold the_cell. rewrite H, A. auto. Qed.
Lemma member_good k h v s : good h v s -> list_member k h s = Ok (list_of k v).
Proof. intros (c & H & A & F & V). unfold list_member, the_cell. rewrite H, A. cbn [bind]. rewrite F, V. reflexivity. Qed.
Lemma deref_good h p v s : good h v s -> deref h p s = Ok tt.
Proof. intros G. destruct (cell_good _ _ _ G) as (c & H & _). unfold deref. rewrite H. destruct p; reflexivity. Qed.
Lemma wholes_good l vs s : Forall2 (fun h v => good h v s) l vs -> wholes l s = Ok vs.
Proof. induction 1 as [|h v l vs H _ IH]; [reflexivity|]. cbn. now rewrite (whole_good _ _ _ H), IH. Qed.

(** ** Filters *)

Lemma set_pttns_fresh f : fresh_filter f -> set_pttns None None None f = f.
Proof. destruct f. unfold fresh_filter. cbn. intros (-> & -> & ->). reflexivity. Qed.
Lemma apply_fresh pow_half v f f' v' : fresh_filter f -> apply_oi_filter pow_half v f = Ok (f', v') -> f' = f.
Proof.
  intros F H. assert (f' = set_pttns None None None f).
  { unfold apply_oi_filter in H.
    repeat match type of H with
    | bind ?e _ = Ok _ => destruct e; [cbn beta iota delta [bind] in H|discriminate H|discriminate H]
    end.
    repeat match type of H with (let '(_, _) := ?e in _) = Ok _ => destruct e as [? ?] end.
    all: repeat match type of H with
    | bind ?e _ = Ok _ => destruct e; [cbn beta iota delta [bind] in H|discriminate H|discriminate H]
    | (let '(_, _) := ?e in _) = Ok _ => destruct e as [? ?]
    end.
    injection H as <- _. reflexivity. }
  subst f'. now apply set_pttns_fresh.
Qed.
Lemma set_attr_fresh a v f f' : fresh_filter f -> set_filter_attr a v f = Val f' -> fresh_filter f'.
Proof.
  intros F H. unfold fresh_filter in *. unfold set_filter_attr in H.
  destruct a; cbv zeta in H;
    repeat match type of H with
    | match ?e with _ => _ end = _ => destruct e; try discriminate H
    end; injection H as <-; exact F.
Qed.

(** ** Variables *)

Lemma lookup_unbind {A} x y (l : list (string * A)) :
  lookup y (unbind x l) = if str_eqb y x then None else lookup y l.
Proof.
  unfold unbind, str_eqb. induction l as [|[z a] l IH]; cbn [filter lookup fst]; [destruct (String.eqb y x); reflexivity|].
  destruct (String.eqb_spec z x) as [->|N]; cbn [negb].
  - rewrite IH. destruct (String.eqb_spec y x) as [->|M]; [reflexivity|].
    unfold str_eqb. destruct (String.eqb_spec x y) as [->|]; [congruence|reflexivity].
  - cbn [lookup]. unfold str_eqb. rewrite IH. destruct (String.eqb_spec z y) as [->|].
    + apply String.eqb_neq in N. rewrite N. reflexivity.
    + reflexivity.
Qed.
Lemma update_same {A} x (a : A) l : lookup x l = Some a -> update x a l = l.
Proof.
  induction l as [|[z b] l IH]; cbn [lookup update]; [discriminate|].
  destruct (str_eqb z x); intros H; [congruence|]. now rewrite IH.
Qed.
Lemma lookup_refers x h l : lookup x l = Some (BData h) -> existsb (refers h) l = true.
Proof.
  induction l as [|[z b] l IH]; cbn [lookup existsb]; [discriminate|].
  destruct (str_eqb z x); intros H.
  - injection H as ->. unfold refers. cbn. now rewrite Nat.eqb_refl.
  - rewrite IH by assumption. apply orb_true_r.
Qed.

Definition rel_binding (s : state) (b : option binding) (v : option value) : Prop :=
  match b, v with
  | None, None => True
  | Some (BData h), Some (VData o) => good h o s
  | Some (BPart _ p), Some (VPart q) => p = q
  | Some (BFilter f), Some (VFilter g) => f = g /\ fresh_filter f
  | _, _ => False
  end.
Definition rel_vars (s : state) (vars : env) : Prop := forall x, rel_binding s (lookup x (s_vars s)) (lookup x vars).
Lemma rel_ext s s' vars : ext s s' -> rel_vars s vars -> rel_vars s' vars.
Proof.
  intros X R x. specialize (R x). rewrite (ext_vars _ _ X). unfold rel_binding in *.
  destruct (lookup x (s_vars s)) as [[h|h p|f]|]; destruct (lookup x vars) as [[]|]; try assumption.
  eapply ext_good; eassumption.
Qed.

Section owner_induction.
  Variable P : owner -> Prop.
  Hypothesis var : forall x, P (OVar x).
  Hypothesis open : forall f, P (OOpen f).
  Hypothesis apply : forall f o, P o -> P (OApply f o).
  Hypothesis merge : forall l, Forall P l -> P (OMerge l).
  Fixpoint owner_induction (o : owner) : P o :=
    match o with
    | OVar x => var x
    | OOpen f => open f
    | OApply f o => apply f o (owner_induction o)
    | OMerge l => merge l ((fix go l : Forall P l :=
        match l with [] => Forall_nil _ | o :: l' => Forall_cons _ (owner_induction o) (go l') end) l)
    end.
End owner_induction.

Section Scripts.
Variable E : cfitsio.
Variable fmt : string -> f64 -> string.
Variable pow_half : f64 -> f64.
Notation eval_owner := (eval_owner E pow_half).
Notation owner_value := (owner_value E pow_half).

(** What evaluating an OiFits expression comes to *)
Definition sim_owner (s : state) (o : owner) (r : res (state * answer (nat * bool))) (q : res (answer oi_fits)) : Prop :=
  match r, q with
  | Ok (s', Exc e), Ok (Exc e') => e = e' /\ ext s s'
  | Ok (s', Val t), Ok (Val v) => ext s s' /\ good (fst t) v s' /\ since s t
      /\ match root_owner o with
         | Some (Some x) => lookup x (s_vars s) = Some (BData (fst t)) /\ s' = s /\ snd t = false
         | Some None => unowned (fst t) s'
         | None => True
         end
  | Abort, Abort | UB, UB => True
  | _, _ => False
  end.

(** the inner loops of [OMerge] *)
Definition eval_owners : list owner -> state -> res (state * answer (list (nat * bool))) :=
  fix go l s :=
    match l with
    | [] => Ok (s, Val [])
    | o :: l' =>
        r <- eval_owner o s ;;
        let '(s, a) := r in
        match a with
        | Exc e => Ok (s, Exc e)
        | Val t =>
            r <- go l' s ;;
            let '(s, a) := r in
            match a with
            | Exc e => Ok (drop t s, Exc e)
            | Val ts => Ok (s, Val (t :: ts))
            end
        end
    end.
Definition owner_values vars d : list owner -> res (answer (list oi_fits)) :=
  fix go l :=
    match l with
    | [] => Ok (Val [])
    | o :: l' =>
        a <- owner_value o vars d ;;
        match a with
        | Exc e => Ok (Exc e)
        | Val v => a <- go l' ;; Ok match a with Val vs => Val (v :: vs) | Exc e => Exc e end
        end
    end.

Lemma eval_owner_sim o : forall s vars, rel_vars s vars -> sim_owner s o (eval_owner o s) (owner_value o vars (s_disk s)).
Proof.
  induction o as [x|f|f o IH|l IH] using owner_induction; intros s vars R.
  - cbn. specialize (R x). unfold rel_binding in R.
    destruct (lookup x (s_vars s)) as [[h|h p|f]|]; destruct (lookup x vars) as [[]|]; try contradiction;
      try (split; [reflexivity|apply ext_refl]).
    split; [apply ext_refl|]. split; [exact R|]. split; [discriminate|]. auto.
  - destruct f as [f|]; cbn [PyModel.eval_owner PySpec.owner_value].
    + destruct (read_oi_fits E f (s_disk s) 0) as [[v st]| |]; cbn [bind fst snd]; [|exact I|exact I].
      destruct (negb (st =? 0)%Z); [split; [reflexivity|apply ext_refl]|]. destruct v as [v|]; [|exact I].
      split; [apply (ext_new v true s)|]. split; [apply (good_new v true s)|]. split; [|exact I]. intros _. cbn. lia.
    + split; [apply (ext_new init_oi_fits true s)|]. split; [apply (good_new init_oi_fits true s)|]. split; [|exact I].
      intros _. cbn. lia.
  - cbn [PyModel.eval_owner PySpec.owner_value]. pose proof (R f) as Rf. unfold rel_binding in Rf.
    destruct (lookup f (s_vars s)) as [[h|h p|g]|] eqn:Lf; destruct (lookup f vars) as [[]|]; try contradiction;
      try (split; [reflexivity|apply ext_refl]).
    destruct Rf as [<- F]. specialize (IH s vars R).
    destruct (eval_owner o s) as [[s1 [t|e]]| |]; destruct (owner_value o vars (s_disk s)) as [[v|e']| |]; try contradiction; try exact I.
    2: { exact IH. }
    destruct IH as (X & G & S & _). cbn [bind]. rewrite (whole_good _ _ _ G). cbn [bind].
    destruct (terminated g); [|exact I].
    destruct (apply_oi_filter pow_half v g) as [[g' v']| |] eqn:Ha; cbn [bind fst snd]; try exact I.
    apply apply_fresh in Ha; [|exact F]. subst g'.
    rewrite update_same by (rewrite (ext_vars _ _ X); exact Lf).
    replace (mk_state (s_cells s1) (s_vars s1) (s_disk s1)) with s1 by now destruct s1.
    destruct (new_cell v' false s1) as [h s2] eqn:N.
    pose proof (ext_new v' false s1) as X2. pose proof (good_new v' false s1) as G2. pose proof (unowned_new v' s1) as U2.
    rewrite N in X2, G2, U2. cbn [fst snd] in X2, G2, U2.
    assert (Hn : h = List.length (s_cells s1)) by (unfold new_cell in N; now injection N).
    assert (Ht : fst t <> h) by (pose proof (good_lt _ _ _ G); lia).
    cbn [sim_owner root_owner fst snd]. split; [apply ext_drop; [eapply ext_trans; eassumption|exact S]|].
    split. { unfold drop. destruct (snd t); [|exact G2]. apply good_destroy_other; [congruence|exact G2]. }
    split. { intros _. cbn. pose proof (ext_length _ _ X). lia. }
    unfold drop. destruct (snd t); [now apply unowned_destroy|exact U2].
  - change (eval_owner (OMerge l) s) with
      (r <- eval_owners l s ;;
       let '(s, a) := r in
       match a with
       | Exc e => Ok (s, Exc e)
       | Val ts =>
           vs <- wholes (map fst ts) s ;; v <- merge_oi_fits_list vs ;;
           let s := fold_left (fun s t => pin (fst t) s) ts s in
           let '(h, s) := new_cell v false s in Ok (s, Val (h, true))
       end).
    change (owner_value (OMerge l) vars (s_disk s)) with
      (a <- owner_values vars (s_disk s) l ;;
       match a with Exc e => Ok (Exc e) | Val vs => v <- merge_oi_fits_list vs ;; Ok (Val v) end).
    assert (H : match eval_owners l s, owner_values vars (s_disk s) l with
                | Ok (s', Exc e), Ok (Exc e') => e = e' /\ ext s s'
                | Ok (s', Val ts), Ok (Val vs) => ext s s' /\ Forall2 (fun t v => good (fst t) v s') ts vs
                | Abort, Abort | UB, UB => True
                | _, _ => False
                end).
    { clear -IH R. revert s R. induction IH as [|o l Ho _ IHl]; intros s R.
      - cbn. split; [apply ext_refl|constructor].
      - cbn [eval_owners owner_values]. specialize (Ho s vars R).
        destruct (eval_owner o s) as [[s1 [t|e]]| |]; destruct (owner_value o vars (s_disk s)) as [[v|e']| |]; try contradiction; try exact I.
        2: { exact Ho. }
        destruct Ho as (X & G & S & _). cbn [bind].
        specialize (IHl s1 (rel_ext _ _ _ X R)). rewrite (ext_disk _ _ X) in IHl. fold eval_owners in *. fold (owner_values vars (s_disk s)) in *.
        destruct (eval_owners l s1) as [[s2 [ts|e]]| |]; destruct (owner_values vars (s_disk s) l) as [[vs|e']| |]; try contradiction; try exact I.
        + destruct IHl as [X2 Gs]. cbn [bind]. split; [eapply ext_trans; eassumption|]. constructor; [|exact Gs]. eapply ext_good; eassumption.
        + destruct IHl as [-> X2]. cbn [bind]. split; [reflexivity|]. apply ext_drop; [eapply ext_trans; eassumption|exact S]. }
    destruct (eval_owners l s) as [[s1 [ts|e]]| |]; destruct (owner_values vars (s_disk s) l) as [[vs|e']| |]; try contradiction; try exact I.
    2: { exact H. }
    destruct H as [X Gs]. cbn [bind]. rewrite (wholes_good (map fst ts) vs s1).
    2: { clear -Gs. induction Gs; cbn; constructor; assumption. }
    cbn [bind]. destruct (merge_oi_fits_list vs) as [v| |]; cbn [bind]; try exact I.
    set (s2 := fold_left (fun s t => pin (fst t) s) ts s1). pose proof (ext_pins ts s1) as X2. fold s2 in X2.
    pose proof (ext_trans _ _ _ X X2) as X3.
    split; [eapply ext_trans; [exact X3|apply (ext_new v false s2)]|]. split; [apply (good_new v false s2)|].
    split; [|apply (unowned_new v s2)]. intros _. cbn. pose proof (ext_length _ _ X3). lia.
Qed.

(** *** Parts *)

Definition parts_ok (s : state) (L : parts) : Prop :=
  forall y r, In (y, r) L -> exists h p, lookup y (s_vars s) = Some (BPart h p) /\ (exists v, good h v s)
    /\ match r with Some x => lookup x (s_vars s) = Some (BData h) | None => unowned h s end.
Lemma parts_ext s s' L : ext s s' -> parts_ok s L -> parts_ok s' L.
Proof.
  intros X P y r H. destruct (P y r H) as (h & p & Hy & (v & G) & K). exists h, p.
  rewrite (ext_vars _ _ X). split; [exact Hy|]. split; [exists v; eapply ext_good; eassumption|].
  destruct r; [exact K|]. eapply ext_unowned; eassumption.
Qed.
Lemma lookup_in {A} x (a : A) l : lookup x l = Some a -> In (x, a) l.
Proof.
  induction l as [|[z b] l IH]; cbn [lookup]; [discriminate|].
  unfold str_eqb. destruct (String.eqb_spec z x) as [->|]; intros H; [injection H as ->; now left|right; auto].
Qed.

Definition sim_part (s : state) (L : parts) (p : part) (r : res (state * answer (nat * pointee))) (q : res (answer pointee)) : Prop :=
  match r, q with
  | Ok (s', Exc e), Ok (Exc e') => e = e' /\ ext s s'
  | Ok (s', Val (h, p1)), Ok (Val p2) => p1 = p2 /\ ext s s' /\ (exists v, good h v s')
      /\ match root L p with
         | Some (Some x) => lookup x (s_vars s) = Some (BData h)
         | Some None => unowned h s'
         | None => False
         end
  | Abort, Abort | UB, UB => True
  | _, _ => False
  end.

Lemma with_owner_part o s vars L p body (f : oi_fits -> res (answer pointee)) :
  rel_vars s vars -> root L p = root_owner o -> root_owner o <> None ->
  (forall h v s, good h v s -> body h s = (a <- f v ;; Ok match a with Val q => Val (h, q) | Exc e => Exc e end)) ->
  sim_part s L p (with_owner E pow_half o s body) (of_owner E pow_half o vars (s_disk s) f).
Proof.
  intros R Hr N B. unfold with_owner, of_owner. pose proof (eval_owner_sim o s vars R) as S.
  destruct (eval_owner o s) as [[s1 [t|e]]| |]; destruct (owner_value o vars (s_disk s)) as [[v|e']| |]; try contradiction; try exact I.
  2: { exact S. }
  destruct S as (X & G & Si & K). cbn [bind]. rewrite (B _ _ _ G).
  destruct (f v) as [[q|e]| |]; cbn [bind]; try exact I.
  2: { split; [reflexivity|]. now apply ext_drop. }
  cbn [sim_part]. split; [reflexivity|]. split; [now apply ext_drop|]. rewrite Hr.
  destruct (root_owner o) as [[x|]|]; [| |congruence].
  - destruct K as (Hx & -> & Ht). unfold drop. rewrite Ht. split; [exists v; exact G|exact Hx].
  - unfold drop. destruct (snd t); [|split; [exists v; exact G|exact K]].
    split; [exists v; now apply good_destroy_unowned|now apply unowned_destroy].
Qed.

Lemma eval_part_sim L p : forall s vars, rel_vars s vars -> parts_ok s L -> root L p <> None ->
  sim_part s L p (eval_part E pow_half p s) (part_value E pow_half p vars (s_disk s)).
Proof.
  induction p as [y|o k i|o id|o arrname sta|p IH|p IH i]; intros s vars R P N.
  - cbn [eval_part part_value root] in *. destruct (lookup y L) as [r|] eqn:Ly; [|congruence].
    destruct (P y r (lookup_in _ _ _ Ly)) as (h & q & Hy & G & K). specialize (R y). rewrite Hy in *.
    unfold rel_binding in R. destruct (lookup y vars) as [[]|]; try contradiction. subst.
    cbn [sim_part root]. rewrite Ly. split; [reflexivity|]. split; [apply ext_refl|]. split; [exact G|exact K].
  - apply with_owner_part; [exact R|reflexivity|exact N|].
    intros h v s' G. rewrite (member_good _ _ _ _ G). cbn [bind]. destruct (list_item (list_of k v) i); reflexivity.
  - apply with_owner_part; [exact R|reflexivity|exact N|].
    intros h v s' G. destruct (cell_good _ _ _ G) as (c & -> & <-). cbn [bind].
    destruct (oi_fits_lookup_target (c_val c) id); reflexivity.
  - apply with_owner_part; [exact R|reflexivity|exact N|].
    intros h v s' G. destruct (cell_good _ _ _ G) as (c & -> & <-). cbn [bind].
    destruct (oi_fits_lookup_element (c_val c) arrname sta); reflexivity.
  - cbn [eval_part part_value]. specialize (IH s vars R P N).
    destruct (eval_part E pow_half p s) as [[s1 [[h q]|e]]| |];
      destruct (part_value E pow_half p vars (s_disk s)) as [[q'|e']| |]; try contradiction; try exact I; try exact IH.
    destruct IH as (<- & X & (v & G) & K). cbn [bind]. rewrite (deref_good _ _ _ _ G). cbn [bind].
    destruct (pointee_rows q); cbn [sim_part root]; eauto.
  - cbn [eval_part part_value]. specialize (IH s vars R P N).
    destruct (eval_part E pow_half p s) as [[s1 [[h q]|e]]| |];
      destruct (part_value E pow_half p vars (s_disk s)) as [[q'|e']| |]; try contradiction; try exact I; try exact IH.
    destruct IH as (<- & X & (v & G) & K). cbn [bind]. rewrite (deref_good _ _ _ _ G). cbn [bind].
    destruct (pointee_item q i) as [[q'|e]| |]; cbn [bind sim_part root]; eauto.
Qed.

(** *** Statements *)

Lemma with_owner_show o s vars body (f : oi_fits -> res (answer pyval)) :
  rel_vars s vars -> (forall h v s, good h v s -> body h s = f v) ->
  match showing E pow_half o s body, shown vars (s_disk s) (of_owner E pow_half o vars (s_disk s) f) with
  | Ok (s', ev), Ok (vars', d, ev') => ev = ev' /\ vars' = vars /\ d = s_disk s /\ ext s s'
  | Abort, Abort | UB, UB => True
  | _, _ => False
  end.
Proof.
  intros R B. unfold showing, with_owner, shown, of_owner. pose proof (eval_owner_sim o s vars R) as S.
  destruct (eval_owner o s) as [[s1 [t|e]]| |]; destruct (owner_value o vars (s_disk s)) as [[v|e']| |]; try contradiction; try exact I.
  2: { destruct S as [<- X]. cbn. auto. }
  destruct S as (X & G & Si & K). cbn [bind]. rewrite (B _ _ _ G).
  destruct (f v) as [a| |]; cbn [bind fst snd]; try exact I.
  split; [reflexivity|]. split; [reflexivity|]. split; [reflexivity|]. now apply ext_drop.
Qed.

Lemma destroy_vars h s : s_vars (destroy h s) = s_vars s.
Proof. reflexivity. Qed.
Lemma lookup_app_new {A} x (new : option A) l y :
  lookup y ((match new with Some a => [(x, a)] | None => [] end) ++ unbind x l)
  = if str_eqb y x then new else lookup y l.
Proof.
  destruct new as [a|]; cbn [app lookup]; rewrite ?lookup_unbind; unfold str_eqb.
  - rewrite String.eqb_sym. destruct (String.eqb y x); reflexivity.
  - reflexivity.
Qed.

(** The state after [rebind] and what stays in it *)
Definition news {A} (x : string) (new : option A) : list (string * A) := match new with Some a => [(x, a)] | None => [] end.
Lemma rebind_vars x new s : s_vars (rebind x new s) = new ++ unbind x (s_vars s).
Proof. unfold rebind. destruct (lookup x (s_vars s)) as [[h| |]|]; try reflexivity. destruct (existsb _ _); reflexivity. Qed.
Lemma rebind_disk x new s : s_disk (rebind x new s) = s_disk s.
Proof. unfold rebind. destruct (lookup x (s_vars s)) as [[h| |]|]; try reflexivity. destruct (existsb _ _); reflexivity. Qed.
Lemma rebind_good x new s h v : good h v s ->
  unowned h s \/ (exists z, lookup z (s_vars (rebind x new s)) = Some (BData h)) -> good h v (rebind x new s).
Proof.
  intros G K. rewrite rebind_vars in K. unfold rebind.
  destruct (lookup x (s_vars s)) as [[h'| |]|]; try exact G.
  destruct (existsb (refers h') (new ++ unbind x (s_vars s))) eqn:Ex; [exact G|].
  destruct K as [U|[z Hz]].
  - destruct (Nat.eq_dec h h') as [<-|Nh]; [now apply good_destroy_unowned|now apply good_destroy_other].
  - apply good_destroy_other; [|exact G]. intros ->. apply lookup_refers in Hz. congruence.
Qed.
Lemma rebind_unowned x new s h : unowned h s -> unowned h (rebind x new s).
Proof.
  intros U. unfold rebind. destruct (lookup x (s_vars s)) as [[h'| |]|]; try exact U.
  destruct (existsb _ _); [exact U|]. now apply unowned_destroy.
Qed.

Lemma rebind_rel s vars x new v : rel_vars s vars -> rel_binding s new v ->
  rel_vars (rebind x (news x new) s) (news x v ++ unbind x vars).
Proof.
  intros R N z. rewrite rebind_vars. unfold news. rewrite !lookup_app_new.
  assert (B : rel_binding s (if str_eqb z x then new else lookup z (s_vars s)) (if str_eqb z x then v else lookup z vars)).
  { destruct (str_eqb z x); [exact N|apply R]. }
  destruct (if str_eqb z x then new else lookup z (s_vars s)) as [[h|h p|f]|] eqn:Hz;
    destruct (if str_eqb z x then v else lookup z vars) as [[]|]; try exact B; try contradiction.
  cbn [rel_binding] in *. apply rebind_good; [exact B|]. right. exists z. rewrite rebind_vars. unfold news.
  now rewrite lookup_app_new.
Qed.
Lemma rebind_parts s L x new : parts_ok s L -> parts_ok (rebind x (news x new) s) (forget x L).
Proof.
  intros P y r H. unfold forget in H. apply filter_In in H as [H K]. cbn [fst snd] in K.
  apply andb_prop in K as [K1 K2]. destruct (P y r H) as (h & p & Hy & (v & G) & Q). exists h, p.
  assert (A : forall z, negb (str_eqb z x) = true -> lookup z (s_vars (rebind x (news x new) s)) = lookup z (s_vars s)).
  { intros z Hz. rewrite rebind_vars. unfold news. rewrite lookup_app_new. destruct (str_eqb z x); [discriminate|reflexivity]. }
  rewrite (A y K1). split; [exact Hy|]. destruct r as [z|].
  - rewrite (A z K2). split; [|exact Q]. exists v. apply rebind_good; [exact G|]. right. exists z. now rewrite (A z K2).
  - split; [|now apply rebind_unowned]. exists v. apply rebind_good; [exact G|now left].
Qed.
Lemma rebind_part s L y h p r : parts_ok s L -> (exists v, good h v s) ->
  match r with Some x => lookup x (s_vars s) = Some (BData h) | None => unowned h s end ->
  parts_ok (rebind y [(y, BPart h p)] s) (if match r with Some x => str_eqb x y | None => false end then forget y L else (y, r) :: forget y L).
Proof.
  intros P (v & G) K. pose proof (rebind_parts s L y (Some (BPart h p)) P) as Q. cbn [news] in Q.
  assert (A : forall z, str_eqb z y = false -> lookup z (s_vars (rebind y [(y, BPart h p)] s)) = lookup z (s_vars s)).
  { intros z Hz. rewrite rebind_vars. rewrite (lookup_app_new y (Some (BPart h p))). now rewrite Hz. }
  assert (Ay : lookup y (s_vars (rebind y [(y, BPart h p)] s)) = Some (BPart h p)).
  { rewrite rebind_vars. rewrite (lookup_app_new y (Some (BPart h p))). unfold str_eqb. now rewrite String.eqb_refl. }
  destruct r as [x|].
  - destruct (str_eqb x y) eqn:Exy; [exact Q|]. intros z r [Hz|Hz]; [|now apply Q].
    injection Hz as <- <-. exists h, p. split; [exact Ay|]. rewrite (A x Exy). split; [|exact K].
    exists v. apply rebind_good; [exact G|]. right. exists x. now rewrite (A x Exy).
  - intros z r [Hz|Hz]; [|now apply Q]. injection Hz as <- <-. exists h, p. split; [exact Ay|].
    split; [|now apply rebind_unowned]. exists v. apply rebind_good; [exact G|now left].
Qed.

(** [s] stands for the values [vars]; the parts in [L] may be used *)
Definition means (s : state) (vars : env) (L : parts) : Prop := rel_vars s vars /\ parts_ok s L.
Lemma means_ext s s' vars L : ext s s' -> means s vars L -> means s' vars L.
Proof. intros X [R P]. split; [eapply rel_ext; eassumption|eapply parts_ext; eassumption]. Qed.
Lemma means_rebind s vars L x new v : means s vars L -> rel_binding s new v ->
  means (rebind x (news x new) s) (news x v ++ unbind x vars) (forget x L).
Proof. intros [R P] N. split; [now apply rebind_rel|now apply rebind_parts]. Qed.

Definition sim_stmt (L' : parts) (r : res (state * event)) (q : res (env * disk * event)) : Prop :=
  match r, q with
  | Ok (s', ev), Ok (vars', d, ev') => ev = ev' /\ s_disk s' = d /\ match ev with Raised _ => True | _ => means s' vars' L' end
  | Abort, Abort | UB, UB => True
  | _, _ => False
  end.

Lemma show_sim o s vars L body f : means s vars L -> (forall h v s, good h v s -> body h s = f v) ->
  sim_stmt L (showing E pow_half o s body) (shown vars (s_disk s) (of_owner E pow_half o vars (s_disk s) f)).
Proof.
  intros M B. pose proof (with_owner_show o s vars body f (proj1 M) B) as H.
  destruct (showing E pow_half o s body) as [[s' ev]| |];
    destruct (shown vars (s_disk s) (of_owner E pow_half o vars (s_disk s) f)) as [[[vars' d] ev']| |]; try contradiction; try exact I.
  destruct H as (<- & -> & -> & X). cbn. split; [reflexivity|]. split; [exact (ext_disk _ _ X)|].
  destruct ev; auto; eapply means_ext; eassumption.
Qed.

Lemma exec_sim c s vars L L' : means s vars L -> keeps c L = Some L' ->
  sim_stmt L' (exec E fmt pow_half c s) (stmt_value E fmt pow_half c vars (s_disk s)).
Proof.
  intros M K. pose proof (proj1 M) as R. pose proof (proj2 M) as P. destruct c; cbn [keeps] in K; cbn [exec stmt_value].
  - injection K as <-. pose proof (eval_owner_sim o s vars R) as S.
    destruct (eval_owner o s) as [[s1 [t|e]]| |]; destruct (owner_value o vars (s_disk s)) as [[v|e']| |]; try contradiction; try exact I.
    + destruct S as (X & G & _). cbn [bind sim_stmt]. split; [reflexivity|]. split; [rewrite rebind_disk; exact (ext_disk _ _ X)|].
      exact (means_rebind s1 vars L x (Some (BData (fst t))) (Some (VData v)) (means_ext _ _ _ _ X M) G).
    + destruct S as [<- X]. cbn. split; [reflexivity|]. split; [exact (ext_disk _ _ X)|exact I].
  - destruct (root L p) as [r|] eqn:Hr; [|discriminate]. injection K as <-.
    assert (N : root L p <> None) by congruence.
    pose proof (eval_part_sim L p s vars R P N) as S.
    destruct (eval_part E pow_half p s) as [[s1 [[h q]|e]]| |];
      destruct (part_value E pow_half p vars (s_disk s)) as [[q'|e']| |]; try contradiction; try exact I.
    + destruct S as (<- & X & G & Q). rewrite Hr in Q. cbn [bind sim_stmt]. split; [reflexivity|].
      split; [rewrite rebind_disk; exact (ext_disk _ _ X)|]. destruct (means_ext _ _ _ _ X M) as [R1 P1]. split.
      * exact (rebind_rel s1 vars y (Some (BPart h q)) (Some (VPart q)) R1 eq_refl).
      * apply rebind_part; [exact P1|exact G|]. destruct r; [rewrite (ext_vars _ _ X); exact Q|exact Q].
    + destruct S as [<- X]. cbn. split; [reflexivity|]. split; [exact (ext_disk _ _ X)|exact I].
  - injection K as <-. pose proof (R x) as Rx. unfold rel_binding in Rx.
    destruct (lookup x (s_vars s)) as [b|] eqn:Hx; destruct (lookup x vars) as [v|] eqn:Hv; try contradiction.
    + cbn [sim_stmt]. split; [reflexivity|]. split; [apply rebind_disk|].
      exact (means_rebind s vars L x None None M I).
    + destruct b; contradiction.
    + cbn. auto.
  - injection K as <-. cbn [sim_stmt]. split; [reflexivity|]. split; [apply rebind_disk|].
    apply (means_rebind s vars L x (Some (BFilter init_oi_filter)) (Some (VFilter init_oi_filter)) M).
    cbn. split; [reflexivity|]. repeat split.
  - injection K as <-. pose proof (R x) as Rx. unfold rel_binding in Rx.
    destruct (lookup x (s_vars s)) as [[h|h p|f]|] eqn:Hx; destruct (lookup x vars) as [[]|] eqn:Hv; try contradiction; try (cbn; auto; fail).
    destruct Rx as [<- F]. destruct (set_filter_attr a v f) as [g|e] eqn:Hs; [|cbn; auto].
    cbn [sim_stmt]. split; [reflexivity|]. split; [apply rebind_disk|].
    apply (means_rebind s vars L x (Some (BFilter g)) (Some (VFilter g)) M). split; [reflexivity|eapply set_attr_fresh; eassumption].
  - injection K as <-. pose proof (R x) as Rx. unfold rel_binding in Rx.
    destruct (lookup x (s_vars s)) as [[h|h p|f]|] eqn:Hx; destruct (lookup x vars) as [[]|] eqn:Hv; try contradiction; try (cbn; auto; fail).
    destruct Rx as [<- F]. destruct (get_filter_attr a f); cbn; auto.
  - injection K as <-. pose proof (R x) as Rx. unfold rel_binding in Rx.
    destruct (lookup x (s_vars s)) as [[h|h p|f]|] eqn:Hx; destruct (lookup x vars) as [[]|] eqn:Hv; try contradiction; try (cbn; auto; fail).
    destruct Rx as [<- F]. destruct (terminated f); cbn; auto.
  - destruct (root L p) as [r|] eqn:Hr; [|discriminate]. injection K as <-.
    assert (N : root L p <> None) by congruence.
    pose proof (eval_part_sim L p s vars R P N) as S.
    destruct (eval_part E pow_half p s) as [[s1 [[h q]|e]]| |];
      destruct (part_value E pow_half p vars (s_disk s)) as [[q'|e']| |]; try contradiction; try exact I.
    + destruct S as (<- & X & (v & G) & _). cbn [bind]. rewrite (deref_good _ _ _ _ G). cbn [bind]. unfold shown.
      destruct (pointee_attr a q) as [b| |]; cbn [bind]; try exact I. cbn [sim_stmt]. split; [reflexivity|].
      split; [exact (ext_disk _ _ X)|]. destruct (show b); auto; eapply means_ext; eassumption.
    + destruct S as [<- X]. cbn. split; [reflexivity|]. split; [exact (ext_disk _ _ X)|exact I].
  - injection K as <-. apply show_sim; [exact M|]. intros h v s' G. now rewrite (whole_good _ _ _ G).
  - injection K as <-. pose proof (eval_owner_sim o s vars R) as S.
    destruct (eval_owner o s) as [[s1 [t|e]]| |]; destruct (owner_value o vars (s_disk s)) as [[v|e']| |]; try contradiction; try exact I.
    + destruct S as (X & G & Si & _). cbn [bind]. rewrite (whole_good _ _ _ G). cbn [bind]. rewrite (ext_disk _ _ X).
      destruct (write_oi_fits E filename v (s_disk s) 0) as [[d st]| |]; cbn [bind fst snd]; try exact I.
      cbn [sim_stmt]. split; [reflexivity|].
      assert (W : means (drop t (mk_state (s_cells s1) (s_vars s1) d)) vars L
                  /\ s_disk (drop t (mk_state (s_cells s1) (s_vars s1) d)) = d).
      { assert (T : drop t (mk_state (s_cells s1) (s_vars s1) d) = mk_state (s_cells (drop t s1)) (s_vars (drop t s1)) d).
        { unfold drop. destruct (snd t); reflexivity. }
        rewrite T. split; [|reflexivity]. pose proof (means_ext _ _ _ _ (ext_drop _ _ _ X Si) M) as M'. exact M'. }
      destruct W as [W1 W2]. split; [exact W2|]. destruct (st =? 0); auto.
    + destruct S as [<- X]. cbn. split; [reflexivity|]. split; [exact (ext_disk _ _ X)|exact I].
  - injection K as <-. apply show_sim; [exact M|]. intros h v s' G. now rewrite (whole_good _ _ _ G).
  - injection K as <-. apply show_sim; [exact M|]. intros h v s' G. now rewrite (member_good _ _ _ _ G).
  - injection K as <-. apply show_sim; [exact M|]. intros h v s' G. unfold with_cell.
    destruct (cell_good _ _ _ G) as (c & -> & <-). reflexivity.
  - injection K as <-. apply show_sim; [exact M|]. intros h v s' G. unfold with_cell.
    destruct (cell_good _ _ _ G) as (c & -> & <-). cbn [bind]. destruct (non_null _); reflexivity.
  - injection K as <-. apply show_sim; [exact M|]. intros h v s' G. unfold with_cell.
    destruct (cell_good _ _ _ G) as (c & -> & <-). cbn [bind]. destruct (non_null _); reflexivity.
  - injection K as <-. apply show_sim; [exact M|]. intros h v s' G. unfold with_cell.
    destruct (cell_good _ _ _ G) as (c & -> & <-). cbn [bind]. destruct (non_null _) as [w| |]; try reflexivity.
    cbn [bind]. destruct (get (wv_eff_wave w) i); reflexivity.
  - discriminate.
Qed.

Lemma run_sim l : forall s vars L, means s vars L -> keeps_all l L = true ->
  (r <- run_from E fmt pow_half l s ;; Ok (s_disk (fst r), snd r)) = script_value E fmt pow_half l vars (s_disk s).
Proof.
  induction l as [|c l IH]; intros s vars L M K; [reflexivity|].
  cbn [run_from script_value keeps_all] in *. destruct (keeps c L) as [L'|] eqn:Hk; [|discriminate].
  pose proof (exec_sim c s vars L L' M Hk) as S.
  destruct (exec E fmt pow_half c s) as [[s1 ev]| |];
    destruct (stmt_value E fmt pow_half c vars (s_disk s)) as [[[vars1 d] ev']| |]; try contradiction; try reflexivity.
  destruct S as (<- & <- & M1). cbn [bind fst snd]. destruct ev as [|v|e]; [| |reflexivity];
    (specialize (IH s1 vars1 L' M1 K); rewrite <- IH;
     destruct (run_from E fmt pow_half l s1) as [[s2 evs]| |]; reflexivity).
Qed.

Lemma run_means l d : keeps_datasets l ->
  (r <- run E fmt pow_half l d ;; Ok (s_disk (fst r), snd r)) = script_value E fmt pow_half l [] d.
Proof.
  intros K. apply (run_sim l (start d) [] []); [|exact K]. split.
  - intros x. exact I.
  - intros y r [].
Qed.
End Scripts.
