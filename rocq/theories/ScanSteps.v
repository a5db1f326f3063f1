(** The steps of demo_write on a text made of words. *)
From Coq Require Import Lia.
From Verif Require Import BaseLemmas ScanSpec ScanWords.
Open Scope string_scope.
Open Scope list_scope.
Open Scope Z_scope.

Section Steps.
Variable N : numbers.

(** the input begins with the first of these words; [b]: perhaps after white space *)
Definition at_words (b : bool) (ws : list string) (s : string) : Prop := spaced ws (if b then skip_space s else s).
(** [m] reads words for [ts], when words satisfying [P] follow, and gives [a] *)
Definition reads (i o : bool) (P : list string -> Prop) {A} (m : scan A) (ts : list token) (a : A) : Prop :=
  forall ws more s, Forall2 (stands N) ts ws -> P more -> at_words i (ws ++ more) s ->
    exists s', m s = Ok (a, s') /\ at_words o more s'.
Definition any (_ : list string) : Prop := True.
Definition first_not (c : ascii) (ws : list string) : Prop :=
  match ws with String x _ :: _ => x <> c | _ => True end.

Lemma at_weaken b ws s : at_words false ws s -> at_words b ws s.
Proof. unfold at_words. destruct b; [|auto]. intros H. now rewrite (spaced_skip ws). Qed.

Lemma reads_bind i j o (P1 P2 : list string -> Prop) {A B} (m : scan A) (k : A -> scan B) ts1 ts2 a b :
  reads i j P1 m ts1 a -> reads j o P2 (k a) ts2 b ->
  (forall ws more, Forall2 (stands N) ts2 ws -> P2 more -> P1 (ws ++ more)) ->
  reads i o P2 (bind_s m k) (ts1 ++ ts2) b.
Proof.
  intros H1 H2 HP ws more s Hw Hp Hs. apply Forall2_app_inv_l in Hw as (ws1 & ws2 & Hw1 & Hw2 & ->).
  rewrite <- app_assoc in Hs. destruct (H1 ws1 (ws2 ++ more) s Hw1 (HP _ _ Hw2 Hp) Hs) as (s1 & Hm & Hs1).
  destruct (H2 ws2 more s1 Hw2 Hp Hs1) as (s2 & Hk & Hs2).
  exists s2. split; [|exact Hs2]. unfold bind_s. rewrite Hm, bind_Ok. exact Hk.
Qed.
Lemma reads_ret i P {A} (a : A) : reads i i P (ret a) [] a.
Proof. intros ws more s Hw _ Hs. inversion Hw; subst. exists s. split; [reflexivity|exact Hs]. Qed.
Lemma reads_more i o (P Q : list string -> Prop) {A} (m : scan A) ts a : reads i o P m ts a -> (forall ws, Q ws -> P ws) -> reads i o Q m ts a.
Proof. intros H HP ws more s Hw Hq. apply H; auto. Qed.
(** a step that makes something of what the one before has given *)
Lemma reads_then i o P {A B} (m : scan A) (k : A -> scan B) ts a b :
  reads i o P m ts a -> k a = ret b -> reads i o P (bind_s m k) ts b.
Proof.
  intros Hm Hk ws more s Hw Hp Hs. destruct (Hm ws more s Hw Hp Hs) as (s' & H1 & H2).
  exists s'. split; [|exact H2]. unfold bind_s. rewrite H1, bind_Ok. cbn [fst snd]. now rewrite Hk.
Qed.

(** ** Formats *)

Definition lead (i : bool) : list directive := if i then [DSpace] else [].
Lemma reads_scanf i fmt cs ts vs vs' :
  directives None fmt = lead i ++ spell cs -> fit N cs ts vs' -> vs' = vs ->
  reads i false any (scanf N fmt) ts vs.
Proof.
  intros Hd Hf -> ws more s Hw _ Hs.
  assert (H : exists s', fscanf N (directives None fmt) s = (vs, s') /\ spaced more s').
  { rewrite Hd. destruct i; cbn [lead app fscanf]; eapply fit_scan; eassumption. }
  destruct H as (s' & H & Hm). exists s'. unfold scanf. rewrite H. auto.
Qed.
Lemma reads_scanf_last i fmt cs c ts t vs v vs' :
  directives None fmt = lead i ++ spell cs ++ c -> fit N cs ts vs -> takes N c t v -> vs ++ v = vs' ->
  reads i true any (scanf N fmt) (ts ++ [t]) vs'.
Proof.
  intros Hd Hf Hc <- ws more s Hw _ Hs.
  assert (H : exists s', fscanf N (directives None fmt) s = (vs ++ v, s') /\ spaced more (skip_space s')).
  { rewrite Hd. destruct i; cbn [lead app fscanf]; eapply fit_scan_last; eassumption. }
  destruct H as (s' & H & Hm). exists s'. unfold scanf. rewrite H. auto.
Qed.
(** the first character is not there *)
Lemma reads_nothing i o fmt c ds : directives None fmt = lead i ++ DLit c :: ds ->
  reads i o (first_not c) (scanf N fmt) [] [].
Proof.
  intros Hd ws more s Hw Hp Hs. inversion Hw; subst ws. cbn [app] in Hs.
  assert (H : forall s0, spaced more s0 -> fscanf N (DLit c :: ds) s0 = ([], s0)).
  { intros s0 H0. cbn [fscanf]. destruct s0 as [|x s0]; [reflexivity|].
    destruct (Ascii.eqb_spec c x) as [->|Hn]; [|reflexivity]. exfalso.
    inversion H0 as [|w Hw0 E1 E2|w g ws t Hw0 _ _ E1 E2]; subst.
    - cbn in Hp. congruence.
    - destruct w as [|y w]; [destruct Hw0; congruence|]. cbn in E2, Hp. injection E2 as -> _. congruence. }
  unfold scanf. rewrite Hd. unfold at_words in Hs. destruct i; cbn [lead app].
  - change (fscanf N (DSpace :: ?l) ?r) with (fscanf N l (skip_space r)). rewrite H by exact Hs.
    exists (skip_space s). split; [reflexivity|]. now apply at_weaken.
  - rewrite H by exact Hs. exists s. split; [reflexivity|]. now apply at_weaken.
Qed.

(** ** Mandatory values *)

Lemma int_in z : int z -> FitsModel.in_int z = true.
Proof. unfold int, FitsModel.in_int. intros H. apply andb_true_intro. rewrite !Z.leb_le. lia. Qed.

Section Values.
Variables (i o : bool) (P : list string -> Prop) (fmt : string) (ts : list token).
Ltac value := intros; unfold scan0, scan_i, scan_f, scan_d, scan_s, scan_ss, scan_dd, scan_ii;
  eapply reads_then; [eassumption|]; cbv beta iota; rewrite ?int_in by assumption; reflexivity.
Lemma reads_0 : reads i o P (scanf N fmt) ts [] -> reads i o P (scan0 N fmt) ts tt.
Proof. value. Qed.
Lemma reads_i z : reads i o P (scanf N fmt) ts [SInt z] -> int z -> reads i o P (scan_i N fmt) ts z.
Proof. value. Qed.
Lemma reads_f x : reads i o P (scanf N fmt) ts [SFlt x] -> reads i o P (scan_f N fmt) ts x.
Proof. value. Qed.
Lemma reads_d x : reads i o P (scanf N fmt) ts [SDbl x] -> reads i o P (scan_d N fmt) ts x.
Proof. value. Qed.
Lemma reads_s x : reads i o P (scanf N fmt) ts [SStr x] -> reads i o P (scan_s N fmt) ts x.
Proof. value. Qed.
Lemma reads_ss x y : reads i o P (scanf N fmt) ts [SStr x; SStr y] -> reads i o P (scan_ss N fmt) ts (x, y).
Proof. value. Qed.
Lemma reads_dd x y : reads i o P (scanf N fmt) ts [SDbl x; SDbl y] -> reads i o P (scan_dd N fmt) ts (x, y).
Proof. value. Qed.
Lemma reads_ii x y : reads i o P (scanf N fmt) ts [SInt x; SInt y] -> int x -> int y ->
  reads i o P (scan_ii N fmt) ts (x, y).
Proof. value. Qed.
End Values.

(** ** Optional values *)

Definition opt (s : string) : option string := if is_empty s then None else Some s.
Lemma text_opt s : text (opt s) = s.
Proof. now destruct s. Qed.

Lemma reads_opt_string i o (P : list string -> Prop) fmt c ds key s :
  directives None fmt = lead i ++ DLit c :: ds -> (s = EmptyString -> forall ws, P ws -> first_not c ws) ->
  (s <> EmptyString -> reads i o any (scanf N fmt) [W key; W s] [SStr s]) ->
  reads i o P (scan_opt_string N fmt) (opt_word key s) (opt s).
Proof.
  intros Hd HP Hs. unfold opt_word, opt, scan_opt_string. destruct s as [|x s]; cbn [is_empty].
  - eapply reads_then; [eapply reads_more; [eapply reads_nothing; exact Hd|now apply HP]|reflexivity].
  - eapply reads_then; [eapply reads_more; [apply Hs; discriminate|easy]|reflexivity].
Qed.
Lemma reads_opt_int i o (P : list string -> Prop) fmt c ds key z :
  directives None fmt = lead i ++ DLit c :: ds -> int z -> (z = -1 -> forall ws, P ws -> first_not c ws) ->
  reads i o any (scanf N fmt) [W key; I z] [SInt z] ->
  reads i o P (scan_opt_int N fmt (-1)) (opt_int key z) z.
Proof.
  intros Hd Hz HP Hs. unfold opt_int, scan_opt_int. destruct (Z.eqb_spec z (-1)) as [->|Hn].
  - eapply reads_then; [eapply reads_more; [eapply reads_nothing; exact Hd|now apply HP]|reflexivity].
  - eapply reads_then; [eapply reads_more; [exact Hs|easy]|]. cbv beta iota. now rewrite int_in.
Qed.

(** ** Loops *)

Lemma reads_times (P : list string -> Prop) {A} (m : Z -> scan A) (f : A -> list token) l :
  (forall x ws more, In x l -> Forall2 (stands N) (f x) ws -> P (ws ++ more)) -> forall k,
  (forall i x, nth_error l i = Some x -> reads false false P (m (k + Z.of_nat i)) (f x) x) ->
  reads false false P (times (List.length l) k m) (flat_map f l) l.
Proof.
  intros HP. induction l as [|x l IH]; intros k H; cbn [List.length times flat_map].
  - apply reads_ret.
  - eapply reads_bind.
    + specialize (H 0%nat x eq_refl). rewrite Z.add_0_r in H. exact H.
    + rewrite <- (app_nil_r (flat_map f l)). eapply reads_bind.
      * apply IH; [intros; apply HP with (x := x0); [now right|assumption]|]. intros i y Hi.
        replace (k + 1 + Z.of_nat i) with (k + Z.of_nat (S i)) by lia. now apply H.
      * apply reads_ret.
      * intros ws more Hw Hp. inversion Hw; subst. exact Hp.
    + intros ws more Hw Hp. destruct l as [|y l].
      * inversion Hw; subst. exact Hp.
      * cbn [flat_map] in Hw. apply Forall2_app_inv_l in Hw as (w1 & w2 & Hw1 & _ & ->).
        rewrite <- app_assoc. apply HP with (x := y); [right; now left|assumption].
Qed.
Lemma reads_rows (P : list string -> Prop) {A} (m : Z -> scan A) (f : A -> list token) n l : n = Z.of_nat (List.length l) ->
  (forall x ws more, In x l -> Forall2 (stands N) (f x) ws -> P (ws ++ more)) ->
  (forall i x, nth_error l i = Some x -> reads false false P (m (Z.of_nat i)) (f x) x) ->
  reads false false P (rows n m) (flat_map f l) l.
Proof. intros -> HP H. unfold rows. rewrite Nat2Z.id. now apply reads_times. Qed.
Lemma reads_each {A} (m : Z -> scan A) (g : A -> token) n l : n = Z.of_nat (List.length l) ->
  (forall i x, In x l -> reads false false any (m i) [g x] x) ->
  reads false false any (rows n m) (map g l) l.
Proof.
  intros Hn H. replace (map g l) with (flat_map (fun x => [g x]) l).
  - apply reads_rows; [exact Hn|easy|]. intros i x Hi. apply H. eapply nth_error_In, Hi.
  - clear. induction l as [|x l IH]; [reflexivity|]. cbn. now rewrite IH.
Qed.
Lemma reads_alloc i P n : 1 <= n -> reads i i P (room n) [] tt.
Proof.
  intros Hn. unfold room. destruct (Z.ltb_spec 0 n); [|lia]. apply reads_ret.
Qed.
Lemma reads_vector nwave l : channels nwave l -> reads false false any (vector N nwave) (map D l) l.
Proof.
  intros Hn. apply reads_each; [exact Hn|]. intros _ x _. apply reads_d.
  eapply reads_scanf with (cs := [[DDouble]]); [reflexivity|econstructor; [apply takes_dbl|constructor]|reflexivity].
Qed.
End Steps.

(** ** Tactics *)

(** the groups of directives between white space *)
Fixpoint chunks (cur ds : list directive) : list (list directive) :=
  match ds with
  | [] => match cur with [] => [] | _ => [cur] end
  | DSpace :: ds' => cur :: chunks [] ds'
  | d :: ds' => chunks (cur ++ [d]) ds'
  end.

Ltac take1 :=
  match goal with
  | |- takes _ [DInt] _ _ => apply takes_int
  | |- takes _ [DFloat] _ _ => apply takes_flt
  | |- takes _ [DDouble] _ _ => apply takes_dbl
  | |- takes _ [DStr None] _ _ => apply takes_any
  | |- takes _ [DStr (Some _)] _ _ => apply takes_str; try assumption
  | |- takes _ [DChar] _ _ => apply takes_chr
  | |- takes _ [DFloat; DLit "i"] _ _ => apply takes_im
  | |- takes _ _ (W ?w) _ => apply (takes_lits _ w)
  end.
Ltac fits := repeat (eapply fit_cons; [take1|]); apply fit_nil.
(** [reads false false any (scanf N fmt) ts vs] *)
Ltac scans :=
  match goal with
  | |- reads _ _ _ _ (scanf _ ?fmt) _ _ =>
      let cs := eval vm_compute in (chunks [] (directives None fmt)) in
      eapply (reads_scanf _ _ _ cs); [reflexivity|fits|cbn [app]; reflexivity]
  end.
Ltac count cs := match cs with nil => constr:(O) | _ :: ?l => let n := count l in constr:(S n) end.
Ltac split_at n l k :=
  match n with
  | O => k (@nil token) l
  | S ?n' => match l with ?x :: ?l' => split_at n' l' ltac:(fun a b => k (x :: a) b) end
  end.
(** the tokens a format takes are split off *)
Ltac cut_format fmt :=
  let cs := eval vm_compute in (chunks [] (directives None fmt)) in
  let n := count cs in
  match goal with |- reads _ _ _ _ (bind_s _ _) ?ts _ =>
    split_at n ts ltac:(fun a b => change ts with (a ++ b)) end.
Ltac nothing := intros; exact Logic.I.
Ltac step1 :=
  match goal with
  | |- reads _ _ _ _ (bind_s (scan0 _ ?f) _) _ _ => cut_format f; eapply reads_bind; [apply reads_0; scans| |nothing]
  | |- reads _ _ _ _ (bind_s (scan_i _ ?f) _) _ _ => cut_format f; eapply reads_bind; [eapply reads_i; [scans|try assumption]| |nothing]
  | |- reads _ _ _ _ (bind_s (scan_f _ ?f) _) _ _ => cut_format f; eapply reads_bind; [apply reads_f; scans| |nothing]
  | |- reads _ _ _ _ (bind_s (scan_d _ ?f) _) _ _ => cut_format f; eapply reads_bind; [apply reads_d; scans| |nothing]
  | |- reads _ _ _ _ (bind_s (scan_s _ ?f) _) _ _ => cut_format f; eapply reads_bind; [apply reads_s; scans| |nothing]
  | |- reads _ _ _ _ (bind_s (scan_ss _ ?f) _) _ _ => cut_format f; eapply reads_bind; [apply reads_ss; scans| |nothing]
  | |- reads _ _ _ _ (bind_s (scan_dd _ ?f) _) _ _ => cut_format f; eapply reads_bind; [apply reads_dd; scans| |nothing]
  | |- reads _ _ _ _ (bind_s (scan_ii _ ?f) _) _ _ => cut_format f; eapply reads_bind; [eapply reads_ii; [scans|try assumption|try assumption]| |nothing]
  | |- reads _ _ _ _ (bind_s (scanf _ ?f) _) _ _ => cut_format f; eapply reads_bind; [scans| |nothing]
  | |- reads _ _ _ _ (bind_s (room _) _) ?ts _ =>
      change ts with (@nil token ++ ts); eapply reads_bind; [apply (reads_alloc _ _ any); try assumption| |nothing]
  | |- reads _ _ _ _ (bind_s (vector _ _) _) (map D _ ++ _) _ =>
      eapply reads_bind; [apply reads_vector; try assumption| |nothing]
  end; cbv beta iota.
