(** fscanf on a text made of words. *)
From Coq Require Import Lia DecimalString DecimalFacts DecimalZ Decimal.
From Verif Require Import BaseLemmas ScanSpec.
Open Scope string_scope.
Open Scope list_scope.
Open Scope Z_scope.

(** ** Characters *)

Lemma space_blank c : is_space c = true <-> white c.
Proof.
  unfold is_space, white. cbv zeta. set (n := nat_of_ascii c). cbn [In]. rewrite orb_true_iff, andb_true_iff, Nat.eqb_eq, !Nat.leb_le. lia.
Qed.
Lemma space_not c : ~ white c -> is_space c = false.
Proof. intros H. destruct (is_space c) eqn:E; [|reflexivity]. now apply space_blank in E. Qed.
Lemma app_empty_r s : (s ++ "")%string = s.
Proof. induction s as [|c s IH]; [reflexivity|]. cbn. now rewrite IH. Qed.
Lemma app_assoc_s a b c : ((a ++ b) ++ c)%string = (a ++ b ++ c)%string.
Proof. induction a as [|x a IH]; [reflexivity|]. cbn. now rewrite IH. Qed.
Lemma skip_gap s t : every white s -> skip_space (s ++ t) = skip_space t.
Proof.
  induction s as [|c s IH]; [reflexivity|]. intros [Hc Hs]. cbn. apply space_blank in Hc. rewrite Hc. auto.
Qed.
Lemma skip_word w t : word w -> skip_space (w ++ t) = (w ++ t)%string.
Proof.
  intros [Hn Hw]. destruct w as [|c w]; [congruence|]. destruct Hw as [Hc _]. cbn. now rewrite space_not.
Qed.
Lemma spaced_skip ws s : spaced ws s -> skip_space s = s.
Proof.
  destruct 1 as [|w Hw|w g ws t Hw _ _]; [reflexivity| |now apply skip_word].
  rewrite <- (app_empty_r w). now apply skip_word.
Qed.
Lemma spaced_inv w ws s : spaced (w :: ws) s ->
  word w /\ exists rest, s = (w ++ rest)%string /\ ends rest /\ spaced ws (skip_space rest).
Proof.
  intros H. inversion H as [|w' Hw|w' g ws' t Hw Hg Ht]; subst.
  - split; [assumption|]. exists ""%string. rewrite app_empty_r. repeat split. constructor.
  - split; [assumption|]. exists (g ++ t)%string. split; [reflexivity|]. destruct Hg as [Hn Hg].
    rewrite skip_gap by exact Hg. rewrite (spaced_skip ws) by exact Ht. split; [|exact Ht].
    destruct g as [|c g]; [congruence|]. now destruct Hg.
Qed.

(** ** Integers *)

Fixpoint all_dec (s : string) : bool := match s with EmptyString => true | String c s' => is_dec c && all_dec s' end.
Lemma span_dec s rest : all_dec s = true -> match rest with EmptyString => True | String c _ => is_dec c = false end ->
  span is_dec None (s ++ rest) = (s, rest).
Proof.
  intros Hs Hr. induction s as [|c s IH]; cbn.
  - destruct rest as [|c r]; [reflexivity|]. cbn. now rewrite Hr.
  - cbn in Hs. apply andb_true_iff in Hs as [Hc Hs]. rewrite Hc. cbn. now rewrite IH.
Qed.
Lemma all_dec_uint u : all_dec (NilEmpty.string_of_uint u) = true.
Proof. induction u; cbn; auto. Qed.
Lemma not_dec_blank c : white c -> is_dec c = false.
Proof.
  unfold white, is_dec. cbv zeta. set (n := nat_of_ascii c). cbn [In]. intros H.
  destruct (Z.leb_spec 48 (Z.of_nat n)); [|reflexivity]. lia.
Qed.
Lemma ends_dec rest : ends rest -> match rest with EmptyString => True | String c _ => is_dec c = false end.
Proof. destruct rest; cbn; [auto|apply not_dec_blank]. Qed.

(** no digit follows *)
Definition stops (rest : string) : Prop := match rest with EmptyString => True | String c _ => is_dec c = false end.
Lemma read_digits_ok u rest : u <> Nil -> stops rest ->
  read_digits (NilZero.string_of_uint u ++ rest) = Some (Z.of_uint u, rest).
Proof.
  intros Hu He. assert (Hs : NilZero.string_of_uint u = NilEmpty.string_of_uint u) by now destruct u.
  unfold read_digits. rewrite span_dec; [|rewrite Hs; apply all_dec_uint|exact He].
  cbn [fst snd]. rewrite NilZero.usu by exact Hu. rewrite Hs. now destruct u.
Qed.
Lemma to_uint_not_nil p : Pos.to_uint p <> Nil.
Proof. apply DecimalPos.Unsigned.to_uint_nonnil. Qed.
Lemma uint_first u : u <> Nil -> exists c s, NilZero.string_of_uint u = String c s /\ is_dec c = true.
Proof. destruct u; [congruence|..]; intros _; cbn; eauto. Qed.
Lemma scan_int_digits c s : is_dec c = true -> scan_int (String c s) = read_digits (String c s).
Proof. destruct c as [[] [] [] [] [] [] [] []]; try reflexivity; discriminate. Qed.
Lemma scan_int_stops z rest : stops rest -> scan_int (fmt_d z ++ rest) = Some (z, rest).
Proof.
  intros He. unfold fmt_d, string_of_Z.
  assert (Hz : Z.of_int (Z.to_int z) = z) by apply DecimalZ.of_to.
  destruct z as [|p|p]; cbn [Z.to_int] in *.
  - change (scan_int (String "0" rest) = Some (0, rest)). rewrite scan_int_digits by reflexivity.
    apply (read_digits_ok (D0 Nil)); [discriminate|exact He].
  - cbn [NilZero.string_of_int]. destruct (uint_first (Pos.to_uint p) (to_uint_not_nil p)) as (c & s & Hs & Hc).
    rewrite Hs. cbn [append]. rewrite scan_int_digits by exact Hc.
    change (String c (s ++ rest)) with (String c s ++ rest)%string. rewrite <- Hs.
    rewrite read_digits_ok by (auto using to_uint_not_nil). cbn [Z.of_int] in Hz. now rewrite Hz.
  - cbn [NilZero.string_of_int append scan_int]. rewrite read_digits_ok by (auto using to_uint_not_nil).
    cbn [option_map fst snd]. cbn [Z.of_int] in Hz. now rewrite Hz.
Qed.
Lemma scan_int_ok z rest : ends rest -> scan_int (fmt_d z ++ rest) = Some (z, rest).
Proof. intros H. now apply scan_int_stops, ends_dec. Qed.
Lemma fmt_d_word z : word (fmt_d z).
Proof.
  assert (Hd : forall u, every (fun c => ~ white c) (NilEmpty.string_of_uint u)).
  { induction u; cbn; auto; split; auto; unfold white; cbn; lia. }
  assert (Hz : forall u, u <> Nil -> word (NilZero.string_of_uint u)).
  { intros u Hu. assert (Hs : NilZero.string_of_uint u = NilEmpty.string_of_uint u) by now destruct u.
    rewrite Hs. split; [now destruct u|apply Hd]. }
  unfold fmt_d, string_of_Z. destruct z as [|p|p]; cbn [Z.to_int NilZero.string_of_int].
  - apply (Hz (D0 Nil)). discriminate.
  - apply Hz, to_uint_not_nil.
  - split; [discriminate|]. split; [unfold white; cbn; lia|]. apply Hz, to_uint_not_nil.
Qed.

(** ** Strings *)

Lemma strlen_cons c s : strlen (String c s) = 1 + strlen s.
Proof. unfold strlen. cbn [String.length]. lia. Qed.
Lemma strlen_pos s : 0 <= strlen s.
Proof. unfold strlen. lia. Qed.
Lemma span_word_w w n rest : every (fun c => ~ white c) w -> strlen w <= n -> ends rest ->
  span (fun c => negb (is_space c)) (Some n) (w ++ rest) = (w, rest).
Proof.
  revert n. induction w as [|c w IH]; intros n Hw Hn He; cbn.
  - destruct rest as [|c r]; [reflexivity|]. cbn in *. apply space_blank in He. now rewrite He.
  - destruct Hw as [Hc Hw]. rewrite strlen_cons in Hn. pose proof (strlen_pos w).
    rewrite space_not by exact Hc. cbn [negb andb]. destruct (Z.leb_spec 1 n); [|lia].
    rewrite IH by (auto; lia). reflexivity.
Qed.
Lemma span_word w rest : every (fun c => ~ white c) w -> ends rest ->
  span (fun c => negb (is_space c)) None (w ++ rest) = (w, rest).
Proof.
  induction w as [|c w IH]; intros Hw He; cbn.
  - destruct rest as [|c r]; [reflexivity|]. cbn in *. apply space_blank in He. now rewrite He.
  - destruct Hw as [Hc Hw]. rewrite space_not by exact Hc. cbn [negb andb]. now rewrite IH.
Qed.

(** ** Directives *)

Section Fscanf.
Variable N : numbers.

(** these directives read such a word, giving these values *)
Definition takes (ds : list directive) (t : token) (vs : list scanned) : Prop :=
  forall w ds' rest, stands N t w -> ends rest ->
    fscanf N (ds ++ ds') (w ++ rest) = (vs ++ fst (fscanf N ds' rest), snd (fscanf N ds' rest)).
Definition lits (w : string) : list directive := map DLit (list_ascii_of_string w).

Lemma fscanf_lits w ds rest : fscanf N (lits w ++ ds) (w ++ rest) = fscanf N ds rest.
Proof.
  induction w as [|c w IH]; [reflexivity|]. cbn [lits list_ascii_of_string map app append fscanf].
  rewrite Ascii.eqb_refl. exact IH.
Qed.
Lemma takes_lits w : takes (lits w) (W w) [].
Proof. intros w' ds' rest [_ ->] _. rewrite fscanf_lits. cbn [app]. now destruct (fscanf N ds' rest). Qed.
Lemma takes_str n w : within n w -> takes [DStr (Some n)] (W w) [SStr w].
Proof.
  intros Hn w' ds' rest [Hw ->] He. cbn [app fscanf]. rewrite skip_word by exact Hw. destruct Hw as [Hne Hw].
  rewrite span_word_w by assumption. cbn [fst snd]. now destruct w.
Qed.
Lemma takes_any w : takes [DStr None] (W w) [SStr w].
Proof.
  intros w' ds' rest [Hw ->] He. cbn [app fscanf]. rewrite skip_word by exact Hw. destruct Hw as [Hne Hw].
  rewrite span_word by assumption. cbn [fst snd]. now destruct w.
Qed.
Lemma takes_chr c : takes [DChar] (W (String c EmptyString)) [SChr c].
Proof. intros w' ds' rest [Hw ->] He. reflexivity. Qed.
Lemma takes_int z : takes [DInt] (I z) [SInt z].
Proof.
  intros w' ds' rest [Hw ->] He. cbn [app fscanf]. rewrite skip_word by exact Hw. now rewrite scan_int_ok.
Qed.
Lemma takes_flt x : takes [DFloat] (F x) [SFlt x].
Proof.
  intros w' ds' rest [Hw Hx] He. cbn [app fscanf]. rewrite skip_word by exact Hw. now rewrite Hx.
Qed.
Lemma takes_dbl x : takes [DDouble] (D x) [SDbl x].
Proof.
  intros w' ds' rest [Hw Hx] He. cbn [app fscanf]. rewrite skip_word by exact Hw. now rewrite Hx.
Qed.
Lemma takes_im x : takes [DFloat; DLit "i"] (Im x) [SFlt x].
Proof.
  intros w' ds' rest [Hw (n & -> & Hn & Hx)] He. cbn [app fscanf]. rewrite skip_word by exact Hw.
  rewrite app_assoc_s. cbn [append]. rewrite Hx by exact He. reflexivity.
Qed.

(** a format in which white space follows each of these groups *)
Definition spell (cs : list (list directive)) : list directive := flat_map (fun c => c ++ [DSpace]) cs.
Inductive fit : list (list directive) -> list token -> list scanned -> Prop :=
  | fit_nil : fit [] [] []
  | fit_cons c cs t ts v vs : takes c t v -> fit cs ts vs -> fit (c :: cs) (t :: ts) (v ++ vs).

Lemma fit_scan cs ts vs : fit cs ts vs -> forall ws more s,
  Forall2 (stands N) ts ws -> spaced (ws ++ more) s ->
  exists s', fscanf N (spell cs) s = (vs, s') /\ spaced more s'.
Proof.
  induction 1 as [|c cs t ts v vs Ht _ IH]; intros ws more s Hw Hs.
  - inversion Hw; subst. exists s. split; [reflexivity|exact Hs].
  - inversion Hw as [|? w ? ws' Hst Hw' E1 E2]; subst. cbn [app] in Hs.
    apply spaced_inv in Hs as (_ & rest & -> & He & Hs).
    cbn [spell flat_map]. rewrite <- app_assoc. rewrite (Ht w _ rest Hst He). cbn [app].
    change (fscanf N (DSpace :: ?l) ?r) with (fscanf N l (skip_space r)).
    destruct (IH ws' more (skip_space rest) Hw' Hs) as (s' & Hf & Hm). unfold spell in Hf. rewrite Hf.
    exists s'. split; [reflexivity|exact Hm].
Qed.
(** without white space at the end *)
Lemma fit_scan_last cs ts vs c t v : fit cs ts vs -> takes c t v -> forall ws more s,
  Forall2 (stands N) (ts ++ [t]) ws -> spaced (ws ++ more) s ->
  exists s', fscanf N (spell cs ++ c) s = (vs ++ v, s') /\ spaced more (skip_space s').
Proof.
  intros Hf Hc. induction Hf as [|c0 cs t0 ts v0 vs Ht _ IH]; intros ws more s Hw Hs.
  - inversion Hw as [|? w ? ws' Hst Hw' E1 E2]; subst. inversion Hw'; subst. cbn [app] in Hs.
    apply spaced_inv in Hs as (_ & rest & -> & He & Hs). exists rest. split; [|exact Hs].
    cbn [spell flat_map app]. rewrite <- (app_nil_r c). rewrite (Hc w [] rest Hst He). cbn [fscanf fst snd].
    now rewrite app_nil_r.
  - inversion Hw as [|? w ? ws' Hst Hw' E1 E2]; subst. cbn [app] in Hs.
    apply spaced_inv in Hs as (_ & rest & -> & He & Hs).
    cbn [spell flat_map]. rewrite <- !app_assoc. rewrite (Ht w _ rest Hst He). cbn [app].
    change (fscanf N (DSpace :: ?l) ?r) with (fscanf N l (skip_space r)).
    destruct (IH ws' more (skip_space rest) Hw' Hs) as (s' & Hf' & Hm). unfold spell in Hf'. rewrite Hf'.
    exists s'. cbn [fst snd]. rewrite app_assoc. split; [reflexivity|exact Hm].
Qed.
End Fscanf.
