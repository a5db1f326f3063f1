(** The iterator on the input visits the data that apply_oi_filter leaves unflagged. *)
From Verif Require Import Base BaseLemmas FloatModel Types FileModel FileSpec FileProofs FilterModel FilterSpec FilterLemmas FilterProofs FilterRecords FilterTables FilterApply FilterFacts FilterResults FilterWhole FilterMain FilterFinal IterModel IterSpec IterProofs IterKinds.
From Coq Require Import Lia.

(** ** Correspondence of lists *)
Section Corr.
Context {X Y : Type} (A : X -> Prop) (B : Y -> Prop) (S : X -> Y -> Prop).

Definition corr (l : list X) (m : list Y) : Prop :=
  exists L M, kept A eq l L /\ kept B eq m M /\ Forall2 S L M.

Lemma kept_app {U V} (P : U -> Prop) (Q : U -> V -> Prop) l m l2 m2 :
  kept P Q l m -> kept P Q l2 m2 -> kept P Q (l ++ l2) (m ++ m2).
Proof. intros H H2. induction H; cbn; [exact H2| |]; constructor; auto. Qed.

Lemma corr_nil : corr [] [].
Proof. exists [], []. repeat constructor. Qed.
Lemma corr_app l m l2 m2 : corr l m -> corr l2 m2 -> corr (l ++ l2) (m ++ m2).
Proof.
  intros (L & M & H1 & H2 & H3) (L2 & M2 & G1 & G2 & G3). exists (L ++ L2), (M ++ M2).
  split; [now apply kept_app|]. split; [now apply kept_app|]. now apply Forall2_app.
Qed.
Lemma corr_skip l : (forall x, In x l -> ~ A x) -> corr l [].
Proof. intros H. exists [], []. split; [now apply kept_none|]. repeat constructor. Qed.
Lemma corr_one x y : (A x <-> B y) -> (A x -> S x y) -> (B y \/ ~ B y) -> corr [x] [y].
Proof.
  intros E HS [D|D].
  - exists [x], [y]. split; [|split]; repeat constructor; auto; now apply E in D; auto.
  - exists [], []. split; [|split]; repeat constructor; auto. now rewrite E.
Qed.

(** Numbered lists related by [kept] *)
Lemma corr_numbered {U V} (P : U -> Prop) (Q : U -> V -> Prop) (F : Z * U -> list X) (G : Z * V -> list Y) l m :
  kept P Q l m ->
  (forall i a x, In a l -> ~ P a -> In x (F (i, a)) -> ~ A x) ->
  (forall i j a b, In a l -> In b m -> P a -> Q a b -> corr (F (i, a)) (G (j, b))) ->
  forall i j, corr (flat_map F (number i l)) (flat_map G (number j m)).
Proof.
  induction 1 as [|a b l m HP HQ K IH|a l m HP K IH]; intros H1 H2 i j; cbn [number flat_map].
  - apply corr_nil.
  - apply corr_app; [apply H2; auto; now left|]. apply IH.
    + intros i' a' x Ha. apply H1. now right.
    + intros i' j' a' b' Ha Hb. apply H2; now right.
  - change (flat_map G (number j m)) with ([] ++ flat_map G (number j m)). apply corr_app.
    + apply corr_skip. intros x. apply H1; [now left|exact HP].
    + apply IH; [|intros i' j' a' b' Ha Hb; apply H2; [now right|exact Hb]].
      intros i' a' x Ha. apply H1. now right.
Qed.
Lemma corr_map {U V} (P : U -> Prop) (Q : U -> V -> Prop) (F : U -> X) (G : V -> Y) l m :
  kept P Q l m -> (forall a, In a l -> ~ P a -> ~ A (F a)) ->
  (forall a b, In a l -> In b m -> P a -> Q a b -> corr [F a] [G b]) -> corr (map F l) (map G m).
Proof.
  induction 1 as [|a b l m HP HQ K IH|a l m HP K IH]; intros H1 H2; cbn [map].
  - apply corr_nil.
  - apply (corr_app [F a] [G b]); [apply H2; auto; now left|]. apply IH.
    + intros a' Ha. apply H1. now right.
    + intros a' b' Ha Hb. apply H2; now right.
  - apply (corr_app [F a] []).
    + apply corr_skip. intros x [<-|[]]. apply H1; [now left|exact HP].
    + apply IH; [|intros a' b' Ha Hb; apply H2; [now right|exact Hb]]. intros a' Ha. apply H1. now right.
Qed.
End Corr.

Lemma kept_positions {U} (P : U -> Prop) l idx : kept P eq l idx -> forall pre,
  kept P (fun a m => nth_error (pre ++ idx) m = Some a) l (seq (length pre) (length idx)).
Proof.
  induction 1 as [|a b l m HP <- K IH|a l m HP K IH]; intros pre; cbn [length seq].
  - constructor.
  - constructor; [exact HP| |].
    + rewrite nth_error_app2, Nat.sub_diag by lia. reflexivity.
    + specialize (IH (pre ++ [a])). rewrite app_length, Nat.add_1_r in IH. now rewrite <- app_assoc in IH.
  - constructor; auto.
Qed.

Lemma picks_nth {A} idx (col out : list A) m j : picks idx col out -> nth_error idx m = Some j ->
  nth_error col j <> None /\ nth_error out m = nth_error col j.
Proof.
  unfold picks. intros H Hj. assert (E := f_equal (fun l => nth_error l m) H).
  cbn beta in E. rewrite !nth_error_map, Hj in E. destruct (nth_error out m) as [x|]; cbn in E; [|discriminate].
  split; congruence.
Qed.
Lemma picks_same_at {A} idx (col out : list A) m j : picks idx col out -> nth_error idx m = Some j ->
  same_at col out (Z.of_nat j) (Z.of_nat m).
Proof. intros H Hj. unfold same_at. rewrite !Nat2Z.id. now apply (picks_nth idx). Qed.

Section Agree.
Context {X R : Type} (k : kind R) (sel_ : oi_fits -> list (dtab X R)) (pow_half : f64 -> f64) (d : oi_fits) (f f' : filter_spec) (d' : oi_fits)
  (Q : dtab X R -> oi_wavelength -> R -> R -> Prop) (S : datum X R -> datum X R -> Prop).
Hypothesis C : consistent d.
Hypothesis HF : fresh_filter f.
Hypothesis E : apply_oi_filter pow_half d f = Ok (f', d').
Hypothesis FL : f_accept_flagged f = false.
Hypothesis HT : filtered_tables k f d Q (sel_ d) (sel_ d').
Hypothesis HU : forall t, In t (sel_ d') -> table_ready d' t /\ uses_insname d' (tb_insname t).
Hypothesis HW : forall t w r, In t (sel_ d) -> instrument d (tb_insname t) w -> In r (tb_record t) ->
  length (wv_eff_wave w) = Z.to_nat (tb_nwave t).
Hypothesis HQ : forall t w r r', Q t w r r' -> exists idx, accepted_channels f w idx /\ flags_updated k f w idx r r'.
Hypothesis HS : forall t t' w r r' idx n i n' i' j m, Q t w r r' -> accepted_channels f w idx -> nth_error idx m = Some j ->
  same_keywords t t' -> same_wavelength d d' (tb_insname t) (Z.of_nat j) (Z.of_nat m) ->
  S (n, t, i, r, Z.of_nat j) (n', t', i', r', Z.of_nat m).

Lemma accepted_record n (t : dtab X R) i r j : datum_accepted k f d (n, t, i, r, j) -> In r (tb_record t) ->
  table_accepted k f d t /\ forall w, instrument d (tb_insname t) w -> record_accepted k f w r.
Proof.
  intros (K & G1 & G2 & G3 & T & M & B & w & y & Hw & Hy & Y & Bd & Fl) Hr.
  assert (RA : record_accepted k f w r).
  { split; [exact T|]. split; [exact M|]. split; [exact B|]. right. right.
    exists (Z.to_nat j), y. destruct Fl as [Fl|Fl]; [congruence|]. split; [exact Hy|]. split; [exists y; auto|]. auto. }
  split.
  - split; [exact K|]. split; [exact G1|]. split; [exact G2|]. split; [exact G3|].
    exists w. split; [exact Hw|]. split; [exists (Z.to_nat j), y; auto|]. exists r. auto.
  - intros w' Hw'. now rewrite <- (instrument_unique _ _ _ _ (cs_unique d C) Hw Hw').
Qed.

Lemma table_wave t t' w : In t' (sel_ d') -> same_keywords t t' -> instrument d (tb_insname t) w ->
  exists w' idx, instrument d' (tb_insname t) w' /\ accepted_channels f w idx
    /\ picks idx (wv_eff_wave w) (wv_eff_wave w') /\ tb_nwave t' = Z.of_nat (length idx).
Proof.
  intros Ht' KW Hw. destruct (main_nwave pow_half d f f' d' C HF E sel_ t' HU Ht') as (w' & Hw' & En).
  assert (EI : tb_insname t' = tb_insname t) by apply KW.
  destruct (kept_true _ _ _ _ (main_waves pow_half d f f' d' C HF E) w' (proj1 Hw')) as (w0 & H0 & _ & WF).
  destruct WF as (_ & Nm & idx & AC & P1 & _ & NW).
  assert (Hw0 : instrument d (tb_insname t) w0). { split; [exact H0|]. rewrite <- Nm, <- EI. apply Hw'. }
  rewrite <- (instrument_unique _ _ _ _ (cs_unique d C) Hw Hw0) in AC, P1.
  exists w', idx. rewrite EI in Hw'. rewrite <- En, NW. auto.
Qed.

Lemma unflagged_dec (x : datum X R) : datum_unflagged k x \/ ~ datum_unflagged k x.
Proof. destruct x as [[[[n t] i] r] j]. cbn. destruct (nth_error (k_flag k r) (Z.to_nat j)) as [[|]|]; [right|left|right]; congruence. Qed.

Lemma agree : corr (datum_accepted k f d) (datum_unflagged k) S (all_data (sel_ d)) (all_data (sel_ d')).
Proof.
  unfold all_data. apply (corr_numbered _ _ _ _ _ _ _ _ _ HT).
  - intros n t [[[[n' t'] i] r] j] Ht HN Hx HA. apply HN.
    unfold table_data in Hx. cbn [fst snd] in Hx. apply in_flat_map in Hx as ([i' r'] & Hi & Hx).
    unfold record_data in Hx. cbn [fst snd] in Hx. apply in_map_iff in Hx as (j' & Ej & _).
    injection Ej as <- <- <- <- <-. apply number_in in Hi. now apply (accepted_record _ _ _ _ _ HA).
  - intros n n' t t' Ht Ht' TA (KW & w & Hw & KR & NR). unfold table_data. cbn [fst snd].
    destruct (table_wave t t' w Ht' KW Hw) as (w' & idx & Hw' & AC & PK & NW).
    apply (corr_numbered _ _ _ _ _ _ _ _ _ KR).
    + intros i r [[[[n1 t1] i1] r1] j] Hr HN Hx HA. apply HN.
      unfold record_data in Hx. cbn [fst snd] in Hx. apply in_map_iff in Hx as (j' & Ej & _).
      injection Ej as <- <- <- <- <-. now apply (accepted_record _ _ _ _ _ HA).
    + intros i i' r r' Hr Hr' RA HQr. unfold record_data. cbn [fst snd].
      rewrite NW, Nat2Z.id, <- (HW t w r Ht Hw Hr).
      apply (corr_map _ _ _ _ _ _ _ _ _ (kept_positions _ _ _ AC [])).
      * intros j Hj HN HA. apply HN. destruct HA as (_&_&_&_&_&_&_& w1 & y & Hw1 & Hy & Y & _).
        rewrite <- (instrument_unique _ _ _ _ (cs_unique d C) Hw Hw1), Nat2Z.id in Hy. exists y. auto.
      * intros j m Hj Hm CA Hjm. cbn [app] in Hjm.
        destruct (HQ t w r r' HQr) as (idx1 & AC1 & FU).
        rewrite (kept_fun _ _ _ _ AC1 AC) in FU. destruct FU as [_ FU]. destruct CA as (y & Hy & HY).
        destruct (FU m j y Hjm Hy) as (b & b' & Hb & Hb' & Eb).
        apply corr_one; [| |apply unflagged_dec].
        -- destruct TA as (K & G1 & G2 & G3 & _). destruct RA as (T & M & B & _).
           cbn [datum_accepted datum_unflagged]. rewrite !Nat2Z.id. rewrite Hb'. split.
           ++ intros (_&_&_&_&_&_&_& w1 & y1 & Hw1 & Hy1 & Y & Bd & Fl).
              rewrite <- (instrument_unique _ _ _ _ (cs_unique d C) Hw Hw1) in *.
              destruct Fl as [Fl|Fl]; [congruence|]. destruct b'; [|reflexivity].
              destruct (proj1 Eb eq_refl) as [->|Bd1]; [congruence|]. rewrite Hy in Hy1. injection Hy1 as ->. contradiction.
           ++ intros Eb'. injection Eb' as ->. repeat (split; [assumption|]). exists w, y.
              split; [exact Hw|]. split; [exact Hy|]. split; [exact HY|]. split.
              ** intros Bd. apply Bool.diff_false_true. apply Eb. now right.
              ** right. rewrite Hb. f_equal. destruct b; [|reflexivity]. symmetry. apply Eb. now left.
        -- intros _. apply (HS t t' w r r' idx n i n' i' j m); auto.
           destruct (picks_nth _ _ _ _ _ PK Hjm) as [_ E'].
           exists w, w', y. rewrite !Nat2Z.id. rewrite E'. auto.
Qed.

Lemma agree_visits (next : oi_iter (dtab X R) -> res (oi_iter (dtab X R) * option (datum X R))) it :
  (exists L, kept (datum_accepted k f d) eq (all_data (sel_ d)) L /\
    forall n, exists it', calls next n it = Ok (it', nth_error L n)) ->
  exists L L', (forall n, exists it', calls next n it = Ok (it', nth_error L n))
    /\ kept (datum_unflagged k) eq (all_data (sel_ d')) L' /\ Forall2 S L L'.
Proof.
  intros (L & K & H). destruct agree as (L1 & L' & K1 & K' & F2).
  rewrite (kept_fun _ _ _ _ K1 K) in F2. exists L, L'. auto.
Qed.
End Agree.

Section Kinds.
Variables (pow_half : f64 -> f64) (d : oi_fits) (f f' : filter_spec) (d' : oi_fits).
Hypothesis C : consistent d.
Hypothesis HF : fresh_filter f.
Hypothesis E : apply_oi_filter pow_half d f = Ok (f', d').
Hypothesis FL : f_accept_flagged f = false.
Variable pf : option filter_spec.
Hypothesis PF : filter_given pf f.

Lemma vis_agree : instruments_present d (o_visList d) ->
  exists L L', (forall n, exists it, calls (oi_vis_iter_next pow_half) n (oi_vis_iter_init d pf) = Ok (it, nth_error L n))
    /\ kept (datum_unflagged (kind_vis pow_half)) eq (all_data (o_visList d')) L' /\ Forall2 (same_vis_point d d') L L'.
Proof.
  intros HI. apply (agree_visits (kind_vis pow_half) o_visList pow_half d f f' d' (vis_kept_rec pow_half f)); auto.
  - exact (main_vis pow_half d f f' d' C HF E).
  - intros t Ht. split; [now apply (main_ready pow_half d f f' d' C HF E)|]. left. eauto.
  - intros t w r Ht Hw Hr. now destruct (vis_facts pow_half d f t w r C Ht Hw Hr) as (_ & LW & _).
  - intros t w r r' (idx & AC & _ & FU). eauto.
  - intros t t' w r r' idx n i n' i' j m (idx1 & AC1 & DK & _) AC Hjm KW SW.
    rewrite (kept_fun _ _ _ _ AC1 AC) in DK. destruct DK as (_ & SC & P1 & P2 & P3 & P4 & _).
    split; [exact KW|]. split; [exact SC|]. split; [exact SW|].
    split; [|split; [|split]]; now apply (picks_same_at idx).
  - now apply vis_visits.
Qed.
Lemma vis2_agree : instruments_present d (o_vis2List d) ->
  exists L L', (forall n, exists it, calls (oi_vis2_iter_next pow_half) n (oi_vis2_iter_init d pf) = Ok (it, nth_error L n))
    /\ kept (datum_unflagged (kind_vis2 pow_half)) eq (all_data (o_vis2List d')) L' /\ Forall2 (same_vis2_point d d') L L'.
Proof.
  intros HI. apply (agree_visits (kind_vis2 pow_half) o_vis2List pow_half d f f' d' (vis2_kept_rec pow_half f)); auto.
  - exact (main_vis2 pow_half d f f' d' C HF E).
  - intros t Ht. split; [now apply (main_ready pow_half d f f' d' C HF E)|]. right; left. eauto.
  - intros t w r Ht Hw Hr. now destruct (vis2_facts pow_half d f t w r C Ht Hw Hr) as (_ & LW & _).
  - intros t w r r' (idx & AC & _ & FU). eauto.
  - intros t t' w r r' idx n i n' i' j m (idx1 & AC1 & DK & _) AC Hjm KW SW.
    rewrite (kept_fun _ _ _ _ AC1 AC) in DK. destruct DK as (_ & S1 & S2 & S3 & _ & S4 & S5 & S6 & P1 & P2).
    split; [exact KW|]. split; [exact SW|]. repeat (split; [assumption|]).
    split; apply (picks_same_at idx); auto.
  - now apply vis2_visits.
Qed.
Lemma t3_agree : instruments_present d (o_t3List d) ->
  exists L L', (forall n, exists it, calls (oi_t3_iter_next pow_half) n (oi_t3_iter_init d pf) = Ok (it, nth_error L n))
    /\ kept (datum_unflagged (kind_t3 pow_half)) eq (all_data (o_t3List d')) L' /\ Forall2 (same_t3_point f d d') L L'.
Proof.
  intros HI. apply (agree_visits (kind_t3 pow_half) o_t3List pow_half d f f' d' (t3_kept_rec pow_half f)); auto.
  - exact (main_t3 pow_half d f f' d' C HF E).
  - intros t Ht. split; [now apply (main_ready pow_half d f f' d' C HF E)|]. right; right; left. eauto.
  - intros t w r Ht Hw Hr. now destruct (t3_facts pow_half d f t w r C Ht Hw Hr) as (_ & LW & _).
  - intros t w r r' (idx & AC & _ & FU). eauto.
  - intros t t' w r r' idx n i n' i' j m (idx1 & AC1 & DK & _) AC Hjm KW SW.
    rewrite (kept_fun _ _ _ _ AC1 AC) in DK.
    destruct DK as (_ & S1 & S2 & S3 & _ & _ & S4 & S5 & S6 & S7 & S8 & P1 & P2 & P3 & P4).
    split; [exact KW|]. split; [exact SW|]. repeat (split; [assumption|]).
    split; [|split; [|split]].
    + intros A. rewrite A in P1. now apply (picks_same_at idx).
    + now apply (picks_same_at idx).
    + intros A. rewrite A in P3. now apply (picks_same_at idx).
    + now apply (picks_same_at idx).
  - now apply t3_visits.
Qed.
End Kinds.
