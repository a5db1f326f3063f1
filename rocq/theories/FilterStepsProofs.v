(** Filtering in steps: channels and records. *)
From Verif Require Import Base BaseLemmas FloatModel Types FileModel FileSpec FileProofs FilterModel FilterSpec FilterLemmas FilterProofs FilterRecords FilterTables FilterApply FilterFacts FilterResults FilterOutput FilterFix FilterStepsSpec.
From Coq Require Import Lia.

Lemma sel_sel {A B} (p q : B -> bool) l (col : list A) :
  sel (map p (sel (map q l) l)) (sel (map q l) col) = sel (map (fun x => q x && p x) l) col.
Proof.
  revert col. induction l as [|x l IH]; intros [|a col]; try reflexivity.
  - cbn. destruct (q x), (map p _); reflexivity.
  - cbn. destruct (q x); cbn; rewrite IH; reflexivity.
Qed.
Lemma iff_bool (a b : bool) : (a = true <-> b = true) -> a = b.
Proof. destruct a, b; intuition congruence. Qed.
Lemma both_outside lo1 hi1 lo2 hi2 lo hi x : both_lows lo1 lo2 lo -> both_highs hi1 hi2 hi ->
  outside lo hi x = outside lo1 hi1 x || outside lo2 hi2 x.
Proof.
  intros HL HH. unfold outside, flt, fgt. apply iff_bool. rewrite !orb_true_iff, (HL x), (HH x). tauto.
Qed.

(** Rows of a reduced matrix *)
Lemma firstn_app_le {A} n (a b : list A) : length a = n -> firstn n (a ++ b) = a.
Proof. intros <-. rewrite firstn_app, Nat.sub_diag, firstn_all. cbn. apply app_nil_r. Qed.
Lemma row_concat {A} c (ls : list (list A)) k x : (forall l, In l ls -> length l = c) ->
  nth_error ls k = Some x -> row c (concat ls) k = x.
Proof.
  unfold row. revert k. induction ls as [|l ls IH]; intros [|k] H E; try discriminate.
  - injection E as ->. cbn [concat Nat.mul skipn]. apply firstn_app_le, H. now left.
  - cbn [nth_error] in E. cbn [concat]. assert (L : length l = c) by (apply H; now left).
    replace (S k * c)%nat with (length l + k * c)%nat by lia.
    rewrite skipn_app, skipn_all2 by lia. replace (length l + k * c - length l)%nat with (k * c)%nat by lia.
    cbn [app]. apply IH; auto. intros; apply H; now right.
Qed.
Lemma sel_nth_map {A} use (l : list A) (h : nat -> A) : length use = length l ->
  (forall k x, nth_error l k = Some x -> h k = x) -> map h (idx_of use) = sel use l.
Proof.
  intros HL H. assert (P := picks_sel use l HL). unfold picks in P.
  assert (G : forall i m, map (nth_error l) i = map Some m -> map h i = m).
  { induction i as [|j i IH]; intros [|y m] E; try discriminate; [reflexivity|]. cbn in E. injection E as E1 E2.
    cbn. f_equal; [now apply H|now apply IH]. }
  now apply G.
Qed.
Section Steps.
Variables f1 f2 g : filter_spec.
Hypothesis ST : in_steps f1 f2 g.

Lemma range_then x : in_rangeb g x = in_rangeb f1 x && in_rangeb f2 x.
Proof.
  unfold in_rangeb. destruct (st_wave _ _ _ ST) as [HL HH]. rewrite (both_outside _ _ _ _ _ _ x HL HH).
  apply negb_orb.
Qed.
Lemma mjd_then x : skip_mjd g x = skip_mjd f1 x || skip_mjd f2 x.
Proof. destruct (st_mjd _ _ _ ST). now apply both_outside. Qed.
Lemma bas_then x : skip_bas g x = skip_bas f1 x || skip_bas f2 x.
Proof. destruct (st_bas _ _ _ ST). now apply both_outside. Qed.
Lemma uvrad_then x : outside_uvrad g x = outside_uvrad f1 x || outside_uvrad f2 x.
Proof. destruct (st_uvrad _ _ _ ST). now apply both_outside. Qed.
Lemma snr_then x : outside_snr g x = outside_snr f1 x || outside_snr f2 x.
Proof. destruct (st_snr _ _ _ ST). now apply both_outside. Qed.
Lemma target_then id : negb (skip_target g id) =
  negb (skip_target f1 id) && negb (skip_target f2 (new_target_id f1 id)).
Proof.
  unfold skip_target, new_target_id. destruct (st_target _ _ _ ST) as [(H1 & [->|[H2 H3]])|(H1 & -> & H2)].
  - destruct (Z.leb_spec 0 (f_target_id f1)); [lia|reflexivity].
  - destruct (Z.leb_spec 0 (f_target_id f1)); [lia|]. destruct (Z.leb_spec 0 (f_target_id f2)); [lia|].
    destruct (Z.leb_spec 0 (f_target_id g)); [lia|reflexivity].
  - destruct (Z.leb_spec 0 (f_target_id f1)); [|lia]. cbn [andb].
    destruct (Z.leb_spec 0 (f_target_id f2)); [|cbn; now rewrite andb_true_r].
    destruct H2 as [H2|H2]; [lia|]. rewrite H2. cbn. now rewrite andb_true_r.
Qed.
Lemma new_id_then id : new_target_id f2 (new_target_id f1 id) = new_target_id g id.
Proof.
  unfold new_target_id. destruct (st_target _ _ _ ST) as [(H1 & [->|[H2 H3]])|(H1 & -> & H2)].
  - destruct (Z.leb_spec 0 (f_target_id f1)); [lia|reflexivity].
  - destruct (Z.leb_spec 0 (f_target_id f1)); [lia|]. destruct (Z.leb_spec 0 (f_target_id f2)); [lia|].
    destruct (Z.leb_spec 0 (f_target_id g)); [lia|reflexivity].
  - destruct (Z.leb_spec 0 (f_target_id f1)); [|lia]. now destruct (0 <=? f_target_id f2).
Qed.
Lemma flagged_then a1 a2 : (a2 = true -> a1 = true) ->
  (f_accept_flagged f1 || a1) && (f_accept_flagged f2 || a2) = f_accept_flagged g || a2.
Proof.
  intros H. rewrite (st_flagged _ _ _ ST). assert (K := st_flagged_order _ _ _ ST).
  destruct (f_accept_flagged f1), (f_accept_flagged f2), a1, a2; cbn in *; try reflexivity;
    try (discriminate (K eq_refl)); discriminate (H eq_refl).
Qed.

Section Wave.
Variable w : oi_wavelength.
Let w1 := wave_out f1 w.

Lemma sel_then {A} (col : list A) : sel (use_of f2 w1) (sel (use_of f1 w) col) = sel (use_of g w) col.
Proof.
  unfold use_of at 1. unfold w1. cbn [wv_eff_wave wave_out]. unfold use_of. rewrite sel_sel.
  f_equal. apply map_ext. intros x. symmetry. apply range_then.
Qed.
Lemma cnt_then : cnt (use_of f2 w1) = cnt (use_of g w).
Proof.
  rewrite <- (sel_length (use_of f2 w1) (sel (use_of f1 w) (wv_eff_wave w))).
  - rewrite sel_then. apply sel_length, use_length.
  - rewrite use_length. reflexivity.
Qed.
Lemma wave_then : wave_out f2 w1 = wave_out g w.
Proof.
  unfold wave_out at 1. rewrite cnt_then. unfold w1. cbn [wv_revision wv_insname wv_eff_wave wv_eff_band wave_out].
  fold w1. now rewrite !sel_then.
Qed.
Lemma cnt_first : (0 < cnt (use_of g w))%nat -> (0 < cnt (use_of f1 w))%nat.
Proof.
  rewrite <- (sel_length (use_of g w) (wv_eff_wave w)) by apply use_length. rewrite <- sel_then.
  rewrite <- (sel_length (use_of f1 w) (wv_eff_wave w)) by apply use_length.
  destruct (sel (use_of f1 w) (wv_eff_wave w)); [destruct (use_of f2 w1); cbn; lia|cbn; lia].
Qed.


(** The flag column, and whether a record has good data *)
Lemma flags_then flag b1 b2 b : length flag = length (wv_eff_wave w) ->
  (forall m j, nth_error (idx_of (use_of f1 w)) m = Some j -> (j < length flag)%nat -> b1 j || b2 m = b j) ->
  sel (use_of f2 w1) (flagcol (sel (use_of f1 w) (flagcol flag b1)) b2) = sel (use_of g w) (flagcol flag b).
Proof.
  intros HL H. set (U := use_of f1 w).
  assert (LU : length U = length flag) by (unfold U; rewrite use_length; auto).
  assert (E : flagcol (sel U (flagcol flag b1)) b2 = sel U (flagcol flag b)).
  { apply nth_error_eq. intros m. destruct (nth_error (idx_of U) m) as [j|] eqn:Ej.
    - assert (Lf : forall bx, length U = length (flagcol flag bx)) by (intros; now rewrite flagcol_length).
      assert (P : forall bx, nth_error (sel U (flagcol flag bx)) m = nth_error (flagcol flag bx) j).
      { intros bx. apply (picks_nth (idx_of U)); [apply picks_sel, Lf|exact Ej]. }
      assert (Hlt : (m < cnt U)%nat) by (rewrite <- idx_of_length; apply nth_error_Some; congruence).
      rewrite (P b). specialize (P b1). destruct (nth_error flag j) as [fl|] eqn:F.
      + rewrite (flagcol_nth _ b1 _ _ F) in P. rewrite (flagcol_nth _ b _ _ F), (flagcol_nth _ b2 _ _ P).
        rewrite <- (H m j Ej) by (apply nth_error_Some; congruence). now rewrite orb_assoc.
      + exfalso. apply nth_error_None in F. assert (nth_error (flagcol flag b1) j = None) as G
          by (apply nth_error_None; now rewrite flagcol_length).
        rewrite G in P. apply nth_error_None in P. rewrite sel_length in P by apply Lf. lia.
    - apply nth_error_None in Ej. rewrite idx_of_length in Ej.
      transitivity (@None bool); [|symmetry]; apply nth_error_None; rewrite ?flagcol_length;
        rewrite sel_length by (rewrite flagcol_length; exact LU); lia. }
  rewrite E. apply sel_then.
Qed.
Lemma some_then flag b1 b2 b : length flag = length (wv_eff_wave w) ->
  (forall m j, nth_error (idx_of (use_of f1 w)) m = Some j -> (j < length flag)%nat -> b1 j || b2 m = b j) ->
  some_ok (use_of f2 w1) (sel (use_of f1 w) (flagcol flag b1)) b2 = some_ok (use_of g w) flag b.
Proof. intros HL H. unfold some_ok. now rewrite (flags_then flag b1 b2 b HL H). Qed.
Lemma some_first flag b1 b2 : some_ok (use_of f2 w1) (sel (use_of f1 w) (flagcol flag b1)) b2 = true ->
  some_ok (use_of f1 w) flag b1 = true.
Proof.
  unfold some_ok. rewrite !existsb_exists. intros (b & Hb & Hn). destruct b; [discriminate|]. clear Hn.
  exists false. split; [|reflexivity].
  assert (Hin : In false (flagcol (sel (use_of f1 w) (flagcol flag b1)) b2)).
  { clear - Hb. revert Hb. generalize (use_of f2 w1) (flagcol (sel (use_of f1 w) (flagcol flag b1)) b2).
    induction l as [|u us IH]; intros [|x l] H; try contradiction. cbn in H.
    destruct u; [destruct H as [->|H]; [now left|]|]; right; now apply IH. }
  unfold flagcol at 1 in Hin. apply in_map_iff in Hin as (j & E & Hj). apply orb_false_iff in E as [E _].
  apply in_seq in Hj. unfold nthb in E. destruct (nth_error (sel (use_of f1 w) (flagcol flag b1)) j) as [x|] eqn:N.
  - subst x. now apply nth_error_In in N.
  - apply nth_error_None in N. lia.
Qed.
Lemma bad_nthf col m j : length col = length (wv_eff_wave w) -> nth_error (idx_of (use_of f1 w)) m = Some j ->
  nthf (sel (use_of f1 w) col) m = nthf col j.
Proof. apply again_nthf. Qed.
Lemma bad_wave m j : nth_error (idx_of (use_of f1 w)) m = Some j -> nth_wave w1 m = nth_wave w j.
Proof. apply again_wave. Qed.

Lemma idx_then : sel (use_of f2 w1) (idx_of (use_of f1 w)) = idx_of (use_of g w).
Proof. unfold idx_of. rewrite !use_length. apply sel_then. Qed.
Lemma mat_then {A} (l : list A) :
  length l = (length (wv_eff_wave w) * length (wv_eff_wave w))%nat ->
  mat_rows (use_of f2 w1) (mat_rows (use_of f1 w) l (idx_of (use_of f1 w))) (idx_of (use_of f2 w1))
  = mat_rows (use_of g w) l (idx_of (use_of g w)).
Proof.
  intros HL. set (n := length (wv_eff_wave w)) in *.
  assert (L2 : length (use_of f2 w1) = cnt (use_of f1 w)).
  { rewrite use_length. unfold w1. cbn. apply sel_length, use_length. }
  unfold mat_rows at 1 3. f_equal. rewrite L2, use_length. fold n.
  set (R := map (fun j => sel (use_of f1 w) (row n l j)) (idx_of (use_of f1 w))).
  assert (EM : mat_rows (use_of f1 w) l (idx_of (use_of f1 w)) = concat R).
  { unfold mat_rows, R. now rewrite use_length. }
  rewrite EM.
  assert (HR : forall x, In x R -> length x = cnt (use_of f1 w)).
  { intros x Hx. unfold R in Hx. apply in_map_iff in Hx as (j & <- & Hj). apply sel_length. rewrite use_length.
    symmetry. apply row_length; [|exact HL]. unfold n. rewrite <- (use_length f1 w). apply nth_error_Some. apply idx_of_in in Hj. congruence. }
  assert (LR : length R = cnt (use_of f1 w)) by (unfold R; rewrite map_length; apply idx_of_length).
  transitivity (map (sel (use_of f2 w1)) (sel (use_of f2 w1) R)).
  - rewrite <- (sel_nth_map (use_of f2 w1) R (row (cnt (use_of f1 w)) (concat R))).
    + now rewrite map_map.
    + lia.
    + intros k x Hk. now apply row_concat.
  - unfold R. rewrite sel_map, map_map, idx_then. apply map_ext. intros j. apply sel_then.
Qed.
End Wave.
End Steps.
