(** The layout of whatever write_oi_fits writes with status 0. *)
From Coq Require Import Lia Permutation.
From Verif Require Import BaseLemmas FileProofs WriteModel FitsRows WriteTables WriteKeys LayoutSpec.
Open Scope list_scope.
Open Scope Z_scope.

Definition form_of (hd : heading) : form := snd (fst (fst hd)).
Definition put_unit (u : string) (hd : heading) : heading :=
  let '(n, f, o, d) := hd in (n, f, match o with Some v => Some v | None => Some (card u) end, d).
Definition put_dim (u : string) (hd : heading) : heading :=
  let '(n, f, o, d) := hd in (n, f, o, match d with Some v => Some v | None => Some (card u) end).
Definition head_of_def (d : string * string * tmpl) (n : Z) : heading :=
  let '(name, u, t) := d in
  (name, match t with Fixed k r => mk_form k r | PerWave k => mk_form k n end,
   if is_empty u then None else Some u, None).

Section Layout.
Variable E : cfitsio.
Definition lay (K : list (string * keyval)) (L : list heading) (N : Z) (h : hdu) : Prop :=
  hd_type h = BINARY_TBL /\ Forall2 (key_is E) K (hd_keys h) /\ map heading_of (hd_cols h) = L
  /\ rectangular N h /\ 0 <= N.

(** ** Keywords *)
Lemma lay_add K L N e v h : key_is E e (fst e, v) -> lay K L N h -> lay (K ++ [e]) L N (add_key (fst e) v h).
Proof.
  intros He (H1 & H2 & H3 & H4 & H5). repeat (split; [assumption|]). unfold lay, add_key, with_keys.
  cbn [hd_type hd_keys hd_cols]. split; [|split; [exact H3|split; [exact H4|exact H5]]].
  apply Forall2_app; [exact H2|]. constructor; [exact He|constructor].
Qed.
Lemma lay_str K L N k v : acts (write_key_str k v) (lay K L N) (lay (K ++ [(k, Text v)]) L N).
Proof. apply acts_op. intros h h' [= <-]. apply (lay_add K L N (k, Text v)). now split. Qed.
Lemma lay_int K L N k v : acts (write_key_int k v) (lay K L N) (lay (K ++ [(k, Num v)]) L N).
Proof. apply acts_op. intros h h' [= <-]. apply (lay_add K L N (k, Num v)). now split. Qed.
Lemma lay_double K L N k v : acts (write_key_double E k v) (lay K L N) (lay (K ++ [(k, Dbl v)]) L N).
Proof.
  apply acts_op. intros h h'. destruct (cf_key_double E v) as [y|] eqn:Hy; [|discriminate]. intros [= <-].
  apply (lay_add K L N (k, Dbl v)). split; [reflexivity|]. cbn [snd]. eauto.
Qed.

(** ** Columns *)
Lemma map_at_nth {A B} (g : A -> B) f f' n l :
  (forall a, g (f a) = f' (g a)) -> map g (at_nth n f l) = at_nth n f' (map g l).
Proof. intros H. revert n. induction l as [|a l IH]; intros [|n]; cbn; congruence. Qed.
Lemma at_nth_id {A} n (l : list A) : at_nth n (fun a => a) l = l.
Proof. revert n. induction l as [|a l IH]; intros [|n]; cbn; congruence. Qed.
Lemma lay_unit K L N k u : 1 <= k ->
  acts (write_tunit k u) (lay K L N) (lay K (at_nth (Z.to_nat (k - 1)) (put_unit u) L) N).
Proof.
  intros Hk. apply acts_op. intros h h' [= <-] (H1 & H2 & H3 & (H4 & H5) & H6). unfold lay, rectangular, on_col.
  cbn [hd_type hd_keys hd_cols hd_nrows]. destruct (Z.ltb_spec k 1); [lia|].
  repeat (split; [assumption|]). split.
  { rewrite <- H3. now apply map_at_nth. }
  split; [|exact H6]. split; [exact H4|]. apply Forall_at_nth; [|exact H5]. intros c Hc. exact Hc.
Qed.
Lemma lay_dim K L N k u : 1 <= k ->
  acts (write_tdim k u) (lay K L N) (lay K (at_nth (Z.to_nat (k - 1)) (put_dim u) L) N).
Proof.
  intros Hk. apply acts_op. intros h h' [= <-] (H1 & H2 & H3 & (H4 & H5) & H6). unfold lay, rectangular, on_col.
  cbn [hd_type hd_keys hd_cols hd_nrows]. destruct (Z.ltb_spec k 1); [lia|].
  repeat (split; [assumption|]). split.
  { rewrite <- H3. now apply map_at_nth. }
  split; [|exact H6]. split; [exact H4|]. apply Forall_at_nth; [|exact H5]. intros c Hc. exact Hc.
Qed.
Lemma zeros_length f n : List.length (zeros f n) = Z.to_nat (n * per_row f).
Proof. apply repeat_length. Qed.
Definition insert_heads (k : Z) (l : list (string * form)) (L : list heading) : list heading :=
  let n := Z.to_nat (k - 1) in
  firstn n L ++ map (fun nf => (fst nf, snd nf, None, None)) l ++ skipn n L.
Lemma lay_insert K L N k l :
  acts (fits_insert_cols k l) (lay K L N) (lay K (insert_heads k l L) N).
Proof.
  apply acts_op. intros h h' Hi (H1 & H2 & H3 & (H4 & H5) & H6). unfold insert_cols in Hi.
  destruct ((k <? 1) || _); [injection Hi; discriminate|]. injection Hi as <-.
  unfold lay, rectangular. cbn [hd_type hd_keys hd_cols hd_nrows]. repeat (split; [assumption|]). split.
  { unfold insert_heads. rewrite <- H3, !map_app, map_map, firstn_map, skipn_map. reflexivity. }
  split; [|exact H6]. split; [exact H4|]. apply Forall_app. split; [now apply Forall_firstn_|].
  apply Forall_app. split; [|now apply Forall_skipn_]. apply Forall_map. apply Forall_forall. intros nf _.
  cbn [new_column c_data c_form]. rewrite H4. apply zeros_length.
Qed.

(** ** Rows *)
Lemma put_values_length off vs data : 0 <= off -> off + Z.of_nat (List.length vs) <= Z.of_nat (List.length data) ->
  List.length (put_values off vs data) = List.length data.
Proof. intros H1 H2. unfold put_values. rewrite !app_length, firstn_length, skipn_length. lia. Qed.
Lemma lay_extend K L N n h : lay K L N h -> lay K L (Z.max N n) (extend_rows n h).
Proof.
  intros (H1 & H2 & H3 & (H4 & H5) & H6). unfold extend_rows. rewrite H4. destruct (Z.leb_spec n N).
  - rewrite Z.max_l by lia. repeat split; assumption.
  - rewrite Z.max_r by lia. unfold lay, rectangular. cbn [hd_type hd_keys hd_cols hd_nrows].
    repeat (split; [assumption|]). split; [rewrite <- H3, map_map; reflexivity|].
    split; [|lia]. split; [reflexivity|]. apply Forall_map. eapply Forall_impl; [|exact H5]. intros c Hc.
    unfold extend_col. cbn [with_data c_data c_form]. rewrite app_length, Hc, zeros_length.
    destruct (Z.le_gt_cases 0 (per_row (c_form c))); nia.
Qed.
Lemma Forall_at_nth_here {A} (P : A -> Prop) f n l :
  Forall P l -> (forall a, nth_error l n = Some a -> P a -> P (f a)) -> Forall P (at_nth n f l).
Proof.
  intros H. revert n. induction H as [|a l Ha Hl IH]; intros [|n] Hf; cbn [at_nth]; constructor; auto.
Qed.
Lemma lay_write K L N k irow vs hd h h' :
  nth_error L (Z.to_nat (k - 1)) = Some hd -> 1 <= irow -> vs <> [] ->
  write_col k irow vs h = (h', 0) -> lay K L N h ->
  lay K L (Z.max N (last_row (form_of hd) irow (Z.of_nat (List.length vs)))) h'.
Proof.
  intros Hn Hi Hv Hw HL. unfold write_col in Hw. destruct (nth_col k h) as [c|] eqn:Hk; [|discriminate].
  unfold nth_col in Hk. destruct (Z.ltb_spec k 1) as [|Hk1]; [discriminate|].
  assert (Hf : c_form c = form_of hd).
  { destruct HL as (_ & _ & H3 & _). rewrite <- H3 in Hn. rewrite nth_error_map, Hk in Hn. cbn in Hn.
    injection Hn as <-. reflexivity. }
  destruct vs as [|v vs]; [congruence|]. remember (v :: vs) as ws.
  destruct (Z.ltb_spec (per_row (c_form c)) 1) as [|Hp]; [discriminate|].
  set (n := last_row (c_form c) irow (Z.of_nat (List.length ws))) in *.
  apply (lay_extend K L N n) in HL. set (h1 := extend_rows n h) in *.
  rewrite <- Hf. fold n. injection Hw as <- _.
  destruct HL as (H1 & H2 & H3 & (H4 & H5) & H6). unfold lay, rectangular. cbn [hd_type hd_keys hd_cols hd_nrows].
  repeat (split; [assumption|]). split.
  { rewrite <- H3. rewrite (map_at_nth _ _ (fun a => a)); [apply at_nth_id|]. reflexivity. }
  split; [|exact H6]. split; [exact H4|].
  assert (Hc1 : forall c', nth_error (hd_cols h1) (Z.to_nat (k - 1)) = Some c' -> c_form c' = c_form c).
  { intros c' Hc'. rewrite <- H3 in Hn. rewrite nth_error_map, Hc' in Hn. cbn in Hn. injection Hn as Hn.
    rewrite Hf, <- Hn. reflexivity. }
  apply Forall_at_nth_here; [exact H5|]. intros a Hm Ha. cbn [with_data c_data c_form]. apply Hc1 in Hm.
  rewrite <- Ha. apply put_values_length; [rewrite Hm; apply Z.mul_nonneg_nonneg; lia|].
  rewrite Ha, !map_length, Hm. unfold n, last_row.
  assert (Hl1 : 1 <= Z.of_nat (List.length ws)) by (subst ws; cbn [List.length]; lia).
  pose proof (Z.div_mod (Z.of_nat (List.length ws) - 1) (per_row (c_form c)) ltac:(lia)).
  pose proof (Z.mod_pos_bound (Z.of_nat (List.length ws) - 1) (per_row (c_form c)) ltac:(lia)).
  pose proof (Z.div_pos (Z.of_nat (List.length ws) - 1) (per_row (c_form c)) ltac:(lia) ltac:(lia)).
  nia.
Qed.

(** values for one cell of a column *)
Definition sized (n : Z) (v : res (list value)) : Prop :=
  forall vs, v = Ok vs -> Z.of_nat (List.length vs) = n.
Definition fits_in (L : list heading) (kv : Z * res (list value)) : Prop :=
  exists hd, nth_error L (Z.to_nat (fst kv - 1)) = Some hd /\ sized (per_row (form_of hd)) (snd kv).
Lemma last_row_one f irow : 1 <= per_row f -> last_row f irow (per_row f) = irow.
Proof. intros H. unfold last_row. rewrite Z.div_small; lia. Qed.
Lemma lay_cell K L N irow k v vs :
  fits_in L (k, v) -> v = Ok vs -> 1 <= irow ->
  acts (fits_write_col k irow vs) (lay K L N)
    (lay K L (match vs with [] => N | _ => Z.max N irow end)).
Proof.
  intros (hd & Hn & Hs) Hv Hi. apply acts_op. intros h h' Hw HL. cbn [fst snd] in *. specialize (Hs vs Hv).
  destruct vs as [|x vs].
  - unfold write_col in Hw. destruct (nth_col k h); [|discriminate]. now injection Hw as <-.
  - rewrite <- (last_row_one (form_of hd) irow).
    + rewrite <- Hs. eapply lay_write; eauto. discriminate.
    + rewrite <- Hs. cbn [List.length]. lia.
Qed.
Lemma lay_cells_same K L N irow l : Forall (fits_in L) l -> 1 <= irow <= N ->
  acts (write_cells irow l) (lay K L N) (lay K L N).
Proof.
  intros Hl Hi. induction Hl as [|[k v] l Hkv Hl IH].
  - intros pre h st f' st' [= <- <-]. eauto.
  - intros pre h st f' st' He. unfold write_cells in He. cbn [foreach fst snd] in He.
    apply bind_inv in He as ((f1, st1) & H1 & H2). apply bind_inv in H1 as (vs & Hvs & H1).
    apply (lay_cell K L N irow k v vs Hkv Hvs ltac:(lia)) in H1 as (h1 & -> & H1).
    apply IH in H2 as (h2 & -> & H2). exists h2. split; [reflexivity|].
    intros H0. apply H2 in H0 as [H0 HQ]. apply H1 in H0 as [H0 HP]. split; [exact H0|]. intros HL.
    apply HQ. specialize (HP HL). destruct vs; [exact HP|]. now rewrite Z.max_l in HP by lia.
Qed.
(** the first cell of a row has a value *)
Lemma lay_cells_next K L irow k x l :
  fits_in L (k, Ok [x]) -> Forall (fits_in L) l -> 1 <= irow ->
  acts (write_cells irow ((k, Ok [x]) :: l)) (lay K L (irow - 1)) (lay K L irow).
Proof.
  intros Hx Hl Hi pre h st f' st' He. unfold write_cells in He. cbn [foreach fst snd] in He.
  apply bind_inv in He as ((f1, st1) & H1 & H2). rewrite bind_Ok in H1.
  apply (lay_cell K L (irow - 1) irow k (Ok [x]) [x] Hx eq_refl Hi) in H1 as (h1 & -> & H1).
  apply (lay_cells_same K L irow irow l Hl ltac:(lia)) in H2 as (h2 & -> & H2). exists h2. split; [reflexivity|].
  intros H0. apply H2 in H0 as [H0 HQ]. apply H1 in H0 as [H0 HP]. split; [exact H0|]. intros HL.
  apply HQ. specialize (HP HL). now rewrite Z.max_r in HP by lia.
Qed.
Lemma lay_rows_same {R} K L n (l : list R) cells : (forall r, Forall (fits_in L) (cells r)) ->
  acts (write_rows n l cells) (lay K L (Z.max 0 n)) (lay K L (Z.max 0 n)).
Proof.
  intros Hc. unfold write_rows.
  assert (H : forall m irow, 1 <= irow -> irow - 1 + Z.of_nat m <= Z.max 0 n ->
    acts (for_from m irow (fun irow s => r <- get l (irow - 1) ;; write_cells irow (cells r) s))
      (lay K L (Z.max 0 n)) (lay K L (Z.max 0 n))).
  { induction m as [|m IH]; intros irow Hi Hm pre h st f' st' He.
    - injection He as <- <-. eauto.
    - cbn [for_from] in He. apply bind_inv in He as ((f1, st1) & H1 & H2).
      apply bind_inv in H1 as (r & _ & H1).
      apply (lay_cells_same K L (Z.max 0 n) irow (cells r) (Hc r) ltac:(lia)) in H1 as (h1 & -> & H1).
      apply IH in H2 as (h2 & -> & H2); [|lia|lia]. exists h2. split; [reflexivity|].
      intros H0. apply H2 in H0 as [H0 HQ]. apply H1 in H0 as [H0 HP]. auto. }
  apply H; lia.
Qed.
Definition starts (L : list heading) (l : list (Z * res (list value))) : Prop :=
  exists k x l', l = (k, Ok [x]) :: l' /\ fits_in L (k, Ok [x]) /\ Forall (fits_in L) l'.
Lemma lay_rows_new {R} K L n (l : list R) cells : (forall r, starts L (cells r)) ->
  acts (write_rows n l cells) (lay K L 0) (lay K L (Z.max 0 n)).
Proof.
  intros Hc. unfold write_rows.
  assert (H : forall m irow, 1 <= irow ->
    acts (for_from m irow (fun irow s => r <- get l (irow - 1) ;; write_cells irow (cells r) s))
      (lay K L (irow - 1)) (lay K L (irow - 1 + Z.of_nat m))).
  { induction m as [|m IH]; intros irow Hi pre h st f' st' He.
    - injection He as <- <-. exists h. split; [reflexivity|]. intros ->. split; [reflexivity|].
      now rewrite Z.add_0_r.
    - cbn [for_from] in He. apply bind_inv in He as ((f1, st1) & H1 & H2).
      apply bind_inv in H1 as (r & _ & H1). destruct (Hc r) as (k & x & l' & Hr & Hx & Hl). rewrite Hr in H1.
      apply (lay_cells_next K L irow k x l' Hx Hl Hi) in H1 as (h1 & -> & H1).
      apply IH in H2 as (h2 & -> & H2); [|lia]. exists h2. split; [reflexivity|].
      intros H0. apply H2 in H0 as [H0 HQ]. apply H1 in H0 as [H0 HP]. split; [exact H0|]. intros HL.
      replace (irow - 1 + Z.of_nat (Datatypes.S m)) with (irow + 1 - 1 + Z.of_nat m) by lia. apply HQ.
      replace (irow + 1 - 1) with irow by lia. now apply HP. }
  specialize (H (Z.to_nat n) 1 ltac:(lia)). replace (1 - 1 + Z.of_nat (Z.to_nat n)) with (Z.max 0 n) in H by lia.
  exact H.
Qed.
(** whole columns of single values *)
Lemma lay_whole K L n l :
  Forall (fun kv => exists hd, nth_error L (Z.to_nat (fst kv - 1)) = Some hd
                    /\ per_row (form_of hd) = 1 /\ sized n (snd kv)) l ->
  forall N, (N = 0 \/ N = Z.max 0 n) -> (l = [] -> N = Z.max 0 n) ->
  acts (write_cells 1 l) (lay K L N) (lay K L (Z.max 0 n)).
Proof.
  intros Hl. induction Hl as [|[k v] l (hd & Hn & Hp & Hs) Hl IH]; intros N HN He.
  - rewrite (He eq_refl). intros pre h st f' st' [= <- <-]. eauto.
  - intros pre h st f' st' Hw. unfold write_cells in Hw. cbn [foreach fst snd] in Hw.
    apply bind_inv in Hw as ((f1, st1) & H1 & H2). apply bind_inv in H1 as (vs & Hvs & H1).
    specialize (Hs vs Hvs). cbn [fst snd] in *.
    assert (Ha : acts (fits_write_col k 1 vs) (lay K L N) (lay K L (Z.max 0 n))).
    { apply acts_op. intros h0 h0' Hw HL. destruct vs as [|x vs].
      - unfold write_col in Hw. destruct (nth_col k h0); [|discriminate]. injection Hw as <-.
        cbn in Hs. subst n. replace (Z.max 0 0) with N by lia. exact HL.
      - eapply lay_write in Hw; [|exact Hn|lia|discriminate|exact HL].
        unfold last_row in Hw. rewrite Hp, Z.div_1_r, Hs in Hw.
        assert (0 < n) by (rewrite <- Hs; cbn [List.length]; lia).
        replace (Z.max N (1 + (n - 1))) with (Z.max 0 n) in Hw by lia. exact Hw. }
    apply Ha in H1 as (h1 & -> & H1). apply (IH (Z.max 0 n)) in H2 as (h2 & -> & H2); [|now right|reflexivity].
    exists h2. split; [reflexivity|].
    intros H0. apply H2 in H0 as [H0 HQ]. apply H1 in H0 as [H0 HP]. auto.
Qed.
End Layout.
