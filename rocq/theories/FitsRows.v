(** Filling the rows of a table with fits_write_col. *)
From Coq Require Import List ZArith Lia.
From Verif Require Import BaseLemmas WriteModel.

Local Open Scope nat_scope.
Lemma at_nth_length {A} n (f : A -> A) l : List.length (at_nth n f l) = List.length l.
Proof. revert n; induction l as [|a l IH]; intros [|n]; cbn; auto. Qed.
Lemma at_nth_app {A} (pre : list A) f a post :
  at_nth (List.length pre) f (pre ++ a :: post) = pre ++ f a :: post.
Proof. induction pre as [|b pre IH]; cbn; [reflexivity|]. now rewrite IH. Qed.
Lemma at_nth_ext {A} n (f g : A -> A) l :
  (forall a, nth_error l n = Some a -> f a = g a) -> at_nth n f l = at_nth n g l.
Proof.
  revert n; induction l as [|a l IH]; intros [|n] H; cbn; try reflexivity.
  - now rewrite (H a).
  - f_equal. apply IH. exact H.
Qed.
Lemma at_nth_id {A} n (f : A -> A) l :
  (forall a, nth_error l n = Some a -> f a = a) -> at_nth n f l = l.
Proof.
  revert n; induction l as [|a l IH]; intros [|n] H; cbn; try reflexivity.
  - now rewrite (H a).
  - f_equal. apply IH. exact H.
Qed.
Lemma at_nth_comp {A} n (f g : A -> A) l :
  at_nth n f (at_nth n g l) = at_nth n (fun a => f (g a)) l.
Proof. revert n; induction l as [|a l IH]; intros [|n]; cbn; try reflexivity. now rewrite IH. Qed.
Lemma at_nth_comm {A} n m (f g : A -> A) l :
  n <> m -> at_nth n f (at_nth m g l) = at_nth m g (at_nth n f l).
Proof.
  revert n m; induction l as [|a l IH]; intros [|n] [|m] H; cbn; try reflexivity.
  - congruence.
  - rewrite IH; [reflexivity|lia].
Qed.
Lemma nth_at_nth_same {A} n (f : A -> A) l :
  nth_error (at_nth n f l) n = option_map f (nth_error l n).
Proof. revert n; induction l as [|a l IH]; intros [|n]; cbn; auto. Qed.
Lemma nth_at_nth_other {A} n m (f : A -> A) l :
  n <> m -> nth_error (at_nth n f l) m = nth_error l m.
Proof.
  revert n m; induction l as [|a l IH]; intros [|n] [|m] H; cbn; try reflexivity.
  - congruence.
  - apply IH. lia.
Qed.
Lemma skipn_skipn_ {A} n m (l : list A) : skipn n (skipn m l) = skipn (m + n) l.
Proof. revert l; induction m as [|m IH]; intros [|a l]; cbn; auto; now rewrite ?skipn_nil. Qed.
Local Open Scope Z_scope.

(** ** One HDU at the end of the file *)

Lemma chdu_append h f : chdu (append_hdu h f) = Some h.
Proof.
  unfold chdu, append_hdu. cbn [f_cur f_hdus].
  destruct (Z.ltb_spec (Z.of_nat (List.length (f_hdus f)) + 1) 1); [lia|].
  replace (Z.to_nat _) with (List.length (f_hdus f)) by lia.
  rewrite nth_error_app2 by lia. now rewrite Nat.sub_diag.
Qed.
Lemma put_append h h' f : put_hdu (f_cur (append_hdu h f)) h' (append_hdu h f) = append_hdu h' f.
Proof.
  unfold put_hdu, append_hdu. cbn [f_cur f_hdus]. f_equal.
  replace (Z.to_nat _) with (List.length (f_hdus f)) by lia. apply at_nth_app.
Qed.

(** [a] turns the last HDU from [h] into [h'] and leaves the status at zero *)
Definition runs (a : wstate -> res wstate) (h h' : hdu) : Prop :=
  forall f, a (append_hdu h f, 0) = Ok (append_hdu h' f, 0).

Lemma runs_op op h h' : op h = (h', 0) -> runs (on_chdu op) h h'.
Proof.
  intros H f. unfold on_chdu. cbn [Z.eqb negb]. rewrite chdu_append, H.
  now rewrite put_append.
Qed.
Lemma runs_seq a b h h' h'' : runs a h h' -> runs b h' h'' -> runs (a ;> b) h h''.
Proof. intros Ha Hb f. unfold seq_. rewrite Ha, bind_Ok. apply Hb. Qed.
Lemma runs_skip h : runs skip_ h h.
Proof. intros f. reflexivity. Qed.
Lemma runs_when b a h h' : runs a h h' -> runs (when b a) h (if b then h' else h).
Proof. intros H. destruct b; [exact H|apply runs_skip]. Qed.

Lemma runs_key_str k v h : runs (write_key_str k v) h (add_key k (KStr (card v)) h).
Proof. now apply runs_op. Qed.
Lemma runs_key_int k v h : runs (write_key_int k v) h (add_key k (KInt v) h).
Proof. now apply runs_op. Qed.
Lemma runs_key_double E k v y h :
  cf_key_double E v = Some y -> runs (write_key_double E k v) h (add_key k (KDbl y) h).
Proof. intros H. apply runs_op. now rewrite H. Qed.
Lemma runs_tunit k u h : runs (write_tunit k u) h (on_col k (set_unit u) h).
Proof. now apply runs_op. Qed.
Lemma runs_tdim k u h : runs (write_tdim k u) h (on_col k (set_dim u) h).
Proof. now apply runs_op. Qed.
Lemma runs_insert k l h h' : insert_cols k l h = (h', 0) -> runs (fits_insert_cols k l) h h'.
Proof. apply runs_op. Qed.
Definition sums (E : cfitsio) (h : hdu) : hdu :=
  update_key "DATASUM" (snd (cf_sums E h)) (update_key "CHECKSUM" (fst (cf_sums E h)) h).
Lemma runs_chksum E h : runs (fits_write_chksum E) h (sums E h).
Proof. apply runs_op. unfold sums. now destruct (cf_sums E h). Qed.

(** ** Cells *)

Definition stored_vals (F : form) (vs : list value) : list value := map fst (map (store F) vs).
Definition overflow (F : form) (vs : list value) : bool := existsb snd (map (store F) vs).
Definition cell_data (F : form) (v : res (list value)) : list value :=
  match v with Ok vs => stored_vals F vs | _ => [] end.
(** the values of one cell of the column fill it and are in range *)
Definition good_cell (F : form) (v : res (list value)) : Prop :=
  exists vs, v = Ok vs /\ Z.of_nat (List.length vs) = per_row F /\ overflow F vs = false.

Lemma stored_vals_length F vs : List.length (stored_vals F vs) = List.length vs.
Proof. unfold stored_vals. now rewrite !map_length. Qed.
Lemma good_cell_length F v : good_cell F v -> Z.of_nat (List.length (cell_data F v)) = per_row F.
Proof. intros (vs & -> & H & _). cbn [cell_data]. now rewrite stored_vals_length. Qed.

Lemma last_row_one F irow n : n = per_row F -> 1 <= n -> last_row F irow n = irow.
Proof. intros -> H. unfold last_row. rewrite Z.div_small; lia. Qed.

Lemma nth_col_app ty keys pre c post n k :
  k = Z.of_nat (List.length pre) + 1 -> nth_col k (mk_hdu ty keys (pre ++ c :: post) n) = Some c.
Proof.
  intros ->. unfold nth_col. destruct (Z.ltb_spec (Z.of_nat (List.length pre) + 1) 1); [lia|].
  cbn [hd_cols]. replace (Z.to_nat _) with (List.length pre) by lia.
  rewrite nth_error_app2 by lia. now rewrite Nat.sub_diag.
Qed.

Lemma put_values_end vs data z :
  List.length z = List.length vs ->
  put_values (Z.of_nat (List.length data)) vs (data ++ z) = data ++ vs.
Proof.
  intros H. unfold put_values. rewrite Nat2Z.id, firstn_app, Nat.sub_diag, firstn_O, app_nil_r.
  rewrite firstn_all, skipn_app, (skipn_all2 data) by lia.
  replace (_ - _)%nat with (List.length z) by lia. now rewrite skipn_all, app_nil_r.
Qed.

Lemma with_data_same c : with_data (c_data c) c = c.
Proof. now destruct c. Qed.

(** a cell written to the column after [pre], no rows being added *)
Lemma write_col_fixed ty keys pre c post n k irow v vs :
  k = Z.of_nat (List.length pre) + 1 -> 1 <= irow <= n ->
  v = Ok vs -> Z.of_nat (List.length vs) = per_row (c_form c) -> overflow (c_form c) vs = false ->
  write_col k irow vs (mk_hdu ty keys (pre ++ c :: post) n)
  = (mk_hdu ty keys
       (pre ++ with_data (put_values ((irow - 1) * per_row (c_form c)) (cell_data (c_form c) v)
                            (c_data c)) c :: post) n, 0).
Proof.
  intros Hk Hr -> Hl Ho. cbn [cell_data]. unfold write_col. rewrite (nth_col_app _ _ _ _ _ _ _ Hk).
  destruct vs as [|x vs'] eqn:Ev.
  - f_equal. do 2 f_equal. cbn [stored_vals map]. unfold put_values. cbn [List.length app].
    rewrite Nat.add_0_r, firstn_skipn. now rewrite with_data_same.
  - rewrite <- Ev in *. assert (1 <= Z.of_nat (List.length vs)) by (subst vs; cbn; lia).
    destruct (Z.ltb_spec (per_row (c_form c)) 1); [lia|].
    rewrite (last_row_one _ _ _ Hl) by lia.
    unfold extend_rows. cbn [hd_nrows]. destruct (Z.leb_spec irow n); [|lia].
    cbn [hd_type hd_keys hd_cols hd_nrows]. unfold overflow in Ho. rewrite Ho.
    f_equal. f_equal. replace (Z.to_nat (k - 1)) with (List.length pre) by lia.
    rewrite at_nth_app. reflexivity.
Qed.

(** ** Adding a row *)

Fixpoint number (k : Z) (vs : list (res (list value))) : list (Z * res (list value)) :=
  match vs with [] => [] | v :: vs' => (k, v) :: number (k + 1) vs' end.
Fixpoint zip_cols (cols : list column) (vs : list (res (list value))) : list column :=
  match cols, vs with
  | c :: cols', v :: vs' => with_data (c_data c ++ cell_data (c_form c) v) c :: zip_cols cols' vs'
  | _, _ => []
  end.
Definition filled (n : Z) (c : column) : Prop :=
  Z.of_nat (List.length (c_data c)) = n * per_row (c_form c).
Definition good_row (cols : list column) (vs : list (res (list value))) : Prop :=
  Forall2 (fun c v => good_cell (c_form c) v) cols vs.

Lemma write_cells_cons irow k v l : write_cells irow ((k, v) :: l)
  = (fun s => s' <- (vs <- v ;; fits_write_col k irow vs s) ;; write_cells irow l s').
Proof. reflexivity. Qed.

Lemma per_row_nonneg F v : good_cell F v -> 0 <= per_row F.
Proof. intros (vs & _ & H & _). lia. Qed.

Lemma row_rest ty keys n cols : 0 <= n -> forall vs pre k,
  k = Z.of_nat (List.length pre) + 1 -> Forall (filled n) cols -> good_row cols vs ->
  runs (write_cells (n + 1) (number k vs))
    (mk_hdu ty keys (pre ++ map (extend_col (n + 1) n) cols) (n + 1))
    (mk_hdu ty keys (pre ++ zip_cols cols vs) (n + 1)).
Proof.
  intros Hn. induction cols as [|c cols IH]; intros vs pre k Hk Hf Hg.
  - inversion Hg; subst. cbn. intros f. reflexivity.
  - inversion Hg as [|? v ? vs' Hv Hg']; subst. inversion Hf as [|? ? Hc Hf']; subst.
    cbn [number map zip_cols]. rewrite write_cells_cons.
    destruct Hv as (xs & -> & Hl & Ho). intros f. rewrite bind_Ok.
    assert (Hw : runs (fits_write_col (Z.of_nat (List.length pre) + 1) (n + 1) xs)
              (mk_hdu ty keys (pre ++ extend_col (n + 1) n c :: map (extend_col (n + 1) n) cols) (n + 1))
              (mk_hdu ty keys
                 ((pre ++ [with_data (c_data c ++ cell_data (c_form c) (Ok xs)) c])
                  ++ map (extend_col (n + 1) n) cols) (n + 1))).
    { apply runs_op. erewrite write_col_fixed with (v := Ok xs); [| reflexivity | lia | reflexivity
        | exact Hl | exact Ho].
      f_equal. f_equal. rewrite <- app_assoc. cbn [app]. f_equal. f_equal.
      unfold extend_col. cbn [with_data c_form c_data].
      unfold with_data at 1 2; cbn [c_name c_form c_unit c_dim]. unfold with_data. f_equal.
      replace ((n + 1 - 1) * per_row (c_form c)) with (Z.of_nat (List.length (c_data c)))
        by (unfold filled in Hc; lia).
      apply put_values_end. cbn [cell_data]. rewrite stored_vals_length. clear - Hl Hn.
      unfold zeros. rewrite repeat_length. nia. }
    rewrite Hw, bind_Ok.
    specialize (IH vs' (pre ++ [with_data (c_data c ++ cell_data (c_form c) (Ok xs)) c])
                  (Z.of_nat (List.length pre) + 1 + 1)).
    rewrite IH; [| rewrite app_length; cbn; lia | exact Hf' | exact Hg'].
    rewrite <- app_assoc. reflexivity.
Qed.

Lemma append_row ty keys n c cols v vs :
  0 <= n -> 1 <= per_row (c_form c) -> Forall (filled n) (c :: cols) -> good_row (c :: cols) (v :: vs) ->
  runs (write_cells (n + 1) (number 1 (v :: vs)))
    (mk_hdu ty keys (c :: cols) n) (mk_hdu ty keys (zip_cols (c :: cols) (v :: vs)) (n + 1)).
Proof.
  intros Hn Hp Hf Hg. inversion Hg as [|? ? ? ? Hv Hg']; subst. inversion Hf as [|? ? Hc Hf']; subst.
  destruct Hv as (xs & -> & Hl & Ho). cbn [number zip_cols]. rewrite write_cells_cons.
  intros f. rewrite bind_Ok.
  assert (Hw : runs (fits_write_col 1 (n + 1) xs) (mk_hdu ty keys (c :: cols) n)
     (mk_hdu ty keys ([with_data (c_data c ++ cell_data (c_form c) (Ok xs)) c]
                      ++ map (extend_col (n + 1) n) cols) (n + 1))).
  { apply runs_op. unfold write_col, nth_col. cbn [Z.ltb Z.compare Pos.compare Pos.compare_cont].
    replace (Z.to_nat (1 - 1)) with O by reflexivity. cbn [hd_cols nth_error].
    destruct xs as [|x xs'] eqn:Ev; [cbn in Hl; lia|]. rewrite <- Ev in *.
    destruct (Z.ltb_spec (per_row (c_form c)) 1); [lia|].
    rewrite (last_row_one _ _ _ Hl) by lia.
    unfold extend_rows. cbn [hd_nrows]. destruct (Z.leb_spec (n + 1) n); [lia|].
    cbn [hd_type hd_keys hd_cols hd_nrows map at_nth]. unfold overflow in Ho. rewrite Ho.
    f_equal. f_equal. cbn [app]. f_equal. unfold extend_col. cbn [with_data c_form c_data].
    unfold with_data. f_equal. cbn [c_form c_data].
    replace ((n + 1 - 1) * per_row (c_form c)) with (Z.of_nat (List.length (c_data c)))
      by (unfold filled in Hc; lia).
    apply put_values_end. cbn [cell_data]. rewrite stored_vals_length. clear - Hl Hn Hp.
    unfold zeros. rewrite repeat_length. nia. }
  rewrite Hw, bind_Ok. rewrite (row_rest ty keys n cols Hn); [reflexivity| | |]; auto.
Qed.

Lemma zip_cols_forms cols vs : List.length cols = List.length vs ->
  map c_form (zip_cols cols vs) = map c_form cols.
Proof.
  revert vs; induction cols as [|c cols IH]; intros [|v vs] H; cbn in *; try discriminate; auto.
  f_equal. apply IH. lia.
Qed.
Lemma zip_cols_filled n cols vs :
  Forall (filled n) cols -> good_row cols vs -> Forall (filled (n + 1)) (zip_cols cols vs).
Proof.
  intros Hf Hg. revert Hf. induction Hg as [|c v cols vs Hv Hg IH]; intros Hf; cbn; [constructor|].
  inversion Hf as [|? ? Hc Hf']; subst. constructor; [|auto].
  unfold filled in *. cbn [with_data c_data c_form]. rewrite app_length, Nat2Z.inj_add.
  rewrite (good_cell_length _ _ Hv). lia.
Qed.
Lemma good_row_forms cols cols' vs :
  map c_form cols = map c_form cols' -> good_row cols vs -> good_row cols' vs.
Proof.
  intros He Hg. revert cols' He. induction Hg as [|c v cols vs Hv Hg IH]; intros [|c' cols'] He;
    cbn in He; try discriminate; [constructor|].
  injection He as He1 He2. constructor; [now rewrite <- He1|]. now apply IH.
Qed.

(** ** All rows *)

Fixpoint fill_all {R} (cols : list column) (gs : list (R -> res (list value))) (l : list R)
  : list column :=
  match cols, gs with
  | c :: cols', g :: gs' =>
      with_data (c_data c ++ flat_map (fun r => cell_data (c_form c) (g r)) l) c
      :: fill_all cols' gs' l
  | _, _ => []
  end.
Lemma fill_all_nil {R} cols (gs : list (R -> res (list value))) :
  List.length cols = List.length gs -> fill_all cols gs [] = cols.
Proof.
  revert gs; induction cols as [|c cols IH]; intros [|g gs] H; cbn in *; try discriminate; auto.
  rewrite app_nil_r, with_data_same. f_equal. apply IH. lia.
Qed.
Lemma fill_all_cons {R} cols (gs : list (R -> res (list value))) r l :
  fill_all (zip_cols cols (map (fun g => g r) gs)) gs l = fill_all cols gs (r :: l).
Proof.
  revert gs; induction cols as [|c cols IH]; intros [|g gs]; cbn; auto.
  rewrite <- app_assoc. f_equal. apply IH.
Qed.

Fixpoint rows_loop {R} (cells : R -> list (Z * res (list value))) (irow : Z) (l : list R)
  : wstate -> res wstate :=
  match l with
  | [] => skip_
  | r :: l' => write_cells irow (cells r) ;> rows_loop cells (irow + 1) l'
  end.
Lemma write_rows_foreach {R} (cells : R -> list (Z * res (list value))) :
  forall (l pre post : list R) s,
  for_from (List.length l) (Z.of_nat (List.length pre) + 1)
    (fun irow s => r <- get (pre ++ l ++ post) (irow - 1) ;; write_cells irow (cells r) s) s
  = rows_loop cells (Z.of_nat (List.length pre) + 1) l s.
Proof.
  induction l as [|r l IH]; intros pre post s; [reflexivity|].
  cbn [List.length for_from rows_loop]. unfold seq_.
  assert (Hg : get (pre ++ (r :: l) ++ post) (Z.of_nat (List.length pre) + 1 - 1) = Ok r).
  { replace (_ - 1) with (Z.of_nat (List.length pre)) by lia. cbn [app]. apply get_middle. }
  rewrite Hg, bind_Ok. destruct (write_cells _ (cells r) s) as [s'| |]; [|reflexivity|reflexivity].
  rewrite !bind_Ok. specialize (IH (pre ++ [r]) post s').
  rewrite app_length in IH. cbn [List.length] in IH.
  replace (Z.of_nat (List.length pre + 1) + 1) with (Z.of_nat (List.length pre) + 1 + 1) in IH by lia.
  rewrite <- app_assoc in IH. cbn [app] in IH. cbn [app]. exact IH.
Qed.
Lemma write_rows_loop {R} n (records : list R) cells s :
  Z.of_nat (List.length records) = n ->
  write_rows n records cells s = rows_loop cells 1 records s.
Proof.
  intros H. unfold write_rows. replace (Z.to_nat n) with (List.length records) by lia.
  pose proof (write_rows_foreach cells records [] [] s) as Hf. cbn [List.length] in Hf.
  rewrite !app_nil_r in Hf. cbn [app] in Hf. exact Hf.
Qed.

Lemma runs_ext a b h h' : (forall s, a s = b s) -> runs b h h' -> runs a h h'.
Proof. intros H Hb f. now rewrite H. Qed.

(** the rows of a table just created *)
Lemma runs_append_rows {R} ty keys (gs : list (R -> res (list value))) cells :
  (forall r, cells r = number 1 (map (fun g => g r) gs)) ->
  forall records cols n,
  0 <= n -> match cols with c :: _ => 1 <= per_row (c_form c) | [] => False end ->
  List.length cols = List.length gs -> Forall (filled n) cols ->
  Forall (fun r => good_row cols (map (fun g => g r) gs)) records ->
  runs (rows_loop cells (n + 1) records) (mk_hdu ty keys cols n)
    (mk_hdu ty keys (fill_all cols gs records) (n + Z.of_nat (List.length records))).
Proof.
  intros Hc. induction records as [|r records IH]; intros cols n Hn Hp Hl Hf Hg.
  - rewrite fill_all_nil by exact Hl. cbn [List.length rows_loop]. rewrite Z.add_0_r. apply runs_skip.
  - cbn [rows_loop]. inversion Hg as [|? ? Hr Hg']; subst.
    destruct cols as [|c cols]; [contradiction|]. destruct gs as [|g gs]; [discriminate|].
    eapply runs_seq.
    + rewrite Hc. cbn [map]. apply append_row; auto.
    + assert (Hforms : map c_form (zip_cols (c :: cols) (map (fun g => g r) (g :: gs)))
                       = map c_form (c :: cols)).
      { apply zip_cols_forms. now rewrite map_length. }
      rewrite <- (fill_all_cons (c :: cols) (g :: gs) r records).
      replace (n + Z.of_nat (List.length (r :: records)))
        with (n + 1 + Z.of_nat (List.length records)) by (cbn [List.length]; lia).
      cbn [map] in *. apply IH; [lia| | | |].
      * cbn [zip_cols with_data c_form]. exact Hp.
      * pose proof (f_equal (@List.length _) Hforms) as Hlf. rewrite !map_length in Hlf.
        cbn [map] in Hlf. rewrite Hlf. cbn [List.length]. rewrite map_length. exact Hl.
      * apply zip_cols_filled; assumption.
      * eapply Forall_impl; [|exact Hg']. intros r' Hr'. eapply good_row_forms; [|exact Hr'].
        now rewrite Hforms.
Qed.

Lemma runs_new_rows {R} ty keys (gs : list (R -> res (list value))) cells records cols n :
  (forall r, cells r = number 1 (map (fun g => g r) gs)) ->
  Z.of_nat (List.length records) = n ->
  match cols with c :: _ => 1 <= per_row (c_form c) | [] => False end ->
  List.length cols = List.length gs -> Forall (fun c => c_data c = []) cols ->
  Forall (fun r => good_row cols (map (fun g => g r) gs)) records ->
  runs (write_rows n records cells) (mk_hdu ty keys cols 0)
    (mk_hdu ty keys (fill_all cols gs records) n).
Proof.
  intros Hc Hn Hp Hl Hd Hg. eapply runs_ext; [intros s; apply (write_rows_loop _ _ _ _ Hn)|].
  rewrite <- Hn.
  pose proof (runs_append_rows ty keys gs cells Hc records cols 0) as H. cbn [Z.add] in H.
  change (runs (rows_loop cells 1 records) (mk_hdu ty keys cols 0)
    (mk_hdu ty keys (fill_all cols gs records) (Z.of_nat (List.length records)))).
  apply H; auto; [lia|].
  eapply Forall_impl; [|exact Hd]. intros c Hcd. unfold filled. now rewrite Hcd.
Qed.

(** ** Filling in columns of a table that has its rows *)

Definition col_of (k : Z) : nat := Z.to_nat (k - 1).
Definition upd_cols {A} (f : A -> column -> column) (kgs : list (Z * A)) (cols : list column) :=
  fold_left (fun cols kg => at_nth (col_of (fst kg)) (f (snd kg)) cols) kgs cols.

Lemma upd_cols_at_nth {A} (f : A -> column -> column) kgs n g cols :
  ~ In n (map (fun kg => col_of (fst kg)) kgs) ->
  upd_cols f kgs (at_nth n g cols) = at_nth n g (upd_cols f kgs cols).
Proof.
  revert cols; induction kgs as [|(k, a) kgs IH]; intros cols H; [reflexivity|].
  unfold upd_cols in *. cbn [fold_left fst snd map] in *.
  rewrite at_nth_comm by (intros He; apply H; now left).
  apply IH. intros Hi. apply H. now right.
Qed.
Lemma upd_cols_comp {A} (f g : A -> column -> column) kgs cols :
  NoDup (map (fun kg => col_of (fst kg)) kgs) ->
  upd_cols f kgs (upd_cols g kgs cols) = upd_cols (fun a c => f a (g a c)) kgs cols.
Proof.
  revert cols; induction kgs as [|(k, a) kgs IH]; intros cols H; [reflexivity|].
  cbn [map fst] in H. apply NoDup_cons_iff in H as [Hn H].
  change (upd_cols f ((k, a) :: kgs) ?c) with (upd_cols f kgs (at_nth (col_of k) (f a) c)).
  change (upd_cols g ((k, a) :: kgs) cols) with (upd_cols g kgs (at_nth (col_of k) (g a) cols)).
  rewrite <- (upd_cols_at_nth g kgs (col_of k) (f a)) by exact Hn.
  rewrite at_nth_comp. rewrite IH by exact H. reflexivity.
Qed.
Lemma nth_upd_cols_other {A} (f : A -> column -> column) kgs n cols :
  ~ In n (map (fun kg => col_of (fst kg)) kgs) -> nth_error (upd_cols f kgs cols) n = nth_error cols n.
Proof.
  revert cols; induction kgs as [|(k, a) kgs IH]; intros cols H; [reflexivity|].
  cbn [map fst] in H.
  change (upd_cols f ((k, a) :: kgs) cols) with (upd_cols f kgs (at_nth (col_of k) (f a) cols)).
  rewrite IH by (intros Hi; apply H; now right). apply nth_at_nth_other.
  intros He. apply H. now left.
Qed.
Lemma upd_cols_ext {A} (f g : A -> column -> column) kgs cols :
  NoDup (map (fun kg => col_of (fst kg)) kgs) ->
  (forall k a c, In (k, a) kgs -> nth_error cols (col_of k) = Some c -> f a c = g a c) ->
  upd_cols f kgs cols = upd_cols g kgs cols.
Proof.
  revert cols; induction kgs as [|(k, a) kgs IH]; intros cols H He; [reflexivity|].
  cbn [map fst] in H. apply NoDup_cons_iff in H as [Hn H].
  change (upd_cols ?f ((k, a) :: kgs) cols) with (upd_cols f kgs (at_nth (col_of k) (f a) cols)).
  rewrite (at_nth_ext (col_of k) (f a) (g a)).
  - apply IH; [exact H|]. intros k' a' c Hi Hc. apply (He k' a'); [now right|].
    rewrite nth_at_nth_other in Hc; [exact Hc|].
    intros Hk. apply Hn. rewrite Hk. apply in_map_iff. now exists (k', a').
  - intros c Hc. apply (He k); [now left|exact Hc].
Qed.
Lemma upd_cols_form {A} (f : A -> column -> column) kgs cols :
  (forall a c, c_form (f a c) = c_form c) -> map c_form (upd_cols f kgs cols) = map c_form cols.
Proof.
  intros Hf. revert cols; induction kgs as [|(k, a) kgs IH]; intros cols; [reflexivity|].
  change (upd_cols f ((k, a) :: kgs) cols) with (upd_cols f kgs (at_nth (col_of k) (f a) cols)).
  rewrite IH. clear IH. generalize (col_of k) as n. induction cols as [|c cols IHc]; intros [|n]; cbn.
  all: try reflexivity.
  - now rewrite Hf.
  - now rewrite IHc.
Qed.

(** the cells of row [irow] put into their columns *)
Definition put_cell {R} (irow : Z) (r : R) (g : R -> res (list value)) (c : column) : column :=
  with_data (put_values ((irow - 1) * per_row (c_form c)) (cell_data (c_form c) (g r)) (c_data c)) c.

Lemma nth_error_app_ex {A} (l : list A) n a :
  nth_error l n = Some a -> exists pre post, l = pre ++ a :: post /\ List.length pre = n.
Proof. apply nth_error_split. Qed.

Lemma fill_cells {R} ty keys (r : R) irow n :
  1 <= irow <= n -> forall kgs cols,
  Forall (fun kg => 1 <= fst kg /\ exists c, nth_error cols (col_of (fst kg)) = Some c /\
                    good_cell (c_form c) (snd kg r)) kgs ->
  runs (write_cells irow (map (fun kg => (fst kg, snd kg r)) kgs)) (mk_hdu ty keys cols n)
    (mk_hdu ty keys (upd_cols (put_cell irow r) kgs cols) n).
Proof.
  intros Hr. induction kgs as [|(k, g) kgs IH]; intros cols Hg; [intros f; reflexivity|].
  inversion Hg as [|? ? (Hk & c & Hc & xs & Hx & Hl & Ho) Hg']; subst. cbn [fst snd] in *.
  cbn [map fst snd]. rewrite write_cells_cons, Hx. intros f. rewrite bind_Ok.
  destruct (nth_error_app_ex _ _ _ Hc) as (pre & post & -> & Hlen).
  assert (Hw : runs (fits_write_col k irow xs) (mk_hdu ty keys (pre ++ c :: post) n)
            (mk_hdu ty keys (at_nth (col_of k) (put_cell irow r g) (pre ++ c :: post)) n)).
  { apply runs_op. rewrite <- Hlen, at_nth_app. unfold put_cell. rewrite Hx.
    eapply write_col_fixed; [unfold col_of in Hlen; lia | exact Hr | reflexivity | exact Hl | exact Ho]. }
  rewrite Hw, bind_Ok.
  change (upd_cols (put_cell irow r) ((k, g) :: kgs) (pre ++ c :: post))
    with (upd_cols (put_cell irow r) kgs (at_nth (col_of k) (put_cell irow r g) (pre ++ c :: post))).
  apply IH. eapply Forall_impl; [|exact Hg'].
  intros (k', g') (Hk' & c' & Hc' & Hgc'). cbn [fst snd] in *. split; [exact Hk'|].
  destruct (Nat.eq_dec (col_of k) (col_of k')) as [He|Hne].
  - exists (put_cell irow r g c'). rewrite <- He, nth_at_nth_same. rewrite He, Hc'. cbn. auto.
  - exists c'. rewrite nth_at_nth_other by exact Hne. auto.
Qed.

(** the column with the data of the first records, then what was there *)
Definition over {R} (l : list R) (g : R -> res (list value)) (c : column) : column :=
  let d := flat_map (fun r => cell_data (c_form c) (g r)) l in
  with_data (d ++ skipn (List.length d) (c_data c)) c.
(** the column with the data of the records *)
Definition refill {R} (l : list R) (g : R -> res (list value)) (c : column) : column :=
  with_data (flat_map (fun r => cell_data (c_form c) (g r)) l) c.

Lemma flat_map_length_const {A B} (f : A -> list B) (l : list A) n :
  (forall a, In a l -> Z.of_nat (List.length (f a)) = n) ->
  Z.of_nat (List.length (flat_map f l)) = Z.of_nat (List.length l) * n.
Proof.
  induction l as [|a l IH]; intros H; [reflexivity|].
  cbn [flat_map]. rewrite app_length, Nat2Z.inj_add, IH by (intros; apply H; now right).
  rewrite (H a) by now left. cbn [List.length]. lia.
Qed.

Lemma put_over {R} (pre : list R) r g c :
  (forall r', In r' (pre ++ [r]) -> good_cell (c_form c) (g r')) ->
  put_cell (Z.of_nat (List.length pre) + 1) r g (over pre g c) = over (pre ++ [r]) g c.
Proof.
  intros Hg. unfold put_cell, over. cbn [with_data c_form c_data].
  rewrite flat_map_app. cbn [flat_map]. rewrite app_nil_r.
  set (d := flat_map _ pre). set (x := cell_data _ (g r)).
  unfold with_data. cbn [c_name c_form c_unit c_dim]. f_equal.
  assert (Hd : Z.of_nat (List.length d) = Z.of_nat (List.length pre) * per_row (c_form c)).
  { apply flat_map_length_const. intros a Ha. apply good_cell_length, Hg, in_or_app. now left. }
  unfold put_values. replace (Z.to_nat _) with (List.length d) by lia.
  rewrite firstn_app, Nat.sub_diag, firstn_O, app_nil_r, firstn_all.
  rewrite skipn_app, (skipn_all2 d) by lia. cbn [app].
  rewrite skipn_skipn_, app_length, <- app_assoc.
  replace (List.length d + (List.length d + List.length x - List.length d))%nat
    with (List.length d + List.length x)%nat by lia. reflexivity.
Qed.

Lemma over_nil {R} (g : R -> res (list value)) c : over [] g c = c.
Proof. unfold over. cbn. apply with_data_same. Qed.
Lemma over_all {R} (l : list R) g c :
  (forall r, In r l -> good_cell (c_form c) (g r)) -> filled (Z.of_nat (List.length l)) c ->
  over l g c = refill l g c.
Proof.
  intros Hg Hf. unfold over, refill. rewrite skipn_all2; [now rewrite app_nil_r|].
  enough (Z.of_nat (List.length (flat_map (fun r => cell_data (c_form c) (g r)) l))
          = Z.of_nat (List.length l) * per_row (c_form c)) by (unfold filled in Hf; lia).
  apply flat_map_length_const. intros a Ha. now apply good_cell_length, Hg.
Qed.

Lemma runs_fill_rows {R} ty keys (kgs : list (Z * (R -> res (list value)))) cells cols n :
  (forall r, cells r = map (fun kg => (fst kg, snd kg r)) kgs) ->
  NoDup (map (fun kg => col_of (fst kg)) kgs) ->
  forall l pre,
  Forall (fun kg => 1 <= fst kg /\ exists c, nth_error cols (col_of (fst kg)) = Some c /\
                    forall r, In r (pre ++ l) -> good_cell (c_form c) (snd kg r)) kgs ->
  Z.of_nat (List.length (pre ++ l)) <= n ->
  runs (rows_loop cells (Z.of_nat (List.length pre) + 1) l)
    (mk_hdu ty keys (upd_cols (over pre) kgs cols) n)
    (mk_hdu ty keys (upd_cols (over (pre ++ l)) kgs cols) n).
Proof.
  intros Hc Hnd. induction l as [|r l IH]; intros pre Hg Hn.
  - rewrite app_nil_r. apply runs_skip.
  - cbn [rows_loop]. rewrite app_length in Hn. cbn [List.length] in Hn.
    assert (Happ : (pre ++ [r]) ++ l = pre ++ r :: l) by now rewrite <- app_assoc.
    eapply runs_seq with (h' := mk_hdu ty keys (upd_cols (over (pre ++ [r])) kgs cols) n).
    + rewrite Hc.
      assert (He : upd_cols (over (pre ++ [r])) kgs cols
                   = upd_cols (put_cell (Z.of_nat (List.length pre) + 1) r) kgs
                       (upd_cols (over pre) kgs cols)).
      { rewrite upd_cols_comp by exact Hnd. apply upd_cols_ext; [exact Hnd|].
        intros k g c Hi Hk. symmetry. apply put_over. intros r' Hr'.
        rewrite Forall_forall in Hg. destruct (Hg _ Hi) as (_ & c' & Hc' & Hgood).
        cbn [fst snd] in *. rewrite Hk in Hc'. injection Hc' as <-. apply Hgood.
        rewrite <- Happ. apply in_or_app. now left. }
      rewrite He. apply fill_cells; [lia|].
      eapply Forall_impl; [|exact Hg]. intros (k, g) (Hk & c & Hkc & Hgood). cbn [fst snd] in *.
      split; [exact Hk|].
      assert (Hf : exists c', nth_error (upd_cols (over pre) kgs cols) (col_of k) = Some c'
                   /\ c_form c' = c_form c).
      { pose proof (upd_cols_form (over pre) kgs cols (fun _ _ => eq_refl)) as Hm.
        pose proof (f_equal (fun l => nth_error l (col_of k)) Hm) as Hm'. cbn beta in Hm'.
        rewrite !nth_error_map, Hkc in Hm'. cbn in Hm'.
        destruct (nth_error (upd_cols (over pre) kgs cols) (col_of k)) as [c'|]; [|discriminate].
        exists c'. split; [reflexivity|]. now injection Hm'. }
      destruct Hf as (c' & Hc' & Hcf). exists c'. split; [exact Hc'|]. rewrite Hcf. apply Hgood.
      apply in_or_app. right. now left.
    + replace (Z.of_nat (List.length pre) + 1 + 1) with (Z.of_nat (List.length (pre ++ [r])) + 1)
        by (rewrite app_length; cbn; lia).
      rewrite <- Happ. apply IH; rewrite Happ; [exact Hg|]. rewrite app_length. cbn. lia.
Qed.

Lemma upd_cols_id {A} (f : A -> column -> column) kgs cols :
  (forall a c, f a c = c) -> upd_cols f kgs cols = cols.
Proof.
  intros H. revert cols. induction kgs as [|(k, a) kgs IH]; intros cols; [reflexivity|].
  change (upd_cols f ((k, a) :: kgs) cols) with (upd_cols f kgs (at_nth (col_of k) (f a) cols)).
  rewrite at_nth_id by auto. apply IH.
Qed.

Lemma runs_set_rows {R} ty keys (kgs : list (Z * (R -> res (list value)))) cells records cols n :
  (forall r, cells r = map (fun kg => (fst kg, snd kg r)) kgs) ->
  Z.of_nat (List.length records) = n ->
  NoDup (map (fun kg => col_of (fst kg)) kgs) ->
  Forall (fun kg => 1 <= fst kg /\ exists c, nth_error cols (col_of (fst kg)) = Some c /\ filled n c /\
                    forall r, In r records -> good_cell (c_form c) (snd kg r)) kgs ->
  runs (write_rows n records cells) (mk_hdu ty keys cols n)
    (mk_hdu ty keys (upd_cols (refill records) kgs cols) n).
Proof.
  intros Hc Hn Hnd Hg. eapply runs_ext; [intros s; apply (write_rows_loop _ _ _ _ Hn)|].
  pose proof (runs_fill_rows ty keys kgs cells cols n Hc Hnd records []) as H.
  cbn [app List.length] in H. change (Z.of_nat 0 + 1) with 1 in H.
  rewrite upd_cols_id in H by apply over_nil.
  rewrite (upd_cols_ext (refill records) (over records) kgs cols Hnd).
  - apply H; [|lia]. eapply Forall_impl; [|exact Hg].
    intros (k, g) (Hk & c & Hkc & _ & Hgood). cbn [fst snd] in *. eauto.
  - intros k g c Hi Hkc. symmetry.
    rewrite Forall_forall in Hg. destruct (Hg _ Hi) as (_ & c' & Hc' & Hf & Hgood).
    cbn [fst snd] in *. rewrite Hkc in Hc'. injection Hc' as <-. apply over_all; [exact Hgood|].
    now rewrite Hn.
Qed.

(** ** A whole column in one call *)

Lemma runs_first_column ty keys c cols vs :
  fm_repeat (c_form c) = 1 -> fm_kind (c_form c) <> Complex -> c_data c = [] -> overflow (c_form c) vs = false ->
  runs (fits_write_col 1 1 vs) (mk_hdu ty keys (c :: cols) 0)
    (mk_hdu ty keys (with_data (stored_vals (c_form c) vs) c
                     :: map (extend_col (Z.of_nat (List.length vs)) 0) cols)
       (Z.of_nat (List.length vs))).
Proof.
  intros Hrep Hk Hd Ho. apply runs_op. unfold write_col, nth_col.
  cbn [Z.ltb Z.compare Pos.compare Pos.compare_cont].
  replace (Z.to_nat (1 - 1)) with O by reflexivity. cbn [hd_cols nth_error].
  assert (Hp : per_row (c_form c) = 1).
  { unfold per_row. rewrite Hrep. destruct (fm_kind (c_form c)); congruence. }
  destruct vs as [|x vs'] eqn:Ev.
  - f_equal. f_equal. cbn [stored_vals map List.length]. rewrite <- Hd, with_data_same. f_equal.
    symmetry. erewrite map_ext; [apply map_id|]. intros a. unfold extend_col.
    change (zeros (c_form a) (Z.of_nat 0 - 0)) with (@nil value).
    rewrite app_nil_r. apply with_data_same.
  - rewrite <- Ev in *. assert (1 <= Z.of_nat (List.length vs)) by (subst vs; cbn; lia).
    rewrite Hp. cbn [Z.ltb Z.compare Pos.compare Pos.compare_cont].
    assert (Hlast : last_row (c_form c) 1 (Z.of_nat (List.length vs)) = Z.of_nat (List.length vs)).
    { unfold last_row. rewrite Hp, Z.div_1_r. lia. }
    rewrite Hlast. unfold extend_rows. cbn [hd_nrows].
    destruct (Z.leb_spec (Z.of_nat (List.length vs)) 0); [lia|].
    cbn [hd_type hd_keys hd_cols hd_nrows map at_nth]. unfold overflow in Ho. rewrite Ho.
    f_equal. f_equal. f_equal. unfold extend_col. cbn [with_data c_form c_data].
    unfold with_data. f_equal. cbn [c_form c_data]. rewrite Hd. cbn [app].
    replace ((1 - 1) * per_row (c_form c)) with 0 by lia.
    unfold put_values. cbn [Z.to_nat firstn app]. fold (stored_vals (c_form c) vs).
    rewrite skipn_all2; [now rewrite app_nil_r|]. rewrite stored_vals_length.
    unfold zeros. rewrite repeat_length, Hp. lia.
Qed.

Lemma runs_next_column ty keys pre c post vs n k :
  k = Z.of_nat (List.length pre) + 1 -> n = Z.of_nat (List.length vs) ->
  fm_repeat (c_form c) = 1 -> fm_kind (c_form c) <> Complex -> c_data c = [] ->
  overflow (c_form c) vs = false ->
  runs (fits_write_col k 1 vs) (mk_hdu ty keys (pre ++ extend_col n 0 c :: post) n)
    (mk_hdu ty keys (pre ++ with_data (stored_vals (c_form c) vs) c :: post) n).
Proof.
  intros Hk -> Hrep Hkd Hd Ho. apply runs_op. unfold write_col. rewrite nth_col_app by exact Hk.
  assert (Hp : per_row (c_form c) = 1).
  { unfold per_row. rewrite Hrep. destruct (fm_kind (c_form c)); congruence. }
  cbn [extend_col with_data c_form]. destruct vs as [|x vs'] eqn:Ev.
  - f_equal. do 2 f_equal. unfold extend_col. rewrite Hd. reflexivity.
  - rewrite <- Ev in *. assert (1 <= Z.of_nat (List.length vs)) by (subst vs; cbn; lia).
    rewrite Hp. cbn [Z.ltb Z.compare Pos.compare Pos.compare_cont].
    assert (Hlast : last_row (c_form c) 1 (Z.of_nat (List.length vs)) = Z.of_nat (List.length vs)).
    { unfold last_row. rewrite Hp, Z.div_1_r. lia. }
    rewrite Hlast. unfold extend_rows. cbn [hd_nrows]. rewrite Z.leb_refl.
    cbn [hd_type hd_keys hd_cols hd_nrows]. unfold overflow in Ho. rewrite Ho.
    f_equal. f_equal. replace (Z.to_nat (k - 1)) with (List.length pre) by lia.
    rewrite at_nth_app. f_equal. f_equal. unfold extend_col. cbn [with_data c_form c_data].
    unfold with_data. f_equal. cbn [c_form c_data]. rewrite Hd. cbn [app].
    replace ((1 - 1) * per_row (c_form c)) with 0 by lia.
    unfold put_values. cbn [Z.to_nat firstn app]. fold (stored_vals (c_form c) vs).
    rewrite skipn_all2; [now rewrite app_nil_r|]. rewrite stored_vals_length.
    unfold zeros. rewrite repeat_length, Hp. lia.
Qed.
