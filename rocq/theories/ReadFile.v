(** Moving through a file, and the loops of read_oi_fits. *)
From Coq Require Import Lia.
From Verif Require Import BaseLemmas FileProofs ReadModel IOClaims.
Open Scope list_scope.
Open Scope Z_scope.

(** ** Computations and *pStatus *)

(** no result exactly when the status is set *)
Definition agrees {A} (m : rd (option A)) : Prop :=
  forall st a st', m st = Ok (a, st') -> (a = None <-> st' <> 0).
Lemma agrees_bind {A B} (x : rd A) (k : A -> rd (option B)) :
  (forall a, agrees (k a)) -> agrees (rbind x k).
Proof.
  intros H st a st' He. unfold rbind in He. apply bind_inv in He as ((b, st1) & _ & He). exact (H _ _ _ _ He).
Qed.
Lemma agrees_unless {A} (k : rd (option A)) :
  (forall a st', k 0 = Ok (a, st') -> (a = None <-> st' <> 0)) -> agrees (unless_error k).
Proof.
  intros H st a st' He. unfold unless_error, rbind, get_status in He. rewrite bind_Ok in He.
  cbn [fst snd] in He. destruct (Z.eqb_spec st 0) as [->|Hn]; cbn [negb] in He; [now apply H|].
  injection He as <- <-. split; auto.
Qed.
Lemma agrees_finish {A} (a : A) : agrees (finish a).
Proof. apply agrees_unless. intros o st' [= <- <-]. split; [discriminate|congruence]. Qed.
Ltac agree := intros; first
  [ apply agrees_finish
  | apply agrees_unless; let H := fresh in
    match goal with |- forall a st', ?k 0 = _ -> _ =>
      assert (H : agrees k) by agree; intros; eapply H; eassumption end
  | apply agrees_bind; agree
  | match goal with |- agrees (match ?x with _ => _ end) => destruct x; agree end ].

(** the status END_OF_FILE does not come from reading a table *)
Definition fine {A} (m : rd A) : Prop :=
  forall st a st', m st = Ok (a, st') -> st <> END_OF_FILE -> st' <> END_OF_FILE.
Lemma fine_ret {A} (a : A) : fine (rret a).
Proof. intros st b st' [= <- <-]. auto. Qed.
Lemma fine_bind {A B} (x : rd A) (k : A -> rd B) : fine x -> (forall a, fine (k a)) -> fine (rbind x k).
Proof.
  intros Hx Hk st b st' He Hs. unfold rbind in He. apply bind_inv in He as ((a, st1) & H1 & H2).
  cbn [fst snd] in H2. eapply Hk; eauto.
Qed.
Lemma fine_status : fine get_status.
Proof. intros st a st' [= <- <-]. auto. Qed.
Lemma fine_set v : v <> END_OF_FILE -> fine (set_status v).
Proof. intros Hv st a st' [= <- <-]. auto. Qed.
Lemma fine_lift {A} (x : res A) : fine (lift x).
Proof. intros st a st' He. unfold lift in He. apply bind_inv in He as (b & _ & He). injection He as <- <-. auto. Qed.
Lemma fine_call {A} (r : A + Z) : r <> inr END_OF_FILE -> fine (call r).
Proof.
  intros Hr st a st' He Hs. unfold call in He. destruct (negb (st =? 0)); [now injection He as <- <-|].
  destruct r; injection He as <- <-; [discriminate|]. intros ->. now apply Hr.
Qed.
Lemma fine_unless {A} (k : rd (option A)) : fine k -> fine (unless_error k).
Proof.
  intros H. apply fine_bind; [apply fine_status|]. intros st. destruct (negb (st =? 0)); [apply fine_ret|exact H].
Qed.
Lemma fine_finish {A} (a : A) : fine (finish a).
Proof. apply fine_unless, fine_ret. Qed.
Lemma fine_key_opt {A} (d : A) m : fine m -> fine (key_opt d m).
Proof.
  intros H. unfold key_opt. apply fine_bind; [apply fine_status|]. intros st.
  destruct (negb (st =? 0)); [apply fine_ret|]. apply fine_bind; [exact H|]. intros v.
  apply fine_bind; [apply fine_status|]. intros st'. destruct (st' =? 0); [apply fine_ret|].
  destruct (st' =? KEY_NO_EXIST); [|apply fine_ret].
  apply fine_bind; [apply fine_set; discriminate|]. intros _. apply fine_ret.
Qed.
Lemma convert_fine {A} (conv : value -> A + Z) l :
  (forall v, conv v <> inr END_OF_FILE) -> convert_all conv l <> inr END_OF_FILE.
Proof.
  intros H. induction l as [|v l IH]; [discriminate|]. cbn [convert_all].
  specialize (H v). destruct (conv v); [|congruence].
  destruct (convert_all conv l); [discriminate|congruence].
Qed.
Lemma as_int_fine v : as_int v <> inr END_OF_FILE.
Proof. destruct v; cbn; try discriminate; destruct (trunc_Z x); discriminate. Qed.
Lemma as_double_fine v : as_double v <> inr END_OF_FILE.
Proof. destruct v; discriminate. Qed.
Lemma as_float_fine v : as_float v <> inr END_OF_FILE.
Proof. destruct v; discriminate. Qed.
Lemma as_bool_fine v : as_bool v <> inr END_OF_FILE.
Proof. destruct v; discriminate. Qed.
Lemma as_str_fine v : as_str v <> inr END_OF_FILE.
Proof. destruct v; discriminate. Qed.
Lemma fine_read_col {A} (conv : value -> A + Z) h k irow n :
  (forall v, conv v <> inr END_OF_FILE) -> fine (read_col conv h k irow n).
Proof.
  intros H. apply fine_call. destruct k as [k|]; [|discriminate].
  destruct (nth_col k h); [|discriminate]. cbv zeta.
  match goal with |- (if ?b then _ else _) <> _ => destruct b end; [discriminate|]. now apply convert_fine.
Qed.
Lemma fine_colnum h name : fine (get_colnum h name).
Proof.
  apply fine_call. destruct (find_cols name 1 (hd_cols h)) as [|k [|k' l]]; discriminate.
Qed.
Lemma fine_coltype h k : fine (get_coltype h k).
Proof. apply fine_call. destruct k as [k|]; [|discriminate]. destruct (nth_col k h); discriminate. Qed.
Lemma fine_num_rows h : fine (get_num_rows h).
Proof. apply fine_call. destruct (hd_type h); discriminate. Qed.
Lemma fine_tunit h k : fine (read_tunit h k).
Proof. apply fine_call. destruct (nth_col k h) as [c|]; [|discriminate]. destruct (c_unit c); discriminate. Qed.
Lemma fine_key_str E h k : fine (read_key_str E h k).
Proof. apply fine_call. destruct (find_key k (hd_keys h)) as [[| |]|]; discriminate. Qed.
Lemma fine_key_int E h k : fine (read_key_int E h k).
Proof.
  apply fine_call. destruct (find_key k (hd_keys h)) as [[s|z|x]|]; try discriminate;
  (destruct (cf_conv_int E _); discriminate).
Qed.
Lemma fine_key_double E h k : fine (read_key_double E h k).
Proof.
  apply fine_call. destruct (find_key k (hd_keys h)) as [[s|z|x]|]; try discriminate;
  (destruct (cf_conv_double E _); discriminate).
Qed.
Lemma fine_rows_from {A B} (f : Z -> A -> rd B) l : (forall i a, fine (f i a)) ->
  forall i, fine (rows_from i l f).
Proof.
  intros H. induction l as [|a l IH]; intros i; [apply fine_ret|]. cbn [rows_from].
  apply fine_bind; [apply H|]. intros b. apply fine_bind; [apply IH|]. intros r. apply fine_ret.
Qed.
Ltac fine1 := first
  [ apply fine_ret | apply fine_status | apply fine_lift | apply fine_finish
  | apply fine_set; discriminate | apply fine_unless | apply fine_key_opt
  | apply fine_key_str | apply fine_key_int | apply fine_key_double | apply fine_tunit
  | apply fine_num_rows | apply fine_coltype | apply fine_colnum
  | apply fine_read_col; first [apply as_int_fine|apply as_double_fine|apply as_float_fine
                               |apply as_bool_fine|apply as_str_fine]
  | apply fine_rows_from; intros
  | apply fine_bind; [|intros]
  | match goal with |- fine (if ?b then _ else _) => destruct b end
  | match goal with |- fine (match ?b with _ => _ end) => destruct b end ].
Ltac fines := repeat fine1.

Section Chdu.
Variable E : cfitsio.
Local Notation named := (named E).
Lemma fine_array h o : fine (read_oi_array_chdu E h o).
Proof. unfold read_oi_array_chdu, name_of, key_int, key_str, key_dbl, new_rows, each_row, read_element,
  str_at, int_at, flt_at, dbls_at, dbl_at, cell1, celln, read_col_string, column_number, bad_format. fines. Qed.
Lemma fine_wavelength h o : fine (read_oi_wavelength_chdu E h o).
Proof. unfold read_oi_wavelength_chdu, name_of, key_int, key_str, flts_at, celln. fines. Qed.
Lemma fine_corr h o : fine (read_oi_corr_chdu E h o).
Proof. unfold read_oi_corr_chdu, name_of, key_int, key_str, ints_at, dbls_at, celln. fines. Qed.
Lemma fine_target h : fine (read_oi_target_chdu E h).
Proof. unfold read_oi_target_chdu, key_int, new_rows, each_row, read_category, read_target, str_trunc_at, str_at, int_at,
  flt_at, dbl_at, cell1, celln, read_col_string, read_col_string_truncate, column_number, bad_format. fines. Qed.
Lemma fine_inspol h : fine (read_oi_inspol_chdu E h).
Proof. unfold read_oi_inspol_chdu, key_int, key_str, dimensions, new_rows, each_row, read_inspol_record, cplxs_at,
  str_at, int_at, dbl_at, dbls_at, cell1, celln, read_col_string, column_number, bad_format. fines. Qed.
Lemma fine_vis2 h : fine (read_oi_vis2_chdu E h).
Proof. unfold read_oi_vis2_chdu, key_int, key_str, key_opt_str, read_key_opt_string, read_corrname, dimensions,
  new_rows, each_row, read_vis2_record, pair_at, ints_at, bools_at, int_if, int_at, dbl_at, dbls_at, cell1, celln. fines. Qed.
Lemma fine_t3 h : fine (read_oi_t3_chdu E h).
Proof. unfold read_oi_t3_chdu, key_int, key_str, key_opt_str, read_key_opt_string, read_corrname, dimensions,
  new_rows, each_row, read_t3_record, triple_at, ints_at, bools_at, int_if, int_at, dbl_at, dbls_at, cell1, celln. fines. Qed.
Lemma fine_flux h : fine (read_oi_flux_chdu E h).
Proof. unfold read_oi_flux_chdu, key_int, key_str, key_opt_str, key_opt_dbl, read_key_opt_string, read_key_opt_double,
  read_corrname, dimensions,
  new_rows, each_row, read_flux_record, bools_at, int_if, int_at, dbl_at, dbls_at, cell1, celln. fines. Qed.
Lemma fine_vis h : fine (read_oi_vis_chdu E h).
Proof. unfold read_oi_vis_chdu, read_oi_vis_opt, read_oi_vis_complex, read_complex_row, key_int, key_str, key_opt_str,
  key_opt_int, read_key_opt_string, read_key_opt_int, dimensions,
  new_rows, each_row, read_vis_record, pair_at, ints_at, bools_at, int_at, dbl_at, dbls_at, cell1, celln. fines. Qed.
Lemma agrees_array h o : agrees (read_oi_array_chdu E h o).
Proof. unfold read_oi_array_chdu. agree. Qed.
Lemma agrees_wavelength h o : agrees (read_oi_wavelength_chdu E h o).
Proof. unfold read_oi_wavelength_chdu. agree. Qed.
Lemma agrees_corr h o : agrees (read_oi_corr_chdu E h o).
Proof. unfold read_oi_corr_chdu. agree. Qed.
Lemma agrees_target h : agrees (read_oi_target_chdu E h).
Proof. unfold read_oi_target_chdu. agree. Qed.
Lemma agrees_header h : agrees (read_oi_header_chdu E h).
Proof. unfold read_oi_header_chdu. agree. Qed.
Lemma agrees_inspol h : agrees (read_oi_inspol_chdu E h).
Proof. unfold read_oi_inspol_chdu. agree. Qed.
Lemma agrees_vis h : agrees (read_oi_vis_chdu E h).
Proof. unfold read_oi_vis_chdu. agree. Qed.
Lemma agrees_vis2 h : agrees (read_oi_vis2_chdu E h).
Proof. unfold read_oi_vis2_chdu. agree. Qed.
Lemma agrees_t3 h : agrees (read_oi_t3_chdu E h).
Proof. unfold read_oi_t3_chdu. agree. Qed.
Lemma agrees_flux h : agrees (read_oi_flux_chdu E h).
Proof. unfold read_oi_flux_chdu. agree. Qed.

(** ** Searching *)

Lemma next_named_none name l : forall cur,
  existsb (named name) l = false ->
  next_named E l cur name = (cur + Z.of_nat (List.length l), END_OF_FILE).
Proof.
  induction l as [|h l IH]; intros cur; cbn [existsb next_named List.length].
  - intros _. f_equal. lia.
  - intros H. apply orb_false_iff in H as [Hh Hl]. unfold named in Hh.
    assert (Hr : next_named E l (cur + 1) name = (cur + Z.of_nat (Datatypes.S (List.length l)), END_OF_FILE)).
    { rewrite IH by exact Hl. f_equal. lia. }
    destruct (is_binary h); [|exact Hr]. destruct (key_text E h "EXTNAME"%string); [|exact Hr].
    cbn [andb] in Hh. now rewrite Hh.
Qed.
Lemma next_named_found name pre h post : forall cur,
  existsb (named name) pre = false -> named name h = true ->
  next_named E (pre ++ h :: post) cur name = (cur + Z.of_nat (List.length pre) + 1, 0).
Proof.
  induction pre as [|h' pre IH]; intros cur; cbn [existsb next_named List.length app].
  - intros _ Hh. unfold named in Hh. apply andb_true_iff in Hh as [-> Hh].
    destruct (key_text E h "EXTNAME"%string); [|discriminate]. rewrite Hh. f_equal. lia.
  - intros H Hh. apply orb_false_iff in H as [Hh' Hl]. unfold named in Hh'.
    assert (Hr : next_named E (pre ++ h :: post) (cur + 1) name
                 = (cur + Z.of_nat (Datatypes.S (List.length pre)) + 1, 0)).
    { rewrite IH by assumption. f_equal. lia. }
    destruct (is_binary h'); [|exact Hr]. destruct (key_text E h' "EXTNAME"%string); [|exact Hr].
    cbn [andb] in Hh'. now rewrite Hh'.
Qed.

(** ** The loops *)

(** the tables of the HDUs [l]; an error ends the list unless [skip] *)
Fixpoint collect {A} (skip : bool) (r : hdu -> rd (option A)) (l : list hdu) : res (list A * Z) :=
  match l with
  | [] => Ok ([], 0)
  | h :: l' =>
      p <- r h 0 ;;
      match p with
      | (Some a, _) => q <- collect skip r l' ;; Ok (a :: fst q, snd q)
      | (None, st) => if skip then collect skip r l' else Ok ([], st)
      end
  end.

Lemma first_named name l :
  existsb (named name) l = false \/
  exists pre h post, l = pre ++ h :: post /\ existsb (named name) pre = false /\ named name h = true
    /\ filter (named name) l = h :: filter (named name) post.
Proof.
  induction l as [|h l IH]; [now left|]. cbn [existsb filter]. destruct (named name h) eqn:Hh.
  - right. exists [], h, l. auto.
  - destruct IH as [IH|(pre & h' & post & -> & Hp & Hh' & Hf)]; [now left|].
    right. exists (h :: pre), h', post. cbn [existsb app]. rewrite Hh, Hp. auto.
Qed.
Lemma filter_none {A} (p : A -> bool) l : existsb p l = false -> filter p l = [].
Proof.
  induction l as [|a l IH]; [reflexivity|]. cbn. intros H. apply orb_false_iff in H as [-> H]. auto.
Qed.

Definition loop_is {A} (m : res (list A * wstate)) (hdus : list hdu) (c : res (list A * Z)) : Prop :=
  match c with
  | Ok (l, st) => exists cur, m = Ok (l, (mk_file hdus cur, st))
  | Abort => m = Abort
  | UB => m = UB
  end.

Lemma read_loop_collect {A} name (r : hdu -> rd (option A)) skip hdus :
  (forall h, fine (r h)) -> (forall h, agrees (r h)) ->
  forall fuel done rest, hdus = done ++ rest -> (List.length rest < fuel)%nat ->
  loop_is (read_loop fuel skip (read_next E name r) (mk_file hdus (Z.of_nat (List.length done)), 0)) hdus
    (collect skip r (filter (named name) rest)).
Proof.
  intros Hfine Hagree. induction fuel as [|fuel IH]; intros done rest Hh Hl; [lia|].
  cbn [read_loop]. unfold read_next at 1, guard_io. cbn [snd Z.eqb negb].
  unfold next_named_hdu. cbn [f_cur f_hdus Z.eqb negb].
  rewrite Nat2Z.id, Hh, skipn_app, skipn_all, Nat.sub_diag, skipn_O, app_nil_l, <- Hh.
  destruct (first_named name rest) as [Hn|(pre & h & post & Hr & Hp & Hn & Hf)].
  - rewrite next_named_none by exact Hn. cbn [snd END_OF_FILE Z.eqb Pos.eqb negb bind].
    rewrite filter_none by exact Hn. eexists. reflexivity.
  - assert (Hnn := next_named_found name pre h post (Z.of_nat (List.length done)) Hp Hn).
    rewrite <- Hr in Hnn. rewrite Hnn. cbn [snd Z.eqb negb].
    set (cur := Z.of_nat (List.length done) + Z.of_nat (List.length pre) + 1).
    assert (Hc : chdu (mk_file hdus cur) = Some h).
    { unfold chdu. cbn [f_cur f_hdus]. destruct (Z.ltb_spec cur 1); [unfold cur in *; lia|].
      rewrite Hh, Hr, app_assoc, nth_error_app2 by (rewrite app_length; unfold cur; lia).
      replace (Z.to_nat (cur - 1) - List.length (done ++ pre))%nat with O
        by (rewrite app_length; unfold cur; lia). reflexivity. }
    unfold at_chdu. cbn [fst snd]. rewrite Hc, Hf. cbn [collect].
    destruct (r h 0) as [(a, st)| |] eqn:Hrd; [|reflexivity|reflexivity]. rewrite !bind_Ok. cbn [fst snd].
    pose proof (Hfine h 0 a st Hrd) as Hne. specialize (Hne ltac:(discriminate)).
    pose proof (Hagree h 0 a st Hrd) as Hag.
    assert (Hnext : loop_is (read_loop fuel skip (read_next E name r) (mk_file hdus cur, 0)) hdus
                      (collect skip r (filter (named name) post))).
    { replace cur with (Z.of_nat (List.length (done ++ pre ++ [h])))
        by (rewrite !app_length; cbn [List.length]; unfold cur; lia).
      apply IH.
      - rewrite Hh, Hr. rewrite <- !app_assoc. reflexivity.
      - rewrite Hr, app_length in Hl. cbn [List.length] in Hl. lia. }
    destruct (Z.eqb_spec st 0) as [->|Hst]; cbn [negb].
    + destruct a as [a|]; [|exfalso; now apply Hag].
      unfold loop_is in *. destruct (collect skip r (filter (named name) post)) as [(l, st)| |].
      * destruct Hnext as (cur' & ->). rewrite !bind_Ok. cbn [fst snd]. eexists. reflexivity.
      * now rewrite Hnext.
      * now rewrite Hnext.
    + destruct a as [a|]; [exfalso; now apply Hag in Hst|].
      destruct (Z.eqb_spec st END_OF_FILE); [congruence|]. destruct skip; [exact Hnext|].
      eexists. reflexivity.
Qed.

Lemma read_all_collect {A} name (r : hdu -> rd (option A)) skip p hdus cur :
  (forall h, fine (r h)) -> (forall h, agrees (r h)) ->
  loop_is (read_all skip (read_next E name r) (mk_file (p :: hdus) cur, 0)) (p :: hdus)
    (collect skip r (filter (named name) hdus)).
Proof.
  intros Hfine Hagree. unfold read_all, fits_movabs_hdu, movabs. cbn [Z.eqb negb f_hdus List.length].
  destruct (Z.ltb_spec (Z.of_nat (Datatypes.S (List.length hdus))) 1); [lia|]. cbn [Z.ltb Z.compare orb].
  rewrite bind_Ok. cbn [fst f_hdus List.length].
  apply (read_loop_collect name r skip (p :: hdus) Hfine Hagree (Datatypes.S (Datatypes.S (List.length hdus))) [p] hdus);
    [reflexivity|lia].
Qed.
End Chdu.
