(** Reading keywords and cells of a table built from records. *)
From Coq Require Import Lia.
From Verif Require Import BaseLemmas FileProofs ReadModel FitsRows IOSpec FitsText WriteTables.
Open Scope Z_scope.
Local Open Scope string_scope.
Local Open Scope list_scope.

(** ** Computations that start and end with status 0 *)

Definition returns {A} (m : rd A) (a : A) : Prop := m 0 = Ok (a, 0).
Lemma ret_bind {A B} (x : rd A) (k : A -> rd B) a b :
  returns x a -> returns (k a) b -> returns (rbind x k) b.
Proof. unfold returns, rbind. intros -> H. rewrite bind_Ok. exact H. Qed.
Lemma ret_ret {A} (a : A) : returns (rret a) a.
Proof. reflexivity. Qed.
Lemma ret_then {A B} (x : rd A) (f : A -> B) a b :
  returns x a -> f a = b -> returns (v <~ x ;~ rret (f v)) b.
Proof. intros H <-. eapply ret_bind; [exact H|apply ret_ret]. Qed.
Lemma ret_status : returns get_status 0.
Proof. reflexivity. Qed.
Lemma ret_unless {A} (k : rd (option A)) a : returns k a -> returns (unless_error k) a.
Proof. intros H. unfold unless_error. eapply ret_bind; [apply ret_status|]. exact H. Qed.
Lemma ret_finish {A} (a : A) : returns (finish a) (Some a).
Proof. reflexivity. Qed.
Lemma ret_lift {A} (x : res A) a : x = Ok a -> returns (lift x) a.
Proof. intros ->. reflexivity. Qed.
Lemma ret_malloc n : 0 < n -> returns (lift (chkmalloc n)) tt.
Proof. intros H. apply ret_lift. unfold chkmalloc. apply Z.ltb_lt in H. now rewrite H. Qed.
Lemma ret_alloc n m : 0 < n -> 0 < m -> returns (lift (alloc_records n m)) tt.
Proof.
  intros H1 H2. apply ret_lift. unfold alloc_records, chkmalloc.
  apply Z.ltb_lt in H1. apply Z.ltb_lt in H2. now rewrite H1, bind_Ok, H2.
Qed.
Lemma ret_call {A} (r : A + Z) a : r = inl a -> returns (call r) (Some a).
Proof. intros ->. reflexivity. Qed.

Lemma clear_status {A B} (m : rd A) (k : A -> rd B) st b :
  returns (x <~ m ;~ k x) b -> (x <~ (_ <~ set_status 0 ;~ m) ;~ k x) st = Ok (b, 0).
Proof. exact (fun H => H). Qed.

(** ** One turn per row *)

Lemma rows_from_ok {A B R} (f : Z -> A -> rd B) (g : R -> A) (g' : R -> B) (l : list R) :
  forall done i, i = Z.of_nat (List.length done) + 1 ->
  (forall pre r post, done ++ l = pre ++ r :: post -> (List.length done <= List.length pre)%nat ->
     returns (f (Z.of_nat (List.length pre) + 1) (g r)) (g' r)) ->
  returns (rows_from i (map g l) f) (map g' l).
Proof.
  induction l as [|r l IH]; intros done i Hi H; [apply ret_ret|]. cbn [map rows_from].
  eapply ret_bind; [rewrite Hi; apply (H done r l); [reflexivity|lia]|].
  eapply ret_bind.
  - apply (IH (done ++ [r])); [rewrite app_length; cbn [List.length]; lia|].
    intros pre r' post He Hle. rewrite <- app_assoc in He. apply (H pre r' post He).
    rewrite app_length in Hle. cbn [List.length] in Hle. lia.
  - apply ret_ret.
Qed.
Lemma each_row_ok {A B R} (f : Z -> A -> rd B) (g : R -> A) (g' : R -> B) (l : list R) :
  (forall pre r post, l = pre ++ r :: post ->
     returns (f (Z.of_nat (List.length pre) + 1) (g r)) (g' r)) ->
  returns (each_row (map g l) f) (map g' l).
Proof.
  intros H. unfold each_row. apply (rows_from_ok f g g' l []); [reflexivity|].
  intros pre r post He _. now apply (H pre r post).
Qed.
Lemma new_rows_ok {B R} (f : Z -> rd B) (g : R -> B) (l : list R) n :
  Z.of_nat (List.length l) = n ->
  (forall pre r post, l = pre ++ r :: post -> returns (f (Z.of_nat (List.length pre) + 1)) (g r)) ->
  returns (new_rows n f) (map g l).
Proof.
  intros Hn H. unfold new_rows. replace (Z.to_nat n) with (List.length l) by lia.
  assert (He : repeat tt (List.length l) = map (fun _ => tt) l).
  { clear. induction l; cbn; congruence. }
  rewrite He. apply each_row_ok. exact H.
Qed.

(** ** Keywords *)

Section Keys.
Variables (E : cfitsio) (h : hdu).
Lemma key_str_ok k s : find_key k (hd_keys h) = Some (KStr s) -> returns (key_str E h k) s.
Proof.
  intros H. unfold key_str. eapply ret_then.
  unfold read_key_str. apply ret_call. now rewrite H.
  all: reflexivity.
Qed.
Lemma key_int_ok k z : find_key k (hd_keys h) = Some (KInt z) -> returns (key_int E h k) z.
Proof.
  intros H. unfold key_int. eapply ret_then.
  unfold read_key_int. apply ret_call. now rewrite H.
  all: reflexivity.
Qed.
Lemma key_dbl_ok k x : find_key k (hd_keys h) = Some (KDbl x) -> returns (key_dbl E h k) x.
Proof.
  intros H. unfold key_dbl. eapply ret_then.
  unfold read_key_double. apply ret_call. now rewrite H.
  all: reflexivity.
Qed.
Lemma key_opt_ok {A} (d : A) (read : rd (option A)) v :
  returns read (Some v) -> returns (key_opt d read) (Some v, true).
Proof.
  intros H. unfold key_opt. eapply ret_bind; [apply ret_status|].
  eapply ret_bind; [exact H|]. eapply ret_bind; [apply ret_status|]. reflexivity.
Qed.
Lemma key_opt_missing {A} (d : A) (read : rd (option A)) :
  read 0 = Ok (None, KEY_NO_EXIST) -> returns (key_opt d read) (Some d, false).
Proof. intros H. unfold key_opt, returns, rbind, get_status. cbn. rewrite H. reflexivity. Qed.
Lemma opt_string_ok k (b : bool) s :
  find_key k (hd_keys h) = (if b then Some (KStr s) else None) ->
  returns (read_key_opt_string E h k) (Some (if b then s else ""), b).
Proof.
  intros H. unfold read_key_opt_string. destruct b.
  - apply key_opt_ok. unfold read_key_str. apply ret_call. now rewrite H.
  - apply key_opt_missing. unfold read_key_str. now rewrite H.
Qed.
Lemma key_opt_str_ok k (b : bool) s :
  find_key k (hd_keys h) = (if b then Some (KStr s) else None) ->
  returns (key_opt_str E h k) (if b then s else "").
Proof. intros H. unfold key_opt_str. eapply ret_bind; [apply opt_string_ok; exact H|]. reflexivity. Qed.
Lemma key_opt_name k s :
  find_key k (hd_keys h) = (if nonempty s then Some (KStr s) else None) ->
  returns (key_opt_str E h k) s.
Proof.
  intros H. apply key_opt_str_ok in H. destruct s; exact H.
Qed.
Lemma key_opt_int_ok k (b : bool) z :
  find_key k (hd_keys h) = (if b then Some (KInt z) else None) ->
  returns (key_opt_int E h k) (if b then z else -1).
Proof.
  intros H. unfold key_opt_int. eapply ret_then with (a := (Some (if b then z else -1), b)); [|reflexivity]. unfold read_key_opt_int. destruct b.
  - apply key_opt_ok. unfold read_key_int. apply ret_call. now rewrite H.
  - apply key_opt_missing. unfold read_key_int. now rewrite H.
Qed.
Lemma key_opt_dbl_ok k (b : bool) x :
  find_key k (hd_keys h) = (if b then Some (KDbl x) else None) ->
  returns (key_opt_dbl E h k) (if b then x else f64_nan).
Proof.
  intros H. unfold key_opt_dbl. eapply ret_then with (a := (Some (if b then x else f64_nan), b)); [|reflexivity]. unfold read_key_opt_double. destruct b.
  - apply key_opt_ok. unfold read_key_double. apply ret_call. now rewrite H.
  - apply key_opt_missing. unfold read_key_double. now rewrite H.
Qed.
Lemma corrname_ok s :
  find_key "CORRNAME" (hd_keys h) = (if nonempty s then Some (KStr s) else None) ->
  returns (read_corrname E h true) (s, nonempty s).
Proof.
  intros H. unfold read_corrname. eapply ret_bind; [apply opt_string_ok; exact H|].
  cbn [fst snd slot]. destruct s; reflexivity.
Qed.
End Keys.
Lemma find_keys E k ty l c n :
  str_eqb "CHECKSUM" k = false -> str_eqb "DATASUM" k = false ->
  find_key k (hd_keys (sums E (mk_hdu ty (mkkeys l) c n))) = lookup k l.
Proof. intros H1 H2. rewrite find_sums by assumption. apply find_mkkeys. Qed.

(** ** Columns *)

Definition same_name {R} (name : string) (s : cspec R) : bool :=
  str_eqb (upper (cs_name s)) (upper name).
(** the only column of that name *)
Definition picks {R} (specs : list (cspec R)) (name : string) (s : cspec R) : Prop :=
  filter (same_name name) specs = [s].
Definition lacks {R} (specs : list (cspec R)) (name : string) : Prop :=
  filter (same_name name) specs = [].

Lemma convert_all_map {A} (conv : value -> A + Z) (f : A -> value) l :
  (forall a, conv (f a) = inl a) -> convert_all conv (map f l) = inl l.
Proof. intros H. induction l as [|a l IH]; [reflexivity|]. cbn. now rewrite H, IH. Qed.

Lemma read_whole {A} (conv : value -> A + Z) h name k c n l :
  find_cols name 1 (hd_cols h) = [k] -> nth_col k h = Some c ->
  Z.of_nat (List.length (c_data c)) = n -> convert_all conv (c_data c) = inl l ->
  returns (celln conv h name 1 n) (Some l).
Proof.
  intros Hf Hc Hn Hl. unfold celln. eapply ret_bind; [unfold get_colnum; rewrite Hf; reflexivity|].
  unfold read_col. rewrite Hc. apply ret_call.
  replace ((1 - 1) * per_row (c_form c)) with 0 by lia. cbn [Z.to_nat skipn Z.of_nat].
  destruct (Z.ltb_spec 1 1); [lia|]. destruct (Z.ltb_spec n 0); [lia|].
  destruct (Z.ltb_spec (Z.of_nat (List.length (c_data c))) (0 + n)); [lia|]. cbn [orb].
  rewrite firstn_all2 by lia. exact Hl.
Qed.

Section Columns.
Context {R : Type}.
Variables (E : cfitsio) (h : hdu) (recs : list R) (specs : list (cspec R)).
Hypothesis Hcols : hd_cols h = map (scol recs) specs.
Hypothesis Hwidth : Forall (fun s => forall r, In r recs ->
  Z.of_nat (List.length (cs_val s r)) = per_row (cs_form s)) specs.

Lemma find_cols_lacks name i l : lacks l name -> find_cols name i (map (scol recs) l) = [].
Proof using.
  unfold lacks. revert i. induction l as [|s l IH]; intros i; [reflexivity|].
  cbn [filter map find_cols scol c_name]. unfold same_name at 1.
  destruct (str_eqb (upper (cs_name s)) (upper name)); [discriminate|]. intros H. now apply IH.
Qed.
Lemma find_cols_picks name s l : forall i, picks l name s ->
  exists n, find_cols name i (map (scol recs) l) = [i + Z.of_nat n]
            /\ nth_error (map (scol recs) l) n = Some (scol recs s).
Proof using.
  unfold picks. induction l as [|s' l IH]; intros i; [discriminate|].
  cbn [filter map find_cols scol c_name]. unfold same_name at 1.
  destruct (str_eqb (upper (cs_name s')) (upper name)) eqn:He.
  - intros H. injection H as -> Hl. exists O. cbn [nth_error]. split; [|reflexivity].
    rewrite find_cols_lacks by exact Hl. f_equal. lia.
  - intros H. destruct (IH (i + 1) H) as (n & Hf & Hn). exists (Datatypes.S n). cbn [nth_error].
    split; [|exact Hn]. rewrite Hf. f_equal. lia.
Qed.
Lemma col_found name s : picks specs name s ->
  exists k, find_cols name 1 (hd_cols h) = [k] /\ nth_col k h = Some (scol recs s).
Proof using Hcols.
  intros H. destruct (find_cols_picks name s specs 1 H) as (n & Hf & Hn).
  exists (1 + Z.of_nat n). rewrite Hcols. split; [exact Hf|]. unfold nth_col.
  destruct (Z.ltb_spec (1 + Z.of_nat n) 1); [lia|].
  replace (Z.to_nat (1 + Z.of_nat n - 1)) with n by lia. now rewrite Hcols.
Qed.
Lemma col_missing name : lacks specs name -> get_colnum h name 0 = Ok (None, COL_NOT_FOUND).
Proof using Hcols.
  intros H. unfold get_colnum. rewrite Hcols, find_cols_lacks by exact H. reflexivity.
Qed.

Lemma colnum_missing {A} name (F : option Z -> Z -> rd A) b :
  lacks specs name -> F None COL_NOT_FOUND COL_NOT_FOUND = Ok (b, 0) ->
  returns (k <~ get_colnum h name ;~ st <~ get_status ;~ F k st) b.
Proof using Hcols.
  intros H HF. unfold returns, rbind at 1. rewrite col_missing by exact H. exact HF.
Qed.
Lemma colnum_found {A} name (F : option Z -> Z -> rd A) s b :
  picks specs name s ->
  (forall k, nth_col k h = Some (scol recs s) -> returns (F (Some k) 0) b) ->
  returns (k <~ get_colnum h name ;~ st <~ get_status ;~ F k st) b.
Proof using Hcols.
  intros H HF. destruct (col_found name s H) as (k & Hf & Hk).
  eapply ret_bind; [unfold get_colnum; rewrite Hf; reflexivity|].
  eapply ret_bind; [apply ret_status|]. now apply HF.
Qed.

Lemma flat_map_length w (f : R -> list value) l :
  (forall r, In r l -> Z.of_nat (List.length (f r)) = w) ->
  Z.of_nat (List.length (flat_map f l)) = Z.of_nat (List.length l) * w.
Proof using.
  intros H. induction l as [|r l IH]; [reflexivity|]. cbn [flat_map List.length].
  rewrite app_length. specialize (H r (or_introl eq_refl)) as Hr.
  assert (IH' := IH (fun r' Hi => H r' (or_intror Hi))). lia.
Qed.

Variables (pre : list R) (r : R) (post : list R).
Hypothesis Hsplit : recs = pre ++ r :: post.
Let irow := Z.of_nat (List.length pre) + 1.

Lemma read_cell {A} (conv : value -> A + Z) k s n l :
  In s specs -> nth_col k h = Some (scol recs s) -> 0 <= n <= per_row (cs_form s) ->
  convert_all conv (firstn (Z.to_nat n) (cs_val s r)) = inl l ->
  returns (read_col conv h (Some k) irow n) (Some l).
Proof using Hcols Hwidth Hsplit.
  intros Hs Hk Hn Hl. rewrite Forall_forall in Hwidth. specialize (Hwidth s Hs).
  unfold read_col. rewrite Hk. apply ret_call. cbn [scol c_form c_data].
  set (w := per_row (cs_form s)) in *.
  assert (Hpre : Z.of_nat (List.length (flat_map (cs_val s) pre)) = Z.of_nat (List.length pre) * w).
  { apply flat_map_length. intros r' Hr. apply Hwidth. rewrite Hsplit. apply in_or_app. now left. }
  assert (Hr : Z.of_nat (List.length (cs_val s r)) = w).
  { apply Hwidth. rewrite Hsplit. apply in_or_app. right. now left. }
  replace (Z.to_nat ((irow - 1) * w)) with (List.length (flat_map (cs_val s) pre)) by (unfold irow; lia).
  rewrite Hsplit, flat_map_app. cbn [flat_map].
  destruct (Z.ltb_spec irow 1); [unfold irow in *; lia|]. destruct (Z.ltb_spec n 0); [lia|].
  rewrite app_length, app_length.
  match goal with |- context [(?a <? ?b)%Z] => destruct (Z.ltb_spec a b); [lia|] end. cbn [orb].
  rewrite skipn_app, skipn_all, Nat.sub_diag, skipn_O. cbn [app].
  rewrite firstn_app. replace (Z.to_nat n - List.length (cs_val s r))%nat with O by lia.
  rewrite firstn_O, app_nil_r. exact Hl.
Qed.
Lemma picks_in name s : picks specs name s -> In s specs.
Proof using.
  unfold picks. intros H. assert (Hi : In s (filter (same_name name) specs)) by (rewrite H; now left).
  apply filter_In in Hi. apply Hi.
Qed.
Lemma celln_ok {A} (conv : value -> A + Z) name s n l :
  picks specs name s -> 0 <= n <= per_row (cs_form s) ->
  convert_all conv (firstn (Z.to_nat n) (cs_val s r)) = inl l ->
  returns (celln conv h name irow n) (Some l).
Proof using Hcols Hwidth Hsplit.
  intros Hp Hn Hl. destruct (col_found name s Hp) as (k & Hf & Hk). unfold celln.
  eapply ret_bind; [unfold get_colnum; rewrite Hf; reflexivity|].
  eapply read_cell; eauto. eapply picks_in; eauto.
Qed.
Lemma cell1_ok {A} (conv : value -> A + Z) name s v a :
  picks specs name s -> cs_val s r = [v] -> conv v = inl a ->
  returns (cell1 conv h name irow) (Some a).
Proof using Hcols Hwidth Hsplit.
  intros Hp Hv Ha. assert (Hw : per_row (cs_form s) = 1).
  { rewrite Forall_forall in Hwidth. rewrite <- (Hwidth s (picks_in _ _ Hp) r); [now rewrite Hv|].
    rewrite Hsplit. apply in_or_app. right. now left. }
  destruct (col_found name s Hp) as (k & Hf & Hk). unfold cell1.
  eapply ret_bind; [unfold get_colnum; rewrite Hf; reflexivity|].
  eapply ret_then with (a := Some [a]); [|reflexivity].
  eapply read_cell; [eapply picks_in; eauto|exact Hk|lia|].
  rewrite Hv. change (Z.to_nat 1) with 1%nat. cbn [firstn convert_all]. now rewrite Ha.
Qed.
Lemma int_at_ok name s z :
  picks specs name s -> cs_val s r = [VInt z] -> returns (int_at E h name irow) z.
Proof using Hcols Hwidth Hsplit.
  intros Hp Hv. unfold int_at. eapply ret_bind; [eapply cell1_ok; eauto; reflexivity|]. reflexivity.
Qed.
Lemma dbl_at_ok name s x :
  picks specs name s -> cs_val s r = [VDbl x] -> returns (dbl_at E h name irow) x.
Proof using Hcols Hwidth Hsplit.
  intros Hp Hv. unfold dbl_at. eapply ret_bind; [eapply cell1_ok; eauto; reflexivity|]. reflexivity.
Qed.
Lemma flt_at_ok name s x :
  picks specs name s -> cs_val s r = [VFlt x] -> returns (flt_at E h name irow) x.
Proof using Hcols Hwidth Hsplit.
  intros Hp Hv. unfold flt_at. eapply ret_bind; [eapply cell1_ok; eauto; reflexivity|]. reflexivity.
Qed.
Lemma whole_row {A} (conv : value -> A + Z) (f : A -> value) name s n l :
  picks specs name s -> per_row (cs_form s) = n -> cs_val s r = map f l ->
  (forall a, conv (f a) = inl a) -> returns (celln conv h name irow n) (Some l).
Proof using Hcols Hwidth Hsplit.
  intros Hp Hw Hv Hc. assert (Hl : Z.of_nat (List.length l) = n).
  { rewrite Forall_forall in Hwidth. rewrite <- Hw, <- (Hwidth s (picks_in _ _ Hp) r).
    - rewrite Hv, map_length. reflexivity.
    - rewrite Hsplit. apply in_or_app. right. now left. }
  eapply celln_ok; [exact Hp|lia|]. rewrite Hv, firstn_all2 by (rewrite map_length; lia).
  now apply convert_all_map.
Qed.
Lemma dbls_at_ok name s n l :
  picks specs name s -> per_row (cs_form s) = n -> cs_val s r = map VDbl l ->
  returns (dbls_at E h name irow n) l.
Proof using Hcols Hwidth Hsplit.
  intros Hp Hw Hv. unfold dbls_at. eapply ret_bind; [eapply whole_row; eauto; reflexivity|]. reflexivity.
Qed.
Lemma ints_at_ok name s n l :
  picks specs name s -> per_row (cs_form s) = n -> cs_val s r = map VInt l ->
  returns (ints_at E h name irow n) l.
Proof using Hcols Hwidth Hsplit.
  intros Hp Hw Hv. unfold ints_at. eapply ret_bind; [eapply whole_row; eauto; reflexivity|]. reflexivity.
Qed.
Lemma bools_at_ok name s n l :
  picks specs name s -> per_row (cs_form s) = n -> cs_val s r = map VLog l ->
  returns (bools_at E h name irow n) l.
Proof using Hcols Hwidth Hsplit.
  intros Hp Hw Hv. unfold bools_at. eapply ret_bind; [eapply whole_row; eauto; reflexivity|]. reflexivity.
Qed.
Lemma pair_at_ok name s a b :
  picks specs name s -> per_row (cs_form s) = 2 -> cs_val s r = [VInt a; VInt b] ->
  returns (pair_at E h name irow) (a, b).
Proof using Hcols Hwidth Hsplit.
  intros Hp Hw Hv. unfold pair_at. eapply ret_bind; [eapply (ints_at_ok name s 2 [a; b]); eauto|]. reflexivity.
Qed.
Lemma triple_at_ok name s a b c :
  picks specs name s -> per_row (cs_form s) = 3 -> cs_val s r = [VInt a; VInt b; VInt c] ->
  returns (triple_at E h name irow) (a, b, c).
Proof using Hcols Hwidth Hsplit.
  intros Hp Hw Hv. unfold triple_at. eapply ret_bind; [eapply (ints_at_ok name s 3 [a; b; c]); eauto|]. reflexivity.
Qed.
Lemma column_number_ok optional name k s (b : string) :
  picks specs name s ->
  (forall c, nth_col c h = Some (scol recs s) -> returns (k c) (Some b, true)) ->
  returns (column_number h optional name k) (Some b, true).
Proof using Hcols.
  intros Hp Hk. destruct (col_found name s Hp) as (c & Hf & Hc). unfold column_number.
  eapply ret_bind; [apply ret_status|]. cbn [Z.eqb negb].
  eapply ret_bind; [unfold get_colnum; rewrite Hf; reflexivity|].
  eapply ret_bind; [apply ret_status|]. cbn. now apply Hk.
Qed.
Lemma col_string_ok optional name s w t :
  picks specs name s -> fm_kind (cs_form s) = Chars -> fm_repeat (cs_form s) <= w ->
  cs_val s r = [VStr t] -> returns (read_col_string h optional name w irow) (Some t, true).
Proof using Hcols Hwidth Hsplit.
  intros Hp Hk Hw Hv. unfold read_col_string. apply column_number_ok with (s := s); [exact Hp|].
  intros c Hc. eapply ret_bind; [unfold get_coltype; rewrite Hc; reflexivity|].
  cbn [scol c_form]. rewrite Hk. destruct (Z.ltb_spec w (fm_repeat (cs_form s))); [lia|].
  eapply ret_bind.
  - eapply read_cell; [eapply picks_in; eauto|exact Hc| |].
    + unfold per_row. rewrite Hk. lia.
    + rewrite Hv. reflexivity.
  - reflexivity.
Qed.
Lemma str_at_ok name s w t :
  picks specs name s -> fm_kind (cs_form s) = Chars -> fm_repeat (cs_form s) <= w ->
  cs_val s r = [VStr t] -> returns (str_at E h name w irow) t.
Proof using Hcols Hwidth Hsplit.
  intros Hp Hk Hw Hv. unfold str_at. eapply ret_bind; [eapply col_string_ok; eauto|]. reflexivity.
Qed.
Lemma str_trunc_at_ok name s w t :
  picks specs name s -> fm_kind (cs_form s) = Chars -> 0 <= fm_repeat (cs_form s) -> strlen t <= w ->
  cs_val s r = [VStr t] -> returns (str_trunc_at E h name w irow) t.
Proof using Hcols Hwidth Hsplit.
  intros Hp Hk H0 Hw Hv. unfold str_trunc_at. eapply ret_bind.
  - unfold read_col_string_truncate. apply column_number_ok with (s := s) (b := t); [exact Hp|].
    intros c Hc. eapply ret_bind; [unfold get_coltype; rewrite Hc; reflexivity|].
    cbn [scol c_form]. rewrite Hk. eapply ret_bind; [apply ret_malloc; lia|].
    eapply ret_bind.
    + eapply read_cell; [eapply picks_in; eauto|exact Hc| |].
      * unfold per_row. rewrite Hk. lia.
      * rewrite Hv. reflexivity.
    + cbn [ReadModel.one option_map]. rewrite substring_all by (unfold strlen in *; lia). reflexivity.
  - reflexivity.
Qed.
Lemma cplxs_at_ok name s n l :
  picks specs name s -> per_row (cs_form s) = 2 * n -> 0 <= n ->
  cs_val s r = map VFlt (flat_map (fun c : cplx => [fst c; snd c]) l) ->
  returns (cplxs_at E h name irow n) (misread E n l).
Proof using Hcols Hwidth Hsplit.
  intros Hp Hw Hn Hv. unfold cplxs_at, dbls_at. eapply ret_bind; [eapply ret_bind|].
  - eapply celln_ok with (l := map to_f64 (firstn (Z.to_nat n) (flat_map (fun c : cplx => [fst c; snd c]) l)));
      [exact Hp|lia|].
    rewrite Hv, firstn_map. generalize (firstn (Z.to_nat n) (flat_map (fun c : cplx => [fst c; snd c]) l)).
    intros m. induction m as [|x m IH]; [reflexivity|]. cbn. now rewrite IH.
  - reflexivity.
  - reflexivity.
Qed.
End Columns.

Lemma dimensions_ok {R} E h (recs : list R) specs name s n :
  hd_cols h = map (scol recs) specs -> hd_type h = BINARY_TBL -> hd_nrows h = n ->
  picks specs name s ->
  exists k, returns (dimensions E h name) (n, fm_repeat (cs_form s), k)
            /\ nth_col k h = Some (scol recs s).
Proof.
  intros Hc Ht Hn Hp. destruct (col_found h recs specs Hc name s Hp) as (k & Hf & Hk).
  exists k. split; [|exact Hk]. unfold dimensions, get_num_rows. rewrite Ht.
  eapply ret_bind; [reflexivity|].
  eapply ret_bind; [unfold get_colnum; rewrite Hf; reflexivity|].
  eapply ret_bind; [unfold get_coltype; rewrite Hk; reflexivity|]. cbn. now rewrite Hn.
Qed.
