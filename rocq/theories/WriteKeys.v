(** The keywords and TIME columns of whatever write_oi_fits writes, for tables that may
    not fit in FITS. *)
From Coq Require Import Lia.
From Verif Require Import BaseLemmas FileProofs WriteModel FitsRows WriteTables KeySpec.
Open Scope list_scope.
Open Scope Z_scope.

Definition at_last (pre : list hdu) (h : hdu) : fitsfile :=
  mk_file (pre ++ [h]) (Z.of_nat (List.length pre) + 1).
(** [a] changes the last HDU of the file only; if it succeeds, from [P] to [Q] *)
Definition acts (a : wstate -> res wstate) (P Q : hdu -> Prop) : Prop :=
  forall pre h st f' st', a (at_last pre h, st) = Ok (f', st') ->
    exists h', f' = at_last pre h' /\ (st' = 0 -> st = 0 /\ (P h -> Q h')).

Lemma acts_seq a b P Q R : acts a P Q -> acts b Q R -> acts (a ;> b) P R.
Proof.
  intros Ha Hb pre h st f' st' H. unfold seq_ in H. apply bind_inv in H as ((f1, st1) & H1 & H2).
  apply Ha in H1 as (h1 & -> & H1). apply Hb in H2 as (h2 & -> & H2).
  exists h2. split; [reflexivity|]. intros H0. apply H2 in H0 as [H0 HQ]. apply H1 in H0 as [H0 HP]. auto.
Qed.
Lemma acts_skip P : acts skip_ P P.
Proof. intros pre h st f' st' [= <- <-]. eauto. Qed.
Lemma acts_when b a P : acts a P P -> acts (when b a) P P.
Proof. intros H. destruct b; [exact H|apply acts_skip]. Qed.
Lemma at_nth_last {A} (f : A -> A) pre h :
  at_nth (List.length pre) f (pre ++ [h]) = pre ++ [f h].
Proof. induction pre as [|x pre IH]; [reflexivity|]. cbn [List.length app at_nth]. now rewrite IH. Qed.
Lemma chdu_at_last pre h : chdu (at_last pre h) = Some h.
Proof.
  unfold chdu, at_last. cbn [f_cur f_hdus]. destruct (Z.ltb_spec (Z.of_nat (List.length pre) + 1) 1); [lia|].
  replace (Z.to_nat (Z.of_nat (List.length pre) + 1 - 1)) with (List.length pre) by lia.
  rewrite nth_error_app2 by lia. now rewrite Nat.sub_diag.
Qed.
Lemma put_at_last pre h h' : put_hdu (Z.of_nat (List.length pre) + 1) h' (at_last pre h) = at_last pre h'.
Proof.
  unfold put_hdu, at_last. cbn [f_hdus f_cur]. f_equal.
  replace (Z.to_nat (Z.of_nat (List.length pre) + 1 - 1)) with (List.length pre) by lia. apply at_nth_last.
Qed.
Lemma acts_op op (P Q : hdu -> Prop) :
  (forall h h', op h = (h', 0) -> P h -> Q h') -> acts (on_chdu op) P Q.
Proof.
  intros H pre h st f' st' He. unfold on_chdu in He. destruct (Z.eqb_spec st 0) as [->|Hn]; cbn [negb] in He.
  - rewrite chdu_at_last in He. destruct (op h) as [h' e] eqn:Ho. injection He as <- <-.
    exists h'. split; [apply put_at_last|]. intros ->. split; [reflexivity|]. now apply H.
  - injection He as <- <-. exists h. split; [reflexivity|]. congruence.
Qed.

(** ** What is kept *)

Lemma find_app k l l' :
  find_key k (l ++ l') = match find_key k l with Some v => Some v | None => find_key k l' end.
Proof. induction l as [|[k' v] l IH]; [reflexivity|]. cbn [app find_key]. now destruct (str_eqb k' k). Qed.

Section State.
Variables (E : cfitsio) (name : string) (time : bool).
Lemma state_add rv ev k v :
  str_eqb k "OI_REVN" = false -> str_eqb k "EXTVER" = false ->
  forall h, state name rv ev time h -> state name rv ev time (add_key k v h).
Proof.
  intros H1 H2 h (S1 & S2 & S3 & S4 & S5). unfold state, add_key, with_keys. cbn [hd_type hd_keys].
  rewrite !find_app, S2, S3, S4. cbn [find_key]. rewrite H1, H2.
  repeat split; [exact S1|now destruct rv|now destruct ev|exact S5].
Qed.
Lemma acts_str rv ev k v : str_eqb k "OI_REVN" = false -> str_eqb k "EXTVER" = false ->
  acts (write_key_str k v) (state name rv ev time) (state name rv ev time).
Proof. intros H1 H2. apply acts_op. intros h h' [= <-]. now apply state_add. Qed.
Lemma acts_int rv ev k v : str_eqb k "OI_REVN" = false -> str_eqb k "EXTVER" = false ->
  acts (write_key_int k v) (state name rv ev time) (state name rv ev time).
Proof. intros H1 H2. apply acts_op. intros h h' [= <-]. now apply state_add. Qed.
Lemma acts_double rv ev k v : str_eqb k "OI_REVN" = false -> str_eqb k "EXTVER" = false ->
  acts (write_key_double E k v) (state name rv ev time) (state name rv ev time).
Proof.
  intros H1 H2. apply acts_op. intros h h'. destruct (cf_key_double E v); intros [= <-]. now apply state_add.
Qed.
Lemma acts_revn ev rv : acts (write_key_int "OI_REVN" rv) (state name None ev time) (state name (Some rv) ev time).
Proof.
  apply acts_op. intros h h' [= <-] (S1 & S2 & S3 & S4 & S5). unfold state, add_key, with_keys.
  cbn [hd_type hd_keys]. rewrite !find_app, S2, S3, S4. cbn. repeat split; [exact S1|now destruct ev|exact S5].
Qed.
Lemma acts_extver rv ev : acts (write_key_int "EXTVER" ev) (state name rv None time) (state name rv (Some ev) time).
Proof.
  apply acts_op. intros h h' [= <-] (S1 & S2 & S3 & S4 & S5). unfold state, add_key, with_keys.
  cbn [hd_type hd_keys]. rewrite !find_app, S2, S3, S4. cbn. repeat split; [exact S1|now destruct rv|exact S5].
Qed.
Lemma acts_chksum rv ev : acts (fits_write_chksum E) (state name rv ev time) (state name rv ev time).
Proof.
  apply acts_op. intros h h' Hh (S1 & S2 & S3 & S4 & S5).
  assert (Hs : h' = sums E h). { unfold sums. destruct (cf_sums E h). now injection Hh as <-. }
  subst h'. destruct (sums_rest E h) as (R1 & R2 & R3).
  unfold state. rewrite !find_sums by reflexivity. rewrite R1. repeat split; try assumption.
  intros Ht. destruct (S5 Ht) as (c0 & c1 & rest & Hc & Hr). exists c0, c1, rest. now rewrite R2.
Qed.

(** changes of the columns *)
Lemma state_cols rv ev h h' :
  hd_type h' = hd_type h -> hd_keys h' = hd_keys h -> (time_zero h -> time_zero h') ->
  state name rv ev time h -> state name rv ev time h'.
Proof.
  intros H1 H2 H3 (S1 & S2 & S3 & S4 & S5). unfold state. rewrite H1, H2. repeat split; auto.
Qed.

Lemma zeros_double n : Forall (fun v => v = VDbl f64_zero) (zeros (mk_form Double 1) n).
Proof. unfold zeros. cbn [fm_kind zero_value]. apply Forall_forall. intros v Hv. now apply repeat_spec in Hv. Qed.
Lemma extend_time n h : time_zero h -> time_zero (extend_rows n h).
Proof.
  intros H. unfold extend_rows. destruct (n <=? hd_nrows h); [exact H|].
  destruct H as (c0 & c1 & rest & Hc & Hn & Hf & Hz & Ho). unfold time_zero. cbn [hd_cols]. rewrite Hc. cbn [map].
  do 3 eexists. split; [reflexivity|]. unfold extend_col at 1 2 3. cbn [with_data c_name c_form c_data].
  split; [exact Hn|]. split; [exact Hf|]. split.
  - apply Forall_app. split; [exact Hz|]. rewrite Hf. apply zeros_double.
  - inversion Ho as [|? ? Ho1 Ho2]. constructor; [exact Ho1|]. apply Forall_map. exact Ho2.
Qed.
Lemma Forall_firstn_ {A} (P : A -> Prop) n l : Forall P l -> Forall P (firstn n l).
Proof. intros H. revert n. induction H; intros [|n]; cbn; auto. Qed.
Lemma Forall_skipn_ {A} (P : A -> Prop) n l : Forall P l -> Forall P (skipn n l).
Proof. intros H. revert n. induction H; intros [|n]; cbn; auto. Qed.
Lemma Forall_at_nth {A} (P : A -> Prop) (f : A -> A) n l :
  (forall a, P a -> P (f a)) -> Forall P l -> Forall P (at_nth n f l).
Proof. intros Hf H. revert n. induction H; intros [|n]; cbn; auto. Qed.
(** the values written to the second column are zero *)
Definition ok_cell (kv : Z * res (list value)) : Prop :=
  time = true -> fst kv <> 2 \/ snd kv = Ok [VDbl f64_zero].
Lemma acts_col rv ev k irow vs :
  (time = true -> k <> 2 \/ vs = [VDbl f64_zero]) ->
  acts (fits_write_col k irow vs) (state name rv ev time) (state name rv ev time).
Proof.
  intros Hv. apply acts_op. intros h h' Hw HS. unfold write_col in Hw.
  destruct (nth_col k h) as [c|] eqn:Hk; [|injection Hw; discriminate].
  destruct vs as [|v vs]; [injection Hw as <-; exact HS|].
  destruct (per_row (c_form c) <? 1); [injection Hw; discriminate|].
  injection Hw as <- _. 
  set (h1 := extend_rows _ h). 
  assert (T1 : hd_type h1 = hd_type h) by (unfold h1, extend_rows; now destruct (_ <=? _)).
  assert (T2 : hd_keys h1 = hd_keys h) by (unfold h1, extend_rows; now destruct (_ <=? _)).
  assert (HS' : state name rv ev time h1).
  { eapply state_cols; [exact T1|exact T2|apply extend_time|exact HS]. }
  destruct time eqn:Ht.
  2:{ destruct HS' as (S1 & S2 & S3 & S4 & _). unfold state. cbn [hd_type hd_keys]. repeat split; auto. discriminate. }
  specialize (Hv eq_refl).
  destruct HS' as (S1 & S2 & S3 & S4 & S5). unfold state. cbn [hd_type hd_keys].
  do 4 (split; [assumption|]). intros _. destruct (S5 eq_refl) as (c0 & c1 & rest & Hc & Hn & Hf & Hz & Ho).
  unfold time_zero. cbn [hd_cols]. rewrite Hc. inversion Ho as [|? ? Ho1 Ho2].
  unfold nth_col in Hk. destruct (Z.ltb_spec k 1); [discriminate|].
  destruct (Z.to_nat (k - 1)) as [|[|n]] eqn:Hkn; cbn [at_nth].
  - do 3 eexists. split; [reflexivity|]. repeat (split; [eassumption|]). now constructor.
  - destruct Hv as [Hv|Hv]; [exfalso; lia|]. injection Hv as -> ->.
    do 3 eexists. split; [reflexivity|]. cbn [with_data c_name c_form c_data].
    split; [exact Hn|]. split; [exact Hf|]. split; [|now constructor].
    assert (Hcf : c_form c = mk_form Double 1).
    { destruct HS as (_ & _ & _ & _ & HS). destruct (HS eq_refl) as (d0 & d1 & drest & Dc & _ & Df & _).
      rewrite Dc in Hk. cbn in Hk. congruence. }
    unfold put_values. apply Forall_app. split; [now apply Forall_firstn_|].
    constructor; [unfold store; now rewrite Hcf|].
    now apply Forall_skipn_.
  - do 3 eexists. split; [reflexivity|]. do 3 (split; [eassumption|]).
    constructor; [exact Ho1|]. apply Forall_at_nth; [|exact Ho2]. intros a Ha. exact Ha.
Qed.
Lemma acts_cells rv ev irow l : Forall ok_cell l ->
  acts (write_cells irow l) (state name rv ev time) (state name rv ev time).
Proof.
  intros Hl. induction Hl as [|kv l Hkv Hl IH].
  - intros pre h st f' st' [= <- <-]. eauto.
  - intros pre h st f' st' He. unfold write_cells in He. cbn [foreach] in He.
    apply bind_inv in He as (s1 & H1 & H2). apply bind_inv in H1 as (vs & Hvs & H1). destruct s1 as (f1, st1).
    assert (Ha : acts (fits_write_col (fst kv) irow vs) (state name rv ev time) (state name rv ev time)).
    { apply acts_col. intros Ht. destruct (Hkv Ht) as [H|H]; [now left|]. right. congruence. }
    apply Ha in H1 as (h1 & -> & H1). apply IH in H2 as (h2 & -> & H2). exists h2. split; [reflexivity|].
    intros H0. apply H2 in H0 as [H0 HQ]. apply H1 in H0 as [H0 HP]. auto.
Qed.
Lemma acts_rows {R} rv ev n (l : list R) cells : (forall r, Forall ok_cell (cells r)) ->
  acts (write_rows n l cells) (state name rv ev time) (state name rv ev time).
Proof.
  intros Hc. unfold write_rows. generalize 1 at 1 as irow. induction (Z.to_nat n) as [|m IH]; intros irow.
  - intros pre h st f' st' [= <- <-]. eauto.
  - intros pre h st f' st' He. cbn [for_from] in He. apply bind_inv in He as ((f1, st1) & H1 & H2).
    apply bind_inv in H1 as (r & _ & H1). apply (acts_cells rv ev irow (cells r) (Hc r)) in H1 as (h1 & -> & H1).
    apply IH in H2 as (h2 & -> & H2). exists h2. split; [reflexivity|].
    intros H0. apply H2 in H0 as [H0 HQ]. apply H1 in H0 as [H0 HP]. auto.
Qed.
Lemma acts_insert rv ev k l :
  (time = true -> 3 <= k /\ Forall (fun nf : string * form => fst nf <> "TIME"%string) l) ->
  acts (fits_insert_cols k l) (state name rv ev time) (state name rv ev time).
Proof.
  intros Hk. apply acts_op. intros h h' Hi HS. unfold insert_cols in Hi.
  destruct ((k <? 1) || _); [injection Hi; discriminate|]. injection Hi as <-.
  destruct (Bool.bool_dec time true) as [Ht|Ht].
  2:{ destruct HS as (S1 & S2 & S3 & S4 & _). unfold state. cbn [hd_type hd_keys]. repeat split; auto; congruence. }
  eapply state_cols; [..|exact HS]; [reflexivity|reflexivity|].
  destruct (Hk Ht) as [Hk3 Hl]. intros (c0 & c1 & rest & Hc & Hn & Hf & Hz & Ho).
  unfold time_zero. cbn [hd_cols]. rewrite Hc.
  destruct (Z.to_nat (k - 1)) as [|[|n]] eqn:Hkn; [lia|lia|]. cbn [firstn skipn app].
  do 3 eexists. split; [reflexivity|]. do 3 (split; [eassumption|]).
  inversion Ho as [|? ? Ho1 Ho2]. constructor; [exact Ho1|].
  apply Forall_app. split; [now apply Forall_firstn_|]. apply Forall_app. split; [|now apply Forall_skipn_].
  apply Forall_map. exact Hl.
Qed.
Lemma acts_on_col rv ev k f :
  (forall c, c_name (f c) = c_name c /\ c_form (f c) = c_form c /\ c_data (f c) = c_data c) ->
  acts (on_chdu (fun h => (on_col k f h, 0))) (state name rv ev time) (state name rv ev time).
Proof.
  intros Hf. apply acts_op. intros h h' [= <-]. apply state_cols; [reflexivity|reflexivity|].
  intros (c0 & c1 & rest & Hc & Hn & Hm & Hz & Ho). unfold time_zero, on_col. cbn [hd_cols]. rewrite Hc.
  destruct (k <? 1); [now exists c0, c1, rest|]. inversion Ho as [|? ? Ho1 Ho2].
  destruct (Z.to_nat (k - 1)) as [|[|n]]; cbn [at_nth]; do 3 eexists; (split; [reflexivity|]).
  - do 3 (split; [eassumption|]). destruct (Hf c0) as (E1 & _). constructor; [congruence|exact Ho2].
  - destruct (Hf c1) as (-> & -> & ->). do 3 (split; [assumption|]). now constructor.
  - do 3 (split; [eassumption|]). constructor; [exact Ho1|]. apply Forall_at_nth; [|exact Ho2].
    intros c Hc'. destruct (Hf c) as (E1 & _). congruence.
Qed.
Lemma acts_unit rv ev k u : acts (write_tunit k u) (state name rv ev time) (state name rv ev time).
Proof. apply acts_on_col. intros c. auto. Qed.
Lemma acts_dim rv ev k u : acts (write_tdim k u) (state name rv ev time) (state name rv ev time).
Proof. apply acts_on_col. intros c. auto. Qed.
End State.

(** ** Tables *)

(** [a] appends one HDU satisfying [Q] *)
Definition appends_one (a : wstate -> res wstate) (Q : hdu -> Prop) : Prop :=
  forall f st f' st', a (f, st) = Ok (f', st') -> st' = 0 ->
    st = 0 /\ exists h, f_hdus f' = f_hdus (with_primary f) ++ [h] /\ Q h.
Lemma make_tform_names {A} n (l : list (A * tmpl)) l' :
  make_tform n l = Ok l' -> map fst l' = map fst l.
Proof.
  revert l'. induction l as [|[a t] l IH]; intros l'; cbn [make_tform].
  - intros [= <-]. reflexivity.
  - intros H. apply bind_inv in H as (f & _ & H). apply bind_inv in H as (r & Hr & H). injection H as <-.
    cbn [map fst]. now rewrite (IH r).
Qed.
Lemma appends_table nwave cols name time body rv ev :
  (time = true -> forall l, make_tform nwave cols = Ok l ->
     time_zero (mk_hdu BINARY_TBL [("EXTNAME"%string, KStr name)]
       (map make_column (map (fun '(name, u, f) => (name, f, u)) l)) 0)) ->
  acts body (state name None None time) (state name rv ev time) ->
  appends_one (guarded (create_table nwave cols name ;> body)) (state name rv ev time).
Proof.
  intros Ht Hb f st f' st' H Hs. subst st'. unfold guarded in H. cbn [snd] in H.
  destruct (Z.eqb_spec st 0) as [->|Hn]; cbn [negb] in H; [|injection H as <- ->; congruence].
  split; [reflexivity|]. unfold seq_ in H. apply bind_inv in H as ((f1, st1) & H1 & H2).
  unfold create_table in H1. apply bind_inv in H1 as (l & Hl & H1). unfold fits_create_tbl in H1.
  cbn [Z.eqb negb] in H1. injection H1 as <- <-. fold (with_primary f) in H2.
  unfold append_hdu in H2. apply Hb in H2 as (h' & -> & H2). destruct (H2 eq_refl) as [_ HQ].
  exists h'. split; [reflexivity|]. apply HQ. unfold state. cbn [hd_type hd_keys]. repeat split.
  intros E1. now apply Ht.
Qed.

Lemma acts_complex name time rv ev nwave :
  acts (insert_complex nwave) (state name rv ev time) (state name rv ev time).
Proof.
  intros pre h st f' st' H. unfold insert_complex in H. apply bind_inv in H as (l & Hl & H).
  eapply acts_insert; [|exact H]. intros _. split; [lia|].
  apply Forall_forall. intros nf Hnf. apply make_tform_names in Hl.
  assert (Hi : In (fst nf) (map fst l)) by now apply in_map. rewrite Hl in Hi.
  cbn in Hi. intros He. rewrite He in Hi. repeat (destruct Hi as [Hi|Hi]; [discriminate|]). exact Hi.
Qed.
Ltac cells := repeat constructor; intros ?; first [discriminate|left; discriminate|now right].
Ltac act := first
  [ apply acts_when; act
  | apply acts_skip
  | apply acts_revn
  | apply acts_extver
  | apply acts_str; reflexivity
  | apply acts_int; reflexivity
  | apply acts_double; reflexivity
  | apply acts_chksum
  | apply acts_unit
  | apply acts_dim
  | apply acts_complex
  | apply acts_insert; intros _; split; [lia|repeat constructor; discriminate]
  | apply acts_insert; discriminate
  | apply acts_rows; intros ?; cells
  | apply acts_cells; cells
  | eapply acts_seq; [act|act] ].
Ltac first_row := intros _ l Hl; vm_compute in Hl.

Section Tables.
Variable E : cfitsio.
Lemma array_keys a ev :
  appends_one (write_oi_array E a ev) (state "OI_ARRAY" (Some 2) (Some ev) false).
Proof.
  apply appends_table; [discriminate|].
  assert (Hc : forall e, Forall (ok_cell false) (array_cells e)).
  { intros e. unfold array_cells. destruct (el_staxyz e) as ((x, y), z). cells. }
  do 7 (eapply acts_seq; [act|]). eapply acts_seq; [now apply acts_rows|act].
Qed.
Lemma target_keys t :
  appends_one (write_oi_target E t) (state "OI_TARGET" (Some 2) None false).
Proof. apply appends_table; [discriminate|act]. Qed.
Lemma wavelength_keys w ev :
  appends_one (write_oi_wavelength E w ev) (state "OI_WAVELENGTH" (Some 2) (Some ev) false).
Proof. apply appends_table; [discriminate|act]. Qed.
Lemma corr_keys c ev :
  appends_one (write_oi_corr E c ev) (state "OI_CORR" (Some 1) (Some ev) false).
Proof. apply appends_table; [discriminate|act]. Qed.
Lemma inspol_keys t ev :
  appends_one (write_oi_inspol E t ev) (state "OI_INSPOL" (Some 1) (Some ev) false).
Proof. apply appends_table; [discriminate|act]. Qed.

Lemma time_cols nwave name cols :
  map (fun nt => fst (fst nt)) cols = "TARGET_ID"%string :: "TIME"%string :: skipn 2 (map (fun nt => fst (fst nt)) cols) ->
  nth_error (map snd cols) 1 = Some D_ ->
  forallb (fun n => negb (str_eqb n "TIME")) (skipn 2 (map (fun nt => fst (fst nt)) cols)) = true ->
  forall l, make_tform nwave cols = Ok l ->
  time_zero (mk_hdu BINARY_TBL [("EXTNAME"%string, KStr name)]
       (map make_column (map (fun '(name, u, f) => (name, f, u)) l)) 0).
Proof.
  destruct cols as [|[[n0 u0] t0] [|[[n1 u1] t1] cols]]; try discriminate.
  cbn [map fst snd skipn nth_error]. intros [= -> ->] [= ->] Hr l Hl.
  cbn [make_tform] in Hl. apply bind_inv in Hl as (f0 & _ & Hl). apply bind_inv in Hl as (r & Hr1 & Hl).
  apply bind_inv in Hr1 as (f1 & H1 & Hr1). injection H1 as <-. apply bind_inv in Hr1 as (r2 & Hr2 & Hr1).
  injection Hr1 as <-. injection Hl as <-. apply make_tform_names in Hr2.
  unfold time_zero. cbn [hd_cols map]. do 3 eexists. split; [reflexivity|]. cbn [make_column c_name c_form c_data].
  repeat split; [constructor|]. constructor; [discriminate|]. rewrite !Forall_map. apply Forall_forall.
  intros [[n u] f] Hin. cbn [make_column c_name]. intros ->.
  assert (Hi : In "TIME"%string (map (fun nt : string * string * tmpl => fst (fst nt)) cols)).
  { rewrite <- (map_map fst fst), <- Hr2, map_map. now apply (in_map (fun x => fst (fst x))) in Hin. }
  rewrite forallb_forall in Hr. apply Hr in Hi. discriminate.
Qed.
Lemma vis_keys t ev : appends_one (write_oi_vis E t ev) (state "OI_VIS" (Some 2) (Some ev) true).
Proof.
  apply appends_table; [intros _; now apply time_cols|]. unfold write_oi_vis_opt. act.
Qed.
Lemma vis2_keys t ev : appends_one (write_oi_vis2 E t ev) (state "OI_VIS2" (Some 2) (Some ev) true).
Proof. apply appends_table; [intros _; now apply time_cols|act]. Qed.
Lemma t3_keys t ev : appends_one (write_oi_t3 E t ev) (state "OI_T3" (Some 2) (Some ev) true).
Proof. apply appends_table; [intros _; now apply time_cols|act]. Qed.
Lemma flux_keys t ev : appends_one (write_oi_flux E t ev) (state "OI_FLUX" (Some 1) (Some ev) false).
Proof. apply appends_table; [discriminate|act]. Qed.
End Tables.

(** ** The primary header and the whole file *)

Definition content (has : bool) (h : hdu) : Prop :=
  hd_type h = IMAGE_HDU
  /\ find_key "CONTENT" (hd_keys h) = if has then Some (KStr "OIFITS2") else None.
Section File.
Variable E : cfitsio.
Lemma content_other has k v : str_eqb k "CONTENT" = false ->
  acts (write_key_str k v) (content has) (content has).
Proof.
  intros Hk. apply acts_op. intros h h' [= <-] (H1 & H2). split; [exact H1|].
  unfold add_key, with_keys. cbn [hd_keys]. rewrite find_app, H2. destruct has; [reflexivity|].
  cbn [find_key]. now rewrite Hk.
Qed.
Lemma content_here : acts (write_key_str "CONTENT" "OIFITS2") (content false) (content true).
Proof.
  apply acts_op. intros h h' [= <-] (H1 & H2). split; [exact H1|].
  unfold add_key, with_keys. cbn [hd_keys]. now rewrite find_app, H2.
Qed.
Lemma content_date has : acts (fits_write_date E) (content has) (content has).
Proof.
  apply acts_op. intros h h' [= <-] (H1 & H2). destruct (update_key_rest "DATE" (KStr (cf_today E)) h) as (R1 & _).
  split; [congruence|]. now rewrite find_update_other.
Qed.
Lemma content_chksum has : acts (fits_write_chksum E) (content has) (content has).
Proof.
  apply acts_op. intros h h' Hh (H1 & H2).
  assert (Hs : h' = sums E h). { unfold sums. destruct (cf_sums E h). now injection Hh as <-. }
  subst h'. destruct (sums_rest E h) as (R1 & _). split; [congruence|]. now rewrite find_sums.
Qed.
Lemma header_keys hd f' : write_oi_header E hd (mk_file [] 0, 0) = Ok (f', 0) ->
  exists p, f_hdus f' = [p] /\ content true p.
Proof.
  intros H. unfold write_oi_header, guarded in H. cbn [snd Z.eqb negb] in H.
  unfold seq_ at 1 in H. cbn [fst f_hdus] in H. cbv beta iota in H. unfold fits_create_img at 1 in H.
  cbn [Z.eqb negb] in H. rewrite bind_Ok in H.
  change (append_hdu null_primary (mk_file [] 0)) with (at_last [] null_primary) in H.
  match type of H with ?a _ = _ => assert (Ha : acts a (content false) (content true)) end.
  { repeat (eapply acts_seq;
      [first [apply content_here|apply content_date|apply content_other; reflexivity
             |apply acts_when; apply content_other; reflexivity]|]). apply content_chksum. }
  apply Ha in H as (p & -> & H). exists p. split; [reflexivity|]. now apply H.
Qed.

Lemma seq_inv a b (s : wstate) r : (a ;> b) s = Ok r -> exists f st, a s = Ok (f, st) /\ b (f, st) = Ok r.
Proof. unfold seq_. intros H. apply bind_inv in H as ((f, st) & H1 & H2). eauto. Qed.
Lemma list_status {A} (w : A -> Z -> wstate -> res wstate) Q :
  (forall a ev, appends_one (w a ev) (Q ev)) ->
  forall l ev f st f', write_list w ev l (f, st) = Ok (f', 0) -> st = 0.
Proof.
  intros Hw. induction l as [|a l IH]; intros ev f st f' H.
  - now injection H.
  - cbn [write_list] in H. apply seq_inv in H as (f1 & st1 & H1 & H2). apply IH in H2. subst st1.
    exact (proj1 (Hw _ _ _ _ _ _ H1 eq_refl)).
Qed.

Lemma list_keys {A} (w : A -> Z -> wstate -> res wstate) name rv time :
  (forall a ev, appends_one (w a ev) (state name (Some rv) (Some ev) time)) ->
  forall l extver f st f' st', write_list w extver l (f, st) = Ok (f', st') -> st' = 0 -> f_hdus f <> [] ->
  st = 0 /\ exists hs, f_hdus f' = f_hdus f ++ hs /\ List.length hs = List.length l
    /\ forall i h, nth_error hs i = Some h -> state name (Some rv) (Some (extver + Z.of_nat i)) time h.
Proof.
  intros Hw. induction l as [|a l IH]; intros extver f st f' st' H Hs Hne.
  - injection H as <- <-. split; [exact Hs|]. exists []. rewrite app_nil_r. do 2 (split; [reflexivity|]).
    intros [|i] h Hn; discriminate.
  - cbn [write_list] in H. unfold seq_ in H. apply bind_inv in H as ((f1, st1) & H1 & H2).
    subst st'. pose proof (list_status _ _ Hw _ _ _ _ _ H2) as Hst.
    destruct (Hw _ _ _ _ _ _ H1 Hst) as [-> (h & Hf & Hh)]. split; [reflexivity|].
    unfold with_primary in Hf. destruct (f_hdus f) as [|h0 fs] eqn:Hfs; [congruence|]. rewrite ?Hfs in Hf.
    destruct (IH _ _ _ _ _ H2 eq_refl) as (_ & hs & Hf' & Hl & Hi).
    { rewrite Hf. discriminate. }
    exists (h :: hs). rewrite Hf', Hf. split; [now rewrite <- app_assoc|]. split; [cbn; now rewrite Hl|].
    intros [|i] h' Hn.
    + injection Hn as <-. now rewrite Z.add_0_r.
    + apply Hi in Hn. replace (extver + Z.of_nat (Datatypes.S i)) with (extver + 1 + Z.of_nat i) by lia. exact Hn.
Qed.
Lemma kind_keys {A} (w : A -> Z -> wstate -> res wstate) name rv time l f st f' :
  (forall a ev, appends_one (w a ev) (state name (Some rv) (Some ev) time)) ->
  write_list w 1 l (f, st) = Ok (f', 0) -> f_hdus f <> [] ->
  st = 0 /\ f_hdus f' <> [] /\ exists hs, f_hdus f' = f_hdus f ++ hs /\ kind_of_table name rv time (List.length l) hs.
Proof.
  intros Hw H Hne. destruct (list_keys _ _ _ _ Hw _ _ _ _ _ _ H eq_refl Hne) as (-> & hs & Hf & Hl & Hi).
  split; [reflexivity|]. split. { rewrite Hf. destruct (f_hdus f); [congruence|discriminate]. }
  exists hs. split; [exact Hf|]. split; [exact Hl|]. intros i h Hn. rewrite Z.add_comm. now apply Hi.
Qed.

Lemma tables_keys o f' : write_tables E o (mk_file [] 0, 0) = Ok (f', 0) -> version2 o (f_hdus f').
Proof.
  intros H. unfold write_tables in H.
  apply seq_inv in H as (f0 & s0 & H0 & H). apply seq_inv in H as (f1 & s1 & H1 & H).
  apply seq_inv in H as (f2 & s2 & H2 & H). apply seq_inv in H as (f3 & s3 & H3 & H).
  apply seq_inv in H as (f4 & s4 & H4 & H). apply seq_inv in H as (f5 & s5 & H5 & H).
  apply seq_inv in H as (f6 & s6 & H6 & H). apply seq_inv in H as (f7 & s7 & H7 & H).
  apply seq_inv in H as (f8 & s8 & H8 & H9).
  pose proof (list_status _ _ (flux_keys E) _ _ _ _ _ H9) as ->.
  pose proof (list_status _ _ (t3_keys E) _ _ _ _ _ H8) as ->.
  pose proof (list_status _ _ (vis2_keys E) _ _ _ _ _ H7) as ->.
  pose proof (list_status _ _ (vis_keys E) _ _ _ _ _ H6) as ->.
  pose proof (list_status _ _ (inspol_keys E) _ _ _ _ _ H5) as ->.
  pose proof (list_status _ _ (corr_keys E) _ _ _ _ _ H4) as ->.
  pose proof (list_status _ _ (wavelength_keys E) _ _ _ _ _ H3) as ->.
  pose proof (list_status _ _ (array_keys E) _ _ _ _ _ H2) as ->.
  destruct (target_keys E _ _ _ _ _ H1 eq_refl) as (-> & t & F1 & T).
  apply header_keys in H0 as (p & F0 & P1 & P2).
  unfold with_primary in F1. rewrite F0 in F1. rewrite F0 in F1. cbn [app] in F1.
  assert (N1 : f_hdus f1 <> []) by (rewrite F1; discriminate).
  destruct (kind_keys _ _ _ _ _ _ _ _ (array_keys E) H2 N1) as (_ & N2 & arrays & F2 & K2).
  destruct (kind_keys _ _ _ _ _ _ _ _ (wavelength_keys E) H3 N2) as (_ & N3 & waves & F3 & K3).
  destruct (kind_keys _ _ _ _ _ _ _ _ (corr_keys E) H4 N3) as (_ & N4 & corrs & F4 & K4).
  destruct (kind_keys _ _ _ _ _ _ _ _ (inspol_keys E) H5 N4) as (_ & N5 & inspols & F5 & K5).
  destruct (kind_keys _ _ _ _ _ _ _ _ (vis_keys E) H6 N5) as (_ & N6 & vis & F6 & K6).
  destruct (kind_keys _ _ _ _ _ _ _ _ (vis2_keys E) H7 N6) as (_ & N7 & vis2 & F7 & K7).
  destruct (kind_keys _ _ _ _ _ _ _ _ (t3_keys E) H8 N7) as (_ & N8 & t3 & F8 & K8).
  destruct (kind_keys _ _ _ _ _ _ _ _ (flux_keys E) H9 N8) as (_ & N9 & flux & F9 & K9).
  exists p, t, arrays, waves, corrs, inspols, vis, vis2, t3, flux.
  split. { rewrite F9, F8, F7, F6, F5, F4, F3, F2, F1. cbn [app]. now rewrite <- !app_assoc. }
  repeat (split; [assumption|]). assumption.
Qed.
Lemma file_keys name o d st d' : write_oi_fits E name o d st = Ok (d', 0) ->
  st = 0 /\ find_file name d = None /\ exists hdus, d' = (name, hdus) :: d /\ version2 o hdus.
Proof.
  unfold write_oi_fits. destruct (Z.eqb_spec st 0) as [->|Hn]; cbn [negb]; [|intros [= <- ->]; congruence].
  destruct (find_file name d) as [hs|] eqn:Hf; [discriminate|]. intros H.
  apply bind_inv in H as ((f, s) & H & He). cbn [fst snd] in He. injection He as <- ->.
  apply tables_keys in H. repeat split; eauto.
Qed.
End File.
