(** Each table written has its layout. *)
From Coq Require Import Lia Permutation.
From Verif Require Import BaseLemmas FileProofs WriteModel FitsRows WriteTables WriteKeys LayoutSpec
  LayoutProofs.
Open Scope list_scope.
Open Scope Z_scope.

(** ** Sizes of the values *)
Lemma take_length {A} n (l : list A) vs : take n l = Ok vs -> Z.of_nat (List.length vs) = n.
Proof.
  unfold take. destruct (Z.ltb_spec n 0); [discriminate|]. destruct (Z.ltb_spec (Z.of_nat (List.length l)) n);
    [discriminate|]. intros [= <-]. rewrite firstn_length. lia.
Qed.
Lemma sized_map {A} n (f : A -> value) (l : list A) : sized n (vs <- take n l ;; Ok (map f vs)).
Proof.
  intros vs H. apply bind_inv in H as (xs & Hx & H). injection H as <-. rewrite map_length.
  exact (take_length _ _ _ Hx).
Qed.
Lemma sized_dbls n l : sized n (dbls n l). Proof. apply sized_map. Qed.
Lemma sized_flts n l : sized n (flts n l). Proof. apply sized_map. Qed.
Lemma sized_ints_ n l : sized n (ints_ n l). Proof. apply sized_map. Qed.
Lemma sized_logs n l : sized n (logs n l). Proof. apply sized_map. Qed.
Lemma sized_cplxs n l : sized (2 * n) (cplxs n l).
Proof.
  intros vs H. unfold cplxs in H. apply bind_inv in H as (xs & Hx & H). injection H as <-.
  rewrite flat_map_pair_length. apply take_length in Hx. unfold cplx in *. lia.
Qed.
Lemma sized_opt {A} n (f : list A -> res (list value)) o :
  (forall l, sized n (f l)) -> sized n (opt f o).
Proof. intros H vs Hv. destruct o as [l|]; [exact (H l vs Hv)|discriminate]. Qed.
Lemma sized_after {A} n (c : res A) v : sized n v -> sized n (do c ;; v).
Proof. intros H vs Hv. apply bind_inv in Hv as (u & _ & Hv). now apply H. Qed.
Lemma sized_Ok n vs : Z.of_nat (List.length vs) = n -> sized n (Ok vs).
Proof. intros H ws [= <-]. exact H. Qed.
Ltac sz :=
  lazymatch goal with
  | |- sized _ (dbls ?n ?l) => exact (sized_dbls n l)
  | |- sized _ (logs ?n ?l) => exact (sized_logs n l)
  | |- sized _ (cplxs ?n ?l) => exact (sized_cplxs n l)
  | |- sized _ (opt (dbls ?n) ?o) => exact (sized_opt n (dbls n) o (sized_dbls n))
  | |- sized _ (opt (logs ?n) ?o) => exact (sized_opt n (logs n) o (sized_logs n))
  | |- sized _ (bind _ _) => apply sized_after; sz
  | |- sized _ _ => apply sized_Ok; reflexivity
  end.
Ltac fitc := eexists; split; [reflexivity|cbn [snd]; sz].
Ltac fitl := repeat (apply Forall_cons; [fitc|]); apply Forall_nil.
Ltac same := apply lay_rows_same; intros ?; fitl.
Ltac newrows := apply lay_rows_new; intros ?; do 3 eexists;
  split; [reflexivity|split; [fitc|fitl]].

(** ** The end of a table *)
Fixpoint distinct (l : list string) : bool :=
  match l with [] => true | s :: l' => negb (existsb (String.eqb s) l') && distinct l' end.
Lemma distinct_NoDup l : distinct l = true -> NoDup l.
Proof.
  induction l as [|s l IH]; [constructor|]. cbn [distinct]. intros H. apply andb_prop in H as [H1 H2].
  constructor; [|now apply IH]. intros Hin. apply Bool.negb_true_iff in H1.
  assert (Ht : existsb (String.eqb s) l = true) by (apply existsb_exists; exists s; split; [exact Hin|apply String.eqb_refl]).
  congruence.
Qed.
Lemma find_none k l : ~ In k (map fst l) -> find_key k l = None.
Proof.
  induction l as [|[k' v] l IH]; [reflexivity|]. cbn [map fst In find_key]. intros H.
  destruct (str_eqb k' k) eqn:He; [apply str_eqb_eq in He; tauto|]. apply IH. tauto.
Qed.

Section Tables.
Variable E : cfitsio.
Lemma key_names K l : Forall2 (key_is E) K l -> map fst l = map fst K.
Proof. induction 1 as [|e kv K l He _ IH]; [reflexivity|]. cbn [map]. destruct He as [-> _]. now rewrite IH. Qed.
Lemma sums_keys h : NoDup (map fst (hd_keys h) ++ ["CHECKSUM"%string; "DATASUM"%string]) ->
  hd_keys (sums E h) = hd_keys h ++ [("CHECKSUM"%string, fst (cf_sums E h)); ("DATASUM"%string, snd (cf_sums E h))].
Proof.
  intros Hn. unfold sums. destruct (cf_sums E h) as (c, d). cbn [fst snd].
  assert (Hc : ~ In "CHECKSUM"%string (map fst (hd_keys h))).
  { intros Hi. apply NoDup_remove_2 in Hn. apply Hn. apply in_or_app. now left. }
  assert (Hd : ~ In "DATASUM"%string (map fst (hd_keys h))).
  { intros Hi. apply NoDup_remove_1 in Hn. apply NoDup_remove_2 in Hn. apply Hn. apply in_or_app. now left. }
  unfold update_key at 2. rewrite (find_none _ _ Hc). unfold update_key.
  rewrite find_none.
  - unfold add_key, with_keys. cbn [hd_keys]. now rewrite <- app_assoc.
  - unfold add_key, with_keys. cbn [hd_keys]. rewrite map_app, in_app_iff. cbn. intros [H|[H|[]]]; [tauto|discriminate].
Qed.
Lemma lay_end name keys cols n K L :
  K = ("EXTNAME"%string, Text name) :: keys ->
  distinct (map fst K ++ ["CHECKSUM"%string; "DATASUM"%string]) = true ->
  Permutation cols L ->
  distinct (map (fun hd => upper (fst (fst (fst hd)))) L) = true ->
  acts (fits_write_chksum E) (lay E K L (Z.max 0 n)) (table E name keys cols n).
Proof.
  intros HK Hd Hp Hu. apply acts_op. intros h h' Hh (H1 & H2 & H3 & (H4 & H5) & H6).
  assert (Hs : h' = sums E h). { unfold sums. destruct (cf_sums E h). now injection Hh as <-. }
  subst h'. destruct (sums_rest E h) as (R1 & R2 & R3).
  apply distinct_NoDup in Hd. rewrite <- (key_names _ _ H2) in Hd.
  unfold table, keywords, columns, rectangular. rewrite R1, R2, R3, (sums_keys h Hd), map_app.
  split; [exact H1|]. split; [|split].
  - split; [|exact Hd]. do 3 eexists. split; [reflexivity|]. now rewrite <- HK.
  - split; [now rewrite H3|]. apply distinct_NoDup in Hu. rewrite <- H3, map_map in Hu. exact Hu.
  - now split.
Qed.
Lemma make_tform_forms n l l' : make_tform n l = Ok l' ->
  map heading_of (map make_column (map (fun '(name, u, f) => (name, f, u)) l')) = map (fun d => head_of_def d n) l.
Proof.
  revert l'. induction l as [|[[a u] t] l IH]; intros l'; cbn [make_tform].
  - intros [= <-]. reflexivity.
  - intros H. apply bind_inv in H as (f & Hf & H). apply bind_inv in H as (r & Hr & H). injection H as <-.
    cbn [map]. rewrite (IH r Hr). f_equal. unfold heading_of, make_column, head_of_def.
    cbn [c_name c_form c_unit c_dim]. destruct t as [k m|k]; cbn [make_form] in Hf.
    + now injection Hf as <-.
    + apply bind_inv in Hf as (? & _ & Hf). now injection Hf as <-.
Qed.
Lemma appends_layout nwave cols name body Q :
  card name = name ->
  acts body (lay E [("EXTNAME"%string, Text name)] (map (fun d => head_of_def d nwave) cols) 0) Q ->
  appends_one (guarded (create_table nwave cols name ;> body)) Q.
Proof.
  intros Hname Hb f st f' st' H Hs. subst st'. unfold guarded in H. cbn [snd] in H.
  destruct (Z.eqb_spec st 0) as [->|Hn]; cbn [negb] in H; [|injection H as <- ->; congruence].
  split; [reflexivity|]. unfold seq_ in H. apply bind_inv in H as ((f1, st1) & H1 & H2).
  unfold create_table in H1. apply bind_inv in H1 as (l & Hl & H1). unfold fits_create_tbl in H1.
  cbn [Z.eqb negb] in H1. injection H1 as <- <-. fold (with_primary f) in H2.
  unfold append_hdu in H2. apply Hb in H2 as (h' & -> & H2). destruct (H2 eq_refl) as [_ HQ].
  exists h'. split; [reflexivity|]. apply HQ. unfold lay, rectangular. cbn [hd_type hd_keys hd_cols hd_nrows].
  split; [reflexivity|]. split.
  { constructor; [|constructor]. split; [reflexivity|]. cbn [snd]. now rewrite Hname. }
  split; [now apply make_tform_forms|]. split; [|lia]. split; [reflexivity|]. rewrite !Forall_map.
  apply Forall_forall. intros [[a u] f0] _. reflexivity.
Qed.
Lemma lay_when K L N b e a :
  acts a (lay E K L N) (lay E (K ++ [e]) L N) -> acts (when b a) (lay E K L N) (lay E (K ++ kif b e) L N).
Proof. intros H. destruct b; [exact H|]. cbn [when kif]. rewrite app_nil_r. apply acts_skip. Qed.
Lemma given_nonempty s : nonempty s = given s.
Proof. now destruct s. Qed.
Lemma lay_complex K L N n :
  acts (insert_complex n) (lay E K L N)
    (lay E K (insert_heads 9 (map (fun a => (a, mk_form Double n)) ["RVIS"; "RVISERR"; "IVIS"; "IVISERR"]%string) L) N).
Proof.
  intros pre h st f' st' H. unfold insert_complex in H. apply bind_inv in H as (l & Hl & H).
  unfold complex_cols, nD in Hl. cbn [make_tform make_form] in Hl.
  destruct (assert_ (strlen (fmt_d n) + 1 <? 6)) as [[]| |]; cbn in Hl; try discriminate.
  injection Hl as <-. exact (lay_insert _ _ _ _ _ _ _ _ _ _ _ H).
Qed.
Ltac key := first [apply lay_str|apply lay_int|apply lay_double|apply lay_when; first [apply lay_str|apply lay_int|apply lay_double]].
Ltac keys := repeat (eapply acts_seq; [key|]).

Lemma array_layout a ev : appends_one (write_oi_array E a ev) (array_table E a ev).
Proof.
  apply appends_layout; [reflexivity|]. keys. eapply acts_seq; [apply lay_rows_new; intros e|].
  { unfold array_cells. destruct (el_staxyz e) as ((x, y), z). do 3 eexists.
    split; [reflexivity|split; [fitc|fitl]]. }
  apply lay_end; reflexivity.
Qed.
Lemma target_layout t : appends_one (write_oi_target E t) (target_table E t).
Proof.
  apply appends_layout; [reflexivity|]. keys. eapply acts_seq; [newrows|]. unfold target_table.
  destruct (ot_usecategory t); cbn [when].
  - eapply acts_seq; [eapply acts_seq; [apply lay_insert|same]|]. apply lay_end; reflexivity.
  - eapply acts_seq; [apply acts_skip|]. apply lay_end; reflexivity.
Qed.
Ltac whole s := apply lay_whole; [repeat constructor; eexists; (split; [reflexivity|]); (split; [reflexivity|]);
  cbn [snd]; s|now left|discriminate].
Lemma wavelength_layout w ev : appends_one (write_oi_wavelength E w ev) (wavelength_table E w ev).
Proof.
  apply appends_layout; [reflexivity|]. keys. eapply acts_seq; [whole ltac:(apply sized_flts)|].
  apply lay_end; reflexivity.
Qed.
Lemma corr_layout c ev : appends_one (write_oi_corr E c ev) (corr_table E c ev).
Proof.
  apply appends_layout; [reflexivity|]. keys.
  eapply acts_seq; [whole ltac:(first [apply sized_ints_|apply sized_dbls])|]. apply lay_end; reflexivity.
Qed.
Lemma inspol_layout t ev : appends_one (write_oi_inspol E t ev) (inspol_table E t ev).
Proof.
  apply appends_layout; [reflexivity|]. keys. eapply acts_seq; [newrows|]. apply lay_end; reflexivity.
Qed.

(** the columns of the goal, one at a time *)
Ltac perm :=
  repeat first
    [ apply Permutation_refl
    | apply perm_skip
    | lazymatch goal with
      | |- Permutation (?a :: ?l) ?m =>
          let rec go pre m :=
            lazymatch m with
            | a :: ?m' => apply (Permutation_cons_app pre m' a); cbn [app]
            | ?b :: ?m' => let pre' := eval cbn [app] in (pre ++ [b]) in go pre' m'
            end in
          go (@nil heading) m
      end ].
Ltac flat := cbv -[card fmt_d tb_nwave tb_x vx_ampunit vx_complexunit fx_fluxunit Z.mul String.append].
Ltac knames := cbn [kif]; repeat match goal with |- context [kif ?b _] => destruct b; cbn [kif] end; reflexivity.
Ltac finish := apply lay_end;
  [ rewrite <- !app_assoc; reflexivity | knames | try reflexivity | reflexivity ].
Lemma vis2_layout t ev : appends_one (write_oi_vis2 E t ev) (vis2_table E t ev).
Proof.
  apply appends_layout; [reflexivity|]. unfold vis2_table, data_keys, corrname_key.
  rewrite !given_nonempty. keys. eapply acts_seq; [newrows|].
  destruct (given (tb_corrname t)); cbn [when].
  - eapply acts_seq; [keys; eapply acts_seq; [apply lay_insert|same]|]. finish.
  - eapply acts_seq; [apply acts_skip|]. finish.
Qed.
Lemma t3_layout t ev : appends_one (write_oi_t3 E t ev) (t3_table E t ev).
Proof.
  apply appends_layout; [reflexivity|]. unfold t3_table, data_keys, corrname_key.
  rewrite !given_nonempty. keys. eapply acts_seq; [newrows|].
  destruct (given (tb_corrname t)); cbn [when].
  - eapply acts_seq; [keys; eapply acts_seq; [apply lay_insert|eapply acts_seq; [apply lay_insert|same]]|].
    finish.
  - eapply acts_seq; [apply acts_skip|]. finish.
Qed.
Ltac units := first [apply lay_unit; lia|apply lay_dim; lia].
Ltac seqs t := repeat (eapply acts_seq; [t|]).
Ltac finish_perm := apply lay_end;
  [ rewrite <- !app_assoc; reflexivity | knames | flat; perm | reflexivity ].
Lemma flux_layout t ev : appends_one (write_oi_flux E t ev) (flux_table E t ev).
Proof.
  apply appends_layout; [reflexivity|]. unfold flux_table, data_keys, corrname_key.
  rewrite !given_nonempty. do 2 (eapply acts_seq; [units|]). keys. eapply acts_seq; [newrows|].
  destruct (given (fx_fovtype (tb_x t))); cbn [when];
    (eapply acts_seq; [first [apply acts_skip|eapply acts_seq; [key|key]]|]);
    destruct (given (tb_corrname t)); cbn [when];
    (eapply acts_seq; [first [apply acts_skip|keys; eapply acts_seq; [apply lay_insert|same]]|]);
    destruct (given (tb_arrname t)); cbn [when];
    (eapply acts_seq; [first [apply acts_skip|eapply acts_seq; [apply lay_insert|same]]|]);
    finish_perm.
Qed.
Lemma vis_layout t ev : appends_one (write_oi_vis E t ev) (vis_table E t ev).
Proof.
  apply appends_layout; [reflexivity|]. unfold vis_table, write_oi_vis_opt, data_keys, corrname_key.
  rewrite !given_nonempty. change String.eqb with str_eqb.
  destruct (str_eqb (vx_amptyp (tb_x t)) "correlated flux"); cbn [when];
    (eapply acts_seq; [first [apply acts_skip|eapply acts_seq; [units|units]]|]);
    keys; (eapply acts_seq; [newrows|]).
  all: destruct (given (tb_corrname t)); destruct (vx_usevisrefmap (tb_x t)); destruct (vx_usecomplex (tb_x t)).
  all: eapply acts_seq;
    [ keys; cbn [when];
      (eapply acts_seq;
         [first [apply acts_skip
                |eapply acts_seq; [apply lay_insert|eapply acts_seq; [apply lay_insert|same]]]|]);
      (eapply acts_seq;
         [first [apply acts_skip|eapply acts_seq; [apply lay_insert|eapply acts_seq; [units|same]]]|]);
      first [apply acts_skip
            |eapply acts_seq; [apply lay_complex|]; do 4 (eapply acts_seq; [units|]);
             eapply acts_seq; [same|];
             first [apply acts_skip
                   |eapply acts_seq; [apply lay_insert|eapply acts_seq; [apply lay_insert|same]]]]
    | finish_perm ].
Qed.
End Tables.
