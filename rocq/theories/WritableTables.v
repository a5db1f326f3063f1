(** The outcome of writing each table. *)
From Coq Require Import Lia.
From Coq Require Import Decimal DecimalString DecimalPos.
From Verif Require Import BaseLemmas FileProofs FileModel IOSpec FitsText FitsRows WriteModel WriteTables WriteProofs WriteVis MergeNames
  WritableSpec WritableProofs.
Open Scope list_scope.
Open Scope Z_scope.

(** ** Cells of a row *)

Definition gives (F : form) (v : res (list value)) (b : bool) : Prop :=
  exists vs, v = Ok vs /\ (vs = [] \/ 1 <= per_row F) /\ stores F vs = b.
Definition cell_gives (fs : list form) (kv : Z * res (list value)) (b : bool) : Prop :=
  1 <= fst kv /\ exists F, nth_error fs (Z.to_nat (fst kv - 1)) = Some F /\ gives F (snd kv) b.
Lemma cells_give fs l bs : Forall2 (cell_gives fs) l bs ->
  Forall (defined fs) l /\ forallb (cell_stores fs) l = forallb (fun b => b) bs.
Proof.
  induction 1 as [|[k v] b l bs (Hk & F & HF & vs & Hv & Hp & Hb) _ [IH1 IH2]]; [split; constructor|].
  cbn [fst snd] in *. split.
  - constructor; [|exact IH1]. exists vs, F. auto.
  - cbn [forallb]. rewrite IH2. f_equal. unfold cell_stores. cbn [fst snd]. now rewrite Hv, HF.
Qed.
Lemma acts_records {R} fs n (records : list R) cells (g : R -> bool) :
  len_is n records = true ->
  (forall r, In r records -> exists bs, Forall2 (cell_gives fs) (cells r) bs /\ forallb (fun b => b) bs = g r) ->
  acts (write_rows n records cells) fs (forallb g records) fs.
Proof.
  intros Hn H.
  apply (acts_bool _ _ (forallb (fun r => forallb (cell_stores fs) (cells r)) records)).
  - clear Hn. induction records as [|r l IH]; [reflexivity|]. cbn [forallb]. f_equal; [|apply IH; intros; apply H; now right].
    destruct (H r (or_introl eq_refl)) as (bs & Hb & Hg). destruct (cells_give _ _ _ Hb) as [_ ->]. exact Hg.
  - apply acts_rows; [exact Hn|]. rewrite Forall_forall. intros r Hr. destruct (H r Hr) as (bs & Hb & _).
    now destruct (cells_give _ _ _ Hb).
Qed.

Lemma gives_short z : gives (mk_form Short 1) (int z) (short z).
Proof. eexists. split; [reflexivity|]. split; [right; cbn; lia|]. cbn. now rewrite andb_true_r, negb_involutive. Qed.
Lemma gives_long z : gives (mk_form Long 1) (int z) (long z).
Proof. eexists. split; [reflexivity|]. split; [right; cbn; lia|]. cbn. now rewrite andb_true_r, negb_involutive. Qed.
Lemma gives_short2 a b : gives (mk_form Short 2) (ints [a; b]) (short a && short b).
Proof. eexists. split; [reflexivity|]. split; [right; cbn; lia|]. cbn. now rewrite andb_true_r, !negb_involutive. Qed.
Lemma gives_short3 a b c : gives (mk_form Short 3) (ints [a; b; c]) (short a && (short b && short c)).
Proof. eexists. split; [reflexivity|]. split; [right; cbn; lia|]. cbn. now rewrite andb_true_r, !negb_involutive. Qed.
Lemma gives_dbl x : gives (mk_form Double 1) (dbl x) true.
Proof. eexists. split; [reflexivity|]. split; [right; cbn; lia|reflexivity]. Qed.
Lemma gives_dbl3 x y z : gives (mk_form Double 3) (Ok [VDbl x; VDbl y; VDbl z]) true.
Proof. eexists. split; [reflexivity|]. split; [right; cbn; lia|reflexivity]. Qed.
Lemma gives_flt x : gives (mk_form Float 1) (flt_ x) true.
Proof. eexists. split; [reflexivity|]. split; [right; cbn; lia|reflexivity]. Qed.
Lemma gives_str n s : gives (mk_form Chars n) (str s) true.
Proof. eexists. split; [reflexivity|]. split; [right; cbn; lia|reflexivity]. Qed.
Lemma some_or_none {A B} n (l : list A) (f : list A -> list B) : len_is n l = true -> f [] = [] ->
  f l = [] \/ 1 <= n.
Proof. intros H Hf. apply Z.eqb_eq in H. destruct l; [now left|right; cbn in H; lia]. Qed.
Lemma stores_dbls n l : stores (mk_form Double n) (map VDbl l) = true.
Proof. unfold stores. induction l; cbn; auto. Qed.
Lemma stores_flts n l : stores (mk_form Float n) (map VFlt l) = true.
Proof. unfold stores. induction l; cbn; auto. Qed.
Lemma stores_logs n l : stores (mk_form Logical n) (map VLog l) = true.
Proof. unfold stores. induction l; cbn; auto. Qed.
Lemma stores_longs n l : stores (mk_form Long n) (map VInt l) = forallb long l.
Proof.
  unfold stores. induction l as [|z l IH]; [reflexivity|]. cbn [map forallb]. rewrite IH. cbn. now rewrite negb_involutive.
Qed.
Lemma gives_dbls n l : len_is n l = true -> gives (mk_form Double n) (dbls n l) true.
Proof.
  intros H. exists (map VDbl l). unfold dbls. rewrite take_all by exact H. split; [reflexivity|].
  split; [now apply some_or_none|apply stores_dbls].
Qed.
Lemma gives_logs n l : len_is n l = true -> gives (mk_form Logical n) (logs n l) true.
Proof.
  intros H. exists (map VLog l). unfold logs. rewrite take_all by exact H. split; [reflexivity|].
  split; [now apply some_or_none|apply stores_logs].
Qed.
Lemma gives_cplxs n l : len_is n l = true -> gives (mk_form Complex n) (cplxs n l) true.
Proof.
  intros H. eexists. unfold cplxs. rewrite take_all by exact H. split; [reflexivity|]. split.
  - apply Z.eqb_eq in H. destruct l; [now left|right]. unfold per_row. cbn [fm_kind fm_repeat List.length] in *. lia.
  - unfold stores. clear H. induction l; cbn; auto.
Qed.
Lemma gives_opt_dbls n o : opt_len_is n o = true -> gives (mk_form Double n) (opt (dbls n) o) true.
Proof. destruct o as [l|]; [|discriminate]. apply gives_dbls. Qed.
Lemma gives_opt_logs n o : opt_len_is n o = true -> gives (mk_form Logical n) (opt (logs n) o) true.
Proof. destruct o as [l|]; [|discriminate]. apply gives_logs. Qed.
Lemma gives_column_flts n l : len_is n l = true -> gives (mk_form Float 1) (flts n l) true.
Proof.
  intros H. exists (map VFlt l). unfold flts. rewrite take_all by exact H. split; [reflexivity|].
  split; [right; cbn; lia|apply stores_flts].
Qed.
Lemma gives_column_dbls n l : len_is n l = true -> gives (mk_form Double 1) (dbls n l) true.
Proof.
  intros H. exists (map VDbl l). unfold dbls. rewrite take_all by exact H. split; [reflexivity|].
  split; [right; cbn; lia|apply stores_dbls].
Qed.
Lemma gives_column_ints n l : len_is n l = true -> gives (mk_form Long 1) (ints_ n l) (forallb long l).
Proof.
  intros H. exists (map VInt l). unfold ints_. rewrite take_all by exact H. split; [reflexivity|].
  split; [right; cbn; lia|apply stores_longs].
Qed.
Lemma acts_columns fs irow l bs : Forall2 (cell_gives fs) l bs ->
  acts (write_cells irow l) fs (forallb (fun b => b) bs) fs.
Proof. intros H. destruct (cells_give _ _ _ H) as [H1 <-]. now apply acts_cells. Qed.

(** ** A new table *)

(** [narrow]: make_tform has room for the number of channels *)
Definition outcome (a : wstate -> res wstate) (narrow ok : bool) : Prop :=
  (forall s, snd s <> 0 -> a s = Ok s)
  /\ forall f, if narrow then exists f' st, a (f, 0) = Ok (f', st) /\ (st = 0 <-> ok = true)
               else a (f, 0) = Abort.

Lemma outcome_table nwave cols l extname body ok fs' :
  make_tform nwave cols = Ok l -> acts body (map snd l) ok fs' ->
  outcome (guarded (create_table nwave cols extname ;> body)) true ok.
Proof.
  intros Hm [_ Hb]. split.
  - intros s H. unfold guarded. destruct (Z.eqb_spec (snd s) 0); [contradiction|reflexivity].
  - intros f. unfold guarded. cbn [snd Z.eqb negb]. unfold seq_, create_table.
    rewrite Hm, bind_Ok. unfold fits_create_tbl. cbn [Z.eqb negb]. rewrite bind_Ok.
    match goal with |- context [body ?s] => destruct (Hb s) as ([f' st] & -> & H) end.
    + split; [reflexivity|]. eexists. split; [apply chdu_append|]. cbn [hd_cols]. rewrite !map_map.
      apply map_ext. intros [[name u] F]. reflexivity.
    + eexists _, _. split; [reflexivity|]. destruct ok; [destruct H as [H _]|]; cbn [snd] in H; split; auto; try easy.
Qed.
Lemma of_uint_acc_upper u acc :
  Zpos (Pos.of_uint_acc u acc) < (Zpos acc + 1) * 10 ^ Z.of_nat (nb_digits u).
Proof.
  revert acc. induction u as [|u IH|u IH|u IH|u IH|u IH|u IH|u IH|u IH|u IH|u IH]; intros acc;
    cbn [Pos.of_uint_acc nb_digits]; [change (10 ^ Z.of_nat 0) with 1; lia|..];
    rewrite Nat2Z.inj_succ, Z.pow_succ_r by lia;
    match goal with |- Zpos (Pos.of_uint_acc _ ?a) < _ => specialize (IH a) end;
    eapply Z.lt_le_trans; try exact IH; rewrite Z.mul_assoc; apply Z.mul_le_mono_nonneg_r; lia.
Qed.
Lemma of_uint_upper u : Z.of_N (Pos.of_uint u) < 10 ^ Z.of_nat (nb_digits u).
Proof.
  induction u as [|u IH|u _|u _|u _|u _|u _|u _|u _|u _|u _]; cbn [Pos.of_uint nb_digits]; [reflexivity|..];
    rewrite Nat2Z.inj_succ, Z.pow_succ_r by lia;
    try (match goal with |- Z.of_N (Npos (Pos.of_uint_acc _ ?a)) < _ => pose proof (of_uint_acc_upper u a) end;
         cbn [Z.of_N]; eapply Z.lt_le_trans; [eassumption|]; apply Z.mul_le_mono_nonneg_r; lia).
  eapply Z.lt_le_trans; [exact IH|]. lia.
Qed.
Lemma digits_ge_10000 n : 10000 <= n -> 6 <= strlen (fmt_d n) + 1.
Proof.
  intros H. destruct n as [|p|p]; try lia. unfold strlen, fmt_d, string_of_Z. cbn. unfold NilZero.string_of_uint.
  pose proof (of_uint_upper (Pos.to_uint p)) as Hu. rewrite DecimalPos.Unsigned.of_to in Hu. cbn [Z.of_N] in Hu.
  assert (L : 5 <= Z.of_nat (String.length (NilEmpty.string_of_uint (Pos.to_uint p)))).
  { rewrite string_of_uint_length. destruct (Z_lt_le_dec (Z.of_nat (nb_digits (Pos.to_uint p))) 5) as [G|G]; [|exact G].
    assert (10 ^ Z.of_nat (nb_digits (Pos.to_uint p)) <= 10 ^ 4) by (apply Z.pow_le_mono_r; lia).
    change (10 ^ 4) with 10000 in *. lia. }
  destruct (Pos.to_uint p) eqn:E; try (cbn in L |- *; lia).
Qed.
Lemma make_form_wide v k : 10000 <= v -> make_form v (PerWave k) = Abort.
Proof.
  intros H. unfold make_form. pose proof (digits_ge_10000 v H) as Hd.
  destruct (Z.ltb_spec (strlen (fmt_d v) + 1) 6); [lia|]. reflexivity.
Qed.
Lemma outcome_wide nwave cols extname body ok :
  make_tform nwave cols = Abort -> outcome (guarded (create_table nwave cols extname ;> body)) false ok.
Proof.
  intros H. split.
  - intros s Hs. unfold guarded. destruct (Z.eqb_spec (snd s) 0); [contradiction|reflexivity].
  - intros f. unfold guarded. cbn [snd Z.eqb negb]. unfold seq_, create_table. now rewrite H.
Qed.
Lemma outcome_bool a n ok ok' : outcome a n ok -> ok = ok' -> outcome a n ok'.
Proof. now intros H <-. Qed.

Lemma make_complex n : 0 <= n <= 9999 -> insert_complex n
  = fits_insert_cols 9 [("RVIS", mk_form Double n); ("RVISERR", mk_form Double n);
                        ("IVIS", mk_form Double n); ("IVISERR", mk_form Double n)]%string.
Proof.
  intros H. unfold insert_complex, complex_cols, nD. cbn [make_tform]. rewrite !make_form_wave by exact H. reflexivity.
Qed.
Lemma gives_checked n r o : opt_len_is n (vr_rvis r) = true -> opt_len_is n (vr_rviserr r) = true ->
  opt_len_is n (vr_ivis r) = true -> opt_len_is n (vr_iviserr r) = true -> opt_len_is n o = true ->
  gives (mk_form Double n)
    (do (do nonnull (vr_rvis r) ;; do nonnull (vr_rviserr r) ;; do nonnull (vr_ivis r) ;; nonnull (vr_iviserr r)) ;;
     opt (dbls n) o) true.
Proof.
  intros H1 H2 H3 H4 H5.
  rewrite (opt_len_nonnull _ _ H1), (opt_len_nonnull _ _ H2), (opt_len_nonnull _ _ H3), (opt_len_nonnull _ _ H4).
  cbn [bind]. now apply gives_opt_dbls.
Qed.

(** ** The tables *)

Lemma acts_insert' k l fs fs' : 1 <= k <= Z.of_nat (List.length fs) + 1 ->
  firstn (Z.to_nat (k - 1)) fs ++ map snd l ++ skipn (Z.to_nat (k - 1)) fs = fs' ->
  acts (fits_insert_cols k l) fs true fs'.
Proof. intros H <-. now apply acts_insert. Qed.
Ltac nats := repeat match goal with |- context [Z.to_nat ?z] =>
  let n := eval vm_compute in (Z.to_nat z) in change (Z.to_nat z) with n end.
Ltac cell :=
  first [apply gives_short | apply gives_short2 | apply gives_short3 | apply gives_long | apply gives_dbl
        | apply gives_dbl3 | apply gives_flt | apply gives_str | (apply gives_dbls; assumption)
        | (apply gives_logs; assumption) | (apply gives_cplxs; assumption)
        | (apply gives_opt_dbls; assumption) | (apply gives_opt_logs; assumption)
        | (apply gives_column_flts; assumption) | (apply gives_column_dbls; assumption)
        | (apply gives_column_ints; assumption) | (apply gives_checked; assumption)].
Ltac cells := repeat (apply Forall2_cons; [split; [cbn [fst]; lia|eexists; split; [cbn [fst]; nats; cbn [nth_error]; reflexivity|cbn [snd]; cell]]|]);
  apply Forall2_nil.
Ltac step := first [apply acts_str | apply acts_int | apply acts_double | apply acts_tunit | apply acts_tdim
  | apply acts_chksum | apply acts_date | apply acts_skip
  | (eapply acts_insert'; [cbn [List.length]; lia|nats; cbn [firstn skipn app map snd]; reflexivity]) ].
Ltac steps := repeat first [step | (eapply acts_seq; [step|])].
Ltac bools := repeat progress (cbn [negb orb andb]; rewrite ?andb_true_r, ?orb_true_r, ?andb_assoc); try reflexivity.

Ltac narrow_form H := repeat first [apply make_tform_cons; [first [apply make_form_wave; lia|reflexivity]|]|reflexivity].

Section Tables.
Variable E : cfitsio.

Lemma outcome_array a v : wf_array a = true -> outcome (write_oi_array E a v) true (writable_array E a).
Proof.
  intros Hw. unfold write_oi_array. eapply outcome_bool.
  - eapply outcome_table; [reflexivity|]. cbn [map snd array_cols]. steps.
    eapply acts_seq; [|apply acts_chksum].
    apply (acts_records _ _ _ _ (fun e => short (el_sta_index e))); [exact Hw|].
    intros [? ? ? ? [[x y] z] ? ?] _. eexists. split; [unfold array_cells; cbn [el_staxyz]; cells|]. cbn. bools.
  - unfold writable_array. bools.
Qed.
Lemma outcome_target t : wf_targets t = true -> outcome (write_oi_target E t) true (writable_target t).
Proof.
  intros Hw. unfold write_oi_target. eapply outcome_bool.
  - eapply outcome_table; [reflexivity|]. cbn [map snd target_cols]. steps.
    eapply acts_seq; [|eapply acts_seq; [apply acts_when; intros _|apply acts_chksum]].
    + apply (acts_records _ _ _ _ (fun e => short (tg_target_id e))); [exact Hw|].
      intros e _. eexists. split; [unfold target_cells; cells|]. cbn. bools.
    + steps. apply (acts_records _ _ _ _ (fun _ => true)); [exact Hw|].
      intros e _. eexists. split; [cells|]. reflexivity.
  - unfold writable_target. rewrite (proj2 (forallb_forall (fun _ => true) (ot_targ t))) by reflexivity. bools.
Qed.
Lemma outcome_wavelength w v : wf_wavelength w = true -> outcome (write_oi_wavelength E w v) true true.
Proof.
  intros Hw. unfold wf_wavelength in Hw. split_and. unfold write_oi_wavelength. eapply outcome_bool.
  - eapply outcome_table; [reflexivity|]. cbn [map snd]. steps.
    eapply acts_seq; [|apply acts_chksum]. apply acts_columns. cells.
  - reflexivity.
Qed.
Lemma outcome_corr c v : wf_corr c = true -> outcome (write_oi_corr E c v) true (writable_corr c).
Proof.
  intros Hw. unfold wf_corr in Hw. split_and. unfold write_oi_corr. eapply outcome_bool.
  - eapply outcome_table; [reflexivity|]. cbn [map snd]. steps.
    eapply acts_seq; [|apply acts_chksum]. apply acts_columns. cells.
  - unfold writable_corr. cbn [forallb]. bools.
Qed.
Ltac wide_form := cbn [make_tform]; repeat (rewrite make_form_wide by lia; cbn [bind]);
  repeat (cbn [make_form I_ J_ E_ D_ A_ bind]; try rewrite make_form_wide by lia); reflexivity.
Lemma outcome_inspol t v : wf_inspol t = true -> 0 <= is_nwave t ->
  outcome (write_oi_inspol E t v) (is_nwave t <=? 9999) (writable_inspol t).
Proof.
  intros Hw Hn. unfold wf_inspol in Hw. split_and. unfold write_oi_inspol.
  destruct (Z.leb_spec (is_nwave t) 9999).
  - eapply outcome_bool.
    + eapply outcome_table; [unfold inspol_cols, nC; narrow_form tt|]. cbn [map snd]. steps.
      eapply acts_seq; [|apply acts_chksum].
      apply (acts_records _ _ _ _ (fun r => short (ip_target_id r) && short (ip_sta_index r))); [assumption|].
      intros r Hr. rewrite forallb_forall in *. 
      match goal with H : forall x, In x (is_record t) -> _ |- _ => specialize (H r Hr); unfold wf_inspol_record in H end.
      split_and. eexists. split; [unfold inspol_cells; cells|]. cbn. bools.
    + unfold writable_inspol. bools.
  - apply outcome_wide. unfold inspol_cols, nC. wide_form.
Qed.

Lemma forallb_and {A} (f g : A -> bool) l : forallb f l && forallb g l = forallb (fun x => f x && g x) l.
Proof.
  induction l as [|a l IH]; [reflexivity|]. cbn [forallb]. rewrite <- IH.
  destruct (f a), (g a), (forallb f l), (forallb g l); reflexivity.
Qed.
Lemma forallb_same {A} (f g : A -> bool) l : (forall a, f a = g a) -> forallb f l = forallb g l.
Proof. intros H. induction l as [|a l IH]; [reflexivity|]. cbn [forallb]. now rewrite H, IH. Qed.
Ltac record_of r Hr t unf :=
  match goal with H : forall x, In x (tb_record t) -> _ |- _ => pose proof (H r Hr) as Hwr; unf Hwr end.
Ltac each := rewrite ?forallb_and; apply forallb_same; intros r; cbn [forallb]; bools.
Ltac rows g unf t := apply (acts_records _ _ _ _ g); [assumption|];
  let r := fresh "r" in let Hr := fresh "Hr" in intros r Hr; record_of r Hr t unf; split_and;
  eexists; split; [cells|cbn [forallb]; bools].

Lemma outcome_vis2 t v : wf_vis2 t = true -> outcome (write_oi_vis2 E t v) (tb_nwave t <=? 9999) (writable_vis2 t).
Proof.
  intros Hw. unfold wf_vis2, wf_dtab in Hw. split_and. rewrite forallb_forall in *. unfold write_oi_vis2.
  destruct (Z.leb_spec (tb_nwave t) 9999).
  - eapply outcome_bool.
    + eapply outcome_table; [unfold vis2_cols, nD, nL; narrow_form tt|]. cbn [map snd]. steps.
      eapply acts_seq; [apply acts_when; intros _; apply acts_str|].
      replace (if nonempty (tb_arrname t) then _ else _) with
        [mk_form Short 1; mk_form Double 1; mk_form Double 1; mk_form Double 1; mk_form Double (tb_nwave t);
         mk_form Double (tb_nwave t); mk_form Double 1; mk_form Double 1; mk_form Short 2;
         mk_form Logical (tb_nwave t)] by (now destruct (nonempty (tb_arrname t))).
      steps.
      eapply acts_seq; [|eapply acts_seq; [|apply acts_chksum]].
      * unfold vis2_cells.
        rows (fun r => short (v2_target_id r) && (short (fst (v2_sta_index r)) && short (snd (v2_sta_index r))))
          ltac:(fun H => unfold wf_vis2_record in H) t.
      * apply acts_when. intros _. steps.
        rows (fun r => long (v2_corrindx_vis2data r)) ltac:(fun H => unfold wf_vis2_record in H) t.
    + unfold writable_vis2, indexed. unfold nonempty. bools. destruct (is_empty (tb_corrname t)); bools; each.
  - apply outcome_wide. unfold vis2_cols, nD, nL. wide_form.
Qed.

Lemma acts_when_key c k v fs : acts (when c (write_key_str k v)) fs true fs.
Proof. destruct c; [apply acts_str|apply acts_skip]. Qed.
Lemma acts_when_int c k v fs : acts (when c (write_key_int k v)) fs true fs.
Proof. destruct c; [apply acts_int|apply acts_skip]. Qed.
Lemma acts_when_units c k u k' u' fs : acts (when c (write_tunit k u ;> write_tunit k' u')) fs true fs.
Proof. destruct c; [|apply acts_skip]. exact (acts_seq _ _ _ _ _ _ _ (acts_tunit _ _ _) (acts_tunit _ _ _)). Qed.
Lemma acts_when_same c a fs x : acts a fs x fs -> acts (when c a) fs (negb c || x) fs.
Proof. intros H. pose proof (acts_when c a fs x fs (fun _ => H)) as G. now destruct c. Qed.
Ltac opts := repeat first
  [ (eapply acts_seq; [first [apply acts_when_key | apply acts_when_int | apply acts_when_units | step]|]) | step].

Lemma outcome_t3 t v : wf_t3 t = true -> outcome (write_oi_t3 E t v) (tb_nwave t <=? 9999) (writable_t3 t).
Proof.
  intros Hw. unfold wf_t3, wf_dtab in Hw. split_and. rewrite forallb_forall in *. unfold write_oi_t3.
  destruct (Z.leb_spec (tb_nwave t) 9999).
  - eapply outcome_bool.
    + eapply outcome_table; [unfold t3_cols, nD, nL; narrow_form tt|]. cbn [map snd]. opts.
      eapply acts_seq; [|eapply acts_seq; [|apply acts_chksum]].
      * unfold t3_cells.
        rows (fun r => short (t3_target_id r) && (short (fst (fst (t3_sta_index r)))
                && (short (snd (fst (t3_sta_index r))) && short (snd (t3_sta_index r)))))
          ltac:(fun H => unfold wf_t3_record in H) t.
      * apply acts_when. intros _. steps.
        rows (fun r => long (t3_corrindx_t3amp r) && long (t3_corrindx_t3phi r)) ltac:(fun H => unfold wf_t3_record in H) t.
    + unfold writable_t3, indexed. unfold nonempty. bools. destruct (is_empty (tb_corrname t)); bools; each.
  - apply outcome_wide. unfold t3_cols, nD, nL. wide_form.
Qed.
Ltac auto_rows unf t := eapply acts_records; [assumption|];
  let r := fresh "r" in let Hr := fresh "Hr" in intros r Hr; record_of r Hr t unf; split_and;
  eexists; split; [cells|reflexivity].
Ltac whole unf t := cbn [when];
  lazymatch goal with
  | |- acts (seq_ _ _) _ _ _ => eapply acts_seq; [whole unf t|whole unf t]
  | |- acts (write_rows _ _ _) _ _ _ => auto_rows unf t
  | |- _ => first [apply acts_when_key | apply acts_when_int | apply acts_when_units | step]
  end.
Lemma outcome_flux t v : wf_flux t = true -> outcome (write_oi_flux E t v) (tb_nwave t <=? 9999) (writable_flux E t).
Proof.
  intros Hw. unfold wf_flux, wf_dtab in Hw. split_and. rewrite forallb_forall in *. unfold write_oi_flux.
  destruct (Z.leb_spec (tb_nwave t) 9999).
  - unfold writable_flux, indexed, flux_cells, nonempty.
    destruct (is_empty (fx_fovtype (tb_x t))), (is_empty (tb_corrname t)), (is_empty (tb_arrname t)); cbn [negb orb];
    (eapply outcome_bool;
     [eapply outcome_table; [unfold flux_cols, nD, nL; narrow_form tt|]; cbn [map snd when];
      whole ltac:(fun H => unfold wf_flux_record in H) t|]); bools.
    all: try (destruct (key_double E (fx_fov (tb_x t))); bools; [|now rewrite ?andb_false_r]).
    all: each.
    all: rewrite <- !andb_assoc; f_equal; apply andb_comm.
  - apply outcome_wide. unfold flux_cols, nD, nL. wide_form.
Qed.

Ltac vis_wf H := unfold wf_vis_record in H.
Lemma outcome_vis t v : wf_vis t = true -> outcome (write_oi_vis E t v) (tb_nwave t <=? 9999) (writable_vis t).
Proof.
  intros Hw. unfold wf_vis, wf_dtab in Hw. split_and. rewrite forallb_forall in *. unfold write_oi_vis, write_oi_vis_opt.
  destruct (Z.leb_spec (tb_nwave t) 9999).
  - unfold writable_vis, indexed, vis_cells, complex_cells. rewrite make_complex by lia. cbv zeta.
    unfold nonempty. unfold wf_vis_record in *.
    destruct (is_empty (tb_corrname t)), (vx_usevisrefmap (tb_x t)), (vx_usecomplex (tb_x t)); cbn [negb orb when];
    (eapply outcome_bool;
     [eapply outcome_table; [unfold vis_cols, nD, nL; narrow_form tt|]; cbn [map snd];
      whole ltac:(fun H => idtac) t|]).
    all: bools.
    all: each.
  - apply outcome_wide. unfold vis_cols, nD, nL. wide_form.
Qed.
End Tables.
