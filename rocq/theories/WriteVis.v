(** The HDU appended for an OI_VIS table, and the primary header. *)
From Coq Require Import Lia.
From Verif Require Import BaseLemmas FileProofs WriteModel FitsRows IOSpec FitsText WriteTables
  WriteProofs WriteData.
Open Scope Z_scope.
Local Open Scope string_scope.
Local Open Scope list_scope.

Section Vis.
Variable E : cfitsio.

Definition vis_base (nwave : Z) (ampunit : option string) : list (cspec vis_record) :=
  [C "TARGET_ID" Short 1 (fun r => [VInt (vr_target_id r)]);
   CU "TIME" Double 1 "s" (fun r => [VDbl f64_zero]);
   CU "MJD" Double 1 "day" (fun r => [VDbl (vr_mjd r)]);
   CU "INT_TIME" Double 1 "s" (fun r => [VDbl (vr_int_time r)]);
   mk_cspec "VISAMP" (mk_form Double nwave) ampunit None (fun r => map VDbl (vr_visamp r));
   mk_cspec "VISAMPERR" (mk_form Double nwave) ampunit None (fun r => map VDbl (vr_visamperr r));
   CU "VISPHI" Double nwave "deg" (fun r => map VDbl (vr_visphi r));
   CU "VISPHIERR" Double nwave "deg" (fun r => map VDbl (vr_visphierr r));
   CU "UCOORD" Double 1 "m" (fun r => [VDbl (vr_ucoord r)]);
   CU "VCOORD" Double 1 "m" (fun r => [VDbl (vr_vcoord r)]);
   C "STA_INDEX" Short 2 (fun r => [VInt (fst (vr_sta_index r)); VInt (snd (vr_sta_index r))]);
   C "FLAG" Logical nwave (fun r => map VLog (vr_flag r))].
Definition vis_corr_amp : cspec vis_record :=
  C "CORRINDX_VISAMP" Long 1 (fun r => [VInt (vr_corrindx_visamp r)]).
Definition vis_corr_phi : cspec vis_record :=
  C "CORRINDX_VISPHI" Long 1 (fun r => [VInt (vr_corrindx_visphi r)]).
Definition vis_map (nwave : Z) : cspec vis_record :=
  mk_cspec "VISREFMAP" (mk_form Logical (nwave * nwave)) None
    (Some (card ("(" ++ fmt_d nwave ++ "," ++ fmt_d nwave ++ ")")))
    (fun r => match vr_visrefmap r with Some l => map VLog l | None => [] end).
Definition vis_complex_col (name : string) (nwave : Z) (u : string)
  (f : vis_record -> option (list f64)) : cspec vis_record :=
  CU name Double nwave u (fun r => match f r with Some l => map VDbl l | None => [] end).
Definition vis_complex (nwave : Z) (u : string) : list (cspec vis_record) :=
  [vis_complex_col "RVIS" nwave u vr_rvis; vis_complex_col "RVISERR" nwave u vr_rviserr;
   vis_complex_col "IVIS" nwave u vr_ivis; vis_complex_col "IVISERR" nwave u vr_iviserr].
Definition vis_corr_r : cspec vis_record :=
  C "CORRINDX_RVIS" Long 1 (fun r => [VInt (vr_corrindx_rvis r)]).
Definition vis_corr_i : cspec vis_record :=
  C "CORRINDX_IVIS" Long 1 (fun r => [VInt (vr_corrindx_ivis r)]).
Definition vis_specs1 nwave ampunit (corr : bool) :=
  let l := vis_base nwave ampunit in
  if corr then insert_at 10 [vis_corr_phi] (insert_at 7 [vis_corr_amp] l) else l.
Definition vis_specs2 nwave ampunit (corr refmap : bool) :=
  let l := vis_specs1 nwave ampunit corr in
  if refmap then insert_at 11 [vis_map nwave] l else l.
Definition vis_specs3 nwave ampunit (corr refmap complex : bool) u :=
  let l := vis_specs2 nwave ampunit corr refmap in
  if complex then insert_at 9 (vis_complex nwave u) l else l.
Definition vis_specs nwave ampunit (corr refmap complex : bool) u :=
  let l := vis_specs3 nwave ampunit corr refmap complex u in
  if corr && complex then insert_at 14 [vis_corr_i] (insert_at 11 [vis_corr_r] l) else l.
Definition vis_ampunit (x : vis_extra) : option string :=
  if str_eqb (vx_amptyp x) "correlated flux" then Some (vx_ampunit x) else None.
Definition vis_keys (t : oi_vis) (extver : Z) : list (bool * string * kval) :=
  let x := tb_x t in
  [(true, "EXTNAME", KStr "OI_VIS"); (true, "OI_REVN", KInt 2);
   (true, "DATE-OBS", KStr (tb_date_obs t)); (nonempty (tb_arrname t), "ARRNAME", KStr (tb_arrname t));
   (true, "INSNAME", KStr (tb_insname t)); (true, "EXTVER", KInt extver);
   (nonempty (tb_corrname t), "CORRNAME", KStr (tb_corrname t));
   (nonempty (vx_amptyp x), "AMPTYP", KStr (vx_amptyp x));
   (nonempty (vx_phityp x), "PHITYP", KStr (vx_phityp x));
   (0 <=? vx_amporder x, "AMPORDER", KInt (vx_amporder x))%Z;
   (0 <=? vx_phiorder x, "PHIORDER", KInt (vx_phiorder x))%Z].
Definition vis_hdu (t : oi_vis) (extver : Z) : hdu :=
  let x := tb_x t in
  sums E (mk_hdu BINARY_TBL (mkkeys (vis_keys t extver))
    (map (scol (tb_record t)) (vis_specs (tb_nwave t) (vis_ampunit x) (nonempty (tb_corrname t))
       (vx_usevisrefmap x) (vx_usecomplex x) (vx_complexunit x))) (tb_numrec t)).

Lemma runs_dim ty keys pre c post n k u :
  k = Z.of_nat (List.length pre) + 1 -> c_dim c = None ->
  runs (write_tdim k u) (mk_hdu ty keys (pre ++ c :: post) n)
    (mk_hdu ty keys (pre ++ mk_column (c_name c) (c_form c) (c_unit c) (Some (card u)) (c_data c) :: post) n).
Proof.
  intros Hk Hc f. rewrite (runs_tdim k u _ f). unfold on_col.
  cbn [hd_cols hd_type hd_keys hd_nrows].
  destruct (Z.ltb_spec k 1); [lia|]. replace (Z.to_nat (k - 1)) with (List.length pre) by lia.
  rewrite at_nth_app. unfold set_dim. now rewrite Hc.
Qed.

Lemma cell_opt_dbls n o :
  opt_len_is n o = true ->
  cell_is (mk_form Double n) (opt (dbls n) o) (match o with Some l => map VDbl l | None => [] end).
Proof. destruct o as [l|]; [|discriminate]. apply cell_dbls. Qed.
Lemma cell_opt_logs n o :
  opt_len_is n o = true ->
  cell_is (mk_form Logical n) (opt (logs n) o) (match o with Some l => map VLog l | None => [] end).
Proof. destruct o as [l|]; [|discriminate]. apply cell_logs. Qed.
Lemma opt_len_nonnull {A} n (o : option (list A)) : opt_len_is n o = true -> nonnull o = Ok tt.
Proof. destruct o; [reflexivity|discriminate]. Qed.

Section Table.
Variables (t : oi_vis) (extver : Z).
Let x := tb_x t.
Let nwave := tb_nwave t.
Let corr := nonempty (tb_corrname t).
Let recs := tb_record t.
Let n := tb_numrec t.
Local Notation specs1 := (vis_specs1 nwave (vis_ampunit x) corr).
Local Notation specs2 := (vis_specs2 nwave (vis_ampunit x) corr (vx_usevisrefmap x)).
Local Notation specs3 := (vis_specs3 nwave (vis_ampunit x) corr (vx_usevisrefmap x) (vx_usecomplex x) (vx_complexunit x)).
Hypothesis Hn : Z.of_nat (List.length recs) = n.
Hypothesis Hw : 1 <= nwave <= 9999.
Hypothesis Hs : forall r, In r recs -> wf_vis_record x nwave r && storable_vis_record t r = true.

Lemma vis_indices r : corr = true -> In r recs ->
  long (vr_corrindx_visamp r) = true /\ long (vr_corrindx_visphi r) = true.
Proof using Hs.
  intros Hc Hr. specialize (Hs r Hr). unfold storable_vis_record in Hs. split_and.
  split; (eapply index_long; [exact Hc|eassumption|cbn; auto]).
Qed.
Lemma vis_indices_c r : corr = true -> vx_usecomplex x = true -> In r recs ->
  long (vr_corrindx_rvis r) = true /\ long (vr_corrindx_ivis r) = true.
Proof using Hs.
  intros Hc Hx Hr. specialize (Hs r Hr). unfold storable_vis_record in Hs. split_and.
  match goal with H : negb _ || _ = true |- _ => fold x in H; rewrite Hx in H; cbn [negb orb] in H end.
  split; (eapply index_long; [exact Hc|eassumption|cbn; auto]).
Qed.
Lemma vis_refmap_len r : vx_usevisrefmap x = true -> In r recs ->
  opt_len_is (nwave * nwave) (vr_visrefmap r) = true.
Proof using Hs.
  intros Hx Hr. specialize (Hs r Hr). unfold wf_vis_record in Hs. split_and.
  match goal with H : (if vx_usevisrefmap x then _ else _) = true |- _ => rewrite Hx in H; exact H end.
Qed.
Lemma vis_complex_len r : vx_usecomplex x = true -> In r recs ->
  opt_len_is nwave (vr_rvis r) = true /\ opt_len_is nwave (vr_rviserr r) = true
  /\ opt_len_is nwave (vr_ivis r) = true /\ opt_len_is nwave (vr_iviserr r) = true.
Proof using Hs.
  intros Hx Hr. specialize (Hs r Hr). unfold wf_vis_record in Hs. split_and.
  match goal with H : (if vx_usecomplex x then _ else _) = true |- _ => rewrite Hx in H end.
  split_and. auto.
Qed.

Lemma runs_corr_cols keys :
  runs (when corr (
    fits_insert_cols 7 [("CORRINDX_VISAMP", mk_form Long 1)] ;>
    fits_insert_cols 10 [("CORRINDX_VISPHI", mk_form Long 1)] ;>
    write_rows n recs (fun r => [(7, int (vr_corrindx_visamp r)); (10, int (vr_corrindx_visphi r))])))
    (mk_hdu BINARY_TBL keys (map (scol recs) (vis_base nwave (vis_ampunit x))) n)
    (mk_hdu BINARY_TBL keys (map (scol recs) specs1) n).
Proof using Hs Hn.
  unfold vis_specs1. destruct corr eqn:Hc; [|apply runs_skip]. cbn [when].
  step; [apply runs_insert; reflexivity|]. cbn [hd_type hd_keys hd_cols hd_nrows].
  step; [apply runs_insert; reflexivity|]. cbn [hd_type hd_keys hd_cols hd_nrows].
  fill_with [(7, (vis_corr_amp, fun r => int (vr_corrindx_visamp r)));
             (10, (vis_corr_phi, fun r => int (vr_corrindx_visphi r)))];
  intros r Hr; apply cell_long; now apply vis_indices.
Qed.
Lemma runs_refmap_col keys :
  runs (when (vx_usevisrefmap x) (
    fits_insert_cols 11 [("VISREFMAP", mk_form Logical (nwave * nwave)%Z)] ;>
    write_tdim 11 ("(" ++ fmt_d nwave ++ "," ++ fmt_d nwave ++ ")") ;>
    write_rows n recs (fun r => [(11, opt (logs (nwave * nwave)%Z) (vr_visrefmap r))])))
    (mk_hdu BINARY_TBL keys (map (scol recs) specs1) n)
    (mk_hdu BINARY_TBL keys (map (scol recs) specs2) n).
Proof using Hs Hn Hw.
  unfold vis_specs2. destruct (vx_usevisrefmap x) eqn:Hx; [|apply runs_skip]. cbn [when].
  assert (Hcells : cells_are recs (vis_map nwave) (fun r => opt (logs (nwave * nwave)) (vr_visrefmap r))).
  { intros r Hr. apply cell_opt_logs. now apply vis_refmap_len. }
  assert (Hp : 0 <= nwave * nwave) by nia.
  unfold vis_specs1. destruct corr eqn:Hc.
  - step; [apply runs_insert; reflexivity|]. cbn [hd_type hd_keys hd_cols hd_nrows].
    step; [apply (runs_dim _ _ [_; _; _; _; _; _; _; _; _; _]); reflexivity|].
    cbn [c_name c_form c_unit c_dim c_data].
    eapply runs_fill with (ksg := [(11, (vis_map nwave, fun r => opt (logs (nwave * nwave)) (vr_visrefmap r)))]).
    + reflexivity.
    + assumption.
    + clear; cbn; repeat (apply NoDup_cons; [cbn; intuition discriminate|]); apply NoDup_nil.
    + apply Forall_cons; [|apply Forall_nil]. split; [cbn; lia|]. split; [reflexivity|].
      split; [exact Hp|exact Hcells].
    + reflexivity.
  - step; [apply runs_insert; reflexivity|]. cbn [hd_type hd_keys hd_cols hd_nrows].
    step; [apply (runs_dim _ _ [_; _; _; _; _; _; _; _; _; _]); reflexivity|].
    cbn [c_name c_form c_unit c_dim c_data].
    eapply runs_fill with (ksg := [(11, (vis_map nwave, fun r => opt (logs (nwave * nwave)) (vr_visrefmap r)))]).
    + reflexivity.
    + assumption.
    + clear; cbn; repeat (apply NoDup_cons; [cbn; intuition discriminate|]); apply NoDup_nil.
    + apply Forall_cons; [|apply Forall_nil]. split; [cbn; lia|]. split; [reflexivity|].
      split; [exact Hp|exact Hcells].
    + reflexivity.
Qed.

Lemma complex_tform : make_tform nwave complex_cols
  = Ok [("RVIS", mk_form Double nwave); ("RVISERR", mk_form Double nwave);
        ("IVIS", mk_form Double nwave); ("IVISERR", mk_form Double nwave)].
Proof using Hw. unfold complex_cols. tform. Qed.

Lemma runs_insert_complex h h' :
  insert_cols 9 [("RVIS", mk_form Double nwave); ("RVISERR", mk_form Double nwave);
                 ("IVIS", mk_form Double nwave); ("IVISERR", mk_form Double nwave)] h = (h', 0) ->
  runs (insert_complex nwave) h h'.
Proof using Hw.
  intros H f. unfold insert_complex. rewrite complex_tform, bind_Ok. now apply runs_insert.
Qed.

Lemma runs_complex_cols keys :
  card_text (vx_complexunit x) = true ->
  runs (when (vx_usecomplex x) (
    insert_complex nwave ;>
    write_tunit 9 (vx_complexunit x) ;> write_tunit 10 (vx_complexunit x) ;>
    write_tunit 11 (vx_complexunit x) ;> write_tunit 12 (vx_complexunit x) ;>
    write_rows n recs (complex_cells nwave) ;>
    when corr (
      fits_insert_cols 11 [("CORRINDX_RVIS", mk_form Long 1)] ;>
      fits_insert_cols 14 [("CORRINDX_IVIS", mk_form Long 1)] ;>
      write_rows n recs (fun r => [(11, int (vr_corrindx_rvis r)); (14, int (vr_corrindx_ivis r))]))))
    (mk_hdu BINARY_TBL keys (map (scol recs) specs2) n)
    (mk_hdu BINARY_TBL keys (map (scol recs)
       (vis_specs nwave (vis_ampunit x) corr (vx_usevisrefmap x) (vx_usecomplex x) (vx_complexunit x))) n).
Proof using Hs Hn Hw.
  intros Hu. unfold vis_specs. destruct (vx_usecomplex x) eqn:Hx.
  2: { rewrite andb_false_r. apply runs_skip. }
  rewrite andb_true_r. cbn [when].
  set (u := vx_complexunit x) in *.
  assert (Hcells : forall r, In r recs -> cell_is (mk_form Double nwave)
      (do nonnull (vr_rvis r) ;; do nonnull (vr_rviserr r) ;; do nonnull (vr_ivis r) ;;
       do nonnull (vr_iviserr r) ;; opt (dbls nwave) (vr_rvis r))
      (match vr_rvis r with Some l => map VDbl l | None => [] end)).
  { intros r Hr. destruct (vis_complex_len r Hx Hr) as (H1 & H2 & H3 & H4).
    rewrite (opt_len_nonnull _ _ H1), bind_Ok, (opt_len_nonnull _ _ H2), bind_Ok,
      (opt_len_nonnull _ _ H3), bind_Ok, (opt_len_nonnull _ _ H4), bind_Ok.
    now apply cell_opt_dbls. }
  assert (Hcells' : forall r, In r recs -> cell_is (mk_form Double nwave)
      (do (do nonnull (vr_rvis r) ;; do nonnull (vr_rviserr r) ;; do nonnull (vr_ivis r) ;;
       nonnull (vr_iviserr r)) ;; opt (dbls nwave) (vr_rvis r))
      (match vr_rvis r with Some l => map VDbl l | None => [] end)).
  { intros r Hr. destruct (vis_complex_len r Hx Hr) as (H1 & H2 & H3 & H4).
    rewrite (opt_len_nonnull _ _ H1), bind_Ok, (opt_len_nonnull _ _ H2), bind_Ok,
      (opt_len_nonnull _ _ H3), bind_Ok, (opt_len_nonnull _ _ H4), bind_Ok.
    now apply cell_opt_dbls. }
  assert (H9 : cells_are recs (vis_complex_col "RVIS" nwave u vr_rvis) (fun r =>
      do (do nonnull (vr_rvis r) ;; do nonnull (vr_rviserr r) ;; do nonnull (vr_ivis r) ;;
       nonnull (vr_iviserr r)) ;; opt (dbls nwave) (vr_rvis r))) by exact Hcells'.
  clear Hcells Hcells'.
  assert (H10 : cells_are recs (vis_complex_col "RVISERR" nwave u vr_rviserr)
                  (fun r => opt (dbls nwave) (vr_rviserr r))).
  { intros r Hr. apply cell_opt_dbls. now apply vis_complex_len. }
  assert (H11 : cells_are recs (vis_complex_col "IVIS" nwave u vr_ivis)
                  (fun r => opt (dbls nwave) (vr_ivis r))).
  { intros r Hr. apply cell_opt_dbls. now apply vis_complex_len. }
  assert (H12 : cells_are recs (vis_complex_col "IVISERR" nwave u vr_iviserr)
                  (fun r => opt (dbls nwave) (vr_iviserr r))).
  { intros r Hr. apply cell_opt_dbls. now apply vis_complex_len. }
  apply runs_seq with (h' := mk_hdu BINARY_TBL keys
    (insert_at 9 (map (fun s : cspec vis_record => new_column (cs_name s) (cs_form s) n)
                    (vis_complex nwave u)) (map (scol recs) specs2)) n).
  { apply runs_insert_complex. unfold vis_specs2, vis_specs1.
    destruct corr, (vx_usevisrefmap x); reflexivity. }
  set (ksg := [(9, (vis_complex_col "RVIS" nwave u vr_rvis, fun r =>
      do (do nonnull (vr_rvis r) ;; do nonnull (vr_rviserr r) ;; do nonnull (vr_ivis r) ;;
       nonnull (vr_iviserr r)) ;; opt (dbls nwave) (vr_rvis r)));
    (10, (vis_complex_col "RVISERR" nwave u vr_rviserr, fun r => opt (dbls nwave) (vr_rviserr r)));
    (11, (vis_complex_col "IVIS" nwave u vr_ivis, fun r => opt (dbls nwave) (vr_ivis r)));
    (12, (vis_complex_col "IVISERR" nwave u vr_iviserr, fun r => opt (dbls nwave) (vr_iviserr r)))]).
  apply runs_seq with (h' := mk_hdu BINARY_TBL keys
     (insert_at 9 (blank_col n (vis_complex_col "RVIS" nwave u vr_rvis)
        :: skipn 1 (map (fun s : cspec vis_record => new_column (cs_name s) (cs_form s) n)
                    (vis_complex nwave u))) (map (scol recs) specs2)) n).
  { unfold vis_specs2, vis_specs1. destruct corr, (vx_usevisrefmap x);
    (apply (runs_unit _ _ [_; _; _; _; _; _; _; _]); [reflexivity|exact Hu|reflexivity]). }
  apply runs_seq with (h' := mk_hdu BINARY_TBL keys
     (insert_at 9 (blank_col n (vis_complex_col "RVIS" nwave u vr_rvis)
        :: blank_col n (vis_complex_col "RVISERR" nwave u vr_rviserr)
        :: skipn 2 (map (fun s : cspec vis_record => new_column (cs_name s) (cs_form s) n)
                    (vis_complex nwave u))) (map (scol recs) specs2)) n).
  { unfold vis_specs2, vis_specs1. destruct corr, (vx_usevisrefmap x);
    (apply (runs_unit _ _ [_; _; _; _; _; _; _; _; _]); [reflexivity|exact Hu|reflexivity]). }
  apply runs_seq with (h' := mk_hdu BINARY_TBL keys
     (insert_at 9 (blank_col n (vis_complex_col "RVIS" nwave u vr_rvis)
        :: blank_col n (vis_complex_col "RVISERR" nwave u vr_rviserr)
        :: blank_col n (vis_complex_col "IVIS" nwave u vr_ivis)
        :: skipn 3 (map (fun s : cspec vis_record => new_column (cs_name s) (cs_form s) n)
                    (vis_complex nwave u))) (map (scol recs) specs2)) n).
  { unfold vis_specs2, vis_specs1. destruct corr, (vx_usevisrefmap x);
    (apply (runs_unit _ _ [_; _; _; _; _; _; _; _; _; _]); [reflexivity|exact Hu|reflexivity]). }
  apply runs_seq with (h' := mk_hdu BINARY_TBL keys
     (insert_at 9 (map (blank_col n) (vis_complex nwave u)) (map (scol recs) specs2)) n).
  { unfold vis_specs2, vis_specs1. destruct corr, (vx_usevisrefmap x);
    (apply (runs_unit _ _ [_; _; _; _; _; _; _; _; _; _; _]); [reflexivity|exact Hu|reflexivity]). }
  apply runs_seq with (h' := mk_hdu BINARY_TBL keys (map (scol recs)
     (vis_specs3 nwave (vis_ampunit x) corr (vx_usevisrefmap x) true u)) n).
  { unfold vis_specs3, vis_specs2, vis_specs1.
    destruct corr, (vx_usevisrefmap x);
    (eapply runs_fill with (ksg := ksg);
     [reflexivity|assumption|clear; cbn; repeat (apply NoDup_cons; [cbn; intuition discriminate|]); apply NoDup_nil|..|reflexivity];
     repeat (apply Forall_cons; [split; [cbn; lia|]; split; [reflexivity|]; split; [cbn; lia|assumption]|]);
     apply Forall_nil). }
  destruct corr eqn:Hc; [|apply runs_skip]. cbn [when].
  unfold vis_specs3, vis_specs2, vis_specs1.
  destruct (vx_usevisrefmap x);
  (step; [apply runs_insert; reflexivity|]; cbn [hd_type hd_keys hd_cols hd_nrows];
   step; [apply runs_insert; reflexivity|]; cbn [hd_type hd_keys hd_cols hd_nrows];
   fill_with [(11, (vis_corr_r, fun r => int (vr_corrindx_rvis r)));
              (14, (vis_corr_i, fun r => int (vr_corrindx_ivis r)))];
   intros r Hr; apply cell_long; now apply vis_indices_c).
Qed.
End Table.

Lemma writes_vis t extver :
  storable_vis t = true -> writes (write_oi_vis E t extver) (vis_hdu t extver).
Proof.
  intros H. unfold storable_vis, storable_dtab in H. split_and. texts.
  destruct (wf_storable _ _ _ H H0) as [Hn Hs]. clear H H0.
  assert (Hw : 1 <= tb_nwave t <= 9999) by lia.
  unfold write_oi_vis. eapply writes_table; [tform|].
  apply runs_seq with (h' := mk_hdu BINARY_TBL (mkkeys [(true, "EXTNAME", KStr "OI_VIS")])
    (map empty_col (vis_base (tb_nwave t) (vis_ampunit (tb_x t)))) 0).
  { unfold vis_ampunit. destruct (str_eqb (vx_amptyp (tb_x t)) "correlated flux"); [|apply runs_skip].
    cbn [when]. step; [apply (runs_unit _ _ [_; _; _; _]); [reflexivity|assumption|reflexivity]|].
    apply (runs_unit _ _ [_; _; _; _; _]); [reflexivity|assumption|reflexivity]. }
  step; [apply runs_int|]. cbn [app].
  step; [apply runs_str; assumption|]. cbn [app].
  step; [apply runs_when_str; assumption|]. cbn [app].
  step; [apply runs_str; assumption|]. cbn [app].
  step; [apply runs_int|]. cbn [app].
  step.
  { apply runs_rows with (gs := [fun r => int (vr_target_id r); fun r => dbl f64_zero;
      fun r => dbl (vr_mjd r); fun r => dbl (vr_int_time r);
      fun r => dbls (tb_nwave t) (vr_visamp r); fun r => dbls (tb_nwave t) (vr_visamperr r);
      fun r => dbls (tb_nwave t) (vr_visphi r); fun r => dbls (tb_nwave t) (vr_visphierr r);
      fun r => dbl (vr_ucoord r); fun r => dbl (vr_vcoord r);
      fun r => ints [fst (vr_sta_index r); snd (vr_sta_index r)];
      fun r => logs (tb_nwave t) (vr_flag r)]).
    - reflexivity.
    - exact Hn.
    - cbn. lia.
    - rows Hs (@storable_vis_record). }
  step; [|apply runs_chksum]. unfold write_oi_vis_opt.
  step; [apply runs_when_str; assumption|]. cbn [app].
  step; [apply runs_when_str; assumption|]. cbn [app].
  step; [apply runs_when_str; assumption|]. cbn [app].
  step; [apply runs_when_int|]. cbn [app].
  step; [apply runs_when_int|]. cbn [app].
  step; [apply runs_corr_cols; assumption|].
  step; [apply runs_refmap_col; assumption|].
  apply runs_complex_cols; assumption.
Qed.

(** ** Primary header *)
Definition header_keys (h : oi_header) : list (bool * string * kval) :=
  [(true, "ORIGIN", KStr (h_origin h)); (true, "DATE", KStr (cf_today E));
   (true, "DATE-OBS", KStr (h_date_obs h)); (true, "TELESCOP", KStr (h_telescop h));
   (true, "INSTRUME", KStr (h_instrume h)); (true, "OBSERVER", KStr (h_observer h));
   (true, "CONTENT", KStr "OIFITS2"); (true, "INSMODE", KStr (h_insmode h));
   (true, "OBJECT", KStr (h_object h));
   (nonempty (h_referenc h), "REFERENC", KStr (h_referenc h));
   (nonempty (h_author h), "AUTHOR", KStr (h_author h));
   (nonempty (h_prog_id h), "PROG_ID", KStr (h_prog_id h));
   (nonempty (h_procsoft h), "PROCSOFT", KStr (h_procsoft h));
   (nonempty (h_obstech h), "OBSTECH", KStr (h_obstech h))].
Definition header_hdu (h : oi_header) : hdu :=
  sums E (mk_hdu IMAGE_HDU (mkkeys (header_keys h)) [] 0).
Lemma writes_header h :
  storable_header h = true ->
  write_oi_header E h (mk_file [] 0, 0) = Ok (append_hdu (header_hdu h) (mk_file [] 0), 0).
Proof.
  intros H. unfold storable_header in H. texts.
  unfold write_oi_header, guarded. cbn [snd Z.eqb negb].
  unfold seq_ at 1. cbn [f_hdus fst fits_create_img Z.eqb negb]. rewrite bind_Ok.
  revert H. generalize (mk_file [] 0) as f. intros f H. revert f.
  change null_primary with (mk_hdu IMAGE_HDU (mkkeys []) [] 0).
  match goal with |- forall f, ?a (append_hdu ?h1 f, 0) = Ok (append_hdu ?h2 f, 0) =>
    change (runs a h1 h2) end.
  step; [apply runs_str; assumption|]. cbn [app].
  step; [apply runs_op; reflexivity|].
  change (update_key "DATE" (KStr (cf_today E)) _) with
    (mk_hdu IMAGE_HDU (mkkeys [(true, "ORIGIN", KStr (h_origin h)); (true, "DATE", KStr (cf_today E))])
       [] 0).
  do 4 (step; [apply runs_str; assumption|]; cbn [app]).
  step; [apply runs_str; reflexivity|]. cbn [app].
  do 2 (step; [apply runs_str; assumption|]; cbn [app]).
  do 5 (step; [apply runs_when_str; assumption|]; cbn [app]).
  apply runs_chksum.
Qed.
End Vis.
