(** The HDU appended for a data table, and the primary header. *)
From Coq Require Import Lia.
From Verif Require Import BaseLemmas FileProofs WriteModel FitsRows IOSpec FitsText WriteTables WriteProofs.
Open Scope Z_scope.
Local Open Scope string_scope.
Local Open Scope list_scope.

Definition insert_at {A} (k : nat) (new l : list A) : list A :=
  firstn (k - 1) l ++ new ++ skipn (k - 1) l.

Lemma index_long corrname l z :
  nonempty corrname = true -> indices corrname l = true -> In z l -> long z = true.
Proof.
  intros Hn H Hi. unfold indices in H. apply orb_true_iff in H as [H|H].
  - destruct corrname; cbn in *; congruence.
  - exact (proj1 (forallb_forall _ _) H z Hi).
Qed.

(** the conditions of [runs_fill] on concrete columns *)
Ltac fill_with l :=
  eapply runs_fill with (ksg := l);
  [reflexivity | assumption
  | clear; cbn; repeat (apply NoDup_cons; [cbn; intuition discriminate|]); apply NoDup_nil
  | repeat (apply Forall_cons; [split; [cbn; lia|]; split; [reflexivity|]; split; [cbn; lia|]|]);
    [..|apply Forall_nil]
  | reflexivity].

Section Data.
Variable E : cfitsio.

(** ** OI_VIS2 *)
Definition vis2_base (nwave : Z) : list (cspec vis2_record) :=
  [C "TARGET_ID" Short 1 (fun r => [VInt (v2_target_id r)]);
   CU "TIME" Double 1 "s" (fun r => [VDbl f64_zero]);
   CU "MJD" Double 1 "day" (fun r => [VDbl (v2_mjd r)]);
   CU "INT_TIME" Double 1 "s" (fun r => [VDbl (v2_int_time r)]);
   C "VIS2DATA" Double nwave (fun r => map VDbl (v2_vis2data r));
   C "VIS2ERR" Double nwave (fun r => map VDbl (v2_vis2err r));
   CU "UCOORD" Double 1 "m" (fun r => [VDbl (v2_ucoord r)]);
   CU "VCOORD" Double 1 "m" (fun r => [VDbl (v2_vcoord r)]);
   C "STA_INDEX" Short 2 (fun r => [VInt (fst (v2_sta_index r)); VInt (snd (v2_sta_index r))]);
   C "FLAG" Logical nwave (fun r => map VLog (v2_flag r))].
Definition vis2_corr : cspec vis2_record :=
  C "CORRINDX_VIS2DATA" Long 1 (fun r => [VInt (v2_corrindx_vis2data r)]).
Definition vis2_specs (nwave : Z) (corr : bool) : list (cspec vis2_record) :=
  if corr then insert_at 7 [vis2_corr] (vis2_base nwave) else vis2_base nwave.
Definition vis2_keys (t : oi_vis2) (extver : Z) : list (bool * string * kval) :=
  [(true, "EXTNAME", KStr "OI_VIS2"); (true, "OI_REVN", KInt 2);
   (true, "DATE-OBS", KStr (tb_date_obs t)); (nonempty (tb_arrname t), "ARRNAME", KStr (tb_arrname t));
   (true, "INSNAME", KStr (tb_insname t)); (true, "EXTVER", KInt extver);
   (nonempty (tb_corrname t), "CORRNAME", KStr (tb_corrname t))].
Definition vis2_hdu (t : oi_vis2) (extver : Z) : hdu :=
  sums E (mk_hdu BINARY_TBL (mkkeys (vis2_keys t extver))
    (map (scol (tb_record t)) (vis2_specs (tb_nwave t) (nonempty (tb_corrname t)))) (tb_numrec t)).

Lemma wf_storable {X R} (wfr : Z -> R -> bool) (st : R -> bool) (t : dtab X R) :
  wf_dtab wfr t = true -> forallb st (tb_record t) = true ->
  Z.of_nat (List.length (tb_record t)) = tb_numrec t
  /\ forall r, In r (tb_record t) -> wfr (tb_nwave t) r && st r = true.
Proof.
  intros Hw Hs. unfold wf_dtab in Hw. apply andb_true_iff in Hw as [Hw Hr].
  apply andb_true_iff in Hw as [Hl _]. split; [now apply Z.eqb_eq|].
  intros r Hi. apply andb_true_iff.
  split; [exact (proj1 (forallb_forall _ _) Hr r Hi)|exact (proj1 (forallb_forall _ _) Hs r Hi)].
Qed.

Lemma writes_vis2 t extver :
  storable_vis2 t = true -> writes (write_oi_vis2 E t extver) (vis2_hdu t extver).
Proof.
  intros H. unfold storable_vis2, storable_dtab in H. split_and. texts.
  destruct (wf_storable _ _ _ H H0) as [Hn Hs]. clear H H0.
  unfold write_oi_vis2. eapply writes_table; [tform|].
  step; [apply runs_int|]. cbn [app].
  step; [apply runs_str; assumption|]. cbn [app].
  step; [apply runs_when_str; assumption|]. cbn [app].
  step; [apply runs_str; assumption|]. cbn [app].
  step; [apply runs_int|]. cbn [app].
  step.
  { change (map make_column _) with (map empty_col (vis2_base (tb_nwave t))).
    apply runs_rows with (gs := [fun r => int (v2_target_id r); fun r => dbl f64_zero;
      fun r => dbl (v2_mjd r); fun r => dbl (v2_int_time r);
      fun r => dbls (tb_nwave t) (v2_vis2data r); fun r => dbls (tb_nwave t) (v2_vis2err r);
      fun r => dbl (v2_ucoord r); fun r => dbl (v2_vcoord r);
      fun r => ints [fst (v2_sta_index r); snd (v2_sta_index r)];
      fun r => logs (tb_nwave t) (v2_flag r)]).
    - reflexivity.
    - exact Hn.
    - cbn. lia.
    - rows Hs (@storable_vis2_record). }
  step; [|apply runs_chksum]. unfold vis2_specs, vis2_keys.
  destruct (nonempty (tb_corrname t)) eqn:Hc; [|apply runs_skip].
  cbn [when]. step; [apply runs_str; assumption|]. cbn [app].
  step; [apply runs_insert; reflexivity|]. cbn [hd_type hd_keys hd_cols hd_nrows].
  fill_with [(7, (vis2_corr, fun r => int (v2_corrindx_vis2data r)))].
  intros r Hr. specialize (Hs r Hr). unfold storable_vis2_record in Hs. split_and.
  apply cell_long. eapply index_long; [exact Hc|eassumption|cbn; auto].
Qed.

(** ** OI_T3 *)
Definition t3_base (nwave : Z) : list (cspec t3_record) :=
  [C "TARGET_ID" Short 1 (fun r => [VInt (t3_target_id r)]);
   CU "TIME" Double 1 "s" (fun r => [VDbl f64_zero]);
   CU "MJD" Double 1 "day" (fun r => [VDbl (t3_mjd r)]);
   CU "INT_TIME" Double 1 "s" (fun r => [VDbl (t3_int_time r)]);
   C "T3AMP" Double nwave (fun r => map VDbl (t3_t3amp r));
   C "T3AMPERR" Double nwave (fun r => map VDbl (t3_t3amperr r));
   CU "T3PHI" Double nwave "deg" (fun r => map VDbl (t3_t3phi r));
   CU "T3PHIERR" Double nwave "deg" (fun r => map VDbl (t3_t3phierr r));
   CU "U1COORD" Double 1 "m" (fun r => [VDbl (t3_u1coord r)]);
   CU "V1COORD" Double 1 "m" (fun r => [VDbl (t3_v1coord r)]);
   CU "U2COORD" Double 1 "m" (fun r => [VDbl (t3_u2coord r)]);
   CU "V2COORD" Double 1 "m" (fun r => [VDbl (t3_v2coord r)]);
   C "STA_INDEX" Short 3 (fun r => [VInt (fst (fst (t3_sta_index r)));
                                    VInt (snd (fst (t3_sta_index r))); VInt (snd (t3_sta_index r))]);
   C "FLAG" Logical nwave (fun r => map VLog (t3_flag r))].
Definition t3_corr_amp : cspec t3_record :=
  C "CORRINDX_T3AMP" Long 1 (fun r => [VInt (t3_corrindx_t3amp r)]).
Definition t3_corr_phi : cspec t3_record :=
  C "CORRINDX_T3PHI" Long 1 (fun r => [VInt (t3_corrindx_t3phi r)]).
Definition t3_specs (nwave : Z) (corr : bool) : list (cspec t3_record) :=
  if corr then insert_at 10 [t3_corr_phi] (insert_at 7 [t3_corr_amp] (t3_base nwave))
  else t3_base nwave.
Definition t3_keys (t : oi_t3) (extver : Z) : list (bool * string * kval) :=
  [(true, "EXTNAME", KStr "OI_T3"); (true, "OI_REVN", KInt 2);
   (true, "DATE-OBS", KStr (tb_date_obs t)); (nonempty (tb_arrname t), "ARRNAME", KStr (tb_arrname t));
   (true, "INSNAME", KStr (tb_insname t)); (true, "EXTVER", KInt extver);
   (nonempty (tb_corrname t), "CORRNAME", KStr (tb_corrname t))].
Definition t3_hdu (t : oi_t3) (extver : Z) : hdu :=
  sums E (mk_hdu BINARY_TBL (mkkeys (t3_keys t extver))
    (map (scol (tb_record t)) (t3_specs (tb_nwave t) (nonempty (tb_corrname t)))) (tb_numrec t)).

Lemma writes_t3 t extver :
  storable_t3 t = true -> writes (write_oi_t3 E t extver) (t3_hdu t extver).
Proof.
  intros H. unfold storable_t3, storable_dtab in H. split_and. texts.
  destruct (wf_storable _ _ _ H H0) as [Hn Hs]. clear H H0.
  unfold write_oi_t3. eapply writes_table; [tform|].
  step; [apply runs_int|]. cbn [app].
  step; [apply runs_str; assumption|]. cbn [app].
  step; [apply runs_when_str; assumption|]. cbn [app].
  step; [apply runs_str; assumption|]. cbn [app].
  step; [apply runs_int|]. cbn [app].
  step.
  { change (map make_column _) with (map empty_col (t3_base (tb_nwave t))).
    apply runs_rows with (gs := [fun r => int (t3_target_id r); fun r => dbl f64_zero;
      fun r => dbl (t3_mjd r); fun r => dbl (t3_int_time r);
      fun r => dbls (tb_nwave t) (t3_t3amp r); fun r => dbls (tb_nwave t) (t3_t3amperr r);
      fun r => dbls (tb_nwave t) (t3_t3phi r); fun r => dbls (tb_nwave t) (t3_t3phierr r);
      fun r => dbl (t3_u1coord r); fun r => dbl (t3_v1coord r);
      fun r => dbl (t3_u2coord r); fun r => dbl (t3_v2coord r);
      fun r => ints [fst (fst (t3_sta_index r)); snd (fst (t3_sta_index r)); snd (t3_sta_index r)];
      fun r => logs (tb_nwave t) (t3_flag r)]).
    - reflexivity.
    - exact Hn.
    - cbn. lia.
    - rows Hs (@storable_t3_record). }
  step; [|apply runs_chksum]. unfold t3_specs, t3_keys.
  destruct (nonempty (tb_corrname t)) eqn:Hc; [|apply runs_skip].
  cbn [when]. step; [apply runs_str; assumption|]. cbn [app].
  step; [apply runs_insert; reflexivity|]. cbn [hd_type hd_keys hd_cols hd_nrows].
  step; [apply runs_insert; reflexivity|]. cbn [hd_type hd_keys hd_cols hd_nrows].
  fill_with [(7, (t3_corr_amp, fun r => int (t3_corrindx_t3amp r)));
             (10, (t3_corr_phi, fun r => int (t3_corrindx_t3phi r)))];
  (intros r Hr; specialize (Hs r Hr); unfold storable_t3_record in Hs; split_and;
   apply cell_long; eapply index_long; [exact Hc|eassumption|cbn; auto]).
Qed.

(** ** OI_FLUX *)
Definition flux_base (nwave : Z) (u : string) : list (cspec flux_record) :=
  [C "TARGET_ID" Short 1 (fun r => [VInt (fr_target_id r)]);
   CU "MJD" Double 1 "day" (fun r => [VDbl (fr_mjd r)]);
   CU "INT_TIME" Double 1 "s" (fun r => [VDbl (fr_int_time r)]);
   CU "FLUXDATA" Double nwave u (fun r => map VDbl (fr_fluxdata r));
   CU "FLUXERR" Double nwave u (fun r => map VDbl (fr_fluxerr r));
   C "FLAG" Logical nwave (fun r => map VLog (fr_flag r))].
Definition flux_corr : cspec flux_record :=
  C "CORRINDX_FLUXDATA" Long 1 (fun r => [VInt (fr_corrindx_fluxdata r)]).
Definition flux_sta : cspec flux_record := C "STA_INDEX" Short 1 (fun r => [VInt (fr_sta_index r)]).
Definition flux_specs (nwave : Z) (u : string) (corr arr : bool) : list (cspec flux_record) :=
  let l := if corr then insert_at 5 [flux_corr] (flux_base nwave u) else flux_base nwave u in
  if arr then insert_at 6 [flux_sta] l else l.
Definition flux_keys (t : oi_flux) (extver : Z) : list (bool * string * kval) :=
  let fov := nonempty (fx_fovtype (tb_x t)) in
  [(true, "EXTNAME", KStr "OI_FLUX"); (true, "OI_REVN", KInt 1);
   (true, "DATE-OBS", KStr (tb_date_obs t)); (nonempty (tb_arrname t), "ARRNAME", KStr (tb_arrname t));
   (true, "INSNAME", KStr (tb_insname t)); (true, "CALSTAT", KStr (one_char (fx_calstat (tb_x t))));
   (true, "EXTVER", KInt extver);
   (fov, "FOV", KDbl (kept_double E (fx_fov (tb_x t)))); (fov, "FOVTYPE", KStr (fx_fovtype (tb_x t)));
   (nonempty (tb_corrname t), "CORRNAME", KStr (tb_corrname t))].
Definition flux_hdu (t : oi_flux) (extver : Z) : hdu :=
  sums E (mk_hdu BINARY_TBL (mkkeys (flux_keys t extver))
    (map (scol (tb_record t)) (flux_specs (tb_nwave t) (fx_fluxunit (tb_x t))
       (nonempty (tb_corrname t)) (nonempty (tb_arrname t)))) (tb_numrec t)).

Lemma runs_unit ty keys pre c post n k u :
  k = Z.of_nat (List.length pre) + 1 -> card_text u = true -> c_unit c = None ->
  runs (write_tunit k u) (mk_hdu ty keys (pre ++ c :: post) n)
    (mk_hdu ty keys (pre ++ mk_column (c_name c) (c_form c) (Some u) (c_dim c) (c_data c) :: post) n).
Proof.
  intros Hk Hu Hc f. rewrite (runs_tunit k u _ f). unfold on_col.
  cbn [hd_cols hd_type hd_keys hd_nrows].
  destruct (Z.ltb_spec k 1); [lia|]. replace (Z.to_nat (k - 1)) with (List.length pre) by lia.
  rewrite at_nth_app. unfold set_unit. now rewrite Hc, card_id.
Qed.
Lemma one_char_text c : char_text c = true -> card_text (one_char c) = true.
Proof.
  unfold char_text, one_char. destruct (Ascii.eqb c zero); [reflexivity|]. cbn [orb]. auto.
Qed.
Lemma nonempty_is_empty s : nonempty s = true -> is_empty s = false.
Proof. now destruct s. Qed.

Lemma writes_flux t extver :
  storable_flux E t = true -> writes (write_oi_flux E t extver) (flux_hdu t extver).
Proof.
  intros H. unfold storable_flux, storable_dtab in H. split_and. texts.
  destruct (wf_storable _ _ _ H H0) as [Hn Hs]. clear H H0.
  unfold write_oi_flux. eapply writes_table; [tform|].
  cbn [map make_column is_empty].
  step; [apply (runs_unit _ _ [_; _; _]); [reflexivity|assumption|reflexivity]|].
  step; [apply (runs_unit _ _ [_; _; _; _]); [reflexivity|assumption|reflexivity]|].
  cbn [app c_name c_form c_unit c_dim c_data].
  step; [apply runs_int|]. cbn [app].
  step; [apply runs_str; assumption|]. cbn [app].
  step; [apply runs_when_str; assumption|]. cbn [app].
  step; [apply runs_str; assumption|]. cbn [app].
  step; [apply runs_str; now apply one_char_text|]. cbn [app].
  step; [apply runs_int|]. cbn [app].
  step.
  { match goal with |- runs _ (mk_hdu _ _ ?c _) _ =>
      change c with (map empty_col (flux_base (tb_nwave t) (fx_fluxunit (tb_x t)))) end.
    apply runs_rows with (gs := [fun r => int (fr_target_id r);
      fun r => dbl (fr_mjd r); fun r => dbl (fr_int_time r);
      fun r => dbls (tb_nwave t) (fr_fluxdata r); fun r => dbls (tb_nwave t) (fr_fluxerr r);
      fun r => logs (tb_nwave t) (fr_flag r)]).
    - reflexivity.
    - exact Hn.
    - cbn. lia.
    - rows Hs (@storable_flux_record). }
  step.
  { apply (runs_when_keys _ _ _ _ _ _ [("FOV", KDbl (kept_double E (fx_fov (tb_x t))));
                                         ("FOVTYPE", KStr (fx_fovtype (tb_x t)))]).
    intros Hf. cbn [map fst snd].
    step; [apply runs_double|].
    - apply orb_true_iff in H1 as [H1|H1]; [|exact H1].
      rewrite (nonempty_is_empty _ Hf) in H1. discriminate.
    - cbn [app]. apply runs_str. assumption. }
  cbn [map fst snd app].
  assert (Hsta : nonempty (tb_arrname t) = true -> cells_are (tb_record t) flux_sta
                                                    (fun r => int (fr_sta_index r))).
  { intros Ha r Hr. specialize (Hs r Hr). unfold storable_flux_record in Hs. split_and.
    apply cell_short. match goal with H : is_empty _ || _ = true |- _ =>
      rewrite (nonempty_is_empty _ Ha) in H; exact H end. }
  assert (Hix : nonempty (tb_corrname t) = true -> cells_are (tb_record t) flux_corr
                                                    (fun r => int (fr_corrindx_fluxdata r))).
  { intros Hc r Hr. specialize (Hs r Hr). unfold storable_flux_record in Hs. split_and.
    apply cell_long. eapply index_long; [exact Hc|eassumption|cbn; auto]. }
  apply runs_seq with (h' := mk_hdu BINARY_TBL (mkkeys (flux_keys t extver))
    (map (scol (tb_record t)) (flux_specs (tb_nwave t) (fx_fluxunit (tb_x t))
       (nonempty (tb_corrname t)) false)) (tb_numrec t)).
  - unfold flux_specs, flux_keys. destruct (nonempty (tb_corrname t)) eqn:Hc; [|apply runs_skip].
    cbn [when]. step; [apply runs_str; assumption|]. cbn [app].
    step; [apply runs_insert; reflexivity|]. cbn [hd_type hd_keys hd_cols hd_nrows].
    fill_with [(5, (flux_corr, fun r => int (fr_corrindx_fluxdata r)))]. now apply Hix.
  - step; [|apply runs_chksum]. unfold flux_specs.
    destruct (nonempty (tb_arrname t)) eqn:Ha; [|apply runs_skip].
    destruct (nonempty (tb_corrname t)) eqn:Hc; cbn [when];
    (step; [apply runs_insert; reflexivity|]; cbn [hd_type hd_keys hd_cols hd_nrows];
     fill_with [(6, (flux_sta, fun r => int (fr_sta_index r)))]; now apply Hsta).
Qed.
End Data.
