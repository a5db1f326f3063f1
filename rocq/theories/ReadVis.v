(** What read_next_oi_vis and read_oi_header return for the HDUs of WriteVis. *)
From Coq Require Import Lia.
From Verif Require Import BaseLemmas FileProofs ReadModel FitsRows IOSpec FitsText WriteTables
  WriteProofs WriteData WriteVis ReadCells ReadProofs.
Open Scope Z_scope.
Local Open Scope string_scope.
Local Open Scope list_scope.

Lemma bool_cases b : b = true \/ b = false.
Proof. destruct b; auto. Qed.

Section Vis.
Variable E : cfitsio.
Variables (hd : hdu) (recs : list vis_record) (nwave : Z) (au : option string)
  (corr refmap complex : bool) (u : string).
Hypothesis Hcols : hd_cols hd = map (scol recs) (vis_specs nwave au corr refmap complex u).
Hypothesis Hwave : 1 <= nwave.
Hypothesis Hwidth : Forall (fun s => forall r, In r recs ->
  Z.of_nat (List.length (cs_val s r)) = per_row (cs_form s)) (vis_specs nwave au corr refmap complex u).

(** the record after the mandatory columns *)
Definition vis_basic (r : vis_record) : vis_record :=
  mk_vis_record (vr_target_id r) f64_zero (vr_mjd r) (vr_int_time r) (vr_visamp r) (vr_visamperr r)
    (cf_junk_int E) (vr_visphi r) (vr_visphierr r) (cf_junk_int E) None None None (cf_junk_int E)
    None None (cf_junk_int E) (vr_ucoord r) (vr_vcoord r) (vr_sta_index r) (vr_flag r).
Definition vis_indexed (r : vis_record) : vis_record :=
  vr_set_corrindx (index_if E corr (vr_corrindx_visamp r)) (index_if E corr (vr_corrindx_visphi r))
    (vis_basic r).
Definition vis_mapped (r : vis_record) : vis_record :=
  vr_set_visrefmap (if refmap then vr_visrefmap r else None) (vis_indexed r).
Definition vis_full (r : vis_record) : vis_record :=
  vr_set_complex (if complex then vr_rvis r else None) (if complex then vr_rviserr r else None)
    (index_if E (corr && complex) (vr_corrindx_rvis r))
    (if complex then vr_ivis r else None) (if complex then vr_iviserr r else None)
    (index_if E (corr && complex) (vr_corrindx_ivis r)) (vis_mapped r).

Section Row.
Variables (pre : list vis_record) (r : vis_record) (post : list vis_record).
Hypothesis Hsp : recs = pre ++ r :: post.
Lemma read_basic_row :
  returns (read_vis_record E hd nwave (Z.of_nat (List.length pre) + 1)) (vis_basic r).
Proof using Hcols Hwidth Hsp.
  unfold read_vis_record, vis_basic.
  destruct corr, refmap, complex;
  (do 12 cellstep; cbn [fst snd]; rewrite <- surjective_pairing; apply ret_ret).
Qed.
Lemma read_index_row : corr = true ->
  returns (a <~ int_at E hd "CORRINDX_VISAMP" (Z.of_nat (List.length pre) + 1) ;~
           p <~ int_at E hd "CORRINDX_VISPHI" (Z.of_nat (List.length pre) + 1) ;~
           rret (vr_set_corrindx a p (vis_basic r))) (vis_indexed r).
Proof using Hcols Hwidth Hsp.
  intros Hc. unfold vis_indexed. rewrite Hc in *.
  destruct refmap, complex; (do 2 cellstep; apply ret_ret).
Qed.
Lemma read_refmap_row k : refmap = true -> nth_col k hd = Some (scol recs (vis_map nwave)) ->
  opt_len_is (nwave * nwave) (vr_visrefmap r) = true ->
  returns (_ <~ lift (chkmalloc (nwave * nwave)) ;~
           m <~ read_col as_bool hd (Some k) (Z.of_nat (List.length pre) + 1) (nwave * nwave) ;~
           rret (vr_set_visrefmap (Some (slot_bools E (nwave * nwave) m)) (vis_indexed r)))
    (vis_mapped r).
Proof using Hcols Hwidth Hwave Hsp.
  intros Hr Hk Hl. unfold vis_mapped. rewrite Hr in *.
  eapply ret_bind; [apply ret_malloc; nia|].
  destruct (vr_visrefmap r) as [m|] eqn:Hm; [|discriminate]. cbn [opt_len_is] in Hl. apply Z.eqb_eq in Hl.
  apply ret_bind with (a := Some m); [|apply ret_ret].
  eapply read_cell with (s := vis_map nwave);
    [exact Hcols|exact Hwidth|exact Hsp| |exact Hk|cbn [vis_map cs_form per_row fm_kind fm_repeat]; nia|].
  - eapply picks_in with (name := "VISREFMAP"). destruct corr, complex; reflexivity.
  - cbn [vis_map cs_val]. rewrite Hm, firstn_all2 by (rewrite map_length; lia).
    apply convert_all_map. reflexivity.
Qed.
Lemma read_complex_row_ok : complex = true ->
  opt_len_is nwave (vr_rvis r) = true /\ opt_len_is nwave (vr_rviserr r) = true
  /\ opt_len_is nwave (vr_ivis r) = true /\ opt_len_is nwave (vr_iviserr r) = true ->
  returns (read_complex_row E hd nwave corr (Z.of_nat (List.length pre) + 1) (vis_mapped r)) (vis_full r).
Proof using Hcols Hwidth Hwave Hsp.
  intros Hc (H1 & H2 & H3 & H4). unfold read_complex_row, vis_full. rewrite Hc in *.
  destruct (vr_rvis r) as [l1|] eqn:E1; [|discriminate].
  destruct (vr_rviserr r) as [l2|] eqn:E2; [|discriminate].
  destruct (vr_ivis r) as [l3|] eqn:E3; [|discriminate].
  destruct (vr_iviserr r) as [l4|] eqn:E4; [|discriminate].
  eapply ret_bind; [apply ret_malloc; lia|].
  apply ret_bind with (a := l1).
  { eapply dbls_at_ok with (s := vis_complex_col "RVIS" nwave u vr_rvis); [eassumption|eassumption|eassumption| |reflexivity|].
    - destruct corr, refmap; reflexivity.
    - cbn [vis_complex_col CU cs_val]. now rewrite E1. }
  apply ret_bind with (a := l2).
  { eapply dbls_at_ok with (s := vis_complex_col "RVISERR" nwave u vr_rviserr); [eassumption|eassumption|eassumption| |reflexivity|].
    - destruct corr, refmap; reflexivity.
    - cbn [vis_complex_col CU cs_val]. now rewrite E2. }
  apply ret_bind with (a := l3).
  { eapply dbls_at_ok with (s := vis_complex_col "IVIS" nwave u vr_ivis); [eassumption|eassumption|eassumption| |reflexivity|].
    - destruct corr, refmap; reflexivity.
    - cbn [vis_complex_col CU cs_val]. now rewrite E3. }
  apply ret_bind with (a := l4).
  { eapply dbls_at_ok with (s := vis_complex_col "IVISERR" nwave u vr_iviserr); [eassumption|eassumption|eassumption| |reflexivity|].
    - destruct corr, refmap; reflexivity.
    - cbn [vis_complex_col CU cs_val]. now rewrite E4. }
  destruct corr; cbn [andb index_if].
  - apply ret_bind with (a := (vr_corrindx_rvis r, vr_corrindx_ivis r)); [|apply ret_ret].
    destruct refmap; (do 2 cellstep; apply ret_ret).
  - eapply ret_bind; [apply ret_ret|]. apply ret_ret.
Qed.
End Row.

Hypothesis Hmap : refmap = true -> forall r, In r recs -> opt_len_is (nwave * nwave) (vr_visrefmap r) = true.
Hypothesis Hcplx : complex = true -> forall r, In r recs ->
  opt_len_is nwave (vr_rvis r) = true /\ opt_len_is nwave (vr_rviserr r) = true
  /\ opt_len_is nwave (vr_ivis r) = true /\ opt_len_is nwave (vr_iviserr r) = true.

Lemma read_index_rows :
  returns (if corr
           then each_row (map vis_basic recs) (fun irow r =>
                      a <~ int_at E hd "CORRINDX_VISAMP" irow ;~
                      p <~ int_at E hd "CORRINDX_VISPHI" irow ;~
                      rret (vr_set_corrindx a p r))
           else rret (map vis_basic recs)) (map vis_indexed recs).
Proof using Hcols Hwidth.
  destruct (bool_cases corr) as [Hc|Hc]; rewrite Hc.
  - apply each_row_ok. intros pre r post Hsp. now apply read_index_row with (post := post).
  - replace (map vis_indexed recs) with (map vis_basic recs); [apply ret_ret|].
    apply map_ext. intros r. unfold vis_indexed. now rewrite Hc.
Qed.

Lemma set_set_complex r : complex = false ->
  vr_set_complex None None (vr_corrindx_rvis (vis_mapped r)) None None (vr_corrindx_ivis (vis_mapped r))
    (vis_mapped r) = vis_full r.
Proof using. intros H. unfold vis_full. rewrite H, andb_false_r. reflexivity. Qed.

Lemma read_complex_ok :
  returns (read_oi_vis_complex E hd nwave corr (map vis_mapped recs))
    (complex, if complex then u else "", map vis_full recs).
Proof using Hcols Hwidth Hwave Hmap Hcplx.
  unfold read_oi_vis_complex. eapply ret_bind; [apply ret_status|]. cbn [Z.eqb negb].
  destruct (bool_cases complex) as [Hc|Hc].
  - eapply colnum_found with (s := vis_complex_col "RVIS" nwave u vr_rvis); [exact Hcols| |].
    { rewrite Hc. destruct corr, refmap; reflexivity. }
    intros k Hk. cbn [Z.eqb COL_NOT_FOUND Pos.eqb].
    assert (Hp : picks (vis_specs nwave au corr refmap complex u) "RVIS"
                   (vis_complex_col "RVIS" nwave u vr_rvis))
      by (rewrite Hc; destruct corr, refmap; reflexivity).
    destruct (col_found hd recs _ Hcols "RVIS" _ Hp) as (k' & Hf & Hk').
    eapply ret_bind; [unfold get_colnum; rewrite Hf; reflexivity|].
    apply ret_bind with (a := Some u).
    { unfold read_tunit. cbn [slot_int slot]. rewrite Hk'. reflexivity. }
    eapply ret_bind.
    { apply each_row_ok with (g' := vis_full). intros pre r post Hsp.
      apply (read_complex_row_ok pre r post Hsp); [exact Hc|]. apply Hcplx; [exact Hc|].
      now apply split_in in Hsp. }
    rewrite Hc. apply ret_ret.
  - eapply colnum_missing; [exact Hcols| |].
    { rewrite Hc. destruct corr, refmap; reflexivity. }
    cbn [Z.eqb COL_NOT_FOUND Pos.eqb]. unfold rbind, set_status. rewrite bind_Ok. cbn [fst snd].
    rewrite map_map, Hc. unfold rret. do 3 f_equal. apply map_ext. intros r.
    apply set_set_complex. exact Hc.
Qed.

Lemma read_map_ok (F : bool * list vis_record -> rd (string * vis_extra * list vis_record)) b :
  returns (F (refmap, map vis_mapped recs)) b ->
  returns (k <~ get_colnum hd "VISREFMAP" ;~ st <~ get_status ;~
    map_ <~ (if (st =? COL_NOT_FOUND)%Z
             then _ <~ set_status 0 ;~ rret (false, map (vr_set_visrefmap None) (map vis_indexed recs))
             else
               record <~ each_row (map vis_indexed recs) (fun irow r =>
                 _ <~ lift (chkmalloc (nwave * nwave)) ;~
                 m <~ read_col as_bool hd k irow (nwave * nwave) ;~
                 rret (vr_set_visrefmap (Some (slot_bools E (nwave * nwave) m)) r)) ;~
               rret (true, record)) ;~ F map_) b.
Proof using Hcols Hwidth Hwave Hmap Hcplx.
  intros HF. destruct (bool_cases refmap) as [Hr|Hr].
  - eapply colnum_found with (s := vis_map nwave); [exact Hcols| |].
    { rewrite Hr. destruct corr, complex; reflexivity. }
    intros k Hk. cbn [Z.eqb COL_NOT_FOUND Pos.eqb].
    eapply ret_bind; [|exact HF]. eapply ret_bind.
    { apply each_row_ok with (g' := vis_mapped). intros pre r post Hsp.
      apply (read_refmap_row pre r post Hsp); [exact Hr|exact Hk|].
      apply Hmap; [exact Hr|]. now apply split_in in Hsp. }
    rewrite Hr. apply ret_ret.
  - eapply colnum_missing; [exact Hcols| |].
    { rewrite Hr. destruct corr, complex; reflexivity. }
    cbn [Z.eqb COL_NOT_FOUND Pos.eqb]. apply clear_status. eapply ret_bind; [apply ret_ret|].
    rewrite Hr in HF. rewrite map_map.
    replace (map (fun x => vr_set_visrefmap None (vis_indexed x)) recs) with (map vis_mapped recs);
      [exact HF|].
    apply map_ext. intros r. unfold vis_mapped. now rewrite Hr.
Qed.
End Vis.

Section Table.
Variable E : cfitsio.

Lemma vis_full_stored t r :
  wf_vis_record (tb_x t) (tb_nwave t) r = true ->
  vis_full E (nonempty (tb_corrname t)) (vx_usevisrefmap (tb_x t)) (vx_usecomplex (tb_x t)) r
  = stored_vis_record E t r.
Proof.
  intros H. unfold wf_vis_record in H. split_and.
  unfold vis_full, vis_mapped, vis_indexed, vis_basic, stored_vis_record, vr_set_complex,
    vr_set_visrefmap, vr_set_corrindx.
  cbn [vr_target_id vr_time vr_mjd vr_int_time vr_visamp vr_visamperr vr_corrindx_visamp vr_visphi
       vr_visphierr vr_corrindx_visphi vr_visrefmap vr_rvis vr_rviserr vr_corrindx_rvis vr_ivis
       vr_iviserr vr_corrindx_ivis vr_ucoord vr_vcoord vr_sta_index vr_flag].
  destruct (vx_usevisrefmap (tb_x t)), (vx_usecomplex (tb_x t)); split_and;
  repeat match goal with H : is_none ?x = true |- _ => destruct x eqn:?; [discriminate|clear H] end;
  reflexivity.
Qed.

Lemma read_vis t extver :
  storable_vis t = true ->
  returns (read_oi_vis_chdu E (vis_hdu E t extver)) (Some (stored_vis E t)).
Proof.
  intros H. unfold storable_vis, storable_dtab in H. split_and.
  destruct (wf_storable _ _ _ H H0) as [Hl Hs]. clear H H0.
  assert (Hwf : forall r, In r (tb_record t) -> wf_vis_record (tb_x t) (tb_nwave t) r = true).
  { intros r Hr. specialize (Hs r Hr). now apply andb_true_iff in Hs. }
  assert (Hmap : vx_usevisrefmap (tb_x t) = true -> forall r, In r (tb_record t) ->
            opt_len_is (tb_nwave t * tb_nwave t) (vr_visrefmap r) = true).
  { intros Hx r Hr. specialize (Hwf r Hr). unfold wf_vis_record in Hwf. rewrite Hx in Hwf. now split_and. }
  assert (Hcplx : vx_usecomplex (tb_x t) = true -> forall r, In r (tb_record t) ->
    opt_len_is (tb_nwave t) (vr_rvis r) = true /\ opt_len_is (tb_nwave t) (vr_rviserr r) = true
    /\ opt_len_is (tb_nwave t) (vr_ivis r) = true /\ opt_len_is (tb_nwave t) (vr_iviserr r) = true).
  { intros Hx r Hr. specialize (Hwf r Hr). unfold wf_vis_record in Hwf. rewrite Hx in Hwf. split_and. auto. }
  unfold read_oi_vis_chdu, vis_hdu.
  apply ret_unless. kstep. apply ret_unless. do 3 kstep.
  match goal with |- context [sums E ?h] =>
    set (hd := sums E h); destruct (sums_rest E h) as (Ht & Hcols & Hn); fold hd in Ht, Hcols, Hn end.
  assert (Hkeys : forall k, str_eqb "CHECKSUM" k = false -> str_eqb "DATASUM" k = false ->
                  find_key k (hd_keys hd) = lookup k (vis_keys t extver)).
  { intros k Hk1 Hk2. now apply find_keys. }
  clearbody hd. cbn [hd_cols hd_type hd_nrows] in *.
  set (x := tb_x t) in *. set (recs := tb_record t) in *. set (nwave := tb_nwave t) in *.
  set (au := vis_ampunit x) in *. set (corr := nonempty (tb_corrname t)) in *.
  assert (Hd : exists k c, returns (dimensions E hd "VISAMP") (tb_numrec t, nwave, k)
                         /\ nth_col k hd = Some c /\ c_unit c = au).
  { assert (Hp : exists v, picks (vis_specs nwave au corr (vx_usevisrefmap x) (vx_usecomplex x) (vx_complexunit x))
        "VISAMP" (mk_cspec "VISAMP" (mk_form Double nwave) au None v)).
    { eexists. destruct corr, (vx_usevisrefmap x), (vx_usecomplex x); reflexivity. }
    destruct Hp as (v & Hp).
    destruct (dimensions_ok E hd _ _ "VISAMP" _ _ Hcols Ht Hn Hp) as (k & Hd & Hk).
    exists k, (scol recs (mk_cspec "VISAMP" (mk_form Double nwave) au None v)). auto. }
  destruct Hd as (k & c & Hd & Hk & Hu). eapply ret_bind; [exact Hd|]. apply ret_unless.
  eapply ret_bind; [apply ret_alloc; lia|].
  apply ret_bind with (a := (Some (vx_ampunit (stored_vis_extra x)),
                              str_eqb (vx_amptyp x) "correlated flux")).
  { unfold stored_vis_extra. cbn [vx_ampunit]. unfold au, vis_ampunit in Hu.
    destruct (str_eqb (vx_amptyp x) "correlated flux").
    - apply key_opt_ok. unfold read_tunit. rewrite Hk, Hu. reflexivity.
    - apply key_opt_missing. unfold read_tunit. rewrite Hk, Hu. reflexivity. }
  assert (Hw : Forall (fun s => forall r, In r recs -> Z.of_nat (List.length (cs_val s r)) = per_row (cs_form s))
     (vis_specs nwave au corr (vx_usevisrefmap x) (vx_usecomplex x) (vx_complexunit x))).
  { clear Hcols. clearbody corr. destruct corr, (vx_usevisrefmap x) eqn:Hx, (vx_usecomplex x) eqn:Hc;
    (repeat (apply Forall_cons; [|]); try apply Forall_nil); try reflexivity;
    intros r Hr; pose proof (Hwf r Hr) as Hr'; unfold wf_vis_record in Hr'; split_and;
    try (destruct (Hcplx eq_refl r Hr) as (C1 & C2 & C3 & C4)); try (specialize (Hmap eq_refl r Hr));
    repeat match goal with
           | H : len_is _ _ = true |- _ => apply Z.eqb_eq in H
           | H : opt_len_is _ ?o = true |- _ =>
               destruct o eqn:?; cbn [opt_len_is] in H; [apply Z.eqb_eq in H|discriminate]
           end;
    cbn [C CU vis_map vis_complex_col cs_form cs_val per_row fm_kind fm_repeat];
    repeat match goal with Hz : ?o = Some _ |- context [match ?o with _ => _ end] => rewrite Hz end;
    rewrite map_length; assumption. }
  assert (Hwave : 1 <= nwave) by lia.
  eapply ret_bind.
  { apply new_rows_ok with (g := vis_basic E); [exact Hl|]. intros pre r post Hsp.
    eapply read_basic_row; eauto. }
  apply ret_bind with (a := (tb_corrname t, stored_vis_extra x,
    map (vis_full E corr (vx_usevisrefmap x) (vx_usecomplex x)) recs)).
  2: { unfold stored_vis, stored_dtab.
       replace (map (stored_vis_record E t) (tb_record t))
         with (map (vis_full E corr (vx_usevisrefmap x) (vx_usecomplex x)) recs); [apply ret_finish|].
       apply map_ext_in. intros r Hr. apply vis_full_stored. now apply Hwf. }
  unfold read_oi_vis_opt. eapply ret_bind; [apply ret_status|]. cbn [Z.eqb negb Pos.eqb].
  apply ret_bind with (a := (Some (tb_corrname t), corr)).
  { replace (tb_corrname t) with (if corr then tb_corrname t else "").
    - apply opt_string_ok. rewrite Hkeys by reflexivity. reflexivity.
    - unfold corr. now destruct (tb_corrname t). }
  cbn [fst snd].
  eapply ret_bind; [apply key_opt_name with (s := vx_amptyp x); rewrite Hkeys by reflexivity; reflexivity|].
  eapply ret_bind; [apply key_opt_name with (s := vx_phityp x); rewrite Hkeys by reflexivity; reflexivity|].
  eapply ret_bind; [apply key_opt_int_ok with (b := (0 <=? vx_amporder x)%Z) (z := vx_amporder x);
                    rewrite Hkeys by reflexivity; reflexivity|].
  eapply ret_bind; [apply key_opt_int_ok with (b := (0 <=? vx_phiorder x)%Z) (z := vx_phiorder x);
                    rewrite Hkeys by reflexivity; reflexivity|].
  eapply ret_bind; [eapply read_index_rows; eauto|].
  eapply (read_map_ok E hd recs nwave au corr _ _ _ Hcols Hwave Hw Hmap Hcplx).
  eapply ret_bind; [eapply (read_complex_ok E hd recs nwave au corr _ _ _ Hcols Hwave Hw Hmap Hcplx)|].
  cbn [fst snd slot_str slot]. apply ret_ret.
Qed.

Lemma read_header h :
  storable_header h = true ->
  returns (read_oi_header_chdu E (header_hdu E h)) (Some (stored_header E h)).
Proof.
  intros _. unfold read_oi_header_chdu, header_hdu, stored_header. apply ret_unless.
  do 9 (eapply ret_bind; [apply key_opt_str_ok with (b := true); key|]).
  do 5 (eapply ret_bind; [apply key_opt_name; key|]). apply ret_finish.
Qed.
End Table.
