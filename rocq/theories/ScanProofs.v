(** The text of a dataset is read as that dataset. *)
From Coq Require Import Lia.
From Verif Require Import BaseLemmas ScanSpec ScanWords ScanSteps.
Open Scope string_scope.
Open Scope list_scope.
Open Scope Z_scope.

Section Tables.
Variable N : numbers.
Notation rd := (reads N false false any).

Lemma pair3 {A B C} (p : A * B * C) : exists a b c, p = (a, b, c).
Proof. destruct p as ((a, b), c). eauto. Qed.

(** ** OI_ARRAY *)

Lemma reads_element i e : within 16 (el_tel_name e) -> within 16 (el_sta_name e) -> within 6 (el_fovtype e) ->
  el_sta_index e = i + 1 -> rd (scan_element N i) (element_tokens e) e.
Proof.
  destruct e as [tel sta idx diam ((x, y), z) fov ft]. cbn [el_tel_name el_sta_name el_fovtype el_sta_index].
  intros H1 H2 H3 ->. unfold element_tokens, scan_element. cbn [el_staxyz el_tel_name el_sta_name el_diameter el_fov el_fovtype].
  step1. step1. step1. destruct (Z.leb_spec (strlen ft) 6) as [_|Hn]; [apply reads_ret|unfold within in H3; lia].
Qed.
Lemma reads_array a : plain_array a -> rd (scan_array N) (array_tokens a) a.
Proof.
  intros [Hr (H1 & H2) (Hn & Hp & Hi) He Hs]. destruct a as [rev nm fr x y z n l].
  cbn [ar_revision ar_arrname ar_frame ar_nelement ar_elem] in *. subst rev. unfold array_tokens, scan_array.
  cbn [ar_revision ar_arrname ar_frame ar_arrayx ar_arrayy ar_arrayz ar_nelement ar_elem app].
  do 5 step1. rewrite <- (app_nil_r (flat_map _ _)). eapply (reads_bind _ _ _ _ any); [|apply reads_ret|nothing].
  apply reads_rows; [exact Hn|easy|]. intros i e Hi'.
  rewrite Forall_forall in He. destruct (He e (nth_error_In _ _ Hi')) as (E1 & E2 & E3).
  apply reads_element; auto.
Qed.

(** ** OI_TARGET *)

Lemma reads_category {A} (G : option string -> A) c : within 3 c ->
  reads N false false (first_not "c")
    (bind_s (scan_opt_string N "category %3s") (fun o => bind_s (scan0 N " ") (fun _ => ret (G o))))
    (opt_word "category" c) (G (opt c)).
Proof.
  intros Hc. rewrite <- (app_nil_r (opt_word _ _)). eapply reads_bind with (P1 := first_not "c") (j := true).
  - eapply reads_opt_string; [reflexivity|auto|]. intros Hn.
    change [W "category"; W c] with ([W "category"] ++ [W c]).
    eapply (reads_scanf_last _ _ _ [lits "category"] [DStr (Some 3)]);
      [reflexivity|fits|now apply takes_str|reflexivity].
  - intros ws more s Hw _ Hs. inversion Hw; subst. exists (skip_space s). split; [reflexivity|exact Hs].
  - intros ws more Hw Hp. inversion Hw; subst. exact Hp.
Qed.
Definition given (s : string) : bool := negb (is_empty s).
Lemma reads_target t : int (tg_target_id t) -> within 16 (tg_target t) -> within 8 (tg_veltyp t) ->
  within 8 (tg_veldef t) -> within 16 (tg_spectyp t) -> within 3 (tg_category t) ->
  reads N false false (first_not "c") (scan_target1 N) (target_tokens t) (t, given (tg_category t)).
Proof.
  destruct t as [id nm ra de eq rae dee sv vt vd pr pd pre pde px pxe sp cat].
  cbn [tg_target_id tg_target tg_veltyp tg_veldef tg_spectyp tg_category]. intros H1 H2 H3 H4 H5 H6.
  unfold target_tokens, scan_target1.
  cbn [tg_target_id tg_target tg_raep0 tg_decep0 tg_equinox tg_ra_err tg_dec_err tg_sysvel tg_veltyp tg_veldef
       tg_pmra tg_pmdec tg_pmra_err tg_pmdec_err tg_parallax tg_para_err tg_spectyp tg_category app].
  do 17 step1.
  pose proof (reads_category (fun o => (mk_target id nm ra de eq rae dee sv vt vd pr pd pre pde px pxe sp (text o),
    match o with Some _ => true | None => false end)) cat H6) as H. cbv beta in H. rewrite text_opt in H.
  replace (given cat) with (match opt cat with Some _ => true | None => false end) by now destruct cat.
  exact H.
Qed.
Lemma flat_map_fst {A B} (f : A -> list token) (l : list (A * B)) : flat_map (fun p => f (fst p)) l = flat_map f (map fst l).
Proof. induction l as [|p l IH]; [reflexivity|]. cbn. now rewrite IH. Qed.
Lemma reads_targets t : plain_targets t -> reads N false false (first_not "c") (scan_targets N) (targets_tokens t) t.
Proof.
  intros [Hr (Hn & Hp & Hi) Ht Hc]. destruct t as [rev n l use]. cbn [ot_revision ot_ntarget ot_targ ot_usecategory] in *.
  subst rev. unfold targets_tokens, scan_targets. cbn [ot_ntarget ot_targ app]. do 2 step1.
  set (l2 := map (fun t => (t, given (tg_category t))) l).
  assert (H1 : map fst l2 = l) by (unfold l2; rewrite map_map; apply map_id).
  assert (H2 : existsb snd l2 = use).
  { unfold l2. destruct use.
    - apply existsb_exists. apply proj1 in Hc. specialize (Hc eq_refl). apply Exists_exists in Hc as (t & Hin & Hne).
      exists (t, given (tg_category t)). split; [apply in_map_iff; eauto|]. cbn. now destruct (tg_category t).
    - apply not_true_iff_false. intros H. apply existsb_exists in H as (p & Hin & Hp'). apply in_map_iff in Hin as (t & <- & Hin).
      cbn in Hp'. enough (false = true) by discriminate. apply Hc. apply Exists_exists. exists t. split; [exact Hin|].
      intros E0. rewrite E0 in Hp'. discriminate. }
  rewrite <- (app_nil_r (flat_map _ _)).
  replace (flat_map target_tokens l) with (flat_map (fun p : target * bool => target_tokens (fst p)) l2)
    by (rewrite flat_map_fst; now rewrite H1).
  eapply reads_bind with (P1 := first_not "c").
  - apply reads_rows.
    + unfold l2. now rewrite map_length.
    + intros p ws more _ Hw. unfold target_tokens in Hw. cbn [app] in Hw.
      inversion Hw as [|? w ? ws' [_ Hx] _ E1 E2]. cbn in Hx. subst w. cbn. discriminate.
    + intros i p Hi'. apply nth_error_In in Hi'. unfold l2 in Hi'. apply in_map_iff in Hi' as (t & <- & Hin). cbn [fst].
      rewrite Forall_forall in Ht. destruct (Ht t Hin) as (T1 & T2 & T3 & T4 & T5 & T6). now apply reads_target.
  - rewrite H1, H2. apply reads_ret.
  - intros ws more Hw Hp'. destruct ws; [exact Hp'|inversion Hw].
Qed.

(** ** OI_WAVELENGTH and OI_CORR *)

Lemma reads_floats n l : channels n l -> rd (rows n (fun _ => scan_f N "%f ")) (map F l) l.
Proof. intros Hn. apply reads_each; [exact Hn|]. intros _ x _. apply reads_f. scans. Qed.
Lemma reads_ints n l : channels n l -> Forall int l -> rd (rows n (fun _ => scan_i N "%d ")) (map I l) l.
Proof.
  intros Hn Hl. apply reads_each; [exact Hn|]. intros _ x Hx. rewrite Forall_forall in Hl. apply reads_i; [scans|auto].
Qed.
Lemma reads_wavelength w : plain_wavelength w -> rd (scan_wavelength N) (wavelength_tokens w) w.
Proof.
  intros [Hr Hm ((Hn & Hp & Hi) & Hb)]. destruct w as [rev nm n wave band].
  cbn [wv_revision wv_insname wv_nwave wv_eff_wave wv_eff_band] in *. subst rev.
  unfold wavelength_tokens, scan_wavelength. cbn [wv_insname wv_nwave wv_eff_wave wv_eff_band app].
  do 4 step1. eapply (reads_bind _ _ _ _ any); [now apply reads_floats| |nothing]. step1.
  rewrite <- (app_nil_r (map F band)). eapply (reads_bind _ _ _ _ any); [now apply reads_floats|apply reads_ret|nothing].
Qed.
Lemma reads_corr c : plain_corr c -> rd (scan_corr N) (corr_tokens c) c.
Proof.
  intros [Hr Hm Hd ((Hn & Hp & Hi) & Hj & Hc) (Fi & Fj)]. destruct c as [rev nm nd n ii jj cc].
  cbn [co_revision co_corrname co_ndata co_ncorr co_iindx co_jindx co_corr] in *. subst rev.
  unfold corr_tokens, scan_corr. cbn [co_corrname co_ndata co_ncorr co_iindx co_jindx co_corr app].
  do 5 step1. eapply (reads_bind _ _ _ _ any); [now apply reads_ints| |nothing]. step1.
  eapply (reads_bind _ _ _ _ any); [now apply reads_ints| |nothing]. step1.
  rewrite <- (app_nil_r (map D cc)). eapply (reads_bind _ _ _ _ any); [now apply (reads_vector N n)|apply reads_ret|nothing].
Qed.

(** ** OI_INSPOL *)

Lemma reads_cplx n l : channels n l -> rd (rows n (fun _ => scan_c N)) (flat_map cplx_tokens l) l.
Proof.
  intros Hn. apply reads_rows; [exact Hn|easy|]. intros _ (x, y) _. unfold cplx_tokens, scan_c. cbn [fst snd].
  eapply reads_then; [scans|reflexivity].
Qed.
Lemma reads_inspol_record n r : int (ip_target_id r) -> within 70 (ip_insname r) -> int (ip_sta_index r) ->
  channels n (ip_jxx r) -> channels n (ip_jyy r) -> channels n (ip_jxy r) -> channels n (ip_jyx r) ->
  rd (scan_inspol_record N n) (inspol_record_tokens r) r.
Proof.
  destruct r as [id nm mo me xx yy xy yx si].
  cbn [ip_target_id ip_insname ip_mjd_obs ip_mjd_end ip_jxx ip_jyy ip_jxy ip_jyx ip_sta_index]. intros H1 H2 H3 H4 H5 H6 H7.
  unfold inspol_record_tokens, scan_inspol_record.
  cbn [ip_target_id ip_insname ip_mjd_obs ip_mjd_end ip_jxx ip_jyy ip_jxy ip_jyx ip_sta_index app].
  step1. rewrite int_in by assumption. step1. eapply (reads_bind _ _ _ _ any); [now apply reads_cplx| |nothing]. step1.
  eapply (reads_bind _ _ _ _ any); [now apply reads_cplx| |nothing]. step1. eapply (reads_bind _ _ _ _ any); [now apply reads_cplx| |nothing]. step1.
  eapply (reads_bind _ _ _ _ any); [now apply reads_cplx| |nothing]. step1. apply reads_ret.
Qed.
Lemma reads_inspol n t : plain_inspol n t -> rd (scan_inspol N n) (inspol_tokens t) t.
Proof.
  intros [Hr (H1 & H2 & H3 & H4) Hnp ((Hn & Hp & Hi) & Hw) Hrec]. destruct t as [rev da np ar ori md nr nw l].
  cbn [is_revision is_date_obs is_npol is_arrname is_orient is_model is_numrec is_nwave is_record] in *. subst rev nw.
  unfold inspol_tokens, scan_inspol. cbn [is_date_obs is_npol is_arrname is_orient is_model is_numrec is_record app].
  do 7 step1. rewrite <- (app_nil_r (flat_map _ _)). eapply (reads_bind _ _ _ _ any); [|apply reads_ret|nothing].
  apply reads_rows; [exact Hn|easy|]. intros i r Hi'. rewrite Forall_forall in Hrec.
  destruct (Hrec r (nth_error_In _ _ Hi')) as (R1 & R2 & R3 & R4 & R5 & R6 & R7). now apply reads_inspol_record.
Qed.
End Tables.
