(** Filtering in steps: tables and datasets. *)
From Verif Require Import Base BaseLemmas FloatModel Types FileModel FileSpec FileProofs FilterModel FilterSpec FilterLemmas FilterProofs FilterRecords FilterTables FilterApply FilterFacts FilterResults FilterOutput FilterFix FilterWhole FilterStepsSpec FilterStepsProofs FilterStepsRecords.
From Coq Require Import Lia.

Lemma map_filter_ext {A B} (p q : A -> bool) (h k : A -> B) l : (forall a, In a l -> p a = q a) ->
  (forall a, In a l -> q a = true -> h a = k a) -> map h (filter p l) = map k (filter q l).
Proof.
  induction l as [|a l IH]; intros H1 H2; [reflexivity|]. cbn. rewrite (H1 a) by now left.
  destruct (q a) eqn:E; cbn; rewrite IH by (intros; (apply H1 || apply H2); cbn; auto); [|reflexivity].
  f_equal. apply H2; [now left|exact E].
Qed.
Lemma existsb_then {A B} (p1 : A -> bool) (h : A -> B) (p2 : B -> bool) (p : A -> bool) l :
  (forall a, In a l -> p1 a && p2 (h a) = p a) ->
  existsb p2 (map h (filter p1 l)) = existsb p l.
Proof.
  induction l as [|a l IH]; intros H; [reflexivity|]. cbn. rewrite <- (H a) by now left.
  destruct (p1 a); cbn; rewrite IH by (intros; apply H; now right); reflexivity.
Qed.
Lemma existsb_first {A} (p1 p : A -> bool) l : (forall a, In a l -> p a = true -> p1 a = true) ->
  existsb p l = true -> existsb p1 l = true.
Proof. intros H E. apply existsb_exists in E as (a & Ha & Hp). apply existsb_exists. eauto. Qed.

Lemma in_steps_compiled f1 f2 g : in_steps f1 f2 g -> in_steps (compiled f1) (compiled f2) (compiled g).
Proof. intros [H1 H2 H3 H4 H5 H6 H7 H8 H9 H10 H11 H12 H13 H14 H15 H16 H17]. constructor; assumption. Qed.

Section Pow.
Variable pow_half : f64 -> f64.
Section Whole.
Variables (d : oi_fits) (f1 f2 g : filter_spec) (arrh : hash oi_array)
  (wavh : hash oi_wavelength) (corh : hash oi_corr).
Hypothesis C : consistent d.
Hypothesis HP1 : pats f1.
Hypothesis HP2 : pats f2.
Hypothesis HP : pats g.
Hypothesis ST : in_steps f1 f2 g.
Hypothesis HT : target_present d f1.
Hypothesis IW : indexes wv_insname (wave_list pow_half d f1) wavh.
Let D := filter_image pow_half d f1 arrh wavh corh.

Lemma steps_CD : consistent D.
Proof. now apply output_consistent. Qed.

Lemma arr_then n : accept_arrname g n = accept_arrname f1 n && accept_arrname f2 n.
Proof.
  apply iff_bool. rewrite andb_true_iff, !accept_arrname_spec by assumption. apply (st_arrname _ _ _ ST).
Qed.
Lemma ins_then n : accept_insname g n = accept_insname f1 n && accept_insname f2 n.
Proof.
  apply iff_bool. rewrite andb_true_iff, !accept_insname_spec by assumption. apply (st_insname _ _ _ ST).
Qed.
Lemma corr_then n : accept_corrname g n = accept_corrname f1 n && accept_corrname f2 n.
Proof.
  apply iff_bool. rewrite andb_true_iff, !accept_corrname_spec by assumption. apply (st_corrname _ _ _ ST).
Qed.

Lemma wv_of_D n w : wv_of d n = Some w -> uses_insname D n -> wv_of D n = Some (wave_out f1 w).
Proof.
  intros E HU. apply wv_of_instrument; [apply (cs_unique D steps_CD)|].
  apply wv_of_instrument in E; [|apply (cs_unique d C)].
  destruct (uses_insname_accepted pow_half d f1 arrh wavh corh C HP1 IW _ HU) as (w' & Hw' & _).
  fold D in Hw'. destruct Hw' as [H1 H2]. assert (G := H1).
  apply wave_in in H1 as (w0 & H3 & -> & _). cbn in H2.
  rewrite (instrument_unique d n w w0); [split; auto|apply (cs_unique d C)|exact E|split; auto].
Qed.

Section Tables.
Context {X R : Type}.
Variables (okb1 okb2 okb : oi_wavelength -> list bool -> R -> bool)
  (g1 g2 out : oi_wavelength -> list bool -> R -> R) (acc1 acc2 : bool) (l : list (dtab X R)).
Let l1 := if acc1 then map (dtab_new okb1 g1 d f1) (filter (dtab_kept okb1 d f1) l) else [].
Hypothesis H0 : forall t, In t l1 -> uses_insname D (tb_insname t).
Hypothesis HR : acc1 = true -> acc2 = true ->
  forall t w r, In t l -> instrument d (tb_insname t) w -> In r (tb_record t) ->
  okb1 w (use_of f1 w) r && okb2 (wave_out f1 w) (use_of f2 (wave_out f1 w)) (g1 w (use_of f1 w) r)
    = okb w (use_of g w) r
  /\ g2 (wave_out f1 w) (use_of f2 (wave_out f1 w)) (g1 w (use_of f1 w) r) = out w (use_of g w) r.

Lemma tables_then :
  (if acc2 then map (dtab_new okb2 g2 D f2) (filter (dtab_kept okb2 D f2) l1) else [])
  = (if acc1 && acc2 then map (dtab_new okb out d g) (filter (dtab_kept okb d g) l) else []).
Proof.
  destruct acc1; [|subst l1; destruct acc2; reflexivity]. destruct acc2; [|reflexivity]. cbn [andb].
  specialize (HR eq_refl eq_refl). unfold l1 in *. clear l1.
  rewrite filter_map, map_map, filter_filter. apply map_filter_ext.
  - intros t Ht. destruct (wv_of d (tb_insname t)) as [w|] eqn:E.
    2:{ unfold dtab_kept at 1 3. rewrite E, !andb_false_r. reflexivity. }
    assert (HI := E). apply wv_of_instrument in HI; [|apply (cs_unique d C)].
    assert (K : dtab_kept okb d g t = true -> dtab_kept okb1 d f1 t = true).
    { unfold dtab_kept. rewrite E, ins_then, arr_then, corr_then, !andb_true_iff.
      intros ((([A1 _] & [A2 _]) & [A3 _]) & A4 & A5). apply Nat.ltb_lt in A4.
      apply (cnt_first f1 f2 g ST w) in A4. apply Nat.ltb_lt in A4. repeat (split; [auto|]).
      revert A5. apply existsb_first. intros r Hr. destruct (HR t w r Ht HI Hr) as [<- _].
      rewrite andb_true_iff. tauto. }
    destruct (dtab_kept okb1 d f1 t) eqn:K1; [|destruct (dtab_kept okb d g t); [discriminate (K eq_refl)|reflexivity]].
    cbn [andb]. assert (EN : dtab_new okb1 g1 d f1 t = dtab_out (okb1 w (use_of f1 w)) (g1 w (use_of f1 w)) (use_of f1 w) t)
      by (unfold dtab_new; now rewrite E).
    assert (HU : uses_insname D (tb_insname t)).
    { specialize (H0 (dtab_new okb1 g1 d f1 t)). rewrite EN in H0. apply H0. rewrite <- EN. apply in_map_iff. exists t.
      split; [reflexivity|]. now apply filter_In. }
    rewrite EN. unfold dtab_kept in K1 |- *. rewrite E in K1 |- *.
    cbn [tb_insname tb_arrname tb_corrname tb_record dtab_out]. rewrite (wv_of_D _ w E HU).
    rewrite (cnt_then f1 f2 g ST w), ins_then, arr_then, corr_then.
    rewrite !andb_true_iff in K1. destruct K1 as (((A1 & A2) & A3) & _). rewrite A1, A2, A3. cbn [andb].
    do 2 f_equal. apply existsb_then. intros r Hr. now apply (HR t w r).
  - intros t Ht K. destruct (wv_of d (tb_insname t)) as [w|] eqn:E.
    2:{ unfold dtab_kept in K. rewrite E, !andb_false_r in K. discriminate. }
    assert (HI := E). apply wv_of_instrument in HI; [|apply (cs_unique d C)].
    assert (EN : dtab_new okb1 g1 d f1 t = dtab_out (okb1 w (use_of f1 w)) (g1 w (use_of f1 w)) (use_of f1 w) t)
      by (unfold dtab_new; now rewrite E).
    assert (HU : uses_insname D (tb_insname t)).
    { specialize (H0 (dtab_new okb1 g1 d f1 t)). rewrite EN in H0. apply H0. rewrite <- EN. apply in_map_iff. exists t.
      split; [reflexivity|]. apply filter_In. split; [exact Ht|].
      unfold dtab_kept in K |- *. rewrite E in K |- *. rewrite ins_then, arr_then, corr_then, !andb_true_iff in K.
      destruct K as ((([A1 _] & [A2 _]) & [A3 _]) & A4 & A5). apply Nat.ltb_lt in A4.
      apply (cnt_first f1 f2 g ST w) in A4. apply Nat.ltb_lt in A4. rewrite A1, A2, A3, A4. cbn [andb].
      revert A5. apply existsb_first. intros r Hr. destruct (HR t w r Ht HI Hr) as [<- _].
      rewrite andb_true_iff. tauto. }
    rewrite EN. unfold dtab_new. cbn [tb_insname dtab_out]. rewrite (wv_of_D _ w E HU), E.
    unfold dtab_out. cbn [tb_revision tb_date_obs tb_arrname tb_insname tb_corrname tb_x tb_record].
    rewrite (cnt_then f1 f2 g ST w).
    assert (ER : map (g2 (wave_out f1 w) (use_of f2 (wave_out f1 w)))
        (filter (okb2 (wave_out f1 w) (use_of f2 (wave_out f1 w)))
          (map (g1 w (use_of f1 w)) (filter (okb1 w (use_of f1 w)) (tb_record t))))
      = map (out w (use_of g w)) (filter (okb w (use_of g w)) (tb_record t))).
    { rewrite filter_map, map_map, filter_filter. apply map_filter_ext.
      - intros r Hr. now apply (HR t w r).
      - intros r Hr _. now apply (HR t w r). }
    now rewrite ER.
Qed.
End Tables.

Lemma steps_vis : vis_list pow_half D f2 = vis_list pow_half d g.
Proof.
  unfold vis_list at 2. rewrite (st_vis _ _ _ ST).
  apply (tables_then _ _ _ _ _ _ (f_accept_vis f1) (f_accept_vis f2) (o_visList d)).
  - intros t Ht. now apply uses_vis.
  - intros _ _ t w r Ht Hw Hr. destruct (vis_facts pow_half d f1 t w r C Ht Hw Hr) as (Wf & LW & P & _).
    now apply (vis_then pow_half f1 f2 g ST w (tb_x t) (tb_nwave t)).
Qed.
Lemma steps_vis2 : vis2_list pow_half D f2 = vis2_list pow_half d g.
Proof.
  unfold vis2_list at 2. rewrite (st_vis2 _ _ _ ST).
  apply (tables_then _ _ _ _ _ _ (f_accept_vis2 f1) (f_accept_vis2 f2) (o_vis2List d)).
  - intros t Ht. now apply uses_vis2.
  - intros _ _ t w r Ht Hw Hr. destruct (vis2_facts pow_half d f1 t w r C Ht Hw Hr) as (Wf & LW & P & _).
    now apply (vis2_then pow_half f1 f2 g ST w (tb_nwave t)).
Qed.
Lemma steps_t3 : t3_list pow_half D f2 = t3_list pow_half d g.
Proof.
  unfold t3_list at 2.
  replace (f_accept_t3amp g || f_accept_t3phi g)
    with ((f_accept_t3amp f1 || f_accept_t3phi f1) && (f_accept_t3amp f2 || f_accept_t3phi f2)).
  2:{ rewrite (st_t3amp _ _ _ ST), (st_t3phi _ _ _ ST).
      destruct (st_t3_order _ _ _ ST) as [[-> ->]|[[-> ->]|[<- K]]]; rewrite ?andb_false_r; try reflexivity.
      destruct (f_accept_t3amp f1); [rewrite (K eq_refl)|]; destruct (f_accept_t3phi f1), (f_accept_t3amp f2); reflexivity. }
  apply (tables_then _ _ _ _ _ _ (f_accept_t3amp f1 || f_accept_t3phi f1) (f_accept_t3amp f2 || f_accept_t3phi f2) (o_t3List d)).
  - intros t Ht. now apply uses_t3.
  - intros A1 A2 t w r Ht Hw Hr. destruct (t3_facts pow_half d f1 t w r C Ht Hw Hr) as (Wf & LW & P & _).
    apply (t3_then pow_half f1 f2 g ST w) with (n := tb_nwave t); auto.
    destruct (st_t3_order _ _ _ ST) as [[E1 E2]|[[E1 E2]|K]]; [rewrite E1, E2 in A1; discriminate|rewrite E1, E2 in A2; discriminate|exact K].
Qed.
Lemma steps_flux : flux_list D f2 = flux_list d g.
Proof.
  unfold flux_list at 2. rewrite (st_flux _ _ _ ST).
  apply (tables_then (fun _ _ => flux_okb f1) (fun _ _ => flux_okb f2) (fun _ _ => flux_okb g) (fun _ => flux_out f1)
    (fun _ => flux_out f2) (fun _ => flux_out g) (f_accept_flux f1) (f_accept_flux f2) (o_fluxList d)).
  - intros t Ht. now apply uses_flux.
  - intros _ _ t w r Ht Hw Hr. destruct (flux_facts d f1 t w r C Ht Hw Hr) as (Wf & LW & P & _).
    now apply (flux_then f1 f2 g ST w) with (n := tb_nwave t).
Qed.

Lemma steps_names : insnames pow_half D f2 = insnames pow_half d g /\ arrnames pow_half D f2 = arrnames pow_half d g
  /\ corrnames pow_half D f2 = corrnames pow_half d g.
Proof. unfold insnames, arrnames, corrnames. now rewrite steps_vis, steps_vis2, steps_t3, steps_flux. Qed.

(** A name in use in the end was in use after the first step *)
Lemma kept_names {X R} (nm : dtab X R -> string) okb out (acc : bool) (l : list (dtab X R)) t :
  (forall t, nm (dtab_new okb out D f2 t) = nm t) ->
  In t (if acc then map (dtab_new okb out D f2) (filter (dtab_kept okb D f2) l) else []) ->
  exists t0, In t0 l /\ nm t0 = nm t.
Proof.
  intros HN. destruct acc; [|contradiction]. intros H. apply in_map_iff in H as (t0 & <- & H).
  apply filter_In in H as [H _]. exists t0. auto.
Qed.
Lemma dtab_new_names {X R} okb out (t : dtab X R) : tb_insname (dtab_new okb out D f2 t) = tb_insname t
  /\ tb_arrname (dtab_new okb out D f2 t) = tb_arrname t /\ tb_corrname (dtab_new okb out D f2 t) = tb_corrname t.
Proof. unfold dtab_new. destruct (wv_of D (tb_insname t)); auto. Qed.

Lemma ins_first n : listed (insnames pow_half d g) n = true -> listed (insnames pow_half d f1) n = true.
Proof.
  rewrite <- (proj1 steps_names). unfold insnames. rewrite !insname_list_spec. unfold used.
  intros [(t & Ht & <-)|[(t & Ht & <-)|[(t & Ht & <-)|(t & Ht & <-)]]];
    (eapply (kept_names tb_insname) in Ht as (t0 & Ht0 & <-); [|intros; apply dtab_new_names]).
  - left. exists t0. split; [exact Ht0|reflexivity].
  - right; left. exists t0. split; [exact Ht0|reflexivity].
  - right; right; left. exists t0. split; [exact Ht0|reflexivity].
  - right; right; right. exists t0. split; [exact Ht0|reflexivity].
Qed.
Lemma arr_first n : listed (arrnames pow_half d g) n = true -> listed (arrnames pow_half d f1) n = true.
Proof.
  rewrite <- (proj1 (proj2 steps_names)). unfold arrnames. rewrite !arrname_list_spec. unfold used.
  intros [H0 H]. split; [exact H0|]. revert H.
  intros [(t & Ht & <-)|[(t & Ht & <-)|[(t & Ht & <-)|(t & Ht & <-)]]];
    (eapply (kept_names tb_arrname) in Ht as (t0 & Ht0 & <-); [|intros; apply dtab_new_names]).
  - left. exists t0. split; [exact Ht0|reflexivity].
  - right; left. exists t0. split; [exact Ht0|reflexivity].
  - right; right; left. exists t0. split; [exact Ht0|reflexivity].
  - right; right; right. exists t0. split; [exact Ht0|reflexivity].
Qed.
Lemma corr_first n : listed (corrnames pow_half d g) n = true -> listed (corrnames pow_half d f1) n = true.
Proof.
  rewrite <- (proj2 (proj2 steps_names)). unfold corrnames. rewrite !corrname_list_spec. unfold used.
  intros [H0 H]. split; [exact H0|]. revert H.
  intros [(t & Ht & <-)|[(t & Ht & <-)|[(t & Ht & <-)|(t & Ht & <-)]]];
    (eapply (kept_names tb_corrname) in Ht as (t0 & Ht0 & <-); [|intros; apply dtab_new_names]).
  - left. exists t0. split; [exact Ht0|reflexivity].
  - right; left. exists t0. split; [exact Ht0|reflexivity].
  - right; right; left. exists t0. split; [exact Ht0|reflexivity].
  - right; right; right. exists t0. split; [exact Ht0|reflexivity].
Qed.

Lemma steps_arrays : array_list pow_half D f2 = array_list pow_half d g.
Proof.
  unfold array_list at 1. rewrite (proj1 (proj2 steps_names)). unfold D. cbn [o_arrayList filter_image].
  unfold array_list. rewrite !filter_filter. apply filter_ext_in. intros a _. rewrite arr_then.
  assert (K := arr_first (ar_arrname a)). destruct (listed (arrnames pow_half d g) (ar_arrname a)).
  - rewrite (K eq_refl). now rewrite !andb_true_r.
  - now rewrite !andb_false_r.
Qed.
Lemma steps_corrs : corr_list pow_half D f2 = corr_list pow_half d g.
Proof.
  unfold corr_list at 1. rewrite (proj2 (proj2 steps_names)). unfold D. cbn [o_corrList filter_image].
  unfold corr_list. rewrite !filter_filter. apply filter_ext_in. intros a _. rewrite corr_then.
  assert (K := corr_first (co_corrname a)). destruct (listed (corrnames pow_half d g) (co_corrname a)).
  - rewrite (K eq_refl). now rewrite !andb_true_r.
  - now rewrite !andb_false_r.
Qed.
Lemma steps_waves : wave_list pow_half D f2 = wave_list pow_half d g.
Proof.
  unfold wave_list at 1. rewrite (proj1 steps_names). unfold D. cbn [o_wavelengthList filter_image].
  unfold wave_list. rewrite !filter_map, map_map, !filter_filter. apply map_filter_ext.
  - intros w _. cbn [wv_insname wave_out]. unfold wave_kept. cbn [wv_insname wave_out].
    rewrite (cnt_then f1 f2 g ST w), ins_then.
    assert (K := ins_first (wv_insname w)). destruct (listed (insnames pow_half d g) (wv_insname w)).
    + rewrite (K eq_refl), !andb_true_r. assert (G := cnt_first f1 f2 g ST w).
      destruct (Nat.ltb_spec 0 (cnt (use_of g w))) as [H|H].
      * apply G, Nat.ltb_lt in H. rewrite H, !andb_true_r. reflexivity.
      * now rewrite !andb_false_r.
    + now rewrite !andb_false_r.
  - intros w _ _. apply (wave_then f1 f2 g ST).
Qed.

(** ** OI_INSPOL *)

Lemma inspol_rec_then r w : wv_of d (ip_insname r) = Some w -> uses_insname D (ip_insname r) ->
  inspol_okb d f1 r && inspol_okb D f2 (inspol_rec_out d f1 r) = inspol_okb d g r
  /\ inspol_rec_out D f2 (inspol_rec_out d f1 r) = inspol_rec_out d g r.
Proof.
  intros E HU. assert (ED := wv_of_D _ _ E HU). unfold inspol_rec_out. rewrite E. split.
  - unfold inspol_okb. cbn [ip_target_id ip_insname ip_mjd_end ip_mjd_obs]. rewrite E, ED.
    rewrite (cnt_then f1 f2 g ST w), (target_then _ _ _ ST), ins_then.
    assert (EL : flt (ip_mjd_end r) (f_mjd_lo g) = flt (ip_mjd_end r) (f_mjd_lo f1) || flt (ip_mjd_end r) (f_mjd_lo f2)).
    { unfold flt. apply iff_bool. rewrite orb_true_iff. apply (st_mjd _ _ _ ST). }
    assert (EH : fgt (ip_mjd_obs r) (f_mjd_hi g) = fgt (ip_mjd_obs r) (f_mjd_hi f1) || fgt (ip_mjd_obs r) (f_mjd_hi f2)).
    { unfold fgt. apply iff_bool. rewrite orb_true_iff. apply (st_mjd _ _ _ ST). }
    rewrite EL, EH.
    destruct (Nat.ltb_spec 0 (cnt (use_of g w))) as [H|H].
    + apply (cnt_first f1 f2 g ST w) in H. apply Nat.ltb_lt in H. rewrite H, !andb_true_r.
      destruct (skip_target f1 _), (skip_target f2 _), (accept_insname f1 _), (accept_insname f2 _),
        (flt _ (f_mjd_lo f1)), (flt _ (f_mjd_lo f2)), (fgt _ (f_mjd_hi f1)), (fgt _ (f_mjd_hi f2)); reflexivity.
    + now rewrite !andb_false_r.
  - cbn [ip_target_id ip_insname ip_mjd_end ip_mjd_obs ip_jxx ip_jyy ip_jxy ip_jyx ip_sta_index]. rewrite ED. cbv zeta.
    rewrite (new_id_then _ _ _ ST). now rewrite !(sel_then f1 f2 g ST).
Qed.
(** What the second filter accepts, the first accepted *)
Lemma inspol_rec_first r : inspol_okb d g r = true -> inspol_okb d f1 r = true.
Proof.
  unfold inspol_okb. destruct (wv_of d (ip_insname r)) as [w|]; [|now rewrite !andb_false_r].
  rewrite (target_then _ _ _ ST), ins_then, !andb_true_iff, !negb_true_iff, !orb_false_iff.
  intros ((((A1 & _) & A2 & _) & A3 & A4) & A5). apply Nat.ltb_lt, (cnt_first f1 f2 g ST w), Nat.ltb_lt in A5.
  split; [|exact A5]. split; [auto|]. destruct (st_mjd _ _ _ ST) as [HL HH]. split.
  - apply not_true_iff_false. intros G. assert (K := proj2 (HL (ip_mjd_end r)) (or_introl G)). unfold flt in A3. congruence.
  - apply not_true_iff_false. intros G. assert (K := proj2 (HH (ip_mjd_obs r)) (or_introl G)). unfold fgt in A4. congruence.
Qed.

Lemma steps_inspols : inspol_used D -> inspol_list pow_half D f2 = inspol_list pow_half d g.
Proof.
  intros HI. unfold inspol_list at 1. rewrite (proj1 (proj2 steps_names)).
  assert (GR : forall t, In t (o_inspolList d) -> inspol_keptb d f1 t = true ->
     listed (arrnames pow_half d g) (is_arrname t) = true ->
     forall r, In r (is_record t) -> inspol_okb d f1 r = true ->
     inspol_okb D f2 (inspol_rec_out d f1 r) = inspol_okb d g r
     /\ inspol_rec_out D f2 (inspol_rec_out d f1 r) = inspol_rec_out d g r).
  { intros t Ht K L r Hr Hok. destruct (wv_of d (ip_insname r)) as [w|] eqn:E.
    2:{ unfold inspol_okb in Hok. rewrite E, andb_false_r in Hok. discriminate. }
    destruct (inspol_rec_then r w E) as [H1 H2]; [|rewrite Hok in H1; auto].
    assert (HN : ip_insname (inspol_rec_out d f1 r) = ip_insname r) by (unfold inspol_rec_out; now rewrite E).
    rewrite <- HN. apply (HI (inspol_out d f1 t)).
    - unfold D. cbn [o_inspolList filter_image]. unfold inspol_list. apply filter_In. split.
      + apply in_map_iff. exists t. split; [reflexivity|]. now apply filter_In.
      + cbn [is_arrname inspol_out]. now apply arr_first.
    - cbn [is_record inspol_out]. apply in_map_iff. exists r. split; [reflexivity|]. now apply filter_In. }
  assert (GO : forall t, In t (o_inspolList d) -> inspol_keptb d f1 t = true ->
     listed (arrnames pow_half d g) (is_arrname t) = true ->
     filter (inspol_okb D f2) (is_record (inspol_out d f1 t))
       = map (inspol_rec_out d f1) (filter (inspol_okb d g) (is_record t))
     /\ map (inspol_rec_out D f2) (filter (inspol_okb D f2) (is_record (inspol_out d f1 t)))
       = map (inspol_rec_out d g) (filter (inspol_okb d g) (is_record t))).
  { intros t Ht K L. cbn [is_record inspol_out]. rewrite filter_map, filter_filter, map_map.
    assert (F : forall r, In r (is_record t) -> inspol_okb d f1 r && inspol_okb D f2 (inspol_rec_out d f1 r) = inspol_okb d g r).
    { intros r Hr. destruct (inspol_okb d f1 r) eqn:O; [now apply (GR t Ht K L r)|].
      destruct (inspol_okb d g r) eqn:O2; [|reflexivity]. apply inspol_rec_first in O2. congruence. }
    split.
    - apply map_filter_ext; [exact F|reflexivity].
    - apply map_filter_ext; [exact F|]. intros r Hr O. apply inspol_rec_first in O. now apply (GR t Ht K L r). }
  assert (GK : forall t, In t (o_inspolList d) -> inspol_keptb d g t = true -> inspol_keptb d f1 t = true).
  { intros t Ht. unfold inspol_keptb. rewrite arr_then, !andb_true_iff. intros [[A _] B]. split; [exact A|].
    revert B. apply existsb_first. intros r _. apply inspol_rec_first. }
  change (o_inspolList D) with (inspol_list pow_half d f1). unfold inspol_list.
  rewrite !filter_map, map_map, !filter_filter. apply map_filter_ext.
  - intros t Ht. cbn [is_arrname inspol_out].
    destruct (listed (arrnames pow_half d g) (is_arrname t)) eqn:L; [|now rewrite !andb_false_r].
    rewrite (arr_first _ L), !andb_true_r. destruct (inspol_keptb d f1 t) eqn:K.
    + cbn [andb]. unfold inspol_keptb. cbn [is_arrname inspol_out]. rewrite arr_then.
      assert (A : accept_arrname f1 (is_arrname t) = true) by (now apply andb_true_iff in K). rewrite A. cbn [andb].
      f_equal. rewrite !existsb_filter. now rewrite (proj1 (GO t Ht K L)), map_length.
    + destruct (inspol_keptb d g t) eqn:K2; [|reflexivity]. apply GK in K2; [congruence|exact Ht].
  - intros t Ht H. apply andb_true_iff in H as [K L]. cbn [is_arrname inspol_out] in L.
    destruct (GO t Ht (GK t Ht K) L) as [_ E]. unfold inspol_out at 1. rewrite E.
    cbn [is_revision is_date_obs is_npol is_arrname is_orient is_model inspol_out].
    unfold inspol_out. destruct (map (inspol_rec_out d g) (filter (inspol_okb d g) (is_record t))) as [|r rs] eqn:M; [|reflexivity].
    exfalso. apply andb_true_iff in K as [_ K]. rewrite existsb_filter in K.
    apply (f_equal (@length _)) in M. rewrite map_length in M. rewrite M in K. discriminate.
Qed.

Lemma target_steps : target_out f2 (target_out f1 (o_targets d)) = target_out g (o_targets d).
Proof.
  unfold target_out. destruct (st_target _ _ _ ST) as [(H1 & [->|[H2 H3]])|(H1 & -> & H2)].
  - destruct (Z.leb_spec 0 (f_target_id f1)); [lia|reflexivity].
  - destruct (Z.leb_spec 0 (f_target_id f1)); [lia|]. destruct (Z.leb_spec 0 (f_target_id f2)); [lia|].
    destruct (Z.leb_spec 0 (f_target_id g)); [lia|reflexivity].
  - destruct (Z.leb_spec 0 (f_target_id f1)); [|lia].
    destruct (rev (filter (fun x => tg_target_id x =? f_target_id f1) (ot_targ (o_targets d)))) as [|x xs] eqn:R.
    + exfalso. destruct HT as [HT0|(y & Hx & Ex)]; [lia|]. assert (In y []); [|contradiction].
      rewrite <- R. apply -> in_rev. apply filter_In. split; [exact Hx|now apply Z.eqb_eq].
    + destruct (Z.leb_spec 0 (f_target_id f2)); [|reflexivity]. destruct H2 as [H2|H2]; [lia|]. rewrite H2. reflexivity.
Qed.
End Whole.

Theorem filter_steps d f1 f2 g d1 h1 : consistent d -> fresh_filter f1 -> fresh_filter f2 -> fresh_filter g ->
  in_steps f1 f2 g -> selects_target d f1 ->
  apply_oi_filter pow_half d f1 = Ok (h1, d1) ->
  exists d2 d3, apply_oi_filter pow_half d1 f2 = Ok (f2, d2) /\ apply_oi_filter pow_half d g = Ok (g, d3)
    /\ same_data d3 d2 /\ same_config d3 d2 /\ same_lookups d3 d2
    /\ (inspol_used d1 -> o_inspolList d2 = o_inspolList d3).
Proof.
  intros C HF1 HF2 HFg ST0 HT E. assert (ST := in_steps_compiled _ _ _ ST0).
  destruct (apply_oi_filter_ok pow_half d f1 C HF1) as (a1 & a2 & a3 & E1 & I1 & I2 & I3).
  rewrite E1 in E. injection E as <- <-.
  assert (P1 := pats_ok f1). assert (P2 := pats_ok f2). assert (Pg := pats_ok g).
  assert (C1 : consistent (filter_image pow_half d (compiled f1) a1 a2 a3)) by (apply output_consistent; auto).
  destruct (apply_oi_filter_ok pow_half _ f2 C1 HF2) as (b1 & b2 & b3 & E2 & J1 & J2 & J3).
  destruct (apply_oi_filter_ok pow_half d g C HFg) as (c1 & c2 & c3 & E3 & K1 & K2 & K3).
  exists (filter_image pow_half (filter_image pow_half d (compiled f1) a1 a2 a3) (compiled f2) b1 b2 b3).
  exists (filter_image pow_half d (compiled g) c1 c2 c3).
  split; [exact E2|]. split; [exact E3|].
  pose proof (steps_vis d _ _ _ a1 a2 a3 C P1 P2 Pg ST HT I2) as V1.
  pose proof (steps_vis2 d _ _ _ a1 a2 a3 C P1 P2 Pg ST HT I2) as V2.
  pose proof (steps_t3 d _ _ _ a1 a2 a3 C P1 P2 Pg ST HT I2) as V3.
  pose proof (steps_flux d _ _ _ a1 a2 a3 C P1 P2 Pg ST HT I2) as V4.
  pose proof (steps_arrays d _ _ _ a1 a2 a3 C P1 P2 Pg ST HT I2) as V5.
  pose proof (steps_waves d _ _ _ a1 a2 a3 C P1 P2 Pg ST HT I2) as V6.
  pose proof (steps_corrs d _ _ _ a1 a2 a3 C P1 P2 Pg ST HT I2) as V7.
  split; [|split; [|split]].
  - split; [reflexivity|]. split; [apply (target_steps d _ _ _ ST HT)|]. repeat split; assumption.
  - repeat split; assumption.
  - intros n. cbn. rewrite (J1 n), (J2 n), (J3 n), (K1 n), (K2 n), (K3 n), V5, V6, V7. auto.
  - intros HI. exact (steps_inspols d _ _ _ a1 a2 a3 C P1 P2 Pg ST HT I2 HI).
Qed.
End Pow.
