(** The three kinds of iterator, and agreement with apply_oi_filter. *)
From Verif Require Import Base BaseLemmas FloatModel Types FileModel FileSpec FileProofs FilterModel FilterSpec FilterLemmas FilterProofs FilterRecords FilterTables FilterApply FilterFacts FilterResults FilterWhole FilterMain FilterFinal IterModel IterSpec IterProofs.
From Coq Require Import Lia.

Section Kind.
Context {X R : Type} (k : kind R) (d : oi_fits) (f : filter_spec) (l : list (dtab X R))
  (accept_kind : filter_spec -> bool) (accept_record : filter_spec -> R -> bool)
  (accept_channel : filter_spec -> oi_wavelength -> R -> Z -> res bool)
  (badb : oi_wavelength -> R -> nat -> bool).
Hypothesis HN : NoDup (map wv_insname (o_wavelengthList d)).
Hypothesis HF : fresh_filter f.
Hypothesis KA : accept_kind f = true <-> k_accept k f.
Hypothesis KR : forall r, accept_record (compiled f) r = true <->
  target_accepted f (k_target k r) /\ ~ beyond (f_mjd_lo f) (f_mjd_hi f) (k_mjd k r)
  /\ (forall b, In b (k_baselines k r) -> ~ beyond (f_bas_lo f) (f_bas_hi f) b).
(** In the tables of the list, instruments are found, and the arrays have the
    length of the instrument's *)
Hypothesis HL : forall t, In t l -> walkable t /\ exists w,
  instrument d (tb_insname t) w /\ oi_fits_lookup_wavelength d (tb_insname t) = Some w
  /\ length (wv_eff_wave w) = Z.to_nat (tb_nwave t)
  /\ forall r, In r (tb_record t) -> length (k_flag k r) = Z.to_nat (tb_nwave t)
       /\ bad_decides k f w (badb w) r
       /\ forall j y fl, nth_error (wv_eff_wave w) j = Some y -> nth_error (k_flag k r) j = Some fl ->
            accept_channel (compiled f) w r (Z.of_nat j)
            = Ok (in_rangeb f y && negb (badb w r j) && negb (fl && negb (f_accept_flagged f))).

(** Decision of [datum_accepted] *)
Definition datum_okb (x : datum X R) : bool :=
  let '(_, t, _, r, j) := x in
  accept_table (compiled f) t && accept_record (compiled f) r &&
  match wv_of d (tb_insname t) with
  | None => false
  | Some w =>
      match nth_error (wv_eff_wave w) (Z.to_nat j), nth_error (k_flag k r) (Z.to_nat j) with
      | Some y, Some fl =>
          in_rangeb f y && negb (badb w r (Z.to_nat j)) && negb (fl && negb (f_accept_flagged f))
      | _, _ => false
      end
  end.

Lemma accept_table_spec t : accept_table (compiled f) t = true <->
  glob_match (f_arrname f) (tb_arrname t) /\ glob_match (f_insname f) (@tb_insname X R t)
  /\ glob_match (f_corrname f) (tb_corrname t).
Proof.
  clear KA KR HL HN HF. unfold accept_table. rewrite !andb_true_iff, (accept_arrname_spec _ _ (pats_compiled f)),
    (accept_insname_spec _ _ (pats_compiled f)), (accept_corrname_spec _ _ (pats_compiled f)). tauto.
Qed.

Lemma datum_okb_spec n t i r j : In t l -> In r (tb_record t) -> k_accept k f ->
  (Z.to_nat j < Z.to_nat (tb_nwave t))%nat ->
  (datum_okb (n, t, i, r, j) = true <-> datum_accepted k f d (n, t, i, r, j)).
Proof.
  clear KA. intros Ht Hr HA Hj. destruct (HL t Ht) as (_ & w & Hw & _ & Lw & HR). destruct (HR r Hr) as (Lf & HB & _).
  unfold datum_okb, datum_accepted. rewrite !andb_true_iff, accept_table_spec, KR.
  assert (E := Hw). apply (wv_of_instrument _ _ _ HN) in E. rewrite E.
  destruct (some_nth (wv_eff_wave w) (Z.to_nat j)) as [y Hy]; [lia|].
  destruct (some_nth (k_flag k r) (Z.to_nat j)) as [fl Hfl]; [lia|]. rewrite Hy, Hfl.
  assert (EF : negb (fl && negb (f_accept_flagged f)) = true <-> f_accept_flagged f = true \/ Some fl = Some false).
  { destruct fl, (f_accept_flagged f); cbn; intuition congruence. }
  rewrite !andb_true_iff, EF, in_rangeb_spec, negb_true_iff.
  assert (EB : badb w r (Z.to_nat j) = false <-> ~ k_bad k f y r (Z.to_nat j)).
  { rewrite <- (HB _ _ Hy). destruct (badb w r (Z.to_nat j)); intuition congruence. }
  rewrite EB. split.
  - intros (((G1 & G2 & G3) & T & M & B) & (Y & Bd) & Fl). repeat (split; [assumption|]). exists w, y. auto.
  - intros (_ & G1 & G2 & G3 & T & M & B & w' & y' & Hw' & Hy' & Y & Bd & Fl).
    assert (w' = w) by (symmetry; exact (instrument_unique _ _ _ _ HN Hw Hw')). subst w'. rewrite Hy in Hy'. injection Hy' as <-. tauto.
Qed.

Lemma number_in {A} i (m : list A) x : In x (number i m) -> In (snd x) m.
Proof. revert i. induction m as [|a m IH]; intros i; cbn; [auto|]. intros [<-|H]; [now left|right; eauto]. Qed.
Lemma all_data_in x : In x (@all_data X R l) ->
  let '(n, t, i, r, j) := x in In t l /\ In r (tb_record t) /\ (Z.to_nat j < Z.to_nat (tb_nwave t))%nat.
Proof.
  unfold all_data. intros H. apply in_flat_map in H as ([n t] & Hn & H). unfold table_data in H. cbn [fst snd] in H.
  apply in_flat_map in H as ([i r] & Hi & H). unfold record_data in H. cbn [fst snd] in H.
  apply in_map_iff in H as (j & <- & Hj). apply in_seq in Hj.
  split; [now apply number_in in Hn|]. split; [now apply number_in in Hi|]. rewrite Nat2Z.id. lia.
Qed.

Lemma kept_none {A B} (P : A -> Prop) (Q : A -> B -> Prop) m : (forall a, In a m -> ~ P a) -> kept P Q m [].
Proof. intros H. induction m as [|a m IH]; constructor; [apply H; now left|]. apply IH. intros b Hb. apply H. now right. Qed.

Lemma current_ok n t rest i j r : In t l -> nth_error (tb_record t) i = Some r -> (j < Z.to_nat (tb_nwave t))%nat ->
  accept_current accept_record accept_channel (state d (compiled f) n t rest i (S j))
  = Ok (if datum_okb (n, t, Z.of_nat i, r, Z.of_nat j) then Some (n, t, Z.of_nat i, r, Z.of_nat j) else None).
Proof.
  intros Ht Hr Hj. destruct (HL t Ht) as (_ & w & Hw & Elk & Lw & HR).
  destruct (HR r (nth_error_In _ _ Hr)) as (Lf & _ & HC).
  unfold accept_current. cbn [state it_link it_iwave it_irec it_data it_filter it_wave it_extver].
  replace (Z.of_nat (S j) - 1) with (Z.of_nat j) by lia.
  unfold datum_okb. destruct (accept_table (compiled f) t); [|reflexivity]. cbn [andb].
  rewrite (get_nth_error _ _ _ Hr). cbn [bind]. destruct (accept_record (compiled f) r); [|reflexivity]. cbn [andb].
  rewrite Elk. assert (E := Hw). apply (wv_of_instrument _ _ _ HN) in E. rewrite E, Nat2Z.id.
  destruct (some_nth (wv_eff_wave w) j) as [y Hy]; [lia|].
  destruct (some_nth (k_flag k r) j) as [fl Hfl]; [lia|]. rewrite Hy, Hfl, (HC j y fl Hy Hfl). reflexivity.
Qed.

Notation next := (iter_next accept_kind accept_record accept_channel).

Lemma iter_visits pf : filter_given pf f ->
  exists L, kept (datum_accepted k f d) eq (all_data l) L /\
    forall n, exists it, calls next n (iter_init l d pf) = Ok (it, nth_error L n)
      /\ match nth_error L n with Some x => just_passed d l it x | None => True end.
Proof.
  intros Hpf. destruct (accept_kind f) eqn:A.
  - assert (HA : k_accept k f) by now apply KA.
    exists (filter datum_okb (all_data l)). split.
    + rewrite <- (map_id (filter datum_okb (all_data l))). apply kept_filter.
      * intros [[[[n t] i] r] j] Hx. apply all_data_in in Hx as (Ht & Hr & Hj). now apply datum_okb_spec.
      * reflexivity.
    + intros n. apply (calls_ok d accept_kind accept_record accept_channel l datum_okb (compiled f)) with (g := f); auto.
      * intros t Ht. now apply HL.
      * intros. now apply current_ok.
      * apply (init_at d accept_kind accept_record accept_channel l datum_okb (compiled f)); auto.
        -- intros t Ht; now apply HL.
        -- intros. now apply current_ok.
  - exists []. split.
    + apply kept_none. intros [[[[n t] i] r] j] _ (H & _). apply KA in H. congruence.
    + intros n. exists (iter_init l d pf).
      assert (E : it_filter (iter_init l d pf) = f) by (destruct Hpf as [->|[-> ->]]; reflexivity).
      assert (E1 : next (iter_init l d pf) = Ok (iter_init l d pf, None)).
      { unfold IterModel.iter_next. rewrite E, A. reflexivity. }
      split; [|now destruct n]. induction n as [|n IH]; cbn [calls]; rewrite E1; [reflexivity|]. cbn [bind fst].
      rewrite IH. now destruct n.
Qed.

(** uv coordinates *)
Lemma iter_current_ok it n t i r j : just_passed d l it (n, t, i, r, j) ->
  exists w y, instrument d (tb_insname t) w /\ nth_error (wv_eff_wave w) (Z.to_nat j) = Some y
    /\ iter_current it = Ok (r, to_f64 y).
Proof.
  intros (rest & i1 & j1 & E & Ht & Hr & Hj & -> & ->). rewrite E.
  destruct (HL t Ht) as (_ & w & Hw & Elk & Lw & _). destruct (some_nth (wv_eff_wave w) j1) as [y Hy]; [lia|].
  exists w, y. rewrite Nat2Z.id. split; [exact Hw|]. split; [exact Hy|].
  unfold iter_current. cbn [state it_link it_iwave it_irec it_wave]. rewrite (get_nth_error _ _ _ Hr). cbn [bind].
  rewrite Elk. replace (Z.of_nat (S j1) - 1) with (Z.of_nat j1) by lia. now rewrite (get_nth_error _ _ _ Hy).
Qed.
Lemma iter_current_call pf m it n t i r j : filter_given pf f ->
  calls next m (iter_init l d pf) = Ok (it, Some (n, t, i, r, j)) ->
  exists w y, instrument d (tb_insname t) w /\ nth_error (wv_eff_wave w) (Z.to_nat j) = Some y
    /\ iter_current it = Ok (r, to_f64 y).
Proof.
  intros Hpf E. destruct (iter_visits pf Hpf) as (L & _ & H). destruct (H m) as (it' & E' & J).
  rewrite E in E'. injection E' as <- EL. rewrite <- EL in J. eapply iter_current_ok; eauto.
Qed.
End Kind.

(** ** The kinds *)

Section Pow.
Variable pow_half : f64 -> f64.

Lemma and_then_ok b c : and_then (Ok b) (Ok c) = Ok (b && c).
Proof. destruct b; reflexivity. Qed.
Lemma wave_ok f w j y : nth_error (wv_eff_wave w) j = Some y -> iter_wave_ok (compiled f) w (Z.of_nat j) = Ok (in_rangeb f y).
Proof. intros H. unfold iter_wave_ok. rewrite (get_nth_error _ _ _ H). reflexivity. Qed.
Lemma snr_okk f v e j : (j < length v)%nat -> (j < length e)%nat ->
  snr_ok (compiled f) v e (Z.of_nat j) = Ok (negb (outside_snr f (ratio_f32 (nthf v j) (nthf e j)))).
Proof.
  intros Hv He. destruct (some_nth v j Hv) as [a Ha]. destruct (some_nth e j He) as [b Hb].
  unfold snr_ok. rewrite (get_nth_error _ _ _ Ha), (get_nth_error _ _ _ Hb). cbn [bind].
  now rewrite (nthf_eq _ _ _ Ha), (nthf_eq _ _ _ Hb).
Qed.
Lemma phase_okk f e j : (j < length e)%nat ->
  phase_snr_ok (compiled f) e (Z.of_nat j) = Ok (negb (outside_snr f (ratio_f32 c_rad2deg (nthf e j)))).
Proof.
  intros He. destruct (some_nth e j He) as [b Hb].
  unfold phase_snr_ok. rewrite (get_nth_error _ _ _ Hb). cbn [bind]. now rewrite (nthf_eq _ _ _ Hb).
Qed.
Lemma uvrad_okk f w bas j y : nth_error (wv_eff_wave w) j = Some y ->
  iter_uvrad_ok (compiled f) w bas (Z.of_nat j) = Ok (negb (outside_uvrad f (waves_of bas (nth_wave w j)))).
Proof.
  intros H. unfold iter_uvrad_ok, uv_radius. rewrite (get_nth_error _ _ _ H). cbn [bind].
  now rewrite (nth_wave_eq _ _ _ H).
Qed.
Lemma flag_okk f fl j b : nth_error fl j = Some b ->
  iter_flag_ok (compiled f) fl (Z.of_nat j) = Ok (negb (b && negb (f_accept_flagged f))).
Proof. intros H. unfold iter_flag_ok. now rewrite (get_nth_error _ _ _ H). Qed.

Lemma in_one (P : f64 -> Prop) a : (forall b, In b [a] -> P b) <-> P a.
Proof. split; [intros H; apply H; now left|]. intros H b [<-|[]]. exact H. Qed.
Lemma skip_mjd_spec f m : negb (skip_mjd f m) = true <-> ~ beyond (f_mjd_lo f) (f_mjd_hi f) m.
Proof. unfold skip_mjd. rewrite negb_true_iff. apply outside_false. Qed.
Lemma skip_bas_spec f m : negb (skip_bas f m) = true <-> ~ beyond (f_bas_lo f) (f_bas_hi f) m.
Proof. unfold skip_bas. rewrite negb_true_iff. apply outside_false. Qed.

Lemma vis_KR f r : vis_iter_accept_record pow_half (compiled f) r = true <->
  target_accepted f (vr_target_id r) /\ ~ beyond (f_mjd_lo f) (f_mjd_hi f) (vr_mjd r)
  /\ (forall b, In b [vis_bas pow_half r] -> ~ beyond (f_bas_lo f) (f_bas_hi f) b).
Proof.
  unfold vis_iter_accept_record. rewrite !andb_true_iff, skip_target_spec, skip_mjd_spec, skip_bas_spec, in_one. tauto.
Qed.
Lemma vis2_KR f r : vis2_iter_accept_record pow_half (compiled f) r = true <->
  target_accepted f (v2_target_id r) /\ ~ beyond (f_mjd_lo f) (f_mjd_hi f) (v2_mjd r)
  /\ (forall b, In b [vis2_bas pow_half r] -> ~ beyond (f_bas_lo f) (f_bas_hi f) b).
Proof.
  unfold vis2_iter_accept_record. rewrite !andb_true_iff, skip_target_spec, skip_mjd_spec, skip_bas_spec, in_one. tauto.
Qed.
Lemma t3_KR f r : t3_iter_accept_record pow_half (compiled f) r = true <->
  target_accepted f (t3_target_id r) /\ ~ beyond (f_mjd_lo f) (f_mjd_hi f) (t3_mjd r)
  /\ (forall b, In b (t3_bases pow_half r) -> ~ beyond (f_bas_lo f) (f_bas_hi f) b).
Proof.
  unfold t3_iter_accept_record. rewrite !andb_true_iff, skip_target_spec, skip_mjd_spec, !skip_bas_spec.
  change (f_bas_lo (compiled f)) with (f_bas_lo f). change (f_bas_hi (compiled f)) with (f_bas_hi f).
  change (target_accepted (compiled f)) with (target_accepted f).
  change (f_mjd_lo (compiled f)) with (f_mjd_lo f). change (f_mjd_hi (compiled f)) with (f_mjd_hi f).
  unfold t3_bases. fold (t3_ab pow_half r). split.
  - intros ((((H1 & H2) & H3) & H4) & H5). split; [exact H1|]. split; [exact H2|].
    intros b [<-|[<-|[<-|[]]]]; assumption.
  - intros (H1 & H2 & H3). repeat split; try assumption; apply H3; cbn; auto.
Qed.

(** Instruments are found and tables are walkable in a consistent dataset *)
Lemma table_walk {X R} wfr d (t : dtab X R) : consistent d -> table_ready d t -> wf_dtab wfr t = true ->
  uses_insname d (tb_insname t) -> (exists w, instrument d (tb_insname t) w) ->
  walkable t /\ exists w, instrument d (tb_insname t) w /\ oi_fits_lookup_wavelength d (tb_insname t) = Some w
    /\ length (wv_eff_wave w) = Z.to_nat (tb_nwave t).
Proof.
  intros C [HR1 HR2] Wf HU (w & Hw). destruct (wave_wf d w C (proj1 Hw)) as (Ww & _).
  destruct (wf_wavelength_len w Ww) as (L & _ & _). destruct (cs_waves d C w (proj1 Hw)) as (Hp & _).
  pose proof (HR2 w Hw) as En.
  split.
  - split; [congruence|]. split; [exact HR1|]. apply wf_dtab_len in Wf. unfold len_is in Wf. apply Z.eqb_eq in Wf. lia.
  - exists w. split; [exact Hw|]. split; [|congruence]. unfold oi_fits_lookup_wavelength. destruct Hw as [Hin Hn]. rewrite <- Hn in *.
    apply (cs_index d C); auto.
Qed.

Section Data.
Variables (d : oi_fits) (f : filter_spec).
Hypothesis (C : consistent d) (HF : fresh_filter f).

Lemma vis_chan (w : oi_wavelength) (r : vis_record) j y fl n :
  length (wv_eff_wave w) = n -> length (vr_visamp r) = n -> length (vr_visamperr r) = n -> length (vr_visphierr r) = n ->
  nth_error (wv_eff_wave w) j = Some y -> nth_error (vr_flag r) j = Some fl ->
  vis_iter_accept_channel pow_half (compiled f) w r (Z.of_nat j)
  = Ok (in_rangeb f y && negb (vis_badb pow_half f w r j) && negb (fl && negb (f_accept_flagged f))).
Proof.
  intros L1 L2 L3 L4 Hy Hfl. assert (j < n)%nat by (rewrite <- L1; apply nth_error_Some; congruence).
  unfold vis_iter_accept_channel.
  rewrite (wave_ok f w j y Hy), snr_okk, phase_okk, (uvrad_okk f w _ j y Hy), (flag_okk f _ j fl Hfl) by lia.
  rewrite !and_then_ok. unfold vis_badb, vis_bas. change (outside_uvrad (compiled f)) with (outside_uvrad f).
  set (U := outside_uvrad _ _). set (A := outside_snr f (ratio_f32 (nthf (vr_visamp r) j) _)). set (P := outside_snr f (ratio_f32 c_rad2deg _)).
  destruct U, A, P, (in_rangeb f y); reflexivity.
Qed.
Lemma vis2_chan (w : oi_wavelength) (r : vis2_record) j y fl n :
  length (wv_eff_wave w) = n -> length (v2_vis2data r) = n -> length (v2_vis2err r) = n ->
  nth_error (wv_eff_wave w) j = Some y -> nth_error (v2_flag r) j = Some fl ->
  vis2_iter_accept_channel pow_half (compiled f) w r (Z.of_nat j)
  = Ok (in_rangeb f y && negb (vis2_badb pow_half f w r j) && negb (fl && negb (f_accept_flagged f))).
Proof.
  intros L1 L2 L3 Hy Hfl. assert (j < n)%nat by (rewrite <- L1; apply nth_error_Some; congruence).
  unfold vis2_iter_accept_channel.
  rewrite (wave_ok f w j y Hy), snr_okk, (uvrad_okk f w _ j y Hy), (flag_okk f _ j fl Hfl) by lia.
  rewrite !and_then_ok. unfold vis2_badb, vis2_bas. change (outside_uvrad (compiled f)) with (outside_uvrad f).
  set (U := outside_uvrad _ _). set (A := outside_snr f _).
  destruct U, A, (in_rangeb f y); reflexivity.
Qed.
Lemma t3_chan (w : oi_wavelength) (r : t3_record) j y fl n :
  length (wv_eff_wave w) = n -> length (t3_t3amp r) = n -> length (t3_t3amperr r) = n -> length (t3_t3phierr r) = n ->
  nth_error (wv_eff_wave w) j = Some y -> nth_error (t3_flag r) j = Some fl ->
  t3_iter_accept_channel pow_half (compiled f) w r (Z.of_nat j)
  = Ok (in_rangeb f y && negb (t3_badb pow_half f w r j) && negb (fl && negb (f_accept_flagged f))).
Proof.
  intros L1 L2 L3 L4 Hy Hfl. assert (j < n)%nat by (rewrite <- L1; apply nth_error_Some; congruence).
  unfold t3_iter_accept_channel.
  rewrite (wave_ok f w j y Hy), snr_okk, phase_okk, (t3_bad_uvrad_ok pow_half _ w r j y Hy), (flag_okk f _ j fl Hfl) by lia.
  cbn [bind]. change (f_accept_t3amp (compiled f)) with (f_accept_t3amp f). change (f_accept_t3phi (compiled f)) with (f_accept_t3phi f).
  unfold t3_badb. change (outside_uvrad (compiled f)) with (outside_uvrad f).
  set (U := existsb _ _). set (A := outside_snr f (ratio_f32 (nthf (t3_t3amp r) j) _)). set (P := outside_snr f (ratio_f32 c_rad2deg _)).
  destruct (f_accept_t3amp f), (f_accept_t3phi f); rewrite !and_then_ok; destruct U, A, P, (in_rangeb f y); reflexivity.
Qed.

Notation HLtype k ac badb t := (walkable t /\ exists w,
  instrument d (tb_insname t) w /\ oi_fits_lookup_wavelength d (tb_insname t) = Some w
  /\ length (wv_eff_wave w) = Z.to_nat (tb_nwave t)
  /\ forall r, In r (tb_record t) -> length (k_flag k r) = Z.to_nat (tb_nwave t)
       /\ bad_decides k f w (badb w) r
       /\ forall j y fl, nth_error (wv_eff_wave w) j = Some y -> nth_error (k_flag k r) j = Some fl ->
            ac (compiled f) w r (Z.of_nat j)
            = Ok (in_rangeb f y && negb (badb w r j) && negb (fl && negb (f_accept_flagged f)))).

Lemma vis_HL t : instruments_present d (o_visList d) -> In t (o_visList d) ->
  HLtype (kind_vis pow_half) (vis_iter_accept_channel pow_half) (vis_badb pow_half f) t.
Proof.
  intros HI Ht. destruct (table_walk _ d t C (cs_vis d C t Ht) (wf_of_vis d t C Ht)) as (W & w & Hw & E & L); [| |].
  - left. eauto.
  - now apply HI.
  - split; [exact W|]. exists w. split; [exact Hw|]. split; [exact E|]. split; [exact L|]. intros r Hr.
    destruct (vis_facts pow_half d f t w r C Ht Hw Hr) as (Wf & LW & P & LU & LF & HB).
    split; [cbn; congruence|]. split; [exact HB|]. intros j y fl Hy Hfl.
    apply wf_vis_record_parts in Wf as (L1 & L2 & L3 & L4 & L5 & _); [|exact P]. now apply (vis_chan w r j y fl _ LW).
Qed.
Lemma vis2_HL t : instruments_present d (o_vis2List d) -> In t (o_vis2List d) ->
  HLtype (kind_vis2 pow_half) (vis2_iter_accept_channel pow_half) (vis2_badb pow_half f) t.
Proof.
  intros HI Ht. destruct (table_walk _ d t C (cs_vis2 d C t Ht) (wf_of_vis2 d t C Ht)) as (W & w & Hw & E & L); [| |].
  - right; left. eauto.
  - now apply HI.
  - split; [exact W|]. exists w. split; [exact Hw|]. split; [exact E|]. split; [exact L|]. intros r Hr.
    destruct (vis2_facts pow_half d f t w r C Ht Hw Hr) as (Wf & LW & P & LU & LF & HB).
    split; [cbn; congruence|]. split; [exact HB|]. intros j y fl Hy Hfl.
    unfold wf_vis2_record in Wf. len_eqs. apply (vis2_chan w r j y fl _ LW); try assumption; lia.
Qed.
Lemma t3_HL t : instruments_present d (o_t3List d) -> In t (o_t3List d) ->
  HLtype (kind_t3 pow_half) (t3_iter_accept_channel pow_half) (t3_badb pow_half f) t.
Proof.
  intros HI Ht. destruct (table_walk _ d t C (cs_t3 d C t Ht) (wf_of_t3 d t C Ht)) as (W & w & Hw & E & L); [| |].
  - right; right; left. eauto.
  - now apply HI.
  - split; [exact W|]. exists w. split; [exact Hw|]. split; [exact E|]. split; [exact L|]. intros r Hr.
    destruct (t3_facts pow_half d f t w r C Ht Hw Hr) as (Wf & LW & P & LU & LF & HB).
    split; [cbn; congruence|]. split; [exact HB|]. intros j y fl Hy Hfl.
    unfold wf_t3_record in Wf. len_eqs. apply (t3_chan w r j y fl _ LW); try assumption; lia.
Qed.

Lemma vis_visits pf : instruments_present d (o_visList d) -> filter_given pf f ->
  exists L, kept (datum_accepted (kind_vis pow_half) f d) eq (all_data (o_visList d)) L /\
    forall n, exists it, calls (oi_vis_iter_next pow_half) n (oi_vis_iter_init d pf) = Ok (it, nth_error L n).
Proof.
  intros HI Hpf. destruct (iter_visits (kind_vis pow_half) d f (o_visList d) f_accept_vis
    (vis_iter_accept_record pow_half) (vis_iter_accept_channel pow_half) (vis_badb pow_half f) (cs_unique d C) HF
    (iff_refl _) (vis_KR f) (fun t => vis_HL t HI) pf Hpf) as (L & HL & HC).
  exists L. split; [exact HL|]. intros n. destruct (HC n) as (it & E & _). now exists it.
Qed.
Lemma vis2_visits pf : instruments_present d (o_vis2List d) -> filter_given pf f ->
  exists L, kept (datum_accepted (kind_vis2 pow_half) f d) eq (all_data (o_vis2List d)) L /\
    forall n, exists it, calls (oi_vis2_iter_next pow_half) n (oi_vis2_iter_init d pf) = Ok (it, nth_error L n).
Proof.
  intros HI Hpf. destruct (iter_visits (kind_vis2 pow_half) d f (o_vis2List d) f_accept_vis2
    (vis2_iter_accept_record pow_half) (vis2_iter_accept_channel pow_half) (vis2_badb pow_half f) (cs_unique d C) HF
    (iff_refl _) (vis2_KR f) (fun t => vis2_HL t HI) pf Hpf) as (L & HL & HC).
  exists L. split; [exact HL|]. intros n. destruct (HC n) as (it & E & _). now exists it.
Qed.
Lemma t3_KA : negb (negb (f_accept_t3amp f) && negb (f_accept_t3phi f)) = true <-> k_accept (kind_t3 pow_half) f.
Proof. cbn. destruct (f_accept_t3amp f), (f_accept_t3phi f); cbn; intuition congruence. Qed.
Lemma t3_visits pf : instruments_present d (o_t3List d) -> filter_given pf f ->
  exists L, kept (datum_accepted (kind_t3 pow_half) f d) eq (all_data (o_t3List d)) L /\
    forall n, exists it, calls (oi_t3_iter_next pow_half) n (oi_t3_iter_init d pf) = Ok (it, nth_error L n).
Proof.
  intros HI Hpf. destruct (iter_visits (kind_t3 pow_half) d f (o_t3List d)
    (fun f => negb (negb (f_accept_t3amp f) && negb (f_accept_t3phi f)))
    (t3_iter_accept_record pow_half) (t3_iter_accept_channel pow_half) (t3_badb pow_half f) (cs_unique d C) HF
    t3_KA (t3_KR f) (fun t => t3_HL t HI) pf Hpf) as (L & HL & HC).
  exists L. split; [exact HL|]. intros n. destruct (HC n) as (it & E & _). now exists it.
Qed.

Lemma vis_uv pf m it n t i r j : instruments_present d (o_visList d) -> filter_given pf f ->
  calls (oi_vis_iter_next pow_half) m (oi_vis_iter_init d pf) = Ok (it, Some (n, t, i, r, j)) ->
  exists w y, instrument d (tb_insname t) w /\ nth_error (wv_eff_wave w) (Z.to_nat j) = Some y
    /\ oi_vis_iter_get_uv it = Ok (to_f64 y, f64_div (vr_ucoord r) (to_f64 y), f64_div (vr_vcoord r) (to_f64 y)).
Proof.
  intros HI Hpf HC. destruct (iter_current_call (kind_vis pow_half) d f (o_visList d) f_accept_vis
    (vis_iter_accept_record pow_half) (vis_iter_accept_channel pow_half) (vis_badb pow_half f) (cs_unique d C) HF
    (iff_refl _) (vis_KR f) (fun t => vis_HL t HI) pf m it n t i r j Hpf HC) as (w & y & H1 & H2 & H3).
  exists w, y. unfold oi_vis_iter_get_uv. rewrite H3. auto.
Qed.
Lemma vis2_uv pf m it n t i r j : instruments_present d (o_vis2List d) -> filter_given pf f ->
  calls (oi_vis2_iter_next pow_half) m (oi_vis2_iter_init d pf) = Ok (it, Some (n, t, i, r, j)) ->
  exists w y, instrument d (tb_insname t) w /\ nth_error (wv_eff_wave w) (Z.to_nat j) = Some y
    /\ oi_vis2_iter_get_uv it = Ok (to_f64 y, f64_div (v2_ucoord r) (to_f64 y), f64_div (v2_vcoord r) (to_f64 y)).
Proof.
  intros HI Hpf HC. destruct (iter_current_call (kind_vis2 pow_half) d f (o_vis2List d) f_accept_vis2
    (vis2_iter_accept_record pow_half) (vis2_iter_accept_channel pow_half) (vis2_badb pow_half f) (cs_unique d C) HF
    (iff_refl _) (vis2_KR f) (fun t => vis2_HL t HI) pf m it n t i r j Hpf HC) as (w & y & H1 & H2 & H3).
  exists w, y. unfold oi_vis2_iter_get_uv. rewrite H3. auto.
Qed.
Lemma t3_uv pf m it n t i r j : instruments_present d (o_t3List d) -> filter_given pf f ->
  calls (oi_t3_iter_next pow_half) m (oi_t3_iter_init d pf) = Ok (it, Some (n, t, i, r, j)) ->
  exists w y, instrument d (tb_insname t) w /\ nth_error (wv_eff_wave w) (Z.to_nat j) = Some y
    /\ oi_t3_iter_get_uv it = Ok (to_f64 y, f64_div (t3_u1coord r) (to_f64 y), f64_div (t3_v1coord r) (to_f64 y),
                                  f64_div (t3_u2coord r) (to_f64 y), f64_div (t3_v2coord r) (to_f64 y)).
Proof.
  intros HI Hpf HC. destruct (iter_current_call (kind_t3 pow_half) d f (o_t3List d)
    (fun f => negb (negb (f_accept_t3amp f) && negb (f_accept_t3phi f)))
    (t3_iter_accept_record pow_half) (t3_iter_accept_channel pow_half) (t3_badb pow_half f) (cs_unique d C) HF
    t3_KA (t3_KR f) (fun t => t3_HL t HI) pf m it n t i r j Hpf HC) as (w & y & H1 & H2 & H3).
  exists w, y. unfold oi_t3_iter_get_uv. rewrite H3. auto.
Qed.
End Data.
End Pow.
