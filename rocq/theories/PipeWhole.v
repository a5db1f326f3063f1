(** Running oifits-filter twice. *)
From Coq Require Import Lia.
From Verif Require Import Base BaseLemmas FloatModel Types FileModel FileSpec FileProofs FilterModel FilterSpec FilterLemmas
  FilterProofs FilterRecords FilterTables FilterApply FilterMain FilterWhole FilterFinal FilterThenSpec FilterThenWhole FitsModel
  ReadModel WriteModel IOSpec WriteProofs RoundTrip IOClaims IOProofs ByName ToolModel ToolSpec ToolFilter ToolProofs
  ToolPrograms WriteVis TwiceSpec TwiceProofs FilterThenMain PipeSpec PipeOptions PipeProofs.
Open Scope list_scope.
Open Scope Z_scope.

Lemma stored_channels E o o' : consistent o -> tables_of E o' o -> o_inspolList o = [] -> channels_match o'.
Proof.
  intros C T I. destruct T as (_ & _ & _ & T4 & _ & T6 & T7 & T8 & T9 & T10 & _).
  assert (W : forall n w, instrument o' n w -> exists w0, instrument o n w0 /\ wv_nwave w = wv_nwave w0).
  { intros n w [Hw Hn]. rewrite T4 in Hw. apply in_map_iff in Hw as (w0 & <- & Hw0). exists w0. split; [split; assumption|reflexivity]. }
  split.
  - rewrite T4. apply Forall_forall. intros w Hw. apply in_map_iff in Hw as (w0 & <- & Hw0). apply (cs_waves o C w0 Hw0).
  - rewrite T4, map_map. exact (cs_unique o C).
  - intros t w Ht Hw. rewrite T7 in Ht. apply in_map_iff in Ht as (t0 & <- & Ht0). apply W in Hw as (w0 & Hw0 & ->).
    exact (proj2 (cs_vis o C t0 Ht0) w0 Hw0).
  - intros t w Ht Hw. rewrite T8 in Ht. apply in_map_iff in Ht as (t0 & <- & Ht0). apply W in Hw as (w0 & Hw0 & ->).
    exact (proj2 (cs_vis2 o C t0 Ht0) w0 Hw0).
  - intros t w Ht Hw. rewrite T9 in Ht. apply in_map_iff in Ht as (t0 & <- & Ht0). apply W in Hw as (w0 & Hw0 & ->).
    exact (proj2 (cs_t3 o C t0 Ht0) w0 Hw0).
  - intros t w Ht Hw. rewrite T10 in Ht. apply in_map_iff in Ht as (t0 & <- & Ht0). apply W in Hw as (w0 & Hw0 & ->).
    exact (proj2 (cs_flux o C t0 Ht0) w0 Hw0).
  - intros t Ht. rewrite T6, I in Ht. contradiction.
Qed.

Section Pipe.
Variables (E : cfitsio) (fmt : string -> f64 -> string) (pow_half : f64 -> f64) (can_remove : string -> bool).
Let run := filter_run E fmt pow_half can_remove.

Lemma filter_written opts a b d o :
  (String.length a <= 1024)%nat -> (String.length b <= 1024)%nat ->
  reads E a d o -> channels_match o -> storable_fits E o = true ->
  f_target_id (user_filter opts) < 0
    \/ (exists t, In t (ot_targ (o_targets o)) /\ tg_target_id t = f_target_id (user_filter opts)) ->
  find_file b d = None ->
  exists o' x, apply_oi_filter pow_half o (user_filter opts) = Ok (user_filter opts, o')
    /\ run false opts a b d = Ok x /\ x_status x = 0
    /\ consistent o /\ consistent o' /\ storable_fits E o' = true
    /\ find_file b (x_disk x) = Some (file_hdus E o')
    /\ others_kept b d (x_disk x)
    /\ exists o1, reads E b (x_disk x) o1 /\ tables_of E o1 o'.
Proof.
  intros L1 L2 R M S T F. pose proof (read_consistent E _ _ _ R M) as C.
  pose proof (user_fresh opts) as HF.
  destruct (final_no_crash pow_half o (user_filter opts) C HF) as (o' & Ha).
  pose proof (filtered_storable E pow_half o (user_filter opts) (user_filter opts) o' C HF Ha T S) as So.
  pose proof (main_consistent pow_half _ _ _ _ C HF Ha T) as C'.
  destruct (summary_ok fmt o (cs_wf _ C)) as (t1 & Ht1 & Hs1).
  destruct (summary_ok fmt o' (cs_wf _ C')) as (t2 & Ht2 & Hs2).
  destruct (file_round_trip E o' b d So F) as (d' & o1 & H1 & H2 & H3 & H4).
  pose proof (written_hdus E o' b d d' So F H1) as HH.
  unfold run, filter_run, oifits_filter. cbn [cl_clobber cl_options cl_args]. cbv zeta.
  rewrite (short_name _ L1), (short_name _ L2), (reading_reads E _ _ _ _ R), Ht1, bind_Ok, Ha, bind_Ok. cbn [snd].
  rewrite Ht2, bind_Ok, F. unfold writing. rewrite H1, bind_Ok. cbn [fst snd].
  exists o'. eexists. split; [reflexivity|]. split; [reflexivity|]. cbn [x_status x_disk].
  split; [reflexivity|]. split; [exact C|]. split; [exact C'|]. split; [exact So|]. split; [exact HH|]. split; [exact H2|].
  exists o1. split; [exact H3|exact H4].
Qed.

Lemma last_in {A} (l m : list A) x : rev l = x :: m -> In x l.
Proof. intros H. apply in_rev. rewrite H. now left. Qed.
Theorem filter_pipeline opts1 opts2 opts3 a b c e d o o1 :
  settled E ->
  (String.length a <= 1024)%nat -> (String.length b <= 1024)%nat ->
  (String.length c <= 1024)%nat -> (String.length e <= 1024)%nat ->
  reads E a d o -> channels_match o -> storable_fits E o = true ->
  joint (user_filter opts1) (user_filter opts2) (user_filter opts3) ->
  f_target_id (user_filter opts3) < 0
    \/ (exists t, In t (ot_targ (o_targets o)) /\ tg_target_id t = f_target_id (user_filter opts3)) ->
  apply_oi_filter pow_half o (user_filter opts1) = Ok (user_filter opts1, o1) -> o_inspolList o1 = [] ->
  find_file b d = None -> find_file c d = None -> find_file e d = None -> c <> b ->
  exists x1 x2 x3 hdus,
    run false opts1 a b d = Ok x1 /\ x_status x1 = 0
    /\ run false opts2 b c (x_disk x1) = Ok x2 /\ x_status x2 = 0
    /\ run false opts3 a e d = Ok x3 /\ x_status x3 = 0
    /\ find_file c (x_disk x2) = Some hdus /\ find_file e (x_disk x3) = Some hdus.
Proof.
  intros HE La Lb Lc Le R M S J HT HA HI Fb Fc Fe Ncb. set (f := user_filter opts1) in *. set (g := user_filter opts2) in *.
  set (h := user_filter opts3) in *.
  assert (HTf : f_target_id f < 0 \/ exists t, In t (ot_targ (o_targets o)) /\ tg_target_id t = f_target_id f).
  { destruct (jt_target _ _ _ (jt_core _ _ _ J)) as [(A & B)|(A & B)]; [now left|]. now rewrite <- B. }
  destruct (filter_written opts1 a b d o La Lb R M S HTf Fb)
    as (p & x1 & A1 & R1 & S1 & C & C1 & So1 & D1 & O1 & q & Rq & Tq).
  fold f in A1. rewrite HA in A1. injection A1 as <-.
  pose proof (stored_channels E o1 q C1 Tq HI) as Mq.
  pose proof (fits_again E HE o1 q So1 Tq) as Sq.
  assert (HTg0 : f_target_id g < 0 \/ exists t, In t (ot_targ (o_targets o1)) /\ tg_target_id t = f_target_id g).
  { rewrite (main_targets pow_half o f f o1 C (user_fresh opts1) HA). unfold target_out.
    change (f_target_id (compiled f)) with (f_target_id f).
    destruct (jt_target _ _ _ (jt_core _ _ _ J)) as [(A & B)|([A|(A & B)] & D)].
    - rewrite <- B. replace (0 <=? f_target_id f) with false by (symmetry; apply Z.leb_gt; exact A). exact HT.
    - now left.
    - right. rewrite B. replace (0 <=? f_target_id f) with true by (symmetry; apply Z.leb_le; exact A).
      destruct HTf as [N|(t & Ht & Hid)]; [lia|].
      destruct (rev (filter (fun x => tg_target_id x =? f_target_id f) (ot_targ (o_targets o)))) as [|x l] eqn:Er.
      + exfalso. assert (I : In t (rev (filter (fun x => tg_target_id x =? f_target_id f) (ot_targ (o_targets o))))).
        { apply -> in_rev. apply filter_In. split; [exact Ht|]. now apply Z.eqb_eq. }
        rewrite Er in I. exact I.
      + exists (tg_set_target_id 1 x). split; [now left|reflexivity]. }
  assert (HTg : f_target_id g < 0 \/ exists t, In t (ot_targ (o_targets q)) /\ tg_target_id t = f_target_id g).
  { destruct HTg0 as [N|(t & Ht & Hid)]; [now left|right]. destruct Tq as (_ & T2 & _). rewrite T2.
    exists (stored_target1 E (ot_usecategory (o_targets o1)) t). split; [|exact Hid]. unfold stored_target. cbn [ot_targ]. now apply in_map. }
  assert (Fc1 : find_file c (x_disk x1) = None) by (rewrite (O1 c Ncb); exact Fc).
  destruct (filter_written opts2 b c (x_disk x1) q Lb Lc Rq Mq Sq HTg Fc1)
    as (p2 & x2 & A2 & R2 & S2 & Cq & C2 & So2 & D2 & O2 & _).
  destruct (filter_written opts3 a e d o La Le R M S HT Fe)
    as (p3 & x3 & A3 & R3 & S3 & _ & C3 & So3 & D3 & O3 & _).
  destruct (filter_then pow_half o f g h f o1 C (user_fresh opts1) (user_fresh opts2) (user_fresh opts3) J HTf HA)
    as (m2 & m3 & B2 & B3 & (E1 & E2 & E3 & E4 & E5 & E6) & (G1 & G2 & G3) & _ & I23).
  fold g in A2. fold h in A3. rewrite A3 in B3. injection B3 as <-.
  assert (I3 : o_inspolList p3 = o_inspolList m2). { apply I23. rewrite HI. intros t r []. }
  assert (Sm : storable_fits E m2 = true).
  { exact (filtered_storable E pow_half o1 g g m2 C1 (user_fresh opts2) B2 HTg0 So1). }
  exists x1, x2, x3, (file_hdus E m2). repeat (split; [assumption|]). split.
  - rewrite D2. f_equal. exact (stored_filtered E pow_half o1 q g g g m2 p2 HE Tq HI C1 Cq (user_fresh opts2) B2 A2 Sm).
  - rewrite D3. f_equal. unfold file_hdus. now rewrite E1, E2, E3, E4, E5, E6, G1, G2, G3, I3.
Qed.

(** ** The same options again *)

Lemma joint_twice f : f_target_id f < 0 -> joint f f f.
Proof.
  intros H. split.
  - split; try (intros x; tauto); try (symmetry; apply andb_diag); try reflexivity. left. split; [exact H|reflexivity].
  - right. right. split; auto.
  - unfold drops_after. destruct (f_accept_flagged f); auto.
Qed.
Lemma option_target opts z : user_filter (opts ++ [Target_id z]) = set_target z (user_filter opts).
Proof. unfold user_filter. rewrite fold_left_app. reflexivity. Qed.
Theorem filter_twice opts opts2 a b c d o o1 :
  settled E ->
  (String.length a <= 1024)%nat -> (String.length b <= 1024)%nat -> (String.length c <= 1024)%nat ->
  reads E a d o -> channels_match o -> storable_fits E o = true ->
  f_target_id (user_filter opts) < 0 /\ opts2 = opts
    \/ (0 <= f_target_id (user_filter opts) /\ opts2 = opts ++ [Target_id 1]
        /\ exists t, In t (ot_targ (o_targets o)) /\ tg_target_id t = f_target_id (user_filter opts)) ->
  apply_oi_filter pow_half o (user_filter opts) = Ok (user_filter opts, o1) -> o_inspolList o1 = [] ->
  find_file b d = None -> find_file c d = None -> c <> b ->
  exists x1 x2 hdus,
    run false opts a b d = Ok x1 /\ x_status x1 = 0
    /\ run false opts2 b c (x_disk x1) = Ok x2 /\ x_status x2 = 0
    /\ find_file b (x_disk x1) = Some hdus /\ find_file c (x_disk x2) = Some hdus.
Proof.
  intros HE La Lb Lc R M S HT HA HI Fb Fc N.
  assert (J : joint (user_filter opts) (user_filter opts2) (user_filter opts)).
  { destruct HT as [(H & ->)|(H & -> & _)]; [now apply joint_twice|]. rewrite option_target. now apply joint_again. }
  assert (T : f_target_id (user_filter opts) < 0
    \/ exists t, In t (ot_targ (o_targets o)) /\ tg_target_id t = f_target_id (user_filter opts)) by tauto.
  destruct (filter_pipeline opts opts2 opts a b c b d o o1 HE La Lb Lc Lb R M S J T HA HI Fb Fc Fb N)
    as (x1 & x2 & x3 & hdus & R1 & S1 & R2 & S2 & R3 & S3 & D2 & D3).
  rewrite R1 in R3. injection R3 as <-. exists x1, x2, hdus. auto 10.
Qed.
Theorem filter_separate opts1 opts2 a b c e d o o1 :
  settled E ->
  (String.length a <= 1024)%nat -> (String.length b <= 1024)%nat ->
  (String.length c <= 1024)%nat -> (String.length e <= 1024)%nat ->
  reads E a d o -> channels_match o -> storable_fits E o = true ->
  separate opts1 opts2 ->
  f_target_id (user_filter (opts1 ++ opts2)) < 0
    \/ (exists t, In t (ot_targ (o_targets o)) /\ tg_target_id t = f_target_id (user_filter (opts1 ++ opts2))) ->
  apply_oi_filter pow_half o (user_filter opts1) = Ok (user_filter opts1, o1) -> o_inspolList o1 = [] ->
  find_file b d = None -> find_file c d = None -> find_file e d = None -> c <> b ->
  exists x1 x2 x3 hdus,
    run false opts1 a b d = Ok x1 /\ x_status x1 = 0
    /\ run false opts2 b c (x_disk x1) = Ok x2 /\ x_status x2 = 0
    /\ run false (opts1 ++ opts2) a e d = Ok x3 /\ x_status x3 = 0
    /\ find_file c (x_disk x2) = Some hdus /\ find_file e (x_disk x3) = Some hdus.
Proof.
  intros HE La Lb Lc Le R M S Sp. apply filter_pipeline; try assumption. now apply separate_joint.
Qed.

(** ** No options: a copy *)

Theorem filter_copy a b d0 d o :
  settled E -> (String.length a <= 1024)%nat -> (String.length b <= 1024)%nat ->
  consistent o -> storable_fits E o = true -> o_inspolList o = [] ->
  within pow_half init_oi_filter o ->
  (forall t, In t (o_arrayList o) -> uses_arrname o (ar_arrname t)) ->
  (forall t, In t (o_wavelengthList o) -> uses_insname o (wv_insname t)) ->
  (forall t, In t (o_corrList o) -> uses_corrname o (co_corrname t)) ->
  find_file a d0 = None -> write_oi_fits E a o d0 0 = Ok (d, 0) -> find_file b d = None ->
  exists x hdus, run false [] a b d = Ok x /\ x_status x = 0
    /\ find_file a d = Some hdus /\ find_file b (x_disk x) = Some hdus.
Proof.
  intros HE La Lb C S HI HW HA Hw Hc Fa W Fb.
  destruct (file_round_trip E o a d0 S Fa) as (d' & o1 & W' & _ & R & T). rewrite W in W'. injection W' as <-.
  pose proof (written_hdus E o a d0 d S Fa W) as Da.
  pose proof (stored_channels E o o1 C T HI) as M.
  pose proof (fits_again E HE o o1 S T) as S1.
  assert (U : user_filter [] = init_oi_filter) by apply user_filter_default.
  destruct (filter_written [] a b d o1 La Lb R M S1) as (p & x & A & Rx & Sx & C1 & _ & _ & D & _); [left; reflexivity|exact Fb|].
  destruct final_default as (Fr & Op & _).
  destruct (final_open pow_half o init_oi_filter C Fr Op HW) as (q & Aq & (E1 & E2 & E3 & E4 & E5 & E6) & K1 & K2 & K3 & K4).
  assert (Hh : file_hdus E q = file_hdus E o).
  { apply FilterWhole.kept_all in K1; [|exact HA]. apply FilterWhole.kept_all in K2; [|exact Hw]. apply FilterWhole.kept_all in K3; [|exact Hc].
    rewrite HI in K4. assert (K4' : o_inspolList q = []) by (inversion K4; reflexivity).
    unfold file_hdus. now rewrite E1, E2, E3, E4, E5, E6, K1, K2, K3, K4', HI. }
  assert (Sq : storable_fits E q = true).
  { apply (filtered_storable E pow_half o init_oi_filter init_oi_filter q C Fr Aq); [left; reflexivity|exact S]. }
  exists x, (file_hdus E o). split; [exact Rx|]. split; [exact Sx|]. split; [exact Da|]. rewrite D. f_equal.
  rewrite U in A. rewrite <- Hh. exact (stored_filtered E pow_half o o1 init_oi_filter _ _ q p HE T HI C C1 Fr Aq A Sq).
Qed.
End Pipe.
