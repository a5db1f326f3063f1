(** The text of the data tables is read as these tables. *)
From Coq Require Import Lia.
From Verif Require Import BaseLemmas ScanSpec ScanWords ScanSteps ScanProofs.
Open Scope string_scope.
Open Scope list_scope.
Open Scope Z_scope.

Section Data.
Variable N : numbers.
Notation rd := (reads N false false any).

Lemma reads_times3 id time mjd : int id ->
  rd (scan_times N) [W "target_id"; I id; W "time"; D time; W "mjd"; D mjd] (id, time, mjd).
Proof. intros H. unfold scan_times. eapply reads_then; [scans|]. cbv beta iota. now rewrite int_in. Qed.
Ltac times3 :=
  match goal with |- reads _ _ _ _ (bind_s (scan_times _) _) ?ts _ =>
    split_at 6%nat ts ltac:(fun a b => change ts with (a ++ b)) end;
  eapply (reads_bind _ _ _ _ any); [apply reads_times3; assumption| |nothing]; cbv beta iota.
Ltac last_rows := rewrite <- (app_nil_r (flat_map _ _)); eapply (reads_bind _ _ _ _ any); [|apply reads_ret|nothing].

(** ** OI_VIS *)

Lemma reads_vis_record junk n r : plain_vis_record junk n r -> rd (scan_vis_record N junk n) (vis_record_tokens r) r.
Proof.
  destruct r as [id tm mj it amp amperr ci phi phierr cj rm rv re cr iv ie cv u v (i, j) fl].
  intros [(I1 & I2 & I3 & I4 & I5) (C1 & C2 & C3 & C4) (U1 & U2 & U3 & U4 & U5 & U6 & U7) Hf].
  cbn [vr_target_id vr_corrindx_visamp vr_corrindx_visphi vr_sta_index fst snd vr_visamp vr_visamperr vr_visphi vr_visphierr
       vr_visrefmap vr_rvis vr_rviserr vr_corrindx_rvis vr_ivis vr_iviserr vr_corrindx_ivis vr_flag] in *.
  unfold no_flags in Hf. subst. unfold vis_record_tokens, scan_vis_record.
  cbn [vr_target_id vr_time vr_mjd vr_int_time vr_visamp vr_visamperr vr_corrindx_visamp vr_visphi vr_visphierr
       vr_corrindx_visphi vr_ucoord vr_vcoord vr_sta_index fst snd app].
  times3. repeat step1. apply reads_ret.
Qed.

(** the optional words *)
Lemma no_blank s : every (fun c => ~ white c) s -> str_eqb s "correlated flux" = false.
Proof.
  intros H. destruct (str_eqb s "correlated flux") eqn:E0; [|reflexivity]. apply str_eqb_eq in E0. subst s.
  exfalso. cbn in H. unfold white in H. cbn in H. decompose [and] H. intuition lia.
Qed.
Lemma first_word x c w ts ws more : Forall2 (stands N) (W (String c w) :: ts) ws -> c <> x -> first_not x (ws ++ more).
Proof. intros H Hn. inversion H as [|? w' ? ws' [_ Hx] _ E1 E2]. cbn in Hx. subst w'. exact Hn. Qed.
(** what can come next among these words *)
Ltac next_word H :=
  unfold opt_word, opt_int in H;
  repeat match type of H with
         | context [is_empty ?p] => is_var p; destruct p; cbn [is_empty app] in H
         | context [?z =? -1] => destruct (Z.eqb_spec z (-1)); cbn [app] in H
         end;
  try (eapply first_word; [exact H|discriminate]); exfalso.
Lemma reads_opt_word70 i fmt key s (P : list string -> Prop) c ds :
  directives None fmt = lead i ++ DLit c :: ds -> directives None fmt = lead i ++ spell [lits key] ++ [DStr (Some 70)] ->
  within 70 s -> (s = EmptyString -> forall ws, P ws -> first_not c ws) ->
  reads N i true P (scan_opt_string N fmt) (opt_word key s) (opt s).
Proof.
  intros Hd Hd' Hs HP. eapply reads_opt_string; [exact Hd|exact HP|]. intros _.
  change [W key; W s] with ([W key] ++ [W s]).
  eapply (reads_scanf_last _ _ _ [lits key] [DStr (Some 70)]); [exact Hd'| |now apply takes_str|].
  - eapply fit_cons; [apply takes_lits|apply fit_nil].
  - reflexivity.
Qed.
Lemma reads_opt_order fmt key z (P : list string -> Prop) c ds :
  directives None fmt = lead true ++ DLit c :: ds -> directives None fmt = lead true ++ spell [lits key] ++ [DInt] ->
  int z -> (z = -1 -> forall ws, P ws -> first_not c ws) ->
  reads N true true P (scan_opt_int N fmt (-1)) (opt_int key z) z.
Proof.
  intros Hd Hd' Hz HP. eapply reads_opt_int; [exact Hd|exact Hz|exact HP|].
  change [W key; I z] with ([W key] ++ [I z]).
  eapply (reads_scanf_last _ _ _ [lits key] [DInt]); [exact Hd'| |apply takes_int|].
  - eapply fit_cons; [apply takes_lits|apply fit_nil].
  - reflexivity.
Qed.
Lemma opt_word_blank key s ts ws : Forall2 (stands N) (opt_word key s ++ ts) ws -> every (fun c => ~ white c) s.
Proof.
  destruct s as [|c s]; [constructor|]. unfold opt_word. cbn [is_empty app]. intros H.
  inversion H as [|? ? ? ws1 _ H1]; subst. inversion H1 as [|? w ? ws2 [[_ Hw] Hx] _]; subst. exact Hw.
Qed.
Lemma reads_with i o P {A} (m : scan A) ts a (Q : Prop) :
  (forall ws, Forall2 (stands N) ts ws -> Q) -> (Q -> reads N i o P m ts a) -> reads N i o P m ts a.
Proof. intros H1 H2 ws more s Hw. apply H2; eauto. Qed.

Lemma reads_vis junk n t : plain_vis junk n t -> rd (scan_vis N junk n) (vis_tokens t) t.
Proof.
  intros [[Hr (N1 & N2 & N3 & N4) ((Hn & Hp & Hi) & Hw)] (T1 & T2) (O1 & O2) Ha Hph (B1 & B2 & B3 & B4) Hrec].
  destruct t as [rev da ar ins co [at_ pt ao po um uc cu au] nr nw l].
  cbn [tb_revision tb_date_obs tb_arrname tb_insname tb_corrname tb_x tb_numrec tb_nwave tb_record
       vx_amptyp vx_phityp vx_amporder vx_phiorder vx_usevisrefmap vx_usecomplex vx_complexunit vx_ampunit] in *.
  subst rev nw um uc cu au. unfold vis_tokens, scan_vis.
  cbn [tb_revision tb_date_obs tb_arrname tb_insname tb_corrname tb_x tb_numrec tb_record
       vx_amptyp vx_phityp vx_amporder vx_phiorder app fst snd].
  do 3 step1.
  apply reads_with with (Q := every (fun c => ~ white c) at_); [intros ws; apply opt_word_blank|]. intros Hb.
  eapply (reads_bind _ _ true _ (fun ws => at_ = EmptyString -> first_not "a" ws)).
  { eapply reads_opt_word70; [reflexivity|reflexivity|exact T1|auto]. }
  2: { intros ws more H _ ->. next_word H; destruct Ha as [Ha|Ha]; try assumption; congruence. }
  cbv beta. eapply (reads_bind _ _ true _ (fun ws => pt = EmptyString -> first_not "p" ws)).
  { eapply reads_opt_word70; [reflexivity|reflexivity|exact T2|auto]. }
  2: { intros ws more H _ ->. next_word H; destruct Hph as [Hph|Hph]; try assumption; congruence. }
  cbv beta. eapply (reads_bind _ _ true _ (fun ws => ao = -1 -> first_not "a" ws)).
  { eapply reads_opt_order; [reflexivity|reflexivity|exact O1|auto]. }
  2: { intros ws more H _ ->. next_word H. }
  cbv beta. eapply (reads_bind _ _ true _ (fun ws => po = -1 -> first_not "p" ws)).
  { eapply reads_opt_order; [reflexivity|reflexivity|exact O2|auto]. }
  2: { intros ws more H _ ->. next_word H. }
  cbv beta. change (W "numrec" :: I nr :: ?l) with ([W "numrec"; I nr] ++ l).
  eapply (reads_bind _ _ false _ any); [| |nothing].
  { eapply reads_i; [|exact Hi]. eapply (reads_scanf _ true _ [lits "numrec"; [DInt]]); [reflexivity|fits|reflexivity]. }
  cbv beta. step1. rewrite !text_opt, no_blank by exact Hb.
  last_rows. apply reads_rows; [exact Hn|easy|]. intros k r Hk. rewrite Forall_forall in Hrec.
  apply reads_vis_record, Hrec. eapply nth_error_In, Hk.
Qed.

(** ** OI_VIS2 *)

Lemma reads_vis2_record n r : int (v2_target_id r) -> int (v2_corrindx_vis2data r) ->
  int (fst (v2_sta_index r)) -> int (snd (v2_sta_index r)) -> channels n (v2_vis2data r) -> channels n (v2_vis2err r) ->
  no_flags n (v2_flag r) -> rd (scan_vis2_record N n) (vis2_record_tokens r) r.
Proof.
  destruct r as [id tm mj it d e ci u v (i, j) fl]. intros I1 I2 I3 I4 C1 C2 Hf.
  cbn [v2_target_id v2_corrindx_vis2data v2_sta_index fst snd v2_vis2data v2_vis2err v2_flag] in *.
  unfold no_flags in Hf. subst. unfold vis2_record_tokens, scan_vis2_record.
  cbn [v2_target_id v2_time v2_mjd v2_int_time v2_vis2data v2_vis2err v2_corrindx_vis2data v2_ucoord v2_vcoord v2_sta_index fst snd app].
  times3. repeat step1. apply reads_ret.
Qed.
Lemma reads_vis2 n t : plain_vis2 n t -> rd (scan_vis2 N n) (vis2_tokens t) t.
Proof.
  intros [[Hr (N1 & N2 & N3 & N4) ((Hn & Hp & Hi) & Hw)] Hrec]. destruct t as [rev da ar ins co [] nr nw l].
  cbn [tb_revision tb_date_obs tb_arrname tb_insname tb_corrname tb_numrec tb_nwave tb_record] in *. subst rev nw.
  unfold vis2_tokens, names_tokens, scan_vis2. cbn [tb_date_obs tb_arrname tb_insname tb_corrname tb_numrec tb_record app fst snd].
  do 5 step1. last_rows. apply reads_rows; [exact Hn|easy|]. intros k r Hk. rewrite Forall_forall in Hrec.
  destruct (Hrec r (nth_error_In _ _ Hk)) as (R1 & R2 & R3 & R4 & R5 & R6 & R7). now apply reads_vis2_record.
Qed.

(** ** OI_T3 *)

Lemma reads_t3_record n r : int (t3_target_id r) -> int (t3_corrindx_t3amp r) -> int (t3_corrindx_t3phi r) ->
  int (fst (fst (t3_sta_index r))) -> int (snd (fst (t3_sta_index r))) -> int (snd (t3_sta_index r)) ->
  channels n (t3_t3amp r) -> channels n (t3_t3amperr r) -> channels n (t3_t3phi r) -> channels n (t3_t3phierr r) ->
  no_flags n (t3_flag r) -> rd (scan_t3_record N n) (t3_record_tokens r) r.
Proof.
  destruct r as [id tm mj it am ae ci ph pe cj u1 v1 u2 v2 ((i, j), k) fl]. intros I1 I2 I3 I4 I5 I6 C1 C2 C3 C4 Hf.
  cbn [t3_target_id t3_corrindx_t3amp t3_corrindx_t3phi t3_sta_index fst snd t3_t3amp t3_t3amperr t3_t3phi t3_t3phierr t3_flag] in *.
  unfold no_flags in Hf. subst. unfold t3_record_tokens, scan_t3_record.
  cbn [t3_target_id t3_time t3_mjd t3_int_time t3_t3amp t3_t3amperr t3_corrindx_t3amp t3_t3phi t3_t3phierr
       t3_corrindx_t3phi t3_u1coord t3_v1coord t3_u2coord t3_v2coord t3_sta_index fst snd app].
  times3. repeat step1. rewrite !int_in by assumption. apply reads_ret.
Qed.
Lemma reads_t3 n t : plain_t3 n t -> rd (scan_t3 N n) (t3_tokens t) t.
Proof.
  intros [[Hr (N1 & N2 & N3 & N4) ((Hn & Hp & Hi) & Hw)] Hrec]. destruct t as [rev da ar ins co [] nr nw l].
  cbn [tb_revision tb_date_obs tb_arrname tb_insname tb_corrname tb_numrec tb_nwave tb_record] in *. subst rev nw.
  unfold t3_tokens, names_tokens, scan_t3. cbn [tb_date_obs tb_arrname tb_insname tb_corrname tb_numrec tb_record app fst snd].
  do 5 step1. last_rows. apply reads_rows; [exact Hn|easy|]. intros k r Hk. rewrite Forall_forall in Hrec.
  destruct (Hrec r (nth_error_In _ _ Hk)) as (R1 & R2 & R3 & R4 & R5 & R6 & R7 & R8 & R9 & R10 & R11). now apply reads_t3_record.
Qed.

(** ** OI_FLUX *)

Lemma reads_flux_record n r : int (fr_target_id r) -> int (fr_corrindx_fluxdata r) -> int (fr_sta_index r) ->
  channels n (fr_fluxdata r) -> channels n (fr_fluxerr r) -> no_flags n (fr_flag r) ->
  reads N false false (first_not "s") (scan_flux_record N n) (flux_record_tokens r) r.
Proof.
  destruct r as [id mj it d e ci si fl]. intros I1 I2 I3 C1 C2 Hf.
  cbn [fr_target_id fr_corrindx_fluxdata fr_sta_index fr_fluxdata fr_fluxerr fr_flag] in *.
  unfold no_flags in Hf. subst. unfold flux_record_tokens, scan_flux_record.
  cbn [fr_target_id fr_mjd fr_int_time fr_fluxdata fr_fluxerr fr_corrindx_fluxdata fr_sta_index app].
  step1. rewrite int_in by assumption. do 5 step1.
  eapply reads_then; [|reflexivity]. eapply reads_opt_int; [reflexivity|exact I3|auto|scans].
Qed.
Lemma reads_flux n t : plain_flux n t -> reads N false false (first_not "s") (scan_flux N n) (flux_tokens t) t.
Proof.
  intros [[Hr (N1 & N2 & N3 & N4) ((Hn & Hp & Hi) & Hw)] (F1 & F2) Hu Hrec].
  destruct t as [rev da ar ins co [fov ft cal un] nr nw l].
  cbn [tb_revision tb_date_obs tb_arrname tb_insname tb_corrname tb_x tb_numrec tb_nwave tb_record fx_fov fx_fovtype fx_fluxunit] in *.
  subst rev nw un. unfold flux_tokens, scan_flux.
  cbn [tb_date_obs tb_arrname tb_insname tb_corrname tb_x tb_numrec tb_record fx_fov fx_fovtype fx_calstat app].
  step1. eapply (reads_bind _ _ false _ (first_not "a")).
  { eapply reads_opt_string; [reflexivity|auto|intros _; scans]. }
  2: { intros ws more H _. eapply first_word; [exact H|discriminate]. }
  cbv beta. step1. cbn [fst snd].
  destruct ft as [|c ft]; cbn [is_empty app].
  - rewrite F2 by reflexivity.
    match goal with |- reads _ _ _ _ _ ?ts _ => change ts with (@nil token ++ ts) end.
    eapply (reads_bind _ _ false _ (first_not "f")).
    { unfold scan_opt_double. eapply reads_then; [eapply reads_nothing; reflexivity|reflexivity]. }
    2: { intros ws more H _. eapply first_word; [exact H|discriminate]. }
    cbv beta. match goal with |- reads _ _ _ _ _ ?ts _ => change ts with (@nil token ++ ts) end.
    eapply (reads_bind _ _ false _ (first_not "f")).
    { unfold scan_opt_string. eapply reads_then; [eapply reads_nothing; reflexivity|reflexivity]. }
    2: { intros ws more H _. eapply first_word; [exact H|discriminate]. }
    cbv beta. step1. do 2 step1. rewrite text_opt. cbn [text].
    rewrite <- (app_nil_r (flat_map _ _)). eapply (reads_bind _ _ false _ (first_not "s")).
    + apply reads_rows; [exact Hn| |].
      * intros r ws more _ H. eapply first_word; [exact H|discriminate].
      * intros k r Hk. rewrite Forall_forall in Hrec. destruct (Hrec r (nth_error_In _ _ Hk)) as (R1 & R2 & R3 & R4 & R5 & R6).
        now apply reads_flux_record.
    + apply reads_ret.
    + intros ws more H Hm. destruct ws; [exact Hm|inversion H].
  - change (W "fov" :: D fov :: ?l) with ([W "fov"; D fov] ++ l).
    eapply (reads_bind _ _ false _ any); [| |nothing].
    { unfold scan_opt_double. eapply reads_then; [scans|reflexivity]. }
    cbv beta. change (W "fovtype" :: W (String c ft) :: ?l) with ([W "fovtype"; W (String c ft)] ++ l).
    eapply (reads_bind _ _ false _ any); [| |nothing].
    { unfold scan_opt_string. eapply reads_then; [scans|reflexivity]. }
    cbv beta. step1. do 2 step1. rewrite text_opt. cbn [text].
    rewrite <- (app_nil_r (flat_map _ _)). eapply (reads_bind _ _ false _ (first_not "s")).
    + apply reads_rows; [exact Hn| |].
      * intros r ws more _ H. eapply first_word; [exact H|discriminate].
      * intros k r Hk. rewrite Forall_forall in Hrec. destruct (Hrec r (nth_error_In _ _ Hk)) as (R1 & R2 & R3 & R4 & R5 & R6).
        now apply reads_flux_record.
    + apply reads_ret.
    + intros ws more H Hm. destruct ws; [exact Hm|inversion H].
Qed.

(** ** The whole text *)

Theorem scan_text junk m s : plain junk m -> text_of N m s -> scan_all N junk s = Ok (m, EmptyString).
Proof.
  intros [P1 P2 P3 P4 P5 P6 P7 P8 P9] (ws & Hw & Hs). destruct m as [ar tg wv co ip vi v2 t3 fx].
  cbn [dm_array dm_targets dm_wave dm_corr dm_inspol dm_vis dm_vis2 dm_t3 dm_flux] in *.
  assert (H : reads N false false (first_not "s") (scan_all N junk) (demo_tokens (mk_demo ar tg wv co ip vi v2 t3 fx))
                (mk_demo ar tg wv co ip vi v2 t3 fx)).
  { unfold scan_all, demo_tokens. cbn [dm_array dm_targets dm_wave dm_corr dm_inspol dm_vis dm_vis2 dm_t3 dm_flux].
    eapply (reads_bind _ _ _ _ any); [now apply reads_array| |nothing].
    eapply (reads_bind _ _ _ _ (first_not "c")); [now apply reads_targets| |].
    2: { intros ws0 more H _. eapply first_word; [exact H|discriminate]. }
    eapply (reads_bind _ _ _ _ any); [now apply reads_wavelength| |nothing].
    eapply (reads_bind _ _ _ _ any); [now apply reads_corr| |nothing].
    eapply (reads_bind _ _ _ _ any); [now apply reads_inspol| |nothing].
    eapply (reads_bind _ _ _ _ any); [now apply reads_vis| |nothing].
    eapply (reads_bind _ _ _ _ any); [now apply reads_vis2| |nothing].
    eapply (reads_bind _ _ _ _ any); [now apply reads_t3| |nothing].
    eapply reads_then; [now apply reads_flux|reflexivity]. }
  destruct (H ws [] s Hw Logic.I) as (s' & Hm & Hs').
  - unfold at_words. now rewrite app_nil_r.
  - rewrite Hm. inversion Hs'. reflexivity.
Qed.
End Data.
