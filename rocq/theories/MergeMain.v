(** Concrete merges and counterexamples. *)
From Verif Require Import BaseLemmas FileModel FileSpec MergeModel MergeSpec MergeProofs MergeNames
  MergeTables MergeWhole MergeFacts Sample.
From Coq Require Import Lia.
Local Open Scope string_scope.
Local Open Scope Z_scope.

Local Opaque fl fl32.

Definition result {A B} (f : A -> B) (r : res A) : option B :=
  match r with Ok a => Some (f a) | _ => None end.
Lemma result_some {A B} (f : A -> B) r b : result f r = Some b -> exists a, r = Ok a /\ f a = b.
Proof. destruct r; cbn; try discriminate. intros [= <-]. eauto. Qed.

(** ** Two datasets: the second is version 1, has one target in common with the first,
    another "GRAVITY" and another "VLTI", and a "CORR1" too *)
Definition m_wave : oi_wavelength :=
  mk_wavelength 1 "GRAVITY" 2 [fl32 30 10000000; fl32 31 10000000]
    [fl32 1 100000000; fl32 1 100000000].
Definition m_array : oi_array :=
  mk_array 1 "VLTI" "GEOCENTRIC" (fl 1 1) (fl 2 1) (fl 3 1) 2
    [s_element "A0" 1 11; s_element "B1" 5 20].
Definition m_vis2 : oi_vis2 :=
  mk_dtab 1 "2019-12-30" "VLTI" "GRAVITY" "CORR1" tt 2 2
    [v2_set_time (fl 3600 1) (s_vis2_record 7 58800 [false; false]);
     v2_set_time (fl 7200 1) (s_vis2_record 3 58801 [true; false])].
Definition m_fits : oi_fits :=
  mk_fits (mk_header "NOAO" "" "2018-02-03T12:00:00" "" "VLTI" "" "" "" "" "" "AB" "" "" "")
    (mk_oi_target 1 2 [s_target 7 "beta"; s_target 3 "gamma"] false) 1 1 1 0 0 1 0 0 [m_array]
    [m_wave] [s_corr] [] [] [m_vis2] [] [] [("VLTI", Some m_array)] [("GRAVITY", Some m_wave)]
    [("CORR1", Some s_corr)].
Definition m_ins : list oi_fits := [s_fits; m_fits].

Ltac all_of := repeat (first [apply Forall_nil | apply Forall_cons]).
Ltac fin := vm_compute; (reflexivity || tauto || (intuition congruence)).

Lemma m_wf : Forall (fun d => wf_fits d = true) m_ins.
Proof. all_of; vm_compute; reflexivity. Qed.
Lemma m_fit : Forall names_fit m_ins.
Proof. all_of; (split; [|split]); cbn; all_of; reflexivity. Qed.


(** A generated name ends in three digits. *)
Definition three_digits (n : string) : bool :=
  match List.rev (chars n) with
  | a :: b :: c :: _ => is_digit a && is_digit b && is_digit c
  | _ => false
  end.
Lemma chars_length s : length (chars s) = String.length s.
Proof. induction s; cbn; congruence. Qed.
Lemma looks_three_digits literal n : looks_generated literal n -> three_digits n = true.
Proof.
  intros (k & Hk & Hn). unfold three_digits.
  assert (E : exists p, chars n = (p ++ chars (fmt_0wd 3 k))%list).
  { destruct Hn as [(b & ->)| ->]; [exists (chars b ++ chars "_")%list|exists (chars literal)];
      rewrite !chars_app, ?app_assoc; reflexivity. }
  destruct E as (p & ->). rewrite rev_app_distr.
  pose proof (fmt_0wd_digits 3 k Hk) as D. apply Forall_rev in D.
  assert (L : (3 <= length (List.rev (chars (fmt_0wd 3 k))))%nat).
  { rewrite rev_length, chars_length. unfold fmt_0wd. destruct (Z.ltb_spec k 0); [lia|].
    rewrite length_app, length_repeat. lia. }
  destruct (List.rev (chars (fmt_0wd 3 k))) as [|a [|b [|c l]]]; cbn in L; try lia.
  inversion D as [|? ? Da D1]; subst. inversion D1 as [|? ? Db D2]; subst.
  inversion D2 as [|? ? Dc _]; subst. cbn. now rewrite Da, Db, Dc.
Qed.
Lemma m_plain : plain_names m_ins.
Proof.
  assert (K : forall lit n, three_digits n = false -> ~ looks_generated lit n).
  { intros lit n E G. apply looks_three_digits in G. congruence. }
  split; [|split; [|split]].
  1,2,3: intros d x [<-|[<-|[]]] Hx; cbn in Hx;
    repeat (destruct Hx as [<-|Hx]; [apply K; reflexivity|]); contradiction.
  repeat split; vm_compute; reflexivity.
Qed.
Lemma m_header_fits : Forall header_fits m_ins.
Proof. all_of; unfold header_fits; all_of; reflexivity. Qed.
Lemma m_standard : Forall standard_revisions m_ins.
Proof. all_of; repeat split; cbn; all_of; cbn; auto. Qed.
Lemma m_dates : Forall2 observed_on m_ins [Some (2019, 12, 31); Some (2018, 2, 3)].
Proof.
  constructor; [|constructor; [|constructor]]; (split; [lia|split; [reflexivity|]]).
  - exists "". reflexivity.
  - exists "T12:00:00". reflexivity.
Qed.

Lemma m_mergeable : mergeable m_ins.
Proof.
  split; [|vm_compute; lia]. all_of; (split; [vm_compute; reflexivity|]).
  - split; [|split].
    + repeat split; cbn; all_of; vm_compute; auto.
    + repeat split; cbn; all_of; cbn; all_of; cbn; auto.
    + exists (Some (2019, 12, 31)). split; [lia|]. split; [reflexivity|]. exists "". reflexivity.
  - split; [|split].
    + repeat split; cbn; all_of; vm_compute; auto.
    + repeat split; cbn; all_of; cbn; all_of; cbn; auto.
    + exists (Some (2018, 2, 3)). split; [lia|]. split; [reflexivity|]. exists "T12:00:00". reflexivity.
Qed.
Definition names_of (o : oi_fits) :=
  (map ar_arrname (o_arrayList o), map wv_insname (o_wavelengthList o), map co_corrname (o_corrList o)).
Definition targets_of (o : oi_fits) :=
  map (fun t => (tg_target_id t, tg_target t)) (ot_targ (o_targets o)).
Definition refs2 (o : oi_fits) :=
  map (fun t => (tb_arrname t, tb_insname t, tb_corrname t, map v2_target_id (tb_record t))) (o_vis2List o).
Lemma m_result : exists o, merge_oi_fits_list m_ins = Ok o
  /\ names_of o = (["VLTI"; "CHARA"; "VLTI_003"], ["GRAVITY"; "PIONIER"; "GRAVITY_003"],
       ["CORR1"; "CORR1_002"])
  /\ targets_of o = [(1, "alpha"); (2, "beta"); (3, "gamma")]
  /\ refs2 o = [("CHARA", "PIONIER", "", [1; 2; 2]);
       ("VLTI_003", "GRAVITY_003", "CORR1_002", [2; 3])]
  /\ h_origin (o_header o) = "MULTIPLE" /\ h_telescop (o_header o) = "VLTI"
  /\ h_author (o_header o) = "AB" /\ h_date_obs (o_header o) = "2018-02-03".
Proof.
  destruct (result_some (fun o => (names_of o, targets_of o, refs2 o, (h_origin (o_header o),
      h_telescop (o_header o), h_author (o_header o), h_date_obs (o_header o))))
      (merge_oi_fits_list m_ins)
    ((["VLTI"; "CHARA"; "VLTI_003"], ["GRAVITY"; "PIONIER"; "GRAVITY_003"], ["CORR1"; "CORR1_002"]),
     [(1, "alpha"); (2, "beta"); (3, "gamma")],
     [("CHARA", "PIONIER", "", [1; 2; 2]); ("VLTI_003", "GRAVITY_003", "CORR1_002", [2; 3])],
     ("MULTIPLE", "VLTI", "AB", "2018-02-03"))) as (o & E & F).
  { vm_compute. reflexivity. }
  apply pair_equal_spec in F as [F F4]. apply pair_equal_spec in F as [F F3].
  apply pair_equal_spec in F as [F1 F2]. apply pair_equal_spec in F4 as [F4 F7].
  apply pair_equal_spec in F4 as [F4 F6]. apply pair_equal_spec in F4 as [F4 F5].
  exists o. auto 10.
Qed.

(** ** Counterexamples *)

(** Only OI_WAVELENGTH tables; the second input's "A" is not the first's. *)
Definition waves_only (h : oi_header) (ts : oi_target) (ws : list oi_wavelength) (v : list oi_vis2) : oi_fits :=
  mk_fits h ts 0 (Z.of_nat (length ws)) 0 0 0 (Z.of_nat (length v)) 0 0 [] ws [] [] [] v [] []
    [] (map (fun w => (wv_insname w, Some w)) ws) [].
Definition other (n : string) (k : Z) : oi_wavelength :=
  mk_wavelength 2 n 2 [fl32 k 10000000; fl32 (k + 1) 10000000] [fl32 1 100000000; fl32 1 100000000].
Definition on_ins (n : string) : oi_vis2 :=
  mk_dtab 2 "2019-12-30" "" n "" tt 1 2 [s_vis2_record 4 58847 [false; false]].
Definition g_ins : list oi_fits :=
  [waves_only s_header s_targets [other "A" 10; other "A_003" 20] [on_ins "A_003"];
   waves_only s_header s_targets [other "A" 30] [on_ins "A"]].
Lemma g_wf : Forall (fun d => wf_fits d = true) g_ins.
Proof. all_of; vm_compute; reflexivity. Qed.
Lemma g_fit : Forall names_fit g_ins.
Proof. all_of; (split; [|split]); cbn; all_of; reflexivity. Qed.
Lemma names_counterexample : exists ins out, Forall (fun d => wf_fits d = true) ins
  /\ Forall names_fit ins /\ Forall distinct_names ins /\ merge_oi_fits_list ins = Ok out
  /\ ~ distinct_names out.
Proof.
  destruct (result_some (fun o => map wv_insname (o_wavelengthList o)) (merge_oi_fits_list g_ins)
    ["A"; "A_003"; "A_003"]) as (o & E & F); [vm_compute; reflexivity|].
  exists g_ins, o. split; [exact g_wf|]. split; [exact g_fit|]. split.
  { all_of; (split; [|split]); cbn; repeat constructor; cbn; intuition congruence. }
  split; [exact E|]. intros (_ & N & _). rewrite F in N.
  inversion N as [|? ? _ N1]; subst. inversion N1 as [|? ? N2 _]; subst. apply N2. now left.
Qed.

Lemma Forall2_head {A B} (P : A -> B -> Prop) a l b m : Forall2 P (a :: l) (b :: m) -> P a b.
Proof. inversion 1; assumption. Qed.
(** The table of the first input that used "A_003" now refers to the other one. *)
Definition channels (o : oi_fits) (t : oi_vis2) : option (list f32) :=
  option_map wv_eff_wave (oi_fits_lookup_wavelength o (tb_insname t)).
Lemma references_counterexample : exists ins out, Forall (fun d => wf_fits d = true) ins
  /\ Forall names_fit ins /\ Forall distinct_names ins /\ merge_oi_fits_list ins = Ok out
  /\ ~ Forall2 (references_kept v2_target_id out) (from_inputs o_vis2List ins) (o_vis2List out).
Proof.
  destruct (result_some (fun o => (map tb_insname (o_vis2List o),
      option_map wv_eff_wave (oi_fits_lookup_wavelength o "A_003"))) (merge_oi_fits_list g_ins)
    (["A_003"; "A_003"], Some (wv_eff_wave (other "A" 30)))) as (o & E & F); [vm_compute; reflexivity|].
  exists g_ins, o. split; [exact g_wf|]. split; [exact g_fit|]. split.
  { all_of; (split; [|split]); cbn; repeat constructor; cbn; intuition congruence. }
  split; [exact E|]. intros K. apply pair_equal_spec in F as [F1 F2].
  change (from_inputs o_vis2List g_ins) with
    [(nth 0 g_ins s_fits, on_ins "A_003"); (nth 1 g_ins s_fits, on_ins "A")] in K.
  inversion K as [|p t' l l' K0 _ Ep Et]; subst. destruct K0 as (_ & (K1 & _) & _).
  rewrite <- Et in F1.
  injection F1 as F1 _. destruct (K1 (other "A_003" 20)) as (w & Lw & (_ & Sw & _)).
  { exists [other "A" 10], []. split; [reflexivity|]. split; [reflexivity|].
    intros b [<-|[]]. discriminate. }
  cbn [snd] in *. rewrite F1 in Lw. rewrite Lw in F2. injection F2 as F2. rewrite F2 in Sw.
  cbn [other wv_eff_wave] in Sw. apply Forall2_head in Sw. revert Sw. vm_compute. discriminate.
Qed.

(** IVISERR *)
Definition v_ins : list oi_fits := [s_fits].
Lemma vis_counterexample : exists ins out, Forall (fun d => wf_fits d = true) ins
  /\ merge_oi_fits_list ins = Ok out
  /\ ~ Forall2 (fun p t' => merged_data vr_set_target_id vr_target_id vr_time same_but_time_vis (snd p) t')
        (from_inputs o_visList ins) (o_visList out).
Proof.
  destruct (result_some (fun o => map (fun t => map vr_iviserr (tb_record t)) (o_visList o))
      (merge_oi_fits_list v_ins)
    [[Some [fl 1 10; fl 2 10; fl 3 10]; Some [fl 1 10; fl 2 10; fl 3 10]]]) as (o & E & F);
    [vm_compute; reflexivity|].
  exists v_ins, o. split; [all_of; vm_compute; reflexivity|]. split; [exact E|]. intros K.
  change (from_inputs o_visList v_ins) with [(s_fits, s_vis)] in K.
  inversion K as [|p t' l l' (_ & _ & _ & _ & _ & K1) _ Ep Et]; subst. rewrite <- Et in F.
  cbn [map] in F. injection F as F _. cbn [snd] in K1.
  inversion K1 as [|r r' m m' [S _] _ Er Er']; subst. rewrite <- Er' in F. cbn [map] in F.
  injection F as F _. unfold same_but_time_vis in S.
  destruct S as (_&_&_&_&_&_&_&_&_&_&_&_&_&_&S&_). cbn in S. rewrite F in S. revert S.
  vm_compute. discriminate.
Qed.

(** CATEGORY *)
Lemma category_counterexample : exists ins out, Forall (fun d => wf_fits d = true) ins
  /\ Forall (fun d => ot_usecategory (o_targets d) = true) ins
  /\ merge_oi_fits_list ins = Ok out /\ ot_usecategory (o_targets out) = false.
Proof.
  destruct (result_some (fun o => ot_usecategory (o_targets o)) (merge_oi_fits_list [s_fits]) false)
    as (o & E & F); [vm_compute; reflexivity|].
  exists [s_fits], o. split; [all_of; vm_compute; reflexivity|].
  split; [all_of; reflexivity|]. auto.
Qed.

(** A TARGET_ID that is not listed *)
Lemma unlisted_counterexample : exists d, wf_fits d = true /\ tables_nonempty d /\ dated d
  /\ merge_oi_fits_list [d] = UB.
Proof.
  exists (waves_only s_header (mk_oi_target 2 1 [s_target 9 "beta"] false) [other "A" 10] [on_ins "A"]).
  split; [vm_compute; reflexivity|]. split; [repeat split; cbn; all_of; vm_compute; auto|].
  split; [|vm_compute; reflexivity]. exists (Some (2019, 12, 31)). split; [lia|].
  split; [reflexivity|]. exists "". reflexivity.
Qed.

(** An array listing a station index twice, at two places, is not recognised *)
Definition dup_array : oi_array :=
  mk_array 2 "VLTI" "GEOCENTRIC" (fl 1 1) (fl 2 1) (fl 3 1) 2
    [s_element "A0" 1 10; s_element "B1" 1 20].
Definition dup_fits : oi_fits :=
  mk_fits s_header s_targets 1 0 0 0 0 0 0 0 [dup_array] [] [] [] [] [] [] [] [] [] [].
Lemma copies_counterexample : exists d o1 o2, wf_fits d = true
  /\ merge_oi_fits_list [d] = Ok o1 /\ merge_oi_fits_list [d; d] = Ok o2
  /\ o_numArray o1 < o_numArray o2.
Proof.
  destruct (result_some o_numArray (merge_oi_fits_list [dup_fits]) 1) as (o1 & E1 & F1);
    [vm_compute; reflexivity|].
  destruct (result_some o_numArray (merge_oi_fits_list [dup_fits; dup_fits]) 2) as (o2 & E2 & F2);
    [vm_compute; reflexivity|].
  exists dup_fits, o1, o2. split; [vm_compute; reflexivity|]. rewrite F1, F2. auto with zarith.
Qed.

(** A DATE-OBS from before 1901 *)
Lemma old_date_counterexample : exists d, wf_fits d = true /\ tables_nonempty d /\ targets_listed d
  /\ h_date_obs (o_header d) = "1893-05-01" /\ merge_oi_fits_list [d] = Abort.
Proof.
  exists (waves_only (mk_header "" "" "1893-05-01" "" "" "" "" "" "" "" "" "" "" "") s_targets [] []).
  split; [vm_compute; reflexivity|]. split; [repeat split; cbn; all_of|].
  split; [repeat split; cbn; all_of|]. split; [reflexivity|]. vm_compute. reflexivity.
Qed.

Lemma copies_case : wf_fits s_fits = true /\ Forall distinct_stations (o_arrayList s_fits)
  /\ (exists o1, merge_oi_fits_list [s_fits] = Ok o1)
  /\ exists o2, merge_oi_fits_list (repeat s_fits 3) = Ok o2 /\ o_numArray o2 = 2
       /\ o_numWavelength o2 = 2 /\ o_numVis2 o2 = 3.
Proof.
  split; [vm_compute; reflexivity|]. split.
  { all_of; unfold distinct_stations; cbn; repeat constructor; cbn; intuition lia. }
  split.
  - destruct (result_some (fun _ => tt) (merge_oi_fits_list [s_fits]) tt) as (o & E & _);
      [vm_compute; reflexivity|eauto].
  - destruct (result_some (fun o => (o_numArray o, o_numWavelength o, o_numVis2 o))
      (merge_oi_fits_list (repeat s_fits 3)) (2, 2, 3)) as (o & E & F); [vm_compute; reflexivity|].
    injection F as F1 F2 F3. eauto 6.
Qed.
