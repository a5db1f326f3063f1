(** Concrete cases of merging in steps. *)
From Verif Require Import BaseLemmas FileModel FileSpec MergeModel MergeSpec MergeProofs MergeStepsSpec Sample MergeMain.
From Coq Require Import Lia.
Local Open Scope string_scope.
Local Open Scope Z_scope.

Local Opaque fl fl32.

(** A third dataset, with another "GRAVITY" again *)
Definition st_more : oi_fits :=
  waves_only (mk_header "ESO" "" "2017-05-06" "" "VLTI" "" "XY" "" "" "" "AB" "" "" "") s_targets
    [other "GRAVITY" 50] [on_ins "GRAVITY"].
Lemma st_wf : Forall (fun d => wf_fits d = true) (m_ins ++ [st_more]).
Proof. apply Forall_app. split; [exact m_wf|]. all_of; vm_compute; reflexivity. Qed.
Lemma st_header_fits : Forall header_fits (m_ins ++ [st_more]).
Proof. apply Forall_app. split; [exact m_header_fits|]. all_of; unfold header_fits; all_of; reflexivity. Qed.
Lemma st_dated : Forall dated m_ins.
Proof. pose proof m_mergeable as [M _]. eapply Forall_impl; [|exact M]. cbv beta. tauto. Qed.
Lemma st_some_dated : some_dated m_ins.
Proof. pose proof m_dates as D. inversion D; subst. exists s_fits, (2019, 12, 31). split; [now left|assumption]. Qed.

Lemma steps_case : exists d1 out3, merge_oi_fits_list m_ins = Ok d1 /\ distinct_names d1
  /\ merge_oi_fits_list (m_ins ++ [st_more]) = Ok out3
  /\ names_of d1 = (["VLTI"; "CHARA"; "VLTI_003"], ["GRAVITY"; "PIONIER"; "GRAVITY_003"], ["CORR1"; "CORR1_002"])
  /\ names_of out3 = (["VLTI"; "CHARA"; "VLTI_003"], ["GRAVITY"; "PIONIER"; "GRAVITY_003"; "GRAVITY_004"], ["CORR1"; "CORR1_002"])
  /\ h_date_obs (o_header out3) = "2017-05-06".
Proof.
  destruct m_result as (d1 & E & F & _). exists d1.
  destruct (result_some (fun o => (names_of o, h_date_obs (o_header o))) (merge_oi_fits_list (m_ins ++ [st_more]))
    ((["VLTI"; "CHARA"; "VLTI_003"], ["GRAVITY"; "PIONIER"; "GRAVITY_003"; "GRAVITY_004"], ["CORR1"; "CORR1_002"]), "2017-05-06"))
    as (o & E3 & F3); [vm_compute; reflexivity|].
  apply pair_equal_spec in F3 as [F3 F4]. exists o. split; [exact E|]. split; [|auto].
  unfold names_of in F. apply pair_equal_spec in F as [F F2]. apply pair_equal_spec in F as [F0 F1].
  unfold distinct_names. rewrite F0, F1, F2. repeat split; repeat constructor; cbn; intuition congruence.
Qed.

(** Distinct names are needed: merged alone, the output is renamed. *)
Lemma names_needed : exists ia d1 out2, Forall (fun d => wf_fits d = true) ia /\ Forall names_fit ia
  /\ Forall dated ia /\ some_dated ia /\ merge_oi_fits_list ia = Ok d1 /\ ~ distinct_names d1
  /\ merge_oi_fits_list [d1] = Ok out2 /\ ~ same_contents out2 d1.
Proof.
  destruct (result_some (fun o => (map wv_insname (o_wavelengthList o),
      result (fun o => map wv_insname (o_wavelengthList o)) (merge_oi_fits_list [o]))) (merge_oi_fits_list g_ins)
    (["A"; "A_003"; "A_003"], Some ["A"; "A_003"; "A_003_003"])) as (o & E & F); [vm_compute; reflexivity|].
  apply pair_equal_spec in F as [F1 F2]. apply result_some in F2 as (o2 & E2 & F2).
  exists g_ins, o, o2. split; [exact g_wf|]. split; [exact g_fit|].
  assert (D : forall ws v, observed_on (waves_only s_header s_targets ws v) (Some (2019, 12, 31))).
  { intros ws v. split; [lia|]. split; [reflexivity|]. exists "". reflexivity. }
  split; [repeat constructor; eexists; apply D|]. split; [eexists; eexists; split; [now left|apply D]|].
  split; [exact E|]. split.
  { intros (_ & N & _). rewrite F1 in N.
    inversion N as [|? ? _ N1]; subst. inversion N1 as [|? ? N2 _]; subst. apply N2. now left. }
  split; [exact E2|]. intros (_ & _ & K & _). rewrite K, F1 in F2. discriminate.
Qed.

(** An input without TELESCOP, then one with *)
Definition no_tel : oi_fits :=
  waves_only (mk_header "ESO" "" "2017-05-07" "" "" "" "" "" "" "" "" "" "" "") s_targets [other "A" 50] [on_ins "A"].
Lemma unknown_case : exists d1 out2 out3, Forall header_fits ([no_tel] ++ [st_more])
  /\ merge_oi_fits_list [no_tel] = Ok d1 /\ merge_oi_fits_list ([no_tel] ++ [st_more]) = Ok out3
  /\ merge_oi_fits_list [d1; st_more] = Ok out2
  /\ h_telescop (o_header d1) = "UNKNOWN" /\ h_telescop (o_header out3) = "VLTI" /\ h_telescop (o_header out2) = "MULTIPLE".
Proof.
  destruct (result_some (fun o => (h_telescop (o_header o), result (fun o => h_telescop (o_header o)) (merge_oi_fits_list [o; st_more])))
    (merge_oi_fits_list [no_tel]) ("UNKNOWN", Some "MULTIPLE")) as (o & E & F); [vm_compute; reflexivity|].
  apply pair_equal_spec in F as [F1 F2]. apply result_some in F2 as (o2 & E2 & F2).
  destruct (result_some (fun o => h_telescop (o_header o)) (merge_oi_fits_list ([no_tel] ++ [st_more])) "VLTI")
    as (o3 & E3 & F3); [vm_compute; reflexivity|].
  exists o, o2, o3. split; [all_of; unfold header_fits; all_of; reflexivity|]. auto 10.
Qed.

(** An input without DATE-OBS *)
Definition no_date : oi_fits :=
  waves_only (mk_header "ESO" "" "" "" "VLTI" "" "" "" "" "" "" "" "" "") s_targets [other "A" 50] [on_ins "A"].
Lemma undated_case : exists d1, Forall (fun d => observed_on d None) [no_date] /\ wf_fits no_date = true
  /\ merge_oi_fits_list [no_date] = Ok d1.
Proof.
  destruct (result_some (fun o => 0) (merge_oi_fits_list [no_date]) 0) as (o & E & _); [vm_compute; reflexivity|].
  exists o. split; [repeat constructor|]. split; [vm_compute; reflexivity|exact E].
Qed.

(** Merging the later inputs first numbers their tables among themselves. *)
Lemma later_first : exists a b c bc out2 out3, Forall (fun d => wf_fits d = true) [a; b; c] /\ plain_names [a; b; c]
  /\ Forall names_fit [a; b; c] /\ merge_oi_fits_list [b; c] = Ok bc /\ merge_oi_fits_list [a; bc] = Ok out2
  /\ merge_oi_fits_list [a; b; c] = Ok out3
  /\ map wv_insname (o_wavelengthList out3) = ["GRAVITY"; "PIONIER"; "GRAVITY_003"; "GRAVITY_004"]
  /\ map wv_insname (o_wavelengthList out2) = ["GRAVITY"; "PIONIER"; "GRAVITY_003"; "GRAVITY_002"].
Proof.
  destruct (result_some (fun o => result (fun o => map wv_insname (o_wavelengthList o)) (merge_oi_fits_list [s_fits; o]))
    (merge_oi_fits_list [m_fits; st_more]) (Some ["GRAVITY"; "PIONIER"; "GRAVITY_003"; "GRAVITY_002"])) as (o & E & F); [vm_compute; reflexivity|].
  apply result_some in F as (o2 & E2 & F2).
  destruct (result_some (fun o => map wv_insname (o_wavelengthList o)) (merge_oi_fits_list [s_fits; m_fits; st_more])
    ["GRAVITY"; "PIONIER"; "GRAVITY_003"; "GRAVITY_004"]) as (o3 & E3 & F3); [vm_compute; reflexivity|].
  exists s_fits, m_fits, st_more, o, o2, o3. split; [exact st_wf|]. split.
  { assert (K : forall lit n, three_digits n = false -> ~ looks_generated lit n).
    { intros lit n E0 G. apply looks_three_digits in G. congruence. }
    split; [|split; [|split]].
    1,2,3: intros d x [<-|[<-|[<-|[]]]] Hx; cbn in Hx;
      repeat (destruct Hx as [<-|Hx]; [apply K; reflexivity|]); contradiction.
    repeat split; vm_compute; reflexivity. }
  split; [|auto 8]. apply (Forall_app _ m_ins [st_more]). split; [exact m_fit|].
  all_of; (split; [|split]); cbn; all_of; reflexivity.
Qed.
