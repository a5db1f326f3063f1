(** Concrete runs of oifits-merge in turn. *)
From Coq Require Import Lia.
From Verif Require Import Base Sample FloatModel FilterMain FilterProofs MergeMain IOMain IOProofs ReadModel
  WriteModel MergeModel MergeSpec MergeProofs ToolModel ToolSpec ToolMain ToolPrograms TwiceMain ToolMerge PipeMain StepsSpec StepsFiles.
Open Scope list_scope.
Open Scope string_scope.
Open Scope Z_scope.

(** files "a", "b" and "v" of ToolMain.v *)
Definition st_disk : disk := Eval vm_compute in (v_disk ++ t_disk)%list.
Lemma st_v_reads : reads e0 "v" st_disk t_v.
Proof. vm_compute. reflexivity. Qed.
Lemma st_a_reads : reads e0 "a" st_disk t_a.
Proof. vm_compute. reflexivity. Qed.
Lemma st_b_reads : reads e0 "b" st_disk t_b.
Proof. vm_compute. reflexivity. Qed.

Lemma st_targets : targets_match ([t_v; t_b] ++ [t_a]).
Proof.
  split; [|vm_compute; lia]. repeat apply Forall_cons; try apply Forall_nil; split.
  - repeat split; cbn; all_of; cbn; all_of; cbn; auto.
  - exists (Some (2019, 12, 30)%Z). split; [lia|]. split; [reflexivity|]. exists "". reflexivity.
  - repeat split; cbn; all_of; cbn; all_of; cbn; auto.
  - exists (Some (2018, 2, 3)%Z). split; [lia|]. split; [reflexivity|]. exists "T12:00:00". reflexivity.
  - repeat split; cbn; all_of; cbn; all_of; cbn; auto.
  - exists (Some (2019, 12, 31)%Z). split; [lia|]. split; [reflexivity|]. exists "". reflexivity.
Qed.
Lemma st_names : roomy_names ([t_v; t_b] ++ [t_a]).
Proof.
  split; [|split; [|split; [|split; [|split]]]]; try (vm_compute; reflexivity);
    intros d x [<-|[<-|[<-|[]]]] Hx; cbn in Hx; decompose [or] Hx; try contradiction; subst x; vm_compute; discriminate.
Qed.
Lemma st_plain : plain_names [t_v; t_b].
Proof.
  assert (K : forall lit n, three_digits n = false -> ~ looks_generated lit n).
  { intros lit n E G. apply looks_three_digits in G. congruence. }
  split; [|split; [|split]].
  1,2,3: intros d x [<-|[<-|[]]] Hx; cbn in Hx;
    repeat (destruct Hx as [<-|Hx]; [apply K; reflexivity|]); contradiction.
  repeat split; vm_compute; reflexivity.
Qed.
Lemma st_exact : Forall (exact_arrays e0) [t_v; t_b].
Proof.
  repeat apply Forall_cons; try apply Forall_nil; intros a Ha; cbn in Ha;
    repeat (destruct Ha as [<-|Ha]; [vm_compute; repeat split; reflexivity|]); contradiction.
Qed.
Lemma st_dated : some_dated [t_v; t_b].
Proof.
  exists t_v, (2019, 12, 30)%Z. split; [now left|]. split; [lia|]. split; [reflexivity|]. exists "". reflexivity.
Qed.
Lemma st_early : keys_early [t_v; t_b] [t_a].
Proof.
  intros key H. left. exists t_v. split; [now left|].
  cbn in H. repeat (destruct H as [<-|H]; [vm_compute; discriminate|]). contradiction.
Qed.

Lemma st_case : settled e0
  /\ Forall2 (fun n o => reads e0 n st_disk o) ["v"; "b"] [t_v; t_b] /\ Forall2 (fun n o => reads e0 n st_disk o) ["a"] [t_a]
  /\ targets_match ([t_v; t_b] ++ [t_a]) /\ Forall (fun o => storable_fits e0 o = true) ([t_v; t_b] ++ [t_a])
  /\ roomy_names ([t_v; t_b] ++ [t_a]) /\ plain_names [t_v; t_b] /\ some_dated [t_v; t_b]
  /\ Forall standard_revisions [t_v; t_b] /\ Forall (exact_arrays e0) [t_v; t_b]
  /\ Forall (fun o => o_inspolList o = []) [t_v; t_b] /\ keys_early [t_v; t_b] [t_a]
  /\ find_file "x" st_disk = None /\ find_file "y" st_disk = None /\ find_file "z" st_disk = None /\ "y" <> "x".
Proof.
  split; [exact e0_settled|].
  split; [apply Forall2_cons; [exact st_v_reads|]; apply Forall2_cons; [exact st_b_reads|apply Forall2_nil]|].
  split; [apply Forall2_cons; [exact st_a_reads|apply Forall2_nil]|]. split; [exact st_targets|].
  split; [repeat apply Forall_cons; try apply Forall_nil; [exact v_storable|exact b_storable|exact a_storable]|].
  split; [exact st_names|]. split; [exact st_plain|]. split; [exact st_dated|].
  split; [all_of; repeat split; cbn; all_of; cbn; auto|].
  split; [exact st_exact|]. split; [repeat constructor|]. split; [exact st_early|].
  split; [reflexivity|]. split; [reflexivity|]. split; [reflexivity|discriminate].
Qed.

(** ** Why the conditions are needed *)

(** "b" does not say who observed, "a" does: OBSERVER becomes "UNKNOWN" first and "MULTIPLE" then *)
Lemma steps_keyword fmt : exists x1 x2 x3 o2 o3,
  oifits_merge e0 fmt ["x"; "b"; "b"] st_disk = Ok x1 /\ x_status x1 = 0
  /\ oifits_merge e0 fmt ["y"; "x"; "a"] (x_disk x1) = Ok x2 /\ x_status x2 = 0
  /\ oifits_merge e0 fmt ["z"; "b"; "b"; "a"] st_disk = Ok x3 /\ x_status x3 = 0
  /\ reads e0 "y" (x_disk x2) o2 /\ h_observer (o_header o2) = "MULTIPLE"
  /\ reads e0 "z" (x_disk x3) o3 /\ h_observer (o_header o3) = "Someone".
Proof.
  eexists _, _, _, _, _.
  split; [vm_compute; reflexivity|]. split; [reflexivity|]. split; [vm_compute; reflexivity|]. split; [reflexivity|].
  split; [vm_compute; reflexivity|]. split; [reflexivity|].
  split; [vm_compute; reflexivity|]. split; [reflexivity|]. split; [vm_compute; reflexivity|reflexivity].
Qed.

(** polarisation data are damaged by the intermediate file *)
Definition sp_disk : disk := Eval vm_compute in
  disk_of (write_oi_fits e_pun "b" m_fits (disk_of (write_oi_fits e_pun "a" s_fits [] 0)) 0).
Lemma steps_inspol fmt : exists x1 x2 x3, settled e_pun
  /\ oifits_merge e_pun fmt ["x"; "a"; "b"] sp_disk = Ok x1 /\ x_status x1 = 0
  /\ oifits_merge e_pun fmt ["y"; "x"; "b"] (x_disk x1) = Ok x2 /\ x_status x2 = 0
  /\ oifits_merge e_pun fmt ["z"; "a"; "b"; "b"] sp_disk = Ok x3 /\ x_status x3 = 0
  /\ find_file "y" (x_disk x2) <> find_file "z" (x_disk x3).
Proof.
  eexists _, _, _. split; [intros x y H; reflexivity|].
  split; [vm_compute; reflexivity|]. split; [reflexivity|]. split; [vm_compute; reflexivity|]. split; [reflexivity|].
  split; [vm_compute; reflexivity|]. split; [reflexivity|]. vm_compute. intros H. discriminate H.
Qed.

Lemma st_holds : storable_fits e0 s_fits = true /\ file_holds e0 "a" t_disk s_fits.
Proof. split; [vm_compute; reflexivity|]. exists t_a. split; [exact a_reads|]. vm_compute. repeat split; reflexivity. Qed.
