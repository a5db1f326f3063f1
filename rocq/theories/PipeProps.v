(** C72: running oifits-filter on its own output.  [fmt] stands for printf's conversions,
    [pow_half] for pow(x, 0.5), [can_remove] for g_remove. *)
From Verif Require Import Sample FloatModel FilterMain FilterModel IOMain IOSpec WriteModel ToolModel ToolSpec ToolMain ToolPrograms
  TwiceSpec FilterThenSpec PipeSpec PipeWhole PipeMain.
Open Scope string_scope.
Open Scope list_scope.
Open Scope Z_scope.

(** Two runs in turn leave the same file, HDU for HDU, as one run on the first input whose filter
    asks for what both ask for. *)
Theorem C72_pipeline : forall E fmt pow_half can_remove opts1 opts2 opts3 a b c e d o o1,
  settled E ->
  (String.length a <= 1024)%nat -> (String.length b <= 1024)%nat ->
  (String.length c <= 1024)%nat -> (String.length e <= 1024)%nat ->
  reads E a d o -> channels_match o -> storable_fits E o = true ->
  joint (user_filter opts1) (user_filter opts2) (user_filter opts3) ->
  f_target_id (user_filter opts3) < 0
    \/ (exists t, In t (ot_targ (o_targets o)) /\ tg_target_id t = f_target_id (user_filter opts3)) ->
  apply_oi_filter pow_half o (user_filter opts1) = Ok (user_filter opts1, o1) -> o_inspolList o1 = [] ->
  find_file b d = None -> find_file c d = None -> find_file e d = None -> c <> b ->
  exists x1 x2 x3 hdus,
    filter_run E fmt pow_half can_remove false opts1 a b d = Ok x1 /\ x_status x1 = 0
    /\ filter_run E fmt pow_half can_remove false opts2 b c (x_disk x1) = Ok x2 /\ x_status x2 = 0
    /\ filter_run E fmt pow_half can_remove false opts3 a e d = Ok x3 /\ x_status x3 = 0
    /\ find_file c (x_disk x2) = Some hdus /\ find_file e (x_disk x3) = Some hdus.
Proof. exact filter_pipeline. Qed.
Print Assumptions C72_pipeline.

(** Options for different things may be given in two commands or, in the same order, in one. *)
Theorem C72_options : forall E fmt pow_half can_remove opts1 opts2 a b c e d o o1,
  settled E ->
  (String.length a <= 1024)%nat -> (String.length b <= 1024)%nat ->
  (String.length c <= 1024)%nat -> (String.length e <= 1024)%nat ->
  reads E a d o -> channels_match o -> storable_fits E o = true ->
  separate opts1 opts2 ->
  f_target_id (user_filter (opts1 ++ opts2)) < 0
    \/ (exists t, In t (ot_targ (o_targets o)) /\ tg_target_id t = f_target_id (user_filter (opts1 ++ opts2))) ->
  apply_oi_filter pow_half o (user_filter opts1) = Ok (user_filter opts1, o1) -> o_inspolList o1 = [] ->
  find_file b d = None -> find_file c d = None -> find_file e d = None -> c <> b ->
  exists x1 x2 x3 hdus,
    filter_run E fmt pow_half can_remove false opts1 a b d = Ok x1 /\ x_status x1 = 0
    /\ filter_run E fmt pow_half can_remove false opts2 b c (x_disk x1) = Ok x2 /\ x_status x2 = 0
    /\ filter_run E fmt pow_half can_remove false (opts1 ++ opts2) a e d = Ok x3 /\ x_status x3 = 0
    /\ find_file c (x_disk x2) = Some hdus /\ find_file e (x_disk x3) = Some hdus.
Proof. exact filter_separate. Qed.
Print Assumptions C72_options.
Example C72_case : settled e0 /\ reads e0 "a" t_disk t_a /\ channels_match t_a /\ storable_fits e0 t_a = true
  /\ separate p_first p_second
  /\ (exists t, In t (ot_targ (o_targets t_a)) /\ tg_target_id t = f_target_id (user_filter (p_first ++ p_second)))
  /\ apply_oi_filter sqrt64 t_a (user_filter p_first) = Ok (user_filter p_first, p_fits1)
  /\ o_inspolList p_fits1 = []
  /\ find_file "m" t_disk = None /\ find_file "n" t_disk = None /\ find_file "o" t_disk = None /\ "n" <> "m"
  /\ map (fun t => (tb_numrec t, tb_nwave t)) (o_visList t_a) = [(2, 3)]
  /\ map (fun t => (tb_numrec t, tb_nwave t)) (o_visList p_fits1) = [(1, 3)].
Proof. exact p_case. Qed.

(** The same options again change nothing; if they chose a target, its id is 1 by then. *)
Theorem C72_again : forall E fmt pow_half can_remove opts opts2 a b c d o o1,
  settled E ->
  (String.length a <= 1024)%nat -> (String.length b <= 1024)%nat -> (String.length c <= 1024)%nat ->
  reads E a d o -> channels_match o -> storable_fits E o = true ->
  f_target_id (user_filter opts) < 0 /\ opts2 = opts
    \/ (0 <= f_target_id (user_filter opts) /\ opts2 = opts ++ [Target_id 1]
        /\ exists t, In t (ot_targ (o_targets o)) /\ tg_target_id t = f_target_id (user_filter opts)) ->
  apply_oi_filter pow_half o (user_filter opts) = Ok (user_filter opts, o1) -> o_inspolList o1 = [] ->
  find_file b d = None -> find_file c d = None -> c <> b ->
  exists x1 x2 hdus,
    filter_run E fmt pow_half can_remove false opts a b d = Ok x1 /\ x_status x1 = 0
    /\ filter_run E fmt pow_half can_remove false opts2 b c (x_disk x1) = Ok x2 /\ x_status x2 = 0
    /\ find_file b (x_disk x1) = Some hdus /\ find_file c (x_disk x2) = Some hdus.
Proof. exact filter_twice. Qed.
Print Assumptions C72_again.
(** [C72_case] has what is needed: *)
Example C72_again_case : 0 <= f_target_id (user_filter p_first) /\ p_first ++ [Target_id 1] = [Target_id 9; Target_id 1]
  /\ exists t, In t (ot_targ (o_targets t_a)) /\ tg_target_id t = f_target_id (user_filter p_first).
Proof. split; [discriminate|]. split; [reflexivity|]. eexists. split; [right; left; reflexivity|reflexivity]. Qed.

(** Without options the program copies what the library wrote, if all the data are within the
    default ranges and no table is unused. *)
Theorem C72_copy : forall E fmt pow_half can_remove a b d0 d o,
  settled E -> (String.length a <= 1024)%nat -> (String.length b <= 1024)%nat ->
  consistent o -> storable_fits E o = true -> o_inspolList o = [] ->
  within pow_half init_oi_filter o ->
  (forall t, In t (o_arrayList o) -> uses_arrname o (ar_arrname t)) ->
  (forall t, In t (o_wavelengthList o) -> uses_insname o (wv_insname t)) ->
  (forall t, In t (o_corrList o) -> uses_corrname o (co_corrname t)) ->
  find_file a d0 = None -> write_oi_fits E a o d0 0 = Ok (d, 0) -> find_file b d = None ->
  exists x hdus, filter_run E fmt pow_half can_remove false [] a b d = Ok x /\ x_status x = 0
    /\ find_file a d = Some hdus /\ find_file b (x_disk x) = Some hdus.
Proof. exact filter_copy. Qed.
Print Assumptions C72_copy.
Example C72_copy_case : consistent p_plain /\ storable_fits e0 p_plain = true /\ o_inspolList p_plain = []
  /\ within sqrt64 init_oi_filter p_plain
  /\ (forall t, In t (o_arrayList p_plain) -> uses_arrname p_plain (ar_arrname t))
  /\ (forall t, In t (o_wavelengthList p_plain) -> uses_insname p_plain (wv_insname t))
  /\ (forall t, In t (o_corrList p_plain) -> uses_corrname p_plain (co_corrname t))
  /\ write_oi_fits e0 "a" p_plain [] 0 = Ok (p_copied, 0) /\ find_file "b" p_copied = None.
Proof. exact p_plain_case. Qed.

(** Polarisation data do not survive the intermediate file (see C36), so the files differ.
    [e_pun] reads the bytes of a double as two floats as a little-endian machine does. *)
Theorem C72_inspol_refuted : forall fmt, exists opts1 opts2 x1 x2 x3, settled e_pun /\ separate opts1 opts2
  /\ filter_run e_pun fmt sqrt64 (fun _ => true) false opts1 "a" "m" p_disk = Ok x1 /\ x_status x1 = 0
  /\ filter_run e_pun fmt sqrt64 (fun _ => true) false opts2 "m" "n" (x_disk x1) = Ok x2 /\ x_status x2 = 0
  /\ filter_run e_pun fmt sqrt64 (fun _ => true) false (opts1 ++ opts2) "a" "o" p_disk = Ok x3 /\ x_status x3 = 0
  /\ find_file "n" (x_disk x2) <> find_file "o" (x_disk x3).
Proof. exact pipe_inspol. Qed.
Print Assumptions C72_inspol_refuted.
(** In one command the last of two options for the same thing counts. *)
Theorem C72_repeated_refuted : forall fmt, exists opts1 opts2 x1 x2 x3,
  Forall narrows (opts1 ++ opts2) /\ (forall z, ~ In (Accept_flagged z) opts1)
  /\ agree_t3 (user_filter opts1) (user_filter opts2)
  /\ filter_run e0 fmt sqrt64 (fun _ => true) false opts1 "a" "m" t_disk = Ok x1 /\ x_status x1 = 0
  /\ filter_run e0 fmt sqrt64 (fun _ => true) false opts2 "m" "n" (x_disk x1) = Ok x2 /\ x_status x2 = 0
  /\ filter_run e0 fmt sqrt64 (fun _ => true) false (opts1 ++ opts2) "a" "o" t_disk = Ok x3 /\ x_status x3 = 0
  /\ find_file "n" (x_disk x2) <> find_file "o" (x_disk x3).
Proof. exact pipe_repeated. Qed.
Print Assumptions C72_repeated_refuted.
