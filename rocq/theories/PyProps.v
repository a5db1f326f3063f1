(** C70: the Python interface. *)
From Verif Require Import Base FitsModel ToolModel ToolSpec ToolPrograms ToolMain IOMain FilterMain PyModel PySpec
  PyProofs PyAccount PyTools PyMain.
Open Scope list_scope.
Open Scope Z_scope.

(** A script that uses parts of a dataset only while a variable holds the dataset, and assigns to no
    list of tables, does what it would do if variables held values: it shows the same, raises the
    same, writes the same files, and is undefined only if an operation on the values is. *)
Theorem C70_script : forall E fmt pow_half l d, keeps_datasets l ->
  (r <- run E fmt pow_half l d ;; Ok (s_disk (fst r), snd r)) = script_value E fmt pow_half l [] d.
Proof. exact run_means. Qed.
Print Assumptions C70_script.
Example C70_script_case : forall fmt, keeps_datasets p_use /\ exists s, run e0 fmt sqrt64 p_use t_disk = Ok (s, p_events)
  /\ names (s_disk s) = ["out"; "b"; "a"]%string /\ names (s_vars s) = ["u"; "g"; "f"; "t"]%string.
Proof. exact use_case. Qed.

(** Other scripts use storage after it was released: parts of a temporary object, *)
Theorem C70_temporary_refuted : forall fmt, exists l, run e0 fmt sqrt64 l t_disk = UB
  /\ (exists p a, l = [Show p a]) /\ exists d, script_value e0 fmt sqrt64 l [] t_disk = Ok (d, [Shown (PyInt 2)]).
Proof.
  intros fmt. exists [Show (PItem (OOpen (Some "a"%string)) KVis 0) Numrec]. destruct (temporary fmt) as [H1 H2].
  split; [exact H1|]. split; [|exact H2]. exists (PItem (OOpen (Some "a"%string)) KVis 0), Numrec. reflexivity.
Qed.
Print Assumptions C70_temporary_refuted.
(** parts of a dataset whose variable was deleted, *)
Theorem C70_deleted_refuted : forall fmt, exists x y, let l := [Assign x (OOpen (Some "a"%string)); Keep y (PItem (OVar x) KVis (-1));
    Del x; Show (PVar y) Numrec] in
  run e0 fmt sqrt64 l t_disk = UB
  /\ exists d, script_value e0 fmt sqrt64 l [] t_disk = Ok (d, [Nothing; Nothing; Nothing; Shown (PyInt 2)]).
Proof. intros fmt. exists "o"%string, "t"%string. exact (deleted fmt). Qed.
Print Assumptions C70_deleted_refuted.
(** and lists that were assigned to. *)
Theorem C70_list_refuted : forall fmt, let l := [p_open; SetList (OVar "o") KVis [p_table]] in
  (exists s, run e0 fmt sqrt64 l t_disk = Ok (s, [Nothing; Nothing]))
  /\ run e0 fmt sqrt64 (l ++ [Len (OVar "o") KVis]) t_disk = UB
  /\ run e0 fmt sqrt64 (l ++ [Write (OVar "o") "out"]) t_disk = UB.
Proof. exact list_assigned. Qed.
Print Assumptions C70_list_refuted.
(** Positions of records are not checked, and do not count from the end as those of lists do. *)
Theorem C70_position_refuted : forall fmt,
  script_value e0 fmt sqrt64 [p_open; Show p_table Numrec] [] t_disk = Ok (t_disk, [Nothing; Shown (PyInt 2)])
  /\ run e0 fmt sqrt64 [p_open; Show (PIndex (PRows p_table) (-1)) Target_id_] t_disk = UB
  /\ run e0 fmt sqrt64 [p_open; Show (PIndex (PRows p_table) 2) Target_id_] t_disk = UB.
Proof. exact unchecked. Qed.
Print Assumptions C70_position_refuted.
(** get_nwave(), get_nelement() and get_eff_wave() follow the null pointer if the name is absent. *)
Theorem C70_name_refuted : forall fmt, run e0 fmt sqrt64 [p_open; GetNwave (OVar "o") "none"] t_disk = UB
  /\ run e0 fmt sqrt64 [p_open; GetNelement (OVar "o") "none"] t_disk = UB
  /\ run e0 fmt sqrt64 [p_open; GetEffWave (OVar "o") "none" 0] t_disk = UB.
Proof. exact absent_name. Qed.
Print Assumptions C70_name_refuted.

(** At the end of any script, a dataset has been destroyed exactly if it was made by OiFits(), was
    not given to merge(), and no variable holds it. *)
Theorem C70_destroyed : forall E fmt pow_half l d s evs h c,
  run E fmt pow_half l d = Ok (s, evs) -> nth_error (s_cells s) h = Some c ->
  c_alive c = false <-> c_owned c = true /\ c_pinned c = false /\ forall x, lookup x (s_vars s) <> Some (BData h).
Proof. exact destroyed_iff. Qed.
Print Assumptions C70_destroyed.
(** A script that calls neither apply() nor merge() leaves no dataset that it cannot reach. *)
Theorem C70_no_leak : forall E fmt pow_half l d s evs h c,
  forallb opens_stmt l = true -> run E fmt pow_half l d = Ok (s, evs) -> nth_error (s_cells s) h = Some c ->
  c_alive c = true <-> exists x, lookup x (s_vars s) = Some (BData h).
Proof. exact alive_iff_held. Qed.
Print Assumptions C70_no_leak.
Example C70_no_leak_case : forall fmt,
  forallb opens_stmt [p_open; Len (OOpen (Some "b"%string)) KVis; Assign "p" (OVar "o"); Del "o"] = true
  /\ exists s, run e0 fmt sqrt64 [p_open; Len (OOpen (Some "b"%string)) KVis; Assign "p" (OVar "o"); Del "o"] t_disk
               = Ok (s, [Nothing; Shown (PyInt 0); Nothing; Nothing])
     /\ names (s_vars s) = ["p"]%string /\ flags s = [(true, true, false); (true, false, false)].
Proof. exact open_case. Qed.
(** The results of apply() and merge(), and what was given to merge(), are never destroyed. *)
Theorem C70_leak_refuted : forall fmt,
  (exists s, run e0 fmt sqrt64 (p_open :: p_filter ++ [Del "g"; Del "o"]) t_disk = Ok (s, repeat Nothing 6)
     /\ names (s_vars s) = ["f"]%string /\ flags s = [(true, false, false); (false, true, false)])
  /\ exists s, run e0 fmt sqrt64 [NumTargets (OMerge [OOpen (Some "a"); OOpen (Some "b")])]%string t_disk = Ok (s, [Shown (PyInt 3)])
     /\ s_vars s = [] /\ flags s = [(true, true, true); (true, true, true); (false, true, false)].
Proof. exact (fun fmt => conj (leaked fmt) (merge_leaks fmt)). Qed.
Print Assumptions C70_leak_refuted.

(** Which values an attribute of a filter accepts, *)
Theorem C70_accepted : forall a v f, (exists f', set_filter_attr a v f = Val f') <-> accepted a v.
Proof. exact attr_accepted. Qed.
Print Assumptions C70_accepted.
(** and what is read afterwards; the other attributes are as before. *)
Theorem C70_stored : forall a v f f', set_filter_attr a v f = Val f' ->
  get_filter_attr a f' = match stored a v with Some w => Ok w | None => UB end
  /\ (forall b, b <> a -> get_filter_attr b f' = get_filter_attr b f)
  /\ f_uvrad_lo f' = f_uvrad_lo f /\ f_uvrad_hi f' = f_uvrad_hi f.
Proof. exact attr_stored. Qed.
Print Assumptions C70_stored.
Example C70_stored_case : accepted TargetIdA (PyInt 4) /\ stored TargetIdA (PyInt 4) = Some (PyInt 4)
  /\ accepted MjdRangeA (PySeq [PyFloat (f64_of_Z 1); PyFloat (f64_of_Z 2)])
  /\ ~ accepted MjdRangeA (PySeq [PyInt 1; PyInt 2]) /\ stored AcceptVisA (PyInt 7) = Some (PyInt 1).
Proof.
  split; [exists 4; split; [now left|split; discriminate]|]. split; [reflexivity|]. split; [eexists; eexists; reflexivity|].
  split; [intros (lo & hi & H); discriminate|reflexivity].
Qed.
(** A name of 71 characters is taken, but cannot be read. *)
Theorem C70_long_name_refuted : forall fmt, String.length long_name = 71%nat
  /\ (exists s, run e0 fmt sqrt64 [NewFilter "f"; SetAttr "f" InsnameA (PyStr long_name)] t_disk = Ok (s, [Nothing; Nothing]))
  /\ run e0 fmt sqrt64 [NewFilter "f"; SetAttr "f" InsnameA (PyStr long_name); GetAttr "f" InsnameA] t_disk = UB
  /\ run e0 fmt sqrt64 [NewFilter "f"; SetAttr "f" InsnameA (PyStr long_name); StrFilter "f"] t_disk = UB.
Proof. exact long_name_read. Qed.
Print Assumptions C70_long_name_refuted.

(** For every command line of oifits-filter without --uvrad-min, --uvrad-max and --clobber there are
    assignments to a Filter's attributes with which a script reads and writes the same; it raises
    IOError exactly if the program fails. *)
Theorem C70_filter : forall opts, FitsModel.in_int (f_target_id (user_filter opts)) = true -> ~ uvrad_given opts ->
  exists settings, forall E fmt pow_half can_remove inName out d x,
    (String.length inName <= 1024)%nat -> (String.length out <= 1024)%nat ->
    filter_run E fmt pow_half can_remove false opts inName out d = Ok x ->
    exists s, run E fmt pow_half (filter_script settings inName out) d
              = Ok (s, quietly (S (List.length settings)) (if x_status x =? 0 then Nothing else Raised IOError))
      /\ s_disk s = x_disk x.
Proof. exact filter_scripts. Qed.
Print Assumptions C70_filter.
Example C70_filter_case : forall fmt,
  FitsModel.in_int (f_target_id (user_filter [Target_id 4; Wave_min (f64_of_Z 1500)])) = true
  /\ ~ uvrad_given [Target_id 4; Wave_min (f64_of_Z 1500)]
  /\ exists x, filter_run e0 fmt sqrt64 (fun _ => true) false [Target_id 4; Wave_min (f64_of_Z 1500)] "a" "o" t_disk = Ok x
       /\ x_status x = 0 /\ names (x_disk x) = ["o"; "b"; "a"]%string.
Proof.
  intros fmt. split; [reflexivity|]. split; [intros (x & [[H|[H|[]]]|[H|[H|[]]]]); discriminate|]. exact (filter_case fmt).
Qed.
(** merge() and write() read and write what oifits-merge does. *)
Theorem C70_merge : forall E fmt pow_half out names d x, (2 <= List.length names)%nat ->
  oifits_merge E fmt (out :: names) d = Ok x ->
  exists s, run E fmt pow_half (merge_script out names) d = Ok (s, [if x_status x =? 0 then Nothing else Raised IOError])
    /\ s_disk s = x_disk x.
Proof. exact merge_same. Qed.
Print Assumptions C70_merge.
Example C70_merge_case : forall fmt, exists x, oifits_merge e0 fmt ["o"; "a"; "b"]%string t_disk = Ok x /\ x_status x = 0
  /\ names (x_disk x) = ["o"; "b"; "a"]%string.
Proof. exact merge_case. Qed.
