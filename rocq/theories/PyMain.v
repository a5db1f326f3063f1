(** Concrete scripts. *)
From Verif Require Import Sample FloatModel FilterMain MergeMain IOMain ToolModel ToolSpec ToolMain ToolPrograms
  PyModel PySpec PyProofs PyAccount PyTools.
From Coq Require Import Lia.
Open Scope list_scope.
Open Scope string_scope.

Definition p_open : stmt := Assign "o" (OOpen (Some "a")).
(** o.visList[-1] *)
Definition p_table : part := PItem (OVar "o") KVis (-1).
Definition p_filter : list stmt := [NewFilter "f"; SetAttr "f" TargetIdA (PyInt 4); Assign "g" (OApply "f" (OVar "o"))].
(** A script that keeps its datasets: what is left of "a" after filtering is written to a file, which
    is merged with another *)
Definition p_use : list stmt :=
  p_open :: Keep "t" p_table :: p_filter
  ++ [Show (PIndex (PRows (PVar "t")) 1) Target_id_; Len (OVar "o") KVis; Keep "u" (PItem (OVar "g") KVis 0); Del "o";
      Show (PVar "u") Numrec; NumTargets (OVar "g"); Write (OVar "g") "out";
      NumTargets (OMerge [OOpen (Some "out"); OOpen (Some "b")]); Str (OOpen (Some "none"))].
Definition p_events : list event :=
  [Nothing; Nothing; Nothing; Nothing; Nothing; Shown (PyInt 9); Shown (PyInt 1); Nothing; Nothing; Shown (PyInt 1);
   Shown (PyInt 1); Nothing; Shown (PyInt 3); Raised IOError].
(** For each dataset: whether its object owns it, whether it is there, whether it is pinned *)
Definition flags (s : state) : list (bool * bool * bool) := map (fun c => (c_owned c, c_alive c, c_pinned c)) (s_cells s).
Definition names {A} (l : list (string * A)) : list string := map fst l.
Definition long_name : string := String.concat "" (repeat "abcdefghij" 7) ++ "k".

Section Cases.
Variable fmt : string -> f64 -> string.
Notation py_run l := (run e0 fmt sqrt64 l t_disk).
Notation py_value l := (script_value e0 fmt sqrt64 l [] t_disk).

Definition seen (r : res (state * list event)) : res (list event * list (bool * bool * bool) * list string * list string) :=
  match r with Ok (s, evs) => Ok (evs, flags s, names (s_vars s), names (s_disk s)) | Abort => Abort | UB => UB end.
Lemma seen_inv r evs fl vars files : seen r = Ok (evs, fl, vars, files) ->
  exists s, r = Ok (s, evs) /\ flags s = fl /\ names (s_vars s) = vars /\ names (s_disk s) = files.
Proof. destruct r as [[s e]| |]; try discriminate. intros H. injection H as <- <- <- <-. exists s. auto. Qed.

Lemma use_case : keeps_datasets p_use /\ exists s, py_run p_use = Ok (s, p_events)
  /\ names (s_disk s) = ["out"; "b"; "a"] /\ names (s_vars s) = ["u"; "g"; "f"; "t"].
Proof.
  split; [reflexivity|].
  destruct (seen_inv (py_run p_use) p_events
    [(true, false, false); (false, true, false); (true, true, true); (true, true, true); (false, true, false)]
    ["u"; "g"; "f"; "t"] ["out"; "b"; "a"]) as (s & H & _ & Hv & Hd); [vm_compute; reflexivity|].
  exists s. auto.
Qed.

(** OiFits('a').visList[0].numrec *)
Lemma temporary : let l := [Show (PItem (OOpen (Some "a")) KVis 0) Numrec] in
  py_run l = UB /\ exists d, py_value l = Ok (d, [Shown (PyInt 2)]).
Proof. split; [vm_compute; reflexivity|]. exists t_disk. vm_compute. reflexivity. Qed.
(** o = OiFits('a'); t = o.visList[-1]; del o; t.numrec *)
Lemma deleted : let l := [p_open; Keep "t" p_table; Del "o"; Show (PVar "t") Numrec] in
  py_run l = UB /\ exists d, py_value l = Ok (d, [Nothing; Nothing; Nothing; Shown (PyInt 2)]).
Proof. split; [vm_compute; reflexivity|]. exists t_disk. vm_compute. reflexivity. Qed.
(** o.visList = [o.visList[-1]] *)
Lemma list_assigned : let l := [p_open; SetList (OVar "o") KVis [p_table]] in
  (exists s, py_run l = Ok (s, [Nothing; Nothing])) /\ py_run (l ++ [Len (OVar "o") KVis]) = UB /\ py_run (l ++ [Write (OVar "o") "out"]) = UB.
Proof.
  split; [|split; vm_compute; reflexivity].
  destruct (seen_inv (py_run [p_open; SetList (OVar "o") KVis [p_table]]) [Nothing; Nothing] [(true, true, false)] ["o"] ["b"; "a"])
    as (s & H & _); [vm_compute; reflexivity|]. exists s. exact H.
Qed.
(** o.visList[-1].record[-1] and o.visList[-1].record[2], of two records *)
Lemma unchecked : py_value [p_open; Show p_table Numrec] = Ok (t_disk, [Nothing; Shown (PyInt 2)])
  /\ py_run [p_open; Show (PIndex (PRows p_table) (-1)) Target_id_] = UB
  /\ py_run [p_open; Show (PIndex (PRows p_table) 2) Target_id_] = UB.
Proof. split; [|split]; vm_compute; reflexivity. Qed.
(** o.get_nwave('none') *)
Lemma absent_name : py_run [p_open; GetNwave (OVar "o") "none"] = UB /\ py_run [p_open; GetNelement (OVar "o") "none"] = UB
  /\ py_run [p_open; GetEffWave (OVar "o") "none" 0] = UB.
Proof. split; [|split]; vm_compute; reflexivity. Qed.
(** o = OiFits('a'); f = Filter(); f.target_id = 4; g = f.apply(o); del g; del o *)
Lemma leaked : exists s, py_run (p_open :: p_filter ++ [Del "g"; Del "o"]) = Ok (s, repeat Nothing 6)
  /\ names (s_vars s) = ["f"] /\ flags s = [(true, false, false); (false, true, false)].
Proof.
  destruct (seen_inv (py_run (p_open :: p_filter ++ [Del "g"; Del "o"])) (repeat Nothing 6)
    [(true, false, false); (false, true, false)] ["f"] ["b"; "a"]) as (s & H & Hf & Hv & _); [vm_compute; reflexivity|]. exists s. auto.
Qed.
(** merge(OiFits('a'), OiFits('b')) *)
Lemma merge_leaks : exists s, py_run [NumTargets (OMerge [OOpen (Some "a"); OOpen (Some "b")])] = Ok (s, [Shown (PyInt 3)])
  /\ s_vars s = [] /\ flags s = [(true, true, true); (true, true, true); (false, true, false)].
Proof.
  destruct (seen_inv (py_run [NumTargets (OMerge [OOpen (Some "a"); OOpen (Some "b")])]) [Shown (PyInt 3)]
    [(true, true, true); (true, true, true); (false, true, false)] [] ["b"; "a"]) as (s & H & Hf & Hv & _); [vm_compute; reflexivity|].
  exists s. split; [exact H|]. split; [|exact Hf]. destruct (s_vars s); [reflexivity|discriminate].
Qed.
(** f.insname = 'abc...', 71 characters; str(f) *)
Lemma long_name_read : String.length long_name = 71%nat
  /\ (exists s, py_run [NewFilter "f"; SetAttr "f" InsnameA (PyStr long_name)] = Ok (s, [Nothing; Nothing]))
  /\ py_run [NewFilter "f"; SetAttr "f" InsnameA (PyStr long_name); GetAttr "f" InsnameA] = UB
  /\ py_run [NewFilter "f"; SetAttr "f" InsnameA (PyStr long_name); StrFilter "f"] = UB.
Proof.
  split; [reflexivity|]. split; [|split; vm_compute; reflexivity].
  destruct (seen_inv (py_run [NewFilter "f"; SetAttr "f" InsnameA (PyStr long_name)]) [Nothing; Nothing] [] ["f"] ["b"; "a"])
    as (s & H & _); [vm_compute; reflexivity|]. exists s. exact H.
Qed.
(** f.mjd_range = (0, 100000) *)
Lemma int_range : exists s, py_run [NewFilter "f"; SetAttr "f" MjdRangeA (PySeq [PyInt 0; PyInt 100000])] = Ok (s, [Nothing; Raised ValueError]).
Proof.
  destruct (seen_inv (py_run [NewFilter "f"; SetAttr "f" MjdRangeA (PySeq [PyInt 0; PyInt 100000])]) [Nothing; Raised ValueError] [] ["f"] ["b"; "a"])
    as (s & H & _); [vm_compute; reflexivity|]. exists s. exact H.
Qed.

Lemma open_case : forallb opens_stmt [p_open; Len (OOpen (Some "b")) KVis; Assign "p" (OVar "o"); Del "o"] = true
  /\ exists s, py_run [p_open; Len (OOpen (Some "b")) KVis; Assign "p" (OVar "o"); Del "o"]
               = Ok (s, [Nothing; Shown (PyInt 0); Nothing; Nothing])
     /\ names (s_vars s) = ["p"] /\ flags s = [(true, true, false); (true, false, false)].
Proof.
  split; [reflexivity|].
  destruct (seen_inv (py_run [p_open; Len (OOpen (Some "b")) KVis; Assign "p" (OVar "o"); Del "o"])
    [Nothing; Shown (PyInt 0); Nothing; Nothing] [(true, true, false); (true, false, false)] ["p"] ["b"; "a"])
    as (s & H & Hf & Hv & _); [vm_compute; reflexivity|]. exists s. auto.
Qed.
Lemma filter_case : exists x, filter_run e0 fmt sqrt64 (fun _ => true) false [Target_id 4; Wave_min (f64_of_Z 1500)] "a" "o" t_disk = Ok x
  /\ x_status x = 0%Z /\ names (x_disk x) = ["o"; "b"; "a"].
Proof.
  exists (run_of (filter_run e0 fmt sqrt64 (fun _ => true) false [Target_id 4; Wave_min (f64_of_Z 1500)] "a" "o" t_disk)).
  split; [|split]; vm_compute; reflexivity.
Qed.
Lemma merge_case : exists x, oifits_merge e0 fmt ["o"; "a"; "b"] t_disk = Ok x /\ x_status x = 0%Z /\ names (x_disk x) = ["o"; "b"; "a"].
Proof.
  exists (run_of (oifits_merge e0 fmt ["o"; "a"; "b"] t_disk)). split; [|split]; vm_compute; reflexivity.
Qed.
End Cases.
