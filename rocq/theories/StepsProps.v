(** C73: oifits-merge run in steps. *)
From Verif Require Import Base Sample MergeMain IOMain ReadModel WriteModel MergeModel MergeSpec ToolModel ToolSpec ToolMerge ToolMain
  TwiceSpec TwiceMain PipeMain StepsSpec StepsFiles StepsMain.
Open Scope list_scope.
Open Scope string_scope.
Open Scope Z_scope.

(** Merging the files [na] into [b], and then [b] and the files [nb] into [c], leaves the same
    file, HDU for HDU, as merging all of them at once into [e]. *)
Theorem C73_steps : forall E fmt, settled E -> forall na nb ia ib b c e d,
  (2 <= List.length na)%nat -> (1 <= List.length nb)%nat ->
  Forall2 (fun n o => reads E n d o) na ia -> Forall2 (fun n o => reads E n d o) nb ib ->
  targets_match (ia ++ ib) -> Forall (fun o => storable_fits E o = true) (ia ++ ib) ->
  roomy_names (ia ++ ib) -> plain_names ia -> some_dated ia ->
  Forall standard_revisions ia -> Forall (exact_arrays E) ia ->
  Forall (fun o => o_inspolList o = []) ia -> keys_early ia ib ->
  find_file b d = None -> find_file c d = None -> find_file e d = None -> c <> b ->
  exists x1 x2 x3 hdus,
    oifits_merge E fmt (b :: na) d = Ok x1 /\ x_status x1 = 0
    /\ oifits_merge E fmt (c :: b :: nb) (x_disk x1) = Ok x2 /\ x_status x2 = 0
    /\ oifits_merge E fmt (e :: na ++ nb) d = Ok x3 /\ x_status x3 = 0
    /\ find_file c (x_disk x2) = Some hdus /\ find_file e (x_disk x3) = Some hdus.
Proof. exact merge_steps. Qed.
Print Assumptions C73_steps.
Example C73_case : settled e0
  /\ Forall2 (fun n o => reads e0 n st_disk o) ["v"; "b"] [t_v; t_b] /\ Forall2 (fun n o => reads e0 n st_disk o) ["a"] [t_a]
  /\ targets_match ([t_v; t_b] ++ [t_a]) /\ Forall (fun o => storable_fits e0 o = true) ([t_v; t_b] ++ [t_a])
  /\ roomy_names ([t_v; t_b] ++ [t_a]) /\ plain_names [t_v; t_b] /\ some_dated [t_v; t_b]
  /\ Forall standard_revisions [t_v; t_b] /\ Forall (exact_arrays e0) [t_v; t_b]
  /\ Forall (fun o => o_inspolList o = []) [t_v; t_b] /\ keys_early [t_v; t_b] [t_a]
  /\ find_file "x" st_disk = None /\ find_file "y" st_disk = None /\ find_file "z" st_disk = None /\ "y" <> "x".
Proof. exact st_case. Qed.

(** The coordinates read from a file that the library wrote are kept digit for digit. *)
Theorem C73_exact : forall E, settled E -> forall name d o,
  storable_fits E o = true -> file_holds E name d o ->
  exists o', reads E name d o' /\ exact_arrays E o'.
Proof. exact holds_exact. Qed.
Print Assumptions C73_exact.
Example C73_exact_case : storable_fits e0 s_fits = true /\ file_holds e0 "a" t_disk s_fits.
Proof. exact st_holds. Qed.

(** A keyword found in the later inputs only differs: it is "UNKNOWN" in the intermediate file. *)
Theorem C73_keyword_refuted : forall fmt, exists x1 x2 x3 o2 o3,
  oifits_merge e0 fmt ["x"; "b"; "b"] st_disk = Ok x1 /\ x_status x1 = 0
  /\ oifits_merge e0 fmt ["y"; "x"; "a"] (x_disk x1) = Ok x2 /\ x_status x2 = 0
  /\ oifits_merge e0 fmt ["z"; "b"; "b"; "a"] st_disk = Ok x3 /\ x_status x3 = 0
  /\ reads e0 "y" (x_disk x2) o2 /\ h_observer (o_header o2) = "MULTIPLE"
  /\ reads e0 "z" (x_disk x3) o3 /\ h_observer (o_header o3) = "Someone".
Proof. exact steps_keyword. Qed.
Print Assumptions C73_keyword_refuted.
(** Polarisation data do not survive the intermediate file (see C36 and C72). *)
Theorem C73_inspol_refuted : forall fmt, exists x1 x2 x3, settled e_pun
  /\ oifits_merge e_pun fmt ["x"; "a"; "b"] sp_disk = Ok x1 /\ x_status x1 = 0
  /\ oifits_merge e_pun fmt ["y"; "x"; "b"] (x_disk x1) = Ok x2 /\ x_status x2 = 0
  /\ oifits_merge e_pun fmt ["z"; "a"; "b"; "b"] sp_disk = Ok x3 /\ x_status x3 = 0
  /\ find_file "y" (x_disk x2) <> find_file "z" (x_disk x3).
Proof. exact steps_inspol. Qed.
Print Assumptions C73_inspol_refuted.
