(** Property C65: a dataset read from a file, written again, gives the same file. *)
From Verif Require Import FileModel ReadModel IOSpec WriteModel WriteTables IOMain Sample WritableSpec CutSpec WritableMain
  TwiceSpec TwiceProofs TwiceMain.
Open Scope string_scope.
Open Scope list_scope.
Open Scope Z_scope.

Theorem C65_copy : forall E, settled E -> forall o name name2 d d1,
  wf_fits o = true -> kept_strings o -> filled o -> o_inspolList o = [] ->
  find_file name2 d = None -> name2 <> name -> write_oi_fits E name o d 0 = Ok (d1, 0) ->
  exists o1 d2, read_oi_fits E name d1 0 = Ok (Some o1, 0) /\ write_oi_fits E name2 o1 d1 0 = Ok (d2, 0)
    /\ find_file name2 d2 = find_file name d1
    /\ read_oi_fits E name2 d2 0 = Ok (Some o1, 0)
    /\ (forall other, other <> name2 -> find_file other d2 = find_file other d1).
Proof. exact copy_same. Qed.
Print Assumptions C65_copy.
(** strings that are cut, a reference that is changed, and numbers that are rounded on the first writing *)
Example C65_case : settled e_one /\ wf_fits c_fits = true /\ kept_strings c_fits /\ filled c_fits
  /\ o_inspolList c_fits = [] /\ find_file "g" [] = None /\ "g" <> "f".
Proof.
  split; [exact e_one_settled|]. split; [exact c_wf|]. split; [exact c_kept|]. split; [exact c_filled|].
  destruct t_names as (H1 & H2 & H3). auto.
Qed.
(** The Jones matrices of OI_INSPOL are changed by each copy. *)
Theorem C65_inspol_refuted : exists o d1 o1 d2,
  storable_fits e0 o = true /\ settled e0
  /\ write_oi_fits e0 "f" o [] 0 = Ok (d1, 0) /\ read_oi_fits e0 "f" d1 0 = Ok (Some o1, 0)
  /\ write_oi_fits e0 "g" o1 d1 0 = Ok (d2, 0) /\ find_file "g" d2 <> find_file "f" d1.
Proof. exact copy_differs. Qed.
Print Assumptions C65_inspol_refuted.
