(** Concrete cases of copying a file. *)
From Coq Require Import Lia.
From Verif Require Import BaseLemmas FileModel ReadModel IOSpec WriteModel WriteTables IOMain Sample WritableSpec CutSpec
  CutWhole WritableMain TwiceSpec TwiceProofs.
Open Scope string_scope.
Open Scope list_scope.
Open Scope Z_scope.

Lemma e0_settled : settled e0.
Proof. intros x y H. reflexivity. Qed.
(** a cfitsio that rounds *)
Definition e_one : cfitsio :=
  mk_cfitsio (fun x => match x with S754_nan => None | _ => Some (fl 1 1) end) (fun _ => None) (fun _ => None) (fun _ => "?")
    "2026-11-16" (fun _ => (KStr "sum", KInt 7)) 77 "junk" f64_zero (S754_zero false) true
    (fun _ => (S754_zero false, S754_zero false)).
Lemma e_one_settled : settled e_one.
Proof.
  intros x y H. destruct x; cbn [e_one cf_key_double] in *; try discriminate; injection H as <-; vm_compute; reflexivity.
Qed.
Lemma t_names : find_file "g" [] = None /\ "g" <> "f" /\ o_inspolList c_fits = [].
Proof. split; [reflexivity|]. split; [discriminate|reflexivity]. Qed.
(** one copy of a file with polarisation data is a different file *)
Lemma copy_differs : exists o d1 o1 d2,
  storable_fits e0 o = true /\ settled e0
  /\ write_oi_fits e0 "f" o [] 0 = Ok (d1, 0) /\ read_oi_fits e0 "f" d1 0 = Ok (Some o1, 0)
  /\ write_oi_fits e0 "g" o1 d1 0 = Ok (d2, 0) /\ find_file "g" d2 <> find_file "f" d1.
Proof.
  exists (x_fits (fl32 1 1)). eexists _, _, _. split; [vm_compute; reflexivity|]. split; [exact e0_settled|].
  split; [vm_compute; reflexivity|]. split; [vm_compute; reflexivity|]. split; [vm_compute; reflexivity|].
  vm_compute. intros H. discriminate.
Qed.
