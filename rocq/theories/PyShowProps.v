(** C70, what a script sees of a dataset it opened: stated with PyShowSpec's own account of list
    positions and members. *)
From Verif Require Import Base FitsModel ReadModel ToolModel ToolSpec ToolMain IOMain FilterMain PyModel PyShowSpec PyShow.
From Coq Require Import String List ZArith.
Import ListNotations.
Open Scope list_scope.
Open Scope Z_scope.

(** A member of a table *)
Theorem C70_table : forall E fmt pow_half x file d v, read_oi_fits E file d 0 = Ok (Some v, 0) ->
  forall k i a w,
  table_shows v i k a w <->
  exists s, run E fmt pow_half [Assign x (OOpen (Some file)); Show (PItem (OVar x) k i) a] d = Ok (s, [Nothing; Shown w]).
Proof. exact table_shown. Qed.
Print Assumptions C70_table.

(** Positions of lists are checked, from -n to n-1, *)
Theorem C70_index_error : forall E fmt pow_half x file d v, read_oi_fits E file d 0 = Ok (Some v, 0) ->
  forall k i a,
  (i < - number k v \/ number k v <= i) <->
  exists s, run E fmt pow_half [Assign x (OOpen (Some file)); Show (PItem (OVar x) k i) a] d
    = Ok (s, [Nothing; Raised IndexError]).
Proof. exact table_missing. Qed.
Print Assumptions C70_index_error.

(** where n is what len() gives. *)
Theorem C70_len : forall E fmt pow_half x file d v, read_oi_fits E file d 0 = Ok (Some v, 0) ->
  forall k,
  exists s, run E fmt pow_half [Assign x (OOpen (Some file)); Len (OVar x) k] d = Ok (s, [Nothing; Shown (PyInt (number k v))]).
Proof. exact number_shown. Qed.
Print Assumptions C70_len.

(** A member of a row: shown exactly if the row and the member are there *)
Theorem C70_row : forall E fmt pow_half x file d v, read_oi_fits E file d 0 = Ok (Some v, 0) ->
  forall k i j a w,
  row_shows v i j k a w <->
  exists s, run E fmt pow_half [Assign x (OOpen (Some file)); Show (PIndex (PRows (PItem (OVar x) k i)) j) a] d
    = Ok (s, [Nothing; Shown w]).
Proof. exact row_shown. Qed.
Print Assumptions C70_row.

Example C70_shown_case : read_oi_fits e0 "a" t_disk 0 = Ok (Some t_a, 0)
  /\ number KVis t_a = 1 /\ number KWavelength t_a = 2
  /\ table_shows t_a (-1) KVis Numrec (PyInt 2) /\ table_shows t_a (-2) KWavelength Insname_ (PyStr "GRAVITY")
  /\ row_shows t_a 0 1 KVis Target_id_ (PyInt 9).
Proof. exact shown_case. Qed.
