(** Specification: what ends the search for a table by name (C39). *)
From Verif Require Export IOClaims.
Open Scope list_scope.
Open Scope Z_scope.

Section Hidden.
Variable E : cfitsio.
(** The first HDU that is not a binary table ends the search if the table has not been found by
    then: that HDU is read, whatever it is. *)
Definition stops_at_other {A} (rd : io A) (name keyword value : string) : Prop :=
  forall p pre x post cur,
    forallb is_binary pre = true -> existsb (matches E name keyword value) pre = false -> is_binary x = false ->
    rd (mk_file (p :: pre ++ x :: post) cur, 0)
    = (y <- alone rd x ;;
       Ok (fst y, (mk_file (p :: pre ++ x :: post) (Z.of_nat (List.length pre) + 2), snd (snd y)))).
(** As it has no OI_REVN, an image hides all tables after it. *)
Definition hides {A} (rd : io A) (name keyword value : string) : Prop :=
  forall p pre x post cur,
    forallb is_binary pre = true -> existsb (matches E name keyword value) pre = false -> is_binary x = false ->
    lacks_keyword x "OI_REVN" ->
    rd (mk_file (p :: pre ++ x :: post) cur, 0)
    = Ok (None, (mk_file (p :: pre ++ x :: post) (Z.of_nat (List.length pre) + 2), KEY_NO_EXIST)).
End Hidden.
