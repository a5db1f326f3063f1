(** Specification: oifits-merge run in steps (C73). *)
From Verif Require Export ToolSpec MergeSpec MergeStepsSpec TwiceSpec.

(** The array coordinates are kept digit for digit when they are written to a header, as those
    read from a file that the library wrote are. *)
Definition exact_arrays (E : cfitsio) (o : oi_fits) : Prop :=
  forall a, In a (o_arrayList o) ->
    cf_key_double E (ar_arrayx a) = Some (ar_arrayx a) /\ cf_key_double E (ar_arrayy a) = Some (ar_arrayy a)
    /\ cf_key_double E (ar_arrayz a) = Some (ar_arrayz a).

(** No required keyword is found in the later inputs only. *)
Definition keys_early (ia ib : list oi_fits) : Prop :=
  forall key, In key required_keys ->
    (exists d, In d ia /\ has_key key d) \/ (forall d, In d ib -> ~ has_key key d).
