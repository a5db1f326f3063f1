(** Copying a file with the library. *)
From Verif Require Export CutSpec.

(** A number that was written to a header and read is written and read unchanged: cfitsio prints
    at most as many digits as a double can always hold. *)
Definition settled (E : cfitsio) : Prop := forall x y, cf_key_double E x = Some y -> cf_key_double E y = Some y.
