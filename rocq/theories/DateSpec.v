(** The Gregorian calendar, independently of the code: leap years, month
    lengths, the day after a date.  MJD 0 is 17 November 1858. *)
From Coq Require Import ZArith Bool.
Open Scope Z_scope.

Definition leap (y : Z) : bool :=
  (y mod 4 =? 0) && (negb (y mod 100 =? 0) || (y mod 400 =? 0)).

Definition month_length (y m : Z) : Z :=
  if m =? 2 then (if leap y then 29 else 28)
  else if (m =? 4) || (m =? 6) || (m =? 9) || (m =? 11) then 30 else 31.

Definition valid_date (y m d : Z) : bool :=
  (1 <=? m) && (m <=? 12) && (1 <=? d) && (d <=? month_length y m).

Definition next_day (ymd : Z * Z * Z) : Z * Z * Z :=
  let '(y, m, d) := ymd in
  if d <? month_length y m then (y, m, d + 1)
  else if m <? 12 then (y, m + 1, 1)
  else (y + 1, 1, 1).

Fixpoint days_after (n : nat) (ymd : Z * Z * Z) : Z * Z * Z :=
  match n with O => ymd | S n' => next_day (days_after n' ymd) end.

Definition mjd_epoch : Z * Z * Z := (1858, 11, 17).

(** [ymd] is the calendar date of Modified Julian Day [mjd]: counting forward
    from the epoch, or forward from [ymd] to the epoch. *)
Definition is_date_of_mjd (mjd : Z) (ymd : Z * Z * Z) : Prop :=
  if 0 <=? mjd then days_after (Z.to_nat mjd) mjd_epoch = ymd
  else days_after (Z.to_nat (- mjd)) ymd = mjd_epoch.
