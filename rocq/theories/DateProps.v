(** Properties C01 and C02: calendar conversions. *)
From Verif Require Import Base DateModel DateSpec DateProofs.

(** C01. date2mjd gives the day number of every valid date from 1901 to 2099. *)
Theorem C01_date2mjd_correct : forall y m d,
  1901 <= y <= 2099 -> valid_date y m d = true ->
  exists mjd, date2mjd y m d = Ok mjd /\ is_date_of_mjd mjd (y, m, d).
Proof. exact date2mjd_correct. Qed.
Print Assumptions C01_date2mjd_correct.

(** C01. Any other year aborts instead of giving a wrong answer. *)
Theorem C01_date2mjd_aborts_outside_range : forall y m d,
  ~ (1901 <= y <= 2099) -> date2mjd y m d = Abort.
Proof. exact date2mjd_aborts. Qed.
Print Assumptions C01_date2mjd_aborts_outside_range.

Example C01_leap_day : valid_date 2000 2 29 = true /\ date2mjd 2000 2 29 = Ok 51603.
Proof. vm_compute. split; reflexivity. Qed.
Example C01_year_1900 : ~ (1901 <= 1900 <= 2099).
Proof. intros [H _]. apply H. reflexivity. Qed.

(** C02. mjd2date gives the valid calendar date of every MJD from
    -2468570 (1 March of proleptic year -4900) on. *)
Theorem C02_mjd2date_correct : forall mjd,
  -2468570 <= mjd ->
  is_date_of_mjd mjd (mjd2date mjd) /\
  (let '(y, m, d) := mjd2date mjd in valid_date y m d = true).
Proof. exact mjd2date_correct. Qed.
Print Assumptions C02_mjd2date_correct.

(** C02. That date is the only one. *)
Theorem C02_date_of_mjd_unique : forall mjd y m d y' m' d',
  valid_date y m d = true -> valid_date y' m' d' = true ->
  is_date_of_mjd mjd (y, m, d) -> is_date_of_mjd mjd (y', m', d') ->
  (y, m, d) = (y', m', d').
Proof. exact (fun mjd y m d y' m' d' => is_date_unique mjd (y, m, d) (y', m', d')). Qed.
Print Assumptions C02_date_of_mjd_unique.

(** C02. date2mjd inverts mjd2date on 1901-2099. *)
Theorem C02_date2mjd_inverts : forall mjd y m d,
  -2468570 <= mjd -> mjd2date mjd = (y, m, d) -> 1901 <= y <= 2099 ->
  date2mjd y m d = Ok mjd.
Proof. exact date2mjd_mjd2date. Qed.
Print Assumptions C02_date2mjd_inverts.

(** C02. mjd2date inverts date2mjd on 1901-2099. *)
Theorem C02_mjd2date_inverts : forall y m d,
  1901 <= y <= 2099 -> valid_date y m d = true ->
  exists mjd, date2mjd y m d = Ok mjd /\ -2468570 <= mjd /\ mjd2date mjd = (y, m, d).
Proof. exact date2mjd_inv. Qed.
Print Assumptions C02_mjd2date_inverts.

Example C02_first : mjd2date (-2468570) = (-4900, 3, 1).
Proof. vm_compute. reflexivity. Qed.
Example C02_last_1999 : mjd2date 51543 = (1999, 12, 31) /\ date2mjd 1999 12 31 = Ok 51543.
Proof. vm_compute. split; reflexivity. Qed.
