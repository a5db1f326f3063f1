(** Model of datemjd.c. *)
From Verif Require Import Base.

(** datemjd.c 39-44, date2mjd.  C long arithmetic is exact in the range allowed
    by the assertion when month and day are calendar values. *)
Definition date2mjd (year month day : Z) : res Z :=
  do assert_ ((1901 <=? year) && (year <=? 2099)) ;;
  Ok (367 * year - Z.quot (7 * (year + Z.quot (month + 9) 12)) 4
      + Z.quot (275 * month) 9 + day + 1721013 - 2400000).

(** datemjd.c 57-71, mjd2date: (year, month, day).  Long overflow (|mjd| beyond
    about 2^63/4000) is left out here; see LongModel.v. *)
Definition mjd2date (mjd : Z) : Z * Z * Z :=
  let L0 := mjd + 2400001 + 68569 in
  let N := Z.quot (4 * L0) 146097 in
  let L1 := L0 - Z.quot (146097 * N + 3) 4 in
  let I := Z.quot (4000 * (L1 + 1)) 1461001 in
  let L2 := L1 - Z.quot (1461 * I) 4 + 31 in
  let J := Z.quot (80 * L2) 2447 in
  let day := L2 - Z.quot (2447 * J) 80 in
  let L3 := Z.quot J 11 in
  let month := J + 2 - 12 * L3 in
  let year := 100 * (N - 49) + I + L3 in
  (year, month, day).
