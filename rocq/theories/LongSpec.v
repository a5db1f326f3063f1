(** The values for which the date arithmetic stays within the range of [long]. *)
From Verif Require Import Base FloatModel Types FileSpec LongModel.

(** Day 0 of the algorithm is MJD -2468570; four times the day number must be in range *)
Definition date_range (mjd : Z) : Prop := -2 ^ 61 <= mjd + 2468570 < 2 ^ 61.
Definition in_long (z : Z) : Prop := LONG_MIN <= z <= LONG_MAX.
(** Every MJD that is a number rounds down to a day in that range *)
Definition mjds_in_date_range (o : oi_fits) : Prop :=
  forall m z, In m (all_mjd o) -> floor_Z m = Some z -> date_range z.
