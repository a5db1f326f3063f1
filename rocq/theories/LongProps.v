(** C69: the arithmetic on dates stays within the range of [long]. *)
From Verif Require Import Base FloatModel Types DateModel FileModel FileSpec MergeModel MergeMain LongModel LongSpec LongProofs LongMain Sample.

(** mjd2date is defined exactly for the days in [date_range], and gives there what DateModel
    gives. *)
Theorem C69_mjd2date : forall mjd, in_long mjd ->
  (date_range mjd -> mjd2date_l mjd = Ok (mjd2date mjd)) /\ (~ date_range mjd -> mjd2date_l mjd = UB).
Proof. exact mjd2date_long. Qed.
Print Assumptions C69_mjd2date.
Example C69_mjd2date_case : mjd2date_l 51543 = Ok (1999, 12, 31) /\ date_range 51543
  /\ in_long 2305843009211225382 /\ mjd2date_l 2305843009211225382 = UB
  /\ (exists d, mjd2date_l 2305843009211225381 = Ok d).
Proof.
  split; [vm_compute; reflexivity|]. split; [split; vm_compute; congruence|]. split; [split; vm_compute; discriminate|].
  split; [vm_compute; reflexivity|]. eexists. vm_compute. reflexivity.
Qed.

(** date2mjd is defined for any year, as it stops for those it is not meant for, and for far
    more than the months and days there are. *)
Theorem C69_date2mjd : forall y m d, - 10 ^ 16 <= m <= 10 ^ 16 -> - 10 ^ 18 <= d <= 10 ^ 18 ->
  date2mjd_l y m d = date2mjd y m d.
Proof. exact date2mjd_long. Qed.
Print Assumptions C69_date2mjd.
Example C69_date2mjd_case : date2mjd_l 2014 11 13 = Ok 56974 /\ date2mjd_l 9223372036854775807 1 1 = Abort
  /\ date2mjd_l 2014 (10 ^ 17) 1 = UB.
Proof. vm_compute. repeat split. Qed.

(** Merging: whatever the DATE-OBS of the inputs, they are read and compared, and the result
    written, without leaving the range. *)
Theorem C69_merge : forall ins, merged_date_l ins <> UB
  /\ forall out, merge_oi_fits_list ins = Ok out -> merged_date_l ins = Ok (h_date_obs (o_header out)).
Proof. exact (fun ins => conj (merge_date_defined ins) (fun out => merge_long ins out)). Qed.
Print Assumptions C69_merge.
Example C69_merge_case : merged_date_l m_ins = Ok "2018-02-03"%string.
Proof. vm_compute. reflexivity. Qed.

(** set_oi_header: defined if the MJDs are in [date_range]. *)
Theorem C69_header_partial : forall o, wf_fits o = true -> mjds_in_date_range o ->
  set_oi_header_l o = set_oi_header o.
Proof. exact set_header_long. Qed.
Print Assumptions C69_header_partial.
Example C69_header_case : wf_fits s_fits = true /\ map floor_Z (all_mjd s_fits)
  = [Some 58848; Some 58849; Some 58847; Some 58848; Some 58850; Some 58848; Some 58848]
  /\ exists h, set_oi_header_l s_fits = Ok h /\ h_date_obs h = "2019-12-30"%string.
Proof. split; [reflexivity|]. split; [vm_compute; reflexivity|]. eexists. split; vm_compute; reflexivity. Qed.
(** It does not look at them: one that is far away is undefined behaviour. *)
Theorem C69_header_refuted : exists o h, wf_fits o = true /\ set_oi_header o = Ok h /\ set_oi_header_l o = UB
  /\ forall m, In m (all_mjd o) -> exists z, floor_Z m = Some z /\ in_long z.
Proof. exact far_header. Qed.
Print Assumptions C69_header_refuted.
