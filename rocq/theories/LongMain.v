(** The range of [long]: whole functions, and cases. *)
From Verif Require Import Base FloatModel Types DateModel FileModel FileSpec MergeModel MergeProofs MergeMain LongModel LongSpec LongProofs Sample.
From Coq Require Import Lia.

Lemma merge_long ins out : merge_oi_fits_list ins = Ok out ->
  merged_date_l ins = Ok (h_date_obs (o_header out)).
Proof.
  intros H. destruct (merge_inv _ _ H) as [R]. rewrite (merged_date_long ins _ (mr_date _ _ R)), (mr_header _ _ R). reflexivity.
Qed.
Lemma merge_date_defined ins : merged_date_l ins <> UB.
Proof.
  destruct (files_min_mjd ins) as [z| |] eqn:E.
  - rewrite (merged_date_long ins z E). discriminate.
  - unfold merged_date_l. rewrite files_min_long, E. discriminate.
  - exfalso. revert E. unfold files_min_mjd. generalize 100000. induction ins as [|i ins IH]; intros z E; [discriminate|].
    cbn [foreach] in E. destruct (scan_date _) as [[[y m] d]|]; [|exact (IH _ E)].
    unfold date2mjd, assert_ in E. cbn [bind] in E. destruct ((1901 <=? y) && (y <=? 2099)); [|discriminate].
    cbn [bind] in E. exact (IH _ E).
Qed.

(** An OI_VIS2 with one finite MJD of -3e18, which is in the range of [long] *)
Definition far_vis2 : oi_vis2 :=
  mk_dtab 2 "2019-12-30" "CHARA" "PIONIER" "" tt 1 2
    [mk_vis2_record 4 f64_zero (f64_of_Z (-3000000000000000000)) (fl 10 1) [fl 1 2; fl 1 4] [fl 1 100; fl 1 100] 1
       (fl 60 1) (fl 80 1) (1, 5) [false; false]].
Definition far_fits : oi_fits :=
  mk_fits s_header s_targets 2 2 0 0 0 1 0 0 [s_array1; s_array2] [s_wave1; s_wave2] []
    [] [] [far_vis2] [] []
    [("CHARA"%string, Some s_array2)] [("PIONIER"%string, Some s_wave2)] [].
Lemma far_header : exists o h, wf_fits o = true /\ set_oi_header o = Ok h /\ set_oi_header_l o = UB
  /\ forall m, In m (all_mjd o) -> exists z, floor_Z m = Some z /\ in_long z.
Proof.
  exists far_fits. eexists. split; [reflexivity|]. split; [vm_compute; reflexivity|]. split; [vm_compute; reflexivity|].
  intros m [<-|[]]. eexists. split; [vm_compute; reflexivity|]. vm_compute. split; discriminate.
Qed.
