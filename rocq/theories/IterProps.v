(** Properties C21-C23: the iterators over OI_VIS, OI_VIS2 and OI_T3 data.
    [pow_half] stands for the C library's pow(x, 0.5); the theorems hold whatever it
    computes.  [calls next n it] is the result of call number [n], counting from 0,
    of a row of calls on the same iterator. *)
From Verif Require Import FilterModel FilterSpec IterModel IterSpec FilterMain IterMain IterKinds IterAgree Sample.
Open Scope Z_scope.

(** ** C21: the calls return the accepted data in order, then false for ever *)

Theorem C21_vis : forall pow_half d f, consistent d -> fresh_filter f ->
  forall pf, instruments_present d (o_visList d) -> filter_given pf f ->
  exists L, kept (datum_accepted (kind_vis pow_half) f d) eq (all_data (o_visList d)) L /\
    forall n, exists it, calls (oi_vis_iter_next pow_half) n (oi_vis_iter_init d pf) = Ok (it, nth_error L n).
Proof. exact vis_visits. Qed.
Print Assumptions C21_vis.
Theorem C21_vis2 : forall pow_half d f, consistent d -> fresh_filter f ->
  forall pf, instruments_present d (o_vis2List d) -> filter_given pf f ->
  exists L, kept (datum_accepted (kind_vis2 pow_half) f d) eq (all_data (o_vis2List d)) L /\
    forall n, exists it, calls (oi_vis2_iter_next pow_half) n (oi_vis2_iter_init d pf) = Ok (it, nth_error L n).
Proof. exact vis2_visits. Qed.
Print Assumptions C21_vis2.
Theorem C21_t3 : forall pow_half d f, consistent d -> fresh_filter f ->
  forall pf, instruments_present d (o_t3List d) -> filter_given pf f ->
  exists L, kept (datum_accepted (kind_t3 pow_half) f d) eq (all_data (o_t3List d)) L /\
    forall n, exists it, calls (oi_t3_iter_next pow_half) n (oi_t3_iter_init d pf) = Ok (it, nth_error L n).
Proof. exact t3_visits. Qed.
Print Assumptions C21_t3.
(** [instruments_present] cannot be left out: a data table whose INSNAME has no
    OI_WAVELENGTH makes the first call dereference a null pointer. *)
Theorem C21_missing_wavelength_undefined : exists d, consistent d
  /\ oi_vis2_iter_next sqrt64 (oi_vis2_iter_init d None) = UB.
Proof. exact noins_counterexample. Qed.
Print Assumptions C21_missing_wavelength_undefined.

(** ** C22: when flagged data are rejected, the data visited are the unflagged data
    of what apply_oi_filter produces *)

Theorem C22_vis : forall pow_half d f f' d', consistent d -> fresh_filter f ->
  apply_oi_filter pow_half d f = Ok (f', d') -> f_accept_flagged f = false ->
  forall pf, filter_given pf f -> instruments_present d (o_visList d) ->
  exists L L', (forall n, exists it, calls (oi_vis_iter_next pow_half) n (oi_vis_iter_init d pf) = Ok (it, nth_error L n))
    /\ kept (datum_unflagged (kind_vis pow_half)) eq (all_data (o_visList d')) L'
    /\ Forall2 (same_vis_point d d') L L'.
Proof. exact vis_agree. Qed.
Print Assumptions C22_vis.
Theorem C22_vis2 : forall pow_half d f f' d', consistent d -> fresh_filter f ->
  apply_oi_filter pow_half d f = Ok (f', d') -> f_accept_flagged f = false ->
  forall pf, filter_given pf f -> instruments_present d (o_vis2List d) ->
  exists L L', (forall n, exists it, calls (oi_vis2_iter_next pow_half) n (oi_vis2_iter_init d pf) = Ok (it, nth_error L n))
    /\ kept (datum_unflagged (kind_vis2 pow_half)) eq (all_data (o_vis2List d')) L'
    /\ Forall2 (same_vis2_point d d') L L'.
Proof. exact vis2_agree. Qed.
Print Assumptions C22_vis2.
Theorem C22_t3 : forall pow_half d f f' d', consistent d -> fresh_filter f ->
  apply_oi_filter pow_half d f = Ok (f', d') -> f_accept_flagged f = false ->
  forall pf, filter_given pf f -> instruments_present d (o_t3List d) ->
  exists L L', (forall n, exists it, calls (oi_t3_iter_next pow_half) n (oi_t3_iter_init d pf) = Ok (it, nth_error L n))
    /\ kept (datum_unflagged (kind_t3 pow_half)) eq (all_data (o_t3List d')) L'
    /\ Forall2 (same_t3_point f d d') L L'.
Proof. exact t3_agree. Qed.
Print Assumptions C22_t3.

(** ** C23: uv coordinates of the current datum *)

Theorem C23_vis : forall pow_half d f, consistent d -> fresh_filter f ->
  forall pf m it n t i r j, instruments_present d (o_visList d) -> filter_given pf f ->
  calls (oi_vis_iter_next pow_half) m (oi_vis_iter_init d pf) = Ok (it, Some (n, t, i, r, j)) ->
  exists w y, instrument d (tb_insname t) w /\ nth_error (wv_eff_wave w) (Z.to_nat j) = Some y
    /\ oi_vis_iter_get_uv it = Ok (to_f64 y, f64_div (vr_ucoord r) (to_f64 y), f64_div (vr_vcoord r) (to_f64 y)).
Proof. exact vis_uv. Qed.
Print Assumptions C23_vis.
Theorem C23_vis2 : forall pow_half d f, consistent d -> fresh_filter f ->
  forall pf m it n t i r j, instruments_present d (o_vis2List d) -> filter_given pf f ->
  calls (oi_vis2_iter_next pow_half) m (oi_vis2_iter_init d pf) = Ok (it, Some (n, t, i, r, j)) ->
  exists w y, instrument d (tb_insname t) w /\ nth_error (wv_eff_wave w) (Z.to_nat j) = Some y
    /\ oi_vis2_iter_get_uv it = Ok (to_f64 y, f64_div (v2_ucoord r) (to_f64 y), f64_div (v2_vcoord r) (to_f64 y)).
Proof. exact vis2_uv. Qed.
Print Assumptions C23_vis2.
Theorem C23_t3 : forall pow_half d f, consistent d -> fresh_filter f ->
  forall pf m it n t i r j, instruments_present d (o_t3List d) -> filter_given pf f ->
  calls (oi_t3_iter_next pow_half) m (oi_t3_iter_init d pf) = Ok (it, Some (n, t, i, r, j)) ->
  exists w y, instrument d (tb_insname t) w /\ nth_error (wv_eff_wave w) (Z.to_nat j) = Some y
    /\ oi_t3_iter_get_uv it = Ok (to_f64 y, f64_div (t3_u1coord r) (to_f64 y), f64_div (t3_v1coord r) (to_f64 y),
                                  f64_div (t3_u2coord r) (to_f64 y), f64_div (t3_v2coord r) (to_f64 y)).
Proof. exact t3_uv. Qed.
Print Assumptions C23_t3.

(** ** A case meeting the hypotheses *)

Example instruments_example : instruments_present s_fits (o_visList s_fits)
  /\ instruments_present s_fits (o_vis2List s_fits) /\ instruments_present s_fits (o_t3List s_fits).
Proof. exact s_fits_instruments. Qed.
(** With the filter of the example in FilterProps, one OI_VIS datum is visited; with
    none, all of them *)
Example iter_example :
  map (fun n => where_ (calls (oi_vis_iter_next sqrt64) n (oi_vis_iter_init s_fits (Some s_filter)))) [0; 1; 2]%nat
  = [Some (Some (1, 0, 1)); Some None; Some None]
  /\ map (fun n => where_ (calls (oi_vis2_iter_next sqrt64) n (oi_vis2_iter_init s_fits None))) (seq 0 7)
  = [Some (Some (1, 0, 0)); Some (Some (1, 0, 1)); Some (Some (1, 1, 0)); Some (Some (1, 1, 1));
     Some (Some (1, 2, 0)); Some (Some (1, 2, 1)); Some None].
Proof. vm_compute. split; reflexivity. Qed.
