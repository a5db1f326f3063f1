(** Specification of the iterators: the sequence of data of a kind of table and
    which of them a filter accepts. *)
From Verif Require Export FilterSpec.
From Verif Require Import IterModel.

(** [a_0, a_1, ...] as [(i, a_0), (i+1, a_1), ...] *)
Fixpoint number {A} (i : Z) (l : list A) : list (Z * A) :=
  match l with [] => [] | a :: l' => (i, a) :: number (i + 1) l' end.

(** All data in table, record, channel order.  EXTVER counts from 1, records and
    channels from 0. *)
Definition record_data {X R} (extver : Z) (t : dtab X R) (ir : Z * R) : list (datum X R) :=
  map (fun j => (extver, t, fst ir, snd ir, Z.of_nat j)) (seq 0 (Z.to_nat (tb_nwave t))).
Definition table_data {X R} (nt : Z * dtab X R) : list (datum X R) :=
  flat_map (record_data (fst nt) (snd nt)) (number 0 (tb_record (snd nt))).
Definition all_data {X R} (l : list (dtab X R)) : list (datum X R) :=
  flat_map table_data (number 1 l).

(** Which data a filter accepts *)
Definition datum_accepted {X R} (k : kind R) (f : filter_spec) (d : oi_fits) (x : datum X R) : Prop :=
  let '(_, t, _, r, j) := x in
  k_accept k f
  /\ glob_match (f_arrname f) (tb_arrname t) /\ glob_match (f_insname f) (tb_insname t)
  /\ glob_match (f_corrname f) (tb_corrname t)
  /\ target_accepted f (k_target k r)
  /\ ~ beyond (f_mjd_lo f) (f_mjd_hi f) (k_mjd k r)
  /\ (forall b, In b (k_baselines k r) -> ~ beyond (f_bas_lo f) (f_bas_hi f) b)
  /\ exists w y, instrument d (tb_insname t) w /\ nth_error (wv_eff_wave w) (Z.to_nat j) = Some y
       /\ ~ beyond (f_wave_lo f) (f_wave_hi f) y
       /\ ~ k_bad k f y r (Z.to_nat j)
       /\ (f_accept_flagged f = true \/ nth_error (k_flag k r) (Z.to_nat j) = Some false).

(** Every table of the list has its OI_WAVELENGTH in the dataset *)
Definition instruments_present {X R} (d : oi_fits) (l : list (dtab X R)) : Prop :=
  forall t, In t l -> exists w, instrument d (tb_insname t) w.

(** The result of call number [n] (counting from 0) in a row of calls *)
Fixpoint calls {S D} (next : S -> res (S * option D)) (n : nat) (it : S) : res (S * option D) :=
  match n with
  | O => next it
  | Datatypes.S n' => r <- next it ;; calls next n' (fst r)
  end.

(** The filter an iterator works with when given [pf] (None: a NULL pointer) *)
Definition filter_given (pf : option filter_spec) (f : filter_spec) : Prop :=
  pf = Some f \/ pf = None /\ f = init_oi_filter.

(** ** Agreement with apply_oi_filter *)

Definition datum_unflagged {X R} (k : kind R) (x : datum X R) : Prop :=
  let '(_, _, _, r, j) := x in nth_error (k_flag k r) (Z.to_nat j) = Some false.

(** The same channel of the same instrument configuration *)
Definition same_wavelength (d d' : oi_fits) (n : string) (j j' : Z) : Prop :=
  exists w w' y, instrument d n w /\ instrument d' n w'
    /\ nth_error (wv_eff_wave w) (Z.to_nat j) = Some y
    /\ nth_error (wv_eff_wave w') (Z.to_nat j') = Some y.
Definition same_at {A} (l l' : list A) (j j' : Z) : Prop :=
  nth_error l (Z.to_nat j) <> None /\ nth_error l' (Z.to_nat j') = nth_error l (Z.to_nat j).

Definition same_vis_point (d d' : oi_fits) (x x' : datum vis_extra vis_record) : Prop :=
  let '(_, t, _, r, j) := x in let '(_, t', _, r', j') := x' in
  same_keywords t t' /\ vis_scalars_same r r' /\ same_wavelength d d' (tb_insname t) j j'
  /\ same_at (vr_visamp r) (vr_visamp r') j j' /\ same_at (vr_visamperr r) (vr_visamperr r') j j'
  /\ same_at (vr_visphi r) (vr_visphi r') j j' /\ same_at (vr_visphierr r) (vr_visphierr r') j j'.
Definition same_vis2_point (d d' : oi_fits) (x x' : datum unit vis2_record) : Prop :=
  let '(_, t, _, r, j) := x in let '(_, t', _, r', j') := x' in
  same_keywords t t' /\ same_wavelength d d' (tb_insname t) j j'
  /\ v2_time r' = v2_time r /\ v2_mjd r' = v2_mjd r /\ v2_int_time r' = v2_int_time r
  /\ v2_ucoord r' = v2_ucoord r /\ v2_vcoord r' = v2_vcoord r /\ v2_sta_index r' = v2_sta_index r
  /\ same_at (v2_vis2data r) (v2_vis2data r') j j' /\ same_at (v2_vis2err r) (v2_vis2err r') j j'.
(** The values of quantities the filter accepts *)
Definition same_t3_point (f : filter_spec) (d d' : oi_fits) (x x' : datum unit t3_record) : Prop :=
  let '(_, t, _, r, j) := x in let '(_, t', _, r', j') := x' in
  same_keywords t t' /\ same_wavelength d d' (tb_insname t) j j'
  /\ t3_time r' = t3_time r /\ t3_mjd r' = t3_mjd r /\ t3_int_time r' = t3_int_time r
  /\ t3_u1coord r' = t3_u1coord r /\ t3_v1coord r' = t3_v1coord r
  /\ t3_u2coord r' = t3_u2coord r /\ t3_v2coord r' = t3_v2coord r /\ t3_sta_index r' = t3_sta_index r
  /\ (f_accept_t3amp f = true -> same_at (t3_t3amp r) (t3_t3amp r') j j')
  /\ same_at (t3_t3amperr r) (t3_t3amperr r') j j'
  /\ (f_accept_t3phi f = true -> same_at (t3_t3phi r) (t3_t3phi r') j j')
  /\ same_at (t3_t3phierr r) (t3_t3phierr r') j j'.
