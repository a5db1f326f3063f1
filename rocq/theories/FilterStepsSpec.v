(** Filtering in steps: [joint] (FilterThenSpec) as the proofs use it. *)
From Verif Require Import FilterModel FilterSpec FilterThenSpec.

(** [lo] excludes from below what either bound excludes; [hi], from above *)
Definition both_lows (lo1 lo2 lo : spec_float) : Prop :=
  forall x, SFltb x lo = true <-> SFltb x lo1 = true \/ SFltb x lo2 = true.
Definition both_highs (hi1 hi2 hi : spec_float) : Prop :=
  forall x, SFltb hi x = true <-> SFltb hi1 x = true \/ SFltb hi2 x = true.
Definition both_ranges (lo hi : filter_spec -> spec_float) (f1 f2 g : filter_spec) : Prop :=
  both_lows (lo f1) (lo f2) (lo g) /\ both_highs (hi f1) (hi f2) (hi g).
(** [p] matches what both patterns match *)
Definition both_names (p1 p2 p : string) : Prop :=
  forall n, glob_match p n <-> glob_match p1 n /\ glob_match p2 n.

(** [g] asks for what [f1] and then [f2] ask for.  A selected target has id 1 afterwards;
    if the first filter drops records that have nothing but flagged data, so must the
    second; as for closure quantities, either one filter drops OI_T3 or they agree on
    T3PHI and the second does not drop T3AMP unless the first does. *)
Record in_steps (f1 f2 g : filter_spec) : Prop := mk_in_steps {
  st_arrname : both_names (f_arrname f1) (f_arrname f2) (f_arrname g);
  st_insname : both_names (f_insname f1) (f_insname f2) (f_insname g);
  st_corrname : both_names (f_corrname f1) (f_corrname f2) (f_corrname g);
  st_target : (f_target_id f1 < 0 /\ (f_target_id g = f_target_id f2 \/ f_target_id g < 0 /\ f_target_id f2 < 0))
    \/ (0 <= f_target_id f1 /\ f_target_id g = f_target_id f1
        /\ (f_target_id f2 < 0 \/ f_target_id f2 = 1));
  st_mjd : both_ranges f_mjd_lo f_mjd_hi f1 f2 g;
  st_wave : both_ranges f_wave_lo f_wave_hi f1 f2 g;
  st_bas : both_ranges f_bas_lo f_bas_hi f1 f2 g;
  st_uvrad : both_ranges f_uvrad_lo f_uvrad_hi f1 f2 g;
  st_snr : both_ranges f_snr_lo f_snr_hi f1 f2 g;
  st_vis : f_accept_vis g = f_accept_vis f1 && f_accept_vis f2;
  st_vis2 : f_accept_vis2 g = f_accept_vis2 f1 && f_accept_vis2 f2;
  st_t3amp : f_accept_t3amp g = f_accept_t3amp f1 && f_accept_t3amp f2;
  st_t3phi : f_accept_t3phi g = f_accept_t3phi f1 && f_accept_t3phi f2;
  st_flux : f_accept_flux g = f_accept_flux f1 && f_accept_flux f2;
  st_flagged : f_accept_flagged g = f_accept_flagged f2;
  st_flagged_order : f_accept_flagged f2 = true -> f_accept_flagged f1 = true;
  st_t3_order : no_t3 f1 \/ no_t3 f2
    \/ (f_accept_t3phi f1 = f_accept_t3phi f2
        /\ (f_accept_t3amp f1 = true -> f_accept_t3amp f2 = true)) }.

(** The selected target, if any, exists *)
Definition selects_target (d : oi_fits) (f : filter_spec) : Prop :=
  f_target_id f < 0 \/ exists x, In x (ot_targ (o_targets d)) /\ tg_target_id x = f_target_id f.

(** The rows of the OI_INSPOL tables are for instruments some data table uses *)
Definition inspol_used (d : oi_fits) : Prop :=
  forall t r, In t (o_inspolList d) -> In r (is_record t) -> uses_insname d (ip_insname r).
