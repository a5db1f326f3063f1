(** Specification: one filter that does the work of two applied in turn. *)
From Verif Require Export FilterSpec.
From Verif Require Import FilterModel.

(** The range [hlo, hhi] excludes what either of the other two excludes, at each end *)
Definition joint_range (flo fhi glo ghi hlo hhi : spec_float) : Prop :=
  forall x, (SFltb x hlo = true <-> SFltb x flo = true \/ SFltb x glo = true)
         /\ (SFltb hhi x = true <-> SFltb fhi x = true \/ SFltb ghi x = true).
Definition joint_pattern (f g h : string) : Prop :=
  forall s, glob_match h s <-> glob_match f s /\ glob_match g s.

(** [g] accepts neither kind of OI_T3 quantity *)
Definition no_t3 (g : filter_spec) : Prop := f_accept_t3amp g = false /\ f_accept_t3phi g = false.

(** [h] asks for what both [f] and [g] ask for, and treats flagged data as [g] does; at
    most one of [f] and [g] chooses a target, or [g] chooses the one chosen by [f], whose
    id is 1 by then *)
Record joint_core (f g h : filter_spec) : Prop := mk_joint_core {
  jt_arrname : joint_pattern (f_arrname f) (f_arrname g) (f_arrname h);
  jt_insname : joint_pattern (f_insname f) (f_insname g) (f_insname h);
  jt_corrname : joint_pattern (f_corrname f) (f_corrname g) (f_corrname h);
  jt_target : f_target_id f < 0 /\ f_target_id h = f_target_id g
              \/ (f_target_id g < 0 \/ 0 <= f_target_id f /\ f_target_id g = 1)
                 /\ f_target_id h = f_target_id f;
  jt_mjd : joint_range (f_mjd_lo f) (f_mjd_hi f) (f_mjd_lo g) (f_mjd_hi g) (f_mjd_lo h) (f_mjd_hi h);
  jt_wave : joint_range (f_wave_lo f) (f_wave_hi f) (f_wave_lo g) (f_wave_hi g) (f_wave_lo h) (f_wave_hi h);
  jt_bas : joint_range (f_bas_lo f) (f_bas_hi f) (f_bas_lo g) (f_bas_hi g) (f_bas_lo h) (f_bas_hi h);
  jt_uvrad : joint_range (f_uvrad_lo f) (f_uvrad_hi f) (f_uvrad_lo g) (f_uvrad_hi g)
               (f_uvrad_lo h) (f_uvrad_hi h);
  jt_snr : joint_range (f_snr_lo f) (f_snr_hi f) (f_snr_lo g) (f_snr_hi g) (f_snr_lo h) (f_snr_hi h);
  jt_vis : f_accept_vis h = f_accept_vis f && f_accept_vis g;
  jt_vis2 : f_accept_vis2 h = f_accept_vis2 f && f_accept_vis2 g;
  jt_flux : f_accept_flux h = f_accept_flux f && f_accept_flux g;
  jt_t3amp : f_accept_t3amp h = f_accept_t3amp f && f_accept_t3amp g;
  jt_t3phi : f_accept_t3phi h = f_accept_t3phi f && f_accept_t3phi g;
  jt_flagged : f_accept_flagged h = f_accept_flagged g }.

(** The filters agree on whether closure phases are wanted and [g] does not drop closure
    amplitudes [f] wanted, unless one of them wants neither *)
Definition agree_t3 (f g : filter_spec) : Prop :=
  no_t3 f \/ no_t3 g
  \/ (f_accept_t3amp f = true -> f_accept_t3amp g = true) /\ f_accept_t3phi f = f_accept_t3phi g.
(** If [f] drops records without good data, so does [g] *)
Definition drops_after (f g : filter_spec) : Prop :=
  f_accept_flagged f = true \/ f_accept_flagged g = false.

Record joint (f g h : filter_spec) : Prop := mk_joint {
  jt_core : joint_core f g h;
  jt_t3 : agree_t3 f g;
  jt_drop : drops_after f g }.

(** What two filters must have in common for such a filter to exist *)
Record joinable (f g : filter_spec) : Prop := mk_joinable {
  ja_arrname : f_arrname f = "*"%string \/ f_arrname g = "*"%string \/ f_arrname f = f_arrname g;
  ja_insname : f_insname f = "*"%string \/ f_insname g = "*"%string \/ f_insname f = f_insname g;
  ja_corrname : f_corrname f = "*"%string \/ f_corrname g = "*"%string \/ f_corrname f = f_corrname g;
  ja_target : f_target_id f < 0 \/ f_target_id g < 0 \/ f_target_id g = 1;
  ja_t3 : agree_t3 f g;
  ja_drop : drops_after f g }.

(** The filter itself, but for the target *)
Definition set_target (id : Z) (f : filter_spec) : filter_spec :=
  mk_filter (f_arrname f) (f_insname f) (f_corrname f) id (f_mjd_lo f) (f_mjd_hi f)
    (f_wave_lo f) (f_wave_hi f) (f_bas_lo f) (f_bas_hi f) (f_uvrad_lo f) (f_uvrad_hi f)
    (f_snr_lo f) (f_snr_hi f) (f_accept_vis f) (f_accept_vis2 f) (f_accept_t3amp f)
    (f_accept_t3phi f) (f_accept_flux f) (f_accept_flagged f)
    (f_arrname_pttn f) (f_insname_pttn f) (f_corrname_pttn f).
