(** Specification: options of oifits-filter given in one command or in two. *)
From Verif Require Export ToolModel ToolSpec FilterThenSpec TwiceSpec.
Open Scope list_scope.
Open Scope Z_scope.

(** Two options are for the same thing if they set the same one of the 20 members of the filter. *)
Inductive same_option : filter_option -> filter_option -> Prop :=
| so_arrname s s' : same_option (Arrname s) (Arrname s')
| so_insname s s' : same_option (Insname s) (Insname s')
| so_corrname s s' : same_option (Corrname s) (Corrname s')
| so_target_id z z' : same_option (Target_id z) (Target_id z')
| so_mjd_min x x' : same_option (Mjd_min x) (Mjd_min x')
| so_mjd_max x x' : same_option (Mjd_max x) (Mjd_max x')
| so_wave_min x x' : same_option (Wave_min x) (Wave_min x')
| so_wave_max x x' : same_option (Wave_max x) (Wave_max x')
| so_bas_min x x' : same_option (Bas_min x) (Bas_min x')
| so_bas_max x x' : same_option (Bas_max x) (Bas_max x')
| so_uvrad_min x x' : same_option (Uvrad_min x) (Uvrad_min x')
| so_uvrad_max x x' : same_option (Uvrad_max x) (Uvrad_max x')
| so_snr_min x x' : same_option (Snr_min x) (Snr_min x')
| so_snr_max x x' : same_option (Snr_max x) (Snr_max x')
| so_vis z z' : same_option (Accept_vis z) (Accept_vis z')
| so_vis2 z z' : same_option (Accept_vis2 z) (Accept_vis2 z')
| so_t3amp z z' : same_option (Accept_t3amp z) (Accept_t3amp z')
| so_t3phi z z' : same_option (Accept_t3phi z) (Accept_t3phi z')
| so_flux z z' : same_option (Accept_flux z) (Accept_flux z')
| so_flagged z z' : same_option (Accept_flagged z) (Accept_flagged z').

(** No number allowed by [g] is outside a range of [f]. *)
Definition inside (flo fhi glo ghi : spec_float) : Prop :=
  forall x, (SFltb x flo = true -> SFltb x glo = true) /\ (SFltb fhi x = true -> SFltb ghi x = true).
Record ranges_inside (f g : filter_spec) : Prop := mk_ranges_inside {
  ri_mjd : inside (f_mjd_lo f) (f_mjd_hi f) (f_mjd_lo g) (f_mjd_hi g);
  ri_wave : inside (f_wave_lo f) (f_wave_hi f) (f_wave_lo g) (f_wave_hi g);
  ri_bas : inside (f_bas_lo f) (f_bas_hi f) (f_bas_lo g) (f_bas_hi g);
  ri_uvrad : inside (f_uvrad_lo f) (f_uvrad_hi f) (f_uvrad_lo g) (f_uvrad_hi g);
  ri_snr : inside (f_snr_lo f) (f_snr_hi f) (f_snr_lo g) (f_snr_hi g) }.
(** The option does not widen a range beyond what oifits-filter allows without options. *)
Definition narrows (op : filter_option) : Prop := ranges_inside (user_filter []) (user_filter [op]).

(** The options [opts1] and [opts2] can be given in one command or in two: they are for different
    things, the first command does not ask for flagged data to be dropped, and they agree on
    closure quantities. *)
Record separate (opts1 opts2 : list filter_option) : Prop := mk_separate {
  sp_different : forall a b, In a opts1 -> In b opts2 -> ~ same_option a b;
  sp_narrows : Forall narrows (opts1 ++ opts2);
  sp_flagged : forall z, ~ In (Accept_flagged z) opts1;
  sp_t3 : agree_t3 (user_filter opts1) (user_filter opts2) }.
