(** Specifications for oifilter.c.  They mention the filter specification, the data
    structures and floating-point comparison and arithmetic, not the filter code. *)
From Verif Require Export Types FileSpec.
From Verif Require Import FilterModel.

(** ** Selection *)

(** [m] consists of the [Q]-counterparts, in order, of exactly the elements of [l]
    that satisfy [P]. *)
Inductive kept {A B} (P : A -> Prop) (Q : A -> B -> Prop) : list A -> list B -> Prop :=
| kept_nil : kept P Q [] []
| kept_yes a b l m : P a -> Q a b -> kept P Q l m -> kept P Q (a :: l) (b :: m)
| kept_no a l m : ~ P a -> kept P Q l m -> kept P Q (a :: l) m.

(** Glob patterns *)
Inductive glob_match : string -> string -> Prop :=
| gm_nil : glob_match "" ""
| gm_star p s t : glob_match p t -> glob_match (String "*" p) (s ++ t)
| gm_any p c s : glob_match p s -> glob_match (String "?" p) (String c s)
| gm_char p c s : c <> "*"%char -> c <> "?"%char -> glob_match p s ->
    glob_match (String c p) (String c s).

(** Strictly outside a range; never true of a NaN *)
Definition beyond (lo hi x : spec_float) : Prop := SFltb x lo = true \/ SFltb hi x = true.

(** ** Channels *)

Definition chan_accepted (f : filter_spec) (w : oi_wavelength) (j : nat) : Prop :=
  exists x, nth_error (wv_eff_wave w) j = Some x /\ ~ beyond (f_wave_lo f) (f_wave_hi f) x.

(** [idx]: the numbers of the accepted channels of [w], in order *)
Definition accepted_channels (f : filter_spec) (w : oi_wavelength) (idx : list nat) : Prop :=
  kept (chan_accepted f w) eq (seq 0 (length (wv_eff_wave w))) idx.

(** Column [out] holds the entries of column [col] for the channels [idx] *)
Definition picks {A} (idx : list nat) (col out : list A) : Prop :=
  map (nth_error col) idx = map Some out.
Definition picks_opt {A} (idx : list nat) (col out : option (list A)) : Prop :=
  match col, out with
  | None, None => True
  | Some c, Some o => picks idx c o
  | _, _ => False
  end.
(** The same for a square matrix stored row by row *)
Definition picks_matrix {A} (n : nat) (idx : list nat) (col out : option (list A)) : Prop :=
  match col, out with
  | None, None => True
  | Some c, Some o =>
      length o = (length idx * length idx)%nat /\
      forall k m j l, nth_error idx k = Some j -> nth_error idx m = Some l ->
        nth_error o (k * length idx + m) = nth_error c (j * n + l)
        /\ nth_error c (j * n + l) <> None
  | _, _ => False
  end.

(** ** Kinds of data table *)

(** What the filter looks at in a record: target, date, projected baselines, flags;
    [bad f x r j]: channel [j], of wavelength [x], has its uv radius or SNR out of
    range. *)
Record kind (R : Type) := mk_kind {
  k_accept : filter_spec -> Prop;
  k_target : R -> Z;
  k_mjd : R -> f64;
  k_baselines : R -> list f64;
  k_flag : R -> list bool;
  k_bad : filter_spec -> f32 -> R -> nat -> Prop;
  k_drops_flagged : bool }.
Arguments k_accept {R}. Arguments k_target {R}. Arguments k_mjd {R}. Arguments k_baselines {R}.
Arguments k_flag {R}. Arguments k_bad {R}. Arguments k_drops_flagged {R}. Arguments mk_kind {R}.

Section Pow.
Variable pow_half : f64 -> f64. (* pow(x, 0.5) *)

(** Length of the vector (u, v), and a uv radius *)
Definition length_uv (u v : f64) : f64 := pow_half (f64_add (f64_mul u u) (f64_mul v v)).
Definition waves_of (bas : f64) (x : f32) : f64 := f64_div bas (to_f64 x).
Definition uvrad_beyond (f : filter_spec) (bas : f64) (x : f32) : Prop :=
  beyond (f_uvrad_lo f) (f_uvrad_hi f) (waves_of bas x).
(** SNR of an amplitude: value / error; of a phase in degrees: 1 rad / error *)
Definition snr_beyond (f : filter_spec) (value err : list f64) (j : nat) : Prop :=
  exists a e, nth_error value j = Some a /\ nth_error err j = Some e
    /\ beyond (f_snr_lo f) (f_snr_hi f) (to_f32 (f64_div a e)).
Definition phase_snr_beyond (f : filter_spec) (err : list f64) (j : nat) : Prop :=
  exists e, nth_error err j = Some e
    /\ beyond (f_snr_lo f) (f_snr_hi f) (to_f32 (f64_div c_rad2deg e)).

Definition vis_bas (r : vis_record) := length_uv (vr_ucoord r) (vr_vcoord r).
Definition kind_vis : kind vis_record :=
  mk_kind (fun f => f_accept_vis f = true) vr_target_id vr_mjd
    (fun r => [vis_bas r]) vr_flag
    (fun f x r j => uvrad_beyond f (vis_bas r) x \/ snr_beyond f (vr_visamp r) (vr_visamperr r) j
                    \/ phase_snr_beyond f (vr_visphierr r) j) true.

Definition vis2_bas (r : vis2_record) := length_uv (v2_ucoord r) (v2_vcoord r).
Definition kind_vis2 : kind vis2_record :=
  mk_kind (fun f => f_accept_vis2 f = true) v2_target_id v2_mjd
    (fun r => [vis2_bas r]) v2_flag
    (fun f x r j => uvrad_beyond f (vis2_bas r) x \/ snr_beyond f (v2_vis2data r) (v2_vis2err r) j)
    true.

Definition t3_bases (r : t3_record) : list f64 :=
  [length_uv (t3_u1coord r) (t3_v1coord r); length_uv (t3_u2coord r) (t3_v2coord r);
   length_uv (f64_add (t3_u1coord r) (t3_u2coord r)) (f64_add (t3_v1coord r) (t3_v2coord r))].
Definition kind_t3 : kind t3_record :=
  mk_kind (fun f => f_accept_t3amp f = true \/ f_accept_t3phi f = true) t3_target_id t3_mjd
    t3_bases t3_flag
    (fun f x r j => (exists b, In b (t3_bases r) /\ uvrad_beyond f b x)
       \/ f_accept_t3amp f = true /\ snr_beyond f (t3_t3amp r) (t3_t3amperr r) j
       \/ f_accept_t3phi f = true /\ phase_snr_beyond f (t3_t3phierr r) j) true.

(** OI_FLUX: no baselines; records are not dropped for being flagged *)
Definition kind_flux : kind flux_record :=
  mk_kind (fun f => f_accept_flux f = true) fr_target_id fr_mjd (fun _ => []) fr_flag
    (fun _ _ _ _ => False) false.
End Pow.

(** ** Which records and tables are kept *)

Definition target_accepted (f : filter_spec) (id : Z) : Prop :=
  f_target_id f < 0 \/ id = f_target_id f.

(** Some accepted, unflagged channel of the record is within range *)
Definition has_good_channel {R} (k : kind R) (f : filter_spec) (w : oi_wavelength) (r : R) : Prop :=
  exists j x, nth_error (wv_eff_wave w) j = Some x /\ chan_accepted f w j
    /\ nth_error (k_flag k r) j = Some false /\ ~ k_bad k f x r j.

Definition record_accepted {R} (k : kind R) (f : filter_spec) (w : oi_wavelength) (r : R) : Prop :=
  target_accepted f (k_target k r)
  /\ ~ beyond (f_mjd_lo f) (f_mjd_hi f) (k_mjd k r)
  /\ (forall b, In b (k_baselines k r) -> ~ beyond (f_bas_lo f) (f_bas_hi f) b)
  /\ (k_drops_flagged k = false \/ f_accept_flagged f = true \/ has_good_channel k f w r).

(** The OI_WAVELENGTH a table refers to *)
Definition instrument (d : oi_fits) (insname : string) (w : oi_wavelength) : Prop :=
  In w (o_wavelengthList d) /\ wv_insname w = insname.

Definition table_accepted {X R} (k : kind R) (f : filter_spec) (d : oi_fits) (t : dtab X R) : Prop :=
  k_accept k f
  /\ glob_match (f_arrname f) (tb_arrname t) /\ glob_match (f_insname f) (tb_insname t)
  /\ glob_match (f_corrname f) (tb_corrname t)
  /\ exists w, instrument d (tb_insname t) w
       /\ (exists j, chan_accepted f w j)
       /\ (exists r, In r (tb_record t) /\ record_accepted k f w r).

(** Table attributes apart from the rows and the number of channels *)
Definition same_keywords {X R} (t t' : dtab X R) : Prop :=
  tb_revision t' = tb_revision t /\ tb_date_obs t' = tb_date_obs t /\ tb_arrname t' = tb_arrname t
  /\ tb_insname t' = tb_insname t /\ tb_corrname t' = tb_corrname t /\ tb_x t' = tb_x t.

(** [l'] holds, in order, the accepted tables of [l] with their accepted records;
    records correspond by [Q], which may depend on the OI_WAVELENGTH *)
Definition filtered_tables {X R} (k : kind R) (f : filter_spec) (d : oi_fits)
  (Q : dtab X R -> oi_wavelength -> R -> R -> Prop) (l l' : list (dtab X R)) : Prop :=
  kept (table_accepted k f d)
    (fun t t' => same_keywords t t' /\
       exists w, instrument d (tb_insname t) w
         /\ kept (record_accepted k f w) (Q t w) (tb_record t) (tb_record t')
         /\ tb_numrec t' = Z.of_nat (length (tb_record t')))
    l l'.

(** ** Content of a kept record *)

Definition new_id (f : filter_spec) (id id' : Z) : Prop :=
  (f_target_id f < 0 -> id' = id) /\ (0 <= f_target_id f -> id' = 1).

Definition vis_scalars_same (r r' : vis_record) : Prop :=
  vr_time r' = vr_time r /\ vr_mjd r' = vr_mjd r /\ vr_int_time r' = vr_int_time r
  /\ vr_corrindx_visamp r' = vr_corrindx_visamp r /\ vr_corrindx_visphi r' = vr_corrindx_visphi r
  /\ vr_corrindx_rvis r' = vr_corrindx_rvis r /\ vr_corrindx_ivis r' = vr_corrindx_ivis r
  /\ vr_ucoord r' = vr_ucoord r /\ vr_vcoord r' = vr_vcoord r /\ vr_sta_index r' = vr_sta_index r.
Definition vis_data_kept (f : filter_spec) (n : nat) (idx : list nat) (r r' : vis_record) : Prop :=
  new_id f (vr_target_id r) (vr_target_id r') /\ vis_scalars_same r r'
  /\ picks idx (vr_visamp r) (vr_visamp r') /\ picks idx (vr_visamperr r) (vr_visamperr r')
  /\ picks idx (vr_visphi r) (vr_visphi r') /\ picks idx (vr_visphierr r) (vr_visphierr r')
  /\ picks_matrix n idx (vr_visrefmap r) (vr_visrefmap r')
  /\ picks_opt idx (vr_rvis r) (vr_rvis r') /\ picks_opt idx (vr_rviserr r) (vr_rviserr r')
  /\ picks_opt idx (vr_ivis r) (vr_ivis r') /\ picks_opt idx (vr_iviserr r) (vr_iviserr r').

Definition vis2_data_kept (f : filter_spec) (idx : list nat) (r r' : vis2_record) : Prop :=
  new_id f (v2_target_id r) (v2_target_id r')
  /\ v2_time r' = v2_time r /\ v2_mjd r' = v2_mjd r /\ v2_int_time r' = v2_int_time r
  /\ v2_corrindx_vis2data r' = v2_corrindx_vis2data r
  /\ v2_ucoord r' = v2_ucoord r /\ v2_vcoord r' = v2_vcoord r /\ v2_sta_index r' = v2_sta_index r
  /\ picks idx (v2_vis2data r) (v2_vis2data r') /\ picks idx (v2_vis2err r) (v2_vis2err r').

(** A column whose kind of quantity the caller rejected becomes all NaN *)
Definition picks_or_nan (accepted : bool) (idx : list nat) (col out : list f64) : Prop :=
  if accepted then picks idx col out else out = map (fun _ => f64_nan) idx.
Definition t3_data_kept (f : filter_spec) (idx : list nat) (r r' : t3_record) : Prop :=
  new_id f (t3_target_id r) (t3_target_id r')
  /\ t3_time r' = t3_time r /\ t3_mjd r' = t3_mjd r /\ t3_int_time r' = t3_int_time r
  /\ t3_corrindx_t3amp r' = t3_corrindx_t3amp r /\ t3_corrindx_t3phi r' = t3_corrindx_t3phi r
  /\ t3_u1coord r' = t3_u1coord r /\ t3_v1coord r' = t3_v1coord r
  /\ t3_u2coord r' = t3_u2coord r /\ t3_v2coord r' = t3_v2coord r
  /\ t3_sta_index r' = t3_sta_index r
  /\ picks_or_nan (f_accept_t3amp f) idx (t3_t3amp r) (t3_t3amp r')
  /\ picks idx (t3_t3amperr r) (t3_t3amperr r')
  /\ picks_or_nan (f_accept_t3phi f) idx (t3_t3phi r) (t3_t3phi r')
  /\ picks idx (t3_t3phierr r) (t3_t3phierr r').

(** OI_FLUX: a datum whose SNR is out of range becomes NaN *)
Definition flux_data_kept (f : filter_spec) (idx : list nat) (r r' : flux_record) : Prop :=
  new_id f (fr_target_id r) (fr_target_id r')
  /\ fr_mjd r' = fr_mjd r /\ fr_int_time r' = fr_int_time r
  /\ fr_corrindx_fluxdata r' = fr_corrindx_fluxdata r /\ fr_sta_index r' = fr_sta_index r
  /\ picks idx (fr_fluxerr r) (fr_fluxerr r')
  /\ length (fr_fluxdata r') = length idx
  /\ (forall k j, nth_error idx k = Some j ->
        (snr_beyond f (fr_fluxdata r) (fr_fluxerr r) j ->
           nth_error (fr_fluxdata r') k = Some f64_nan)
        /\ (~ snr_beyond f (fr_fluxdata r) (fr_fluxerr r) j ->
           nth_error (fr_fluxdata r') k = nth_error (fr_fluxdata r) j)).

(** ** Flags *)
Definition flags_updated {R} (k : kind R) (f : filter_spec) (w : oi_wavelength) (idx : list nat)
  (r r' : R) : Prop :=
  length (k_flag k r') = length idx /\
  forall m j x, nth_error idx m = Some j -> nth_error (wv_eff_wave w) j = Some x ->
    exists b b', nth_error (k_flag k r) j = Some b /\ nth_error (k_flag k r') m = Some b'
      /\ (b' = true <-> b = true \/ k_bad k f x r j).

(** ** Names in use *)

Definition uses_insname (d : oi_fits) (name : string) : Prop :=
  (exists t, In t (o_visList d) /\ tb_insname t = name)
  \/ (exists t, In t (o_vis2List d) /\ tb_insname t = name)
  \/ (exists t, In t (o_t3List d) /\ tb_insname t = name)
  \/ (exists t, In t (o_fluxList d) /\ tb_insname t = name).
Definition uses_arrname (d : oi_fits) (name : string) : Prop :=
  name <> ""%string /\
  ((exists t, In t (o_visList d) /\ tb_arrname t = name)
  \/ (exists t, In t (o_vis2List d) /\ tb_arrname t = name)
  \/ (exists t, In t (o_t3List d) /\ tb_arrname t = name)
  \/ (exists t, In t (o_fluxList d) /\ tb_arrname t = name)).
Definition uses_corrname (d : oi_fits) (name : string) : Prop :=
  name <> ""%string /\
  ((exists t, In t (o_visList d) /\ tb_corrname t = name)
  \/ (exists t, In t (o_vis2List d) /\ tb_corrname t = name)
  \/ (exists t, In t (o_t3List d) /\ tb_corrname t = name)
  \/ (exists t, In t (o_fluxList d) /\ tb_corrname t = name)).

(** ** Consistent datasets *)

(** A data table has rows, and as many channels as the OI_WAVELENGTH it names (if
    present) *)
Definition table_ready {X R} (d : oi_fits) (t : dtab X R) : Prop :=
  0 < tb_numrec t /\
  forall w, instrument d (tb_insname t) w -> wv_nwave w = tb_nwave t.

Record consistent (d : oi_fits) : Prop := mk_consistent {
  cs_wf : wf_fits d = true;
  cs_targets : 0 < ot_ntarget (o_targets d);
  cs_arrays : forall a, In a (o_arrayList d) -> 0 < ar_nelement a;
  cs_corrs : forall c, In c (o_corrList d) -> 0 < co_ncorr c;
  cs_waves : forall w, In w (o_wavelengthList d) -> 0 < wv_nwave w /\ fits_value (wv_insname w) = true;
  (* INSNAMEs are unique, and lookup by INSNAME works for the names in use *)
  cs_unique : NoDup (map wv_insname (o_wavelengthList d));
  cs_index : forall w, In w (o_wavelengthList d) -> uses_insname d (wv_insname w) ->
     hash_lookup (o_wavelengthHash d) (wv_insname w) = Some w;
  cs_vis : forall t, In t (o_visList d) -> table_ready d t;
  cs_vis2 : forall t, In t (o_vis2List d) -> table_ready d t;
  cs_t3 : forall t, In t (o_t3List d) -> table_ready d t;
  cs_flux : forall t, In t (o_fluxList d) -> table_ready d t;
  (* an OI_INSPOL table has rows, all for one instrument *)
  cs_inspol : forall t, In t (o_inspolList d) -> 0 < is_numrec t /\
     exists name, (forall r, In r (is_record t) -> ip_insname r = name) /\
       forall w, instrument d name w -> wv_nwave w = is_nwave t }.

(** The filter has not been left half-used (its compiled patterns are unset) *)
Definition fresh_filter (f : filter_spec) : Prop :=
  f_arrname_pttn f = None /\ f_insname_pttn f = None /\ f_corrname_pttn f = None.

(** ** OI_WAVELENGTH and OI_INSPOL *)

Definition wave_filtered (f : filter_spec) (w w' : oi_wavelength) : Prop :=
  wv_revision w' = wv_revision w /\ wv_insname w' = wv_insname w
  /\ exists idx, accepted_channels f w idx
       /\ picks idx (wv_eff_wave w) (wv_eff_wave w') /\ picks idx (wv_eff_band w) (wv_eff_band w')
       /\ wv_nwave w' = Z.of_nat (length idx).

Definition inspol_record_accepted (f : filter_spec) (d : oi_fits) (r : inspol_record) : Prop :=
  target_accepted f (ip_target_id r) /\ glob_match (f_insname f) (ip_insname r)
  /\ ~ (SFltb (ip_mjd_end r) (f_mjd_lo f) = true) /\ ~ (SFltb (f_mjd_hi f) (ip_mjd_obs r) = true)
  /\ exists w j, instrument d (ip_insname r) w /\ chan_accepted f w j.
Definition inspol_record_kept (f : filter_spec) (d : oi_fits) (r r' : inspol_record) : Prop :=
  new_id f (ip_target_id r) (ip_target_id r') /\ ip_insname r' = ip_insname r
  /\ ip_mjd_obs r' = ip_mjd_obs r /\ ip_mjd_end r' = ip_mjd_end r
  /\ ip_sta_index r' = ip_sta_index r
  /\ exists w idx, instrument d (ip_insname r) w /\ accepted_channels f w idx
       /\ picks idx (ip_jxx r) (ip_jxx r') /\ picks idx (ip_jyy r) (ip_jyy r')
       /\ picks idx (ip_jxy r) (ip_jxy r') /\ picks idx (ip_jyx r) (ip_jyx r').
Definition inspol_accepted (f : filter_spec) (d d' : oi_fits) (t : oi_inspol) : Prop :=
  glob_match (f_arrname f) (is_arrname t)
  /\ (exists r, In r (is_record t) /\ inspol_record_accepted f d r)
  /\ uses_arrname d' (is_arrname t).
Definition inspol_filtered (f : filter_spec) (d : oi_fits) (t t' : oi_inspol) : Prop :=
  is_revision t' = is_revision t /\ is_date_obs t' = is_date_obs t /\ is_npol t' = is_npol t
  /\ is_arrname t' = is_arrname t /\ is_orient t' = is_orient t /\ is_model t' = is_model t
  /\ is_numrec t' = Z.of_nat (length (is_record t'))
  /\ kept (inspol_record_accepted f d) (inspol_record_kept f d) (is_record t) (is_record t').

(** ** Whole datasets *)

(** Same content: header, tables, counts, and results of lookup by name *)
Definition same_lookups (d d' : oi_fits) : Prop :=
  forall n, hash_lookup (o_arrayHash d') n = hash_lookup (o_arrayHash d) n
    /\ hash_lookup (o_wavelengthHash d') n = hash_lookup (o_wavelengthHash d) n
    /\ hash_lookup (o_corrHash d') n = hash_lookup (o_corrHash d) n.
Definition same_data (d d' : oi_fits) : Prop :=
  o_header d' = o_header d /\ o_targets d' = o_targets d
  /\ o_visList d' = o_visList d /\ o_vis2List d' = o_vis2List d
  /\ o_t3List d' = o_t3List d /\ o_fluxList d' = o_fluxList d.
Definition same_config (d d' : oi_fits) : Prop :=
  o_arrayList d' = o_arrayList d /\ o_wavelengthList d' = o_wavelengthList d
  /\ o_corrList d' = o_corrList d.

(** A filter that selects by nothing but numerical ranges *)
Definition open_filter (f : filter_spec) : Prop :=
  f_arrname f = "*"%string /\ f_insname f = "*"%string /\ f_corrname f = "*"%string
  /\ f_target_id f < 0 /\ f_accept_vis f = true /\ f_accept_vis2 f = true
  /\ f_accept_t3amp f = true /\ f_accept_t3phi f = true /\ f_accept_flux f = true
  /\ f_accept_flagged f = true.
(** Everything in the table is within the ranges *)
Definition table_within {X R} (k : kind R) (f : filter_spec) (d : oi_fits) (t : dtab X R) : Prop :=
  exists w, instrument d (tb_insname t) w /\
    forall r, In r (tb_record t) ->
      ~ beyond (f_mjd_lo f) (f_mjd_hi f) (k_mjd k r)
      /\ (forall b, In b (k_baselines k r) -> ~ beyond (f_bas_lo f) (f_bas_hi f) b)
      /\ (forall j x, nth_error (wv_eff_wave w) j = Some x -> ~ k_bad k f x r j).
Record within (pow_half : f64 -> f64) (f : filter_spec) (d : oi_fits) : Prop := mk_within {
  wi_waves : forall w x, In w (o_wavelengthList d) -> In x (wv_eff_wave w) ->
     ~ beyond (f_wave_lo f) (f_wave_hi f) x;
  wi_vis : forall t, In t (o_visList d) -> table_within (kind_vis pow_half) f d t;
  wi_vis2 : forall t, In t (o_vis2List d) -> table_within (kind_vis2 pow_half) f d t;
  wi_t3 : forall t, In t (o_t3List d) -> table_within (kind_t3 pow_half) f d t;
  wi_flux : forall t, In t (o_fluxList d) -> table_within kind_flux f d t
     /\ forall r j, In r (tb_record t) -> ~ snr_beyond f (fr_fluxdata r) (fr_fluxerr r) j;
  wi_inspol : forall t r, In t (o_inspolList d) -> In r (is_record t) ->
     ~ (SFltb (ip_mjd_end r) (f_mjd_lo f) = true) /\ ~ (SFltb (f_mjd_hi f) (ip_mjd_obs r) = true)
     /\ exists w, instrument d (ip_insname r) w }.

(** A record and its filtered version are of the same observation *)
Definition same_observation {R} (k : kind R) (r r' : R) : Prop :=
  k_mjd k r' = k_mjd k r /\ k_baselines k r' = k_baselines k r.

(** Some record of the dataset is of the target with this id *)
Definition record_target (d : oi_fits) (id : Z) : Prop :=
  (exists t r, In t (o_visList d) /\ In r (tb_record t) /\ vr_target_id r = id)
  \/ (exists t r, In t (o_vis2List d) /\ In r (tb_record t) /\ v2_target_id r = id)
  \/ (exists t r, In t (o_t3List d) /\ In r (tb_record t) /\ t3_target_id r = id)
  \/ (exists t r, In t (o_fluxList d) /\ In r (tb_record t) /\ fr_target_id r = id)
  \/ (exists t r, In t (o_inspolList d) /\ In r (is_record t) /\ ip_target_id r = id).

(** A character of a string *)
Fixpoint InString (c : Ascii.ascii) (s : string) : Prop :=
  match s with EmptyString => False | String c' s' => c = c' \/ InString c s' end.
