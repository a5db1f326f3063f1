(** Data structures of exchange.h and oifile.h.

    Conventions: a pointer to an array is the list of its elements; counts are
    separate fields as in C.  BOOL (char) is [bool]: zero/non-zero.  A pointer
    that may be NULL is an [option].  [char s[N]] is a [string]. *)
From Verif Require Export Base FloatModel.

(** exchange.h 76-95 *)
Record oi_header := mk_header {
  h_origin : string; h_date : string; h_date_obs : string; h_content : string;
  h_telescop : string; h_instrume : string; h_observer : string;
  h_insmode : string; h_object : string;
  h_referenc : string; h_author : string; h_prog_id : string;
  h_procsoft : string; h_obstech : string }.

(** exchange.h 98-108 *)
Record element := mk_element {
  el_tel_name : string; el_sta_name : string; el_sta_index : Z;
  el_diameter : f32; el_staxyz : f64 * f64 * f64; el_fov : f64;
  el_fovtype : string }.

(** exchange.h 111-120 *)
Record oi_array := mk_array {
  ar_revision : Z; ar_arrname : string; ar_frame : string;
  ar_arrayx : f64; ar_arrayy : f64; ar_arrayz : f64;
  ar_nelement : Z; ar_elem : list element }.

(** exchange.h 126-141 *)
Record target := mk_target {
  tg_target_id : Z; tg_target : string;
  tg_raep0 : f64; tg_decep0 : f64; tg_equinox : f32;
  tg_ra_err : f64; tg_dec_err : f64; tg_sysvel : f64;
  tg_veltyp : string; tg_veldef : string;
  tg_pmra : f64; tg_pmdec : f64; tg_pmra_err : f64; tg_pmdec_err : f64;
  tg_parallax : f32; tg_para_err : f32;
  tg_spectyp : string; tg_category : string }.

(** exchange.h 144-151 *)
Record oi_target := mk_oi_target {
  ot_revision : Z; ot_ntarget : Z; ot_targ : list target; ot_usecategory : bool }.

(** exchange.h 154-162 *)
Record oi_wavelength := mk_wavelength {
  wv_revision : Z; wv_insname : string; wv_nwave : Z;
  wv_eff_wave : list f32; wv_eff_band : list f32 }.

(** exchange.h 165-175 *)
Record oi_corr := mk_corr {
  co_revision : Z; co_corrname : string; co_ndata : Z; co_ncorr : Z;
  co_iindx : list Z; co_jindx : list Z; co_corr : list f64 }.

(** exchange.h 178-190; float complex = (re, im) *)
Definition cplx := (f32 * f32)%type.
Record inspol_record := mk_inspol_record {
  ip_target_id : Z; ip_insname : string; ip_mjd_obs : f64; ip_mjd_end : f64;
  ip_jxx : list cplx; ip_jyy : list cplx; ip_jxy : list cplx; ip_jyx : list cplx;
  ip_sta_index : Z }.

(** exchange.h 193-205 *)
Record oi_inspol := mk_inspol {
  is_revision : Z; is_date_obs : string; is_npol : Z; is_arrname : string;
  is_orient : string; is_model : string; is_numrec : Z; is_nwave : Z;
  is_record : list inspol_record }.

(** exchange.h 209-228 *)
Record vis_record := mk_vis_record {
  vr_target_id : Z; vr_time : f64; vr_mjd : f64; vr_int_time : f64;
  vr_visamp : list f64; vr_visamperr : list f64; vr_corrindx_visamp : Z;
  vr_visphi : list f64; vr_visphierr : list f64; vr_corrindx_visphi : Z;
  vr_visrefmap : option (list bool);
  vr_rvis : option (list f64); vr_rviserr : option (list f64); vr_corrindx_rvis : Z;
  vr_ivis : option (list f64); vr_iviserr : option (list f64); vr_corrindx_ivis : Z;
  vr_ucoord : f64; vr_vcoord : f64; vr_sta_index : Z * Z;
  vr_flag : list bool }.

(** exchange.h 254-266 *)
Record vis2_record := mk_vis2_record {
  v2_target_id : Z; v2_time : f64; v2_mjd : f64; v2_int_time : f64;
  v2_vis2data : list f64; v2_vis2err : list f64; v2_corrindx_vis2data : Z;
  v2_ucoord : f64; v2_vcoord : f64; v2_sta_index : Z * Z;
  v2_flag : list bool }.

(** exchange.h 283-297 *)
Record t3_record := mk_t3_record {
  t3_target_id : Z; t3_time : f64; t3_mjd : f64; t3_int_time : f64;
  t3_t3amp : list f64; t3_t3amperr : list f64; t3_corrindx_t3amp : Z;
  t3_t3phi : list f64; t3_t3phierr : list f64; t3_corrindx_t3phi : Z;
  t3_u1coord : f64; t3_v1coord : f64; t3_u2coord : f64; t3_v2coord : f64;
  t3_sta_index : Z * Z * Z; t3_flag : list bool }.

(** exchange.h 314-326 *)
Record flux_record := mk_flux_record {
  fr_target_id : Z; fr_mjd : f64; fr_int_time : f64;
  fr_fluxdata : list f64; fr_fluxerr : list f64; fr_corrindx_fluxdata : Z;
  fr_sta_index : Z; fr_flag : list bool }.

(** The four data table structs (exchange.h 231-250 oi_vis, 269-280 oi_vis2,
    300-311 oi_t3, 329-344 oi_flux) share these fields; [tb_x] holds the fields
    particular to oi_vis and oi_flux. The field order in memory is not kept. *)
Record dtab (X R : Type) := mk_dtab {
  tb_revision : Z; tb_date_obs : string; tb_arrname : string;
  tb_insname : string; tb_corrname : string; tb_x : X;
  tb_numrec : Z; tb_nwave : Z; tb_record : list R }.
Arguments mk_dtab {X R}.
Arguments tb_revision {X R}. Arguments tb_date_obs {X R}. Arguments tb_arrname {X R}.
Arguments tb_insname {X R}. Arguments tb_corrname {X R}. Arguments tb_x {X R}.
Arguments tb_numrec {X R}. Arguments tb_nwave {X R}. Arguments tb_record {X R}.

(** exchange.h 238-245 *)
Record vis_extra := mk_vis_extra {
  vx_amptyp : string; vx_phityp : string; vx_amporder : Z; vx_phiorder : Z;
  vx_usevisrefmap : bool; vx_usecomplex : bool;
  vx_complexunit : string; vx_ampunit : string }.
(** exchange.h 336-339 *)
Record flux_extra := mk_flux_extra {
  fx_fov : f64; fx_fovtype : string; fx_calstat : ascii; fx_fluxunit : string }.

Definition oi_vis := dtab vis_extra vis_record.
Definition oi_vis2 := dtab unit vis2_record.
Definition oi_t3 := dtab unit t3_record.
Definition oi_flux := dtab flux_extra flux_record.

(** oifile.h, struct oi_fits *)
Record oi_fits := mk_fits {
  o_header : oi_header; o_targets : oi_target;
  o_numArray : Z; o_numWavelength : Z; o_numCorr : Z; o_numInspol : Z;
  o_numVis : Z; o_numVis2 : Z; o_numT3 : Z; o_numFlux : Z;
  o_arrayList : list oi_array; o_wavelengthList : list oi_wavelength;
  o_corrList : list oi_corr; o_inspolList : list oi_inspol;
  o_visList : list oi_vis; o_vis2List : list oi_vis2;
  o_t3List : list oi_t3; o_fluxList : list oi_flux;
  o_arrayHash : hash oi_array; o_wavelengthHash : hash oi_wavelength;
  o_corrHash : hash oi_corr }.

(** ** Setters for the fields the code assigns *)

Section DtabSetters.
Context {X R : Type}.
Implicit Types t : dtab X R.
Definition set_revision (v : Z) t := mk_dtab v (tb_date_obs t) (tb_arrname t) (tb_insname t)
  (tb_corrname t) (tb_x t) (tb_numrec t) (tb_nwave t) (tb_record t).
Definition set_arrname (v : string) t := mk_dtab (tb_revision t) (tb_date_obs t) v (tb_insname t)
  (tb_corrname t) (tb_x t) (tb_numrec t) (tb_nwave t) (tb_record t).
Definition set_insname (v : string) t := mk_dtab (tb_revision t) (tb_date_obs t) (tb_arrname t) v
  (tb_corrname t) (tb_x t) (tb_numrec t) (tb_nwave t) (tb_record t).
Definition set_corrname (v : string) t := mk_dtab (tb_revision t) (tb_date_obs t) (tb_arrname t)
  (tb_insname t) v (tb_x t) (tb_numrec t) (tb_nwave t) (tb_record t).
Definition set_record (v : list R) t := mk_dtab (tb_revision t) (tb_date_obs t) (tb_arrname t)
  (tb_insname t) (tb_corrname t) (tb_x t) (tb_numrec t) (tb_nwave t) v.
Definition set_numrec (v : Z) t := mk_dtab (tb_revision t) (tb_date_obs t) (tb_arrname t)
  (tb_insname t) (tb_corrname t) (tb_x t) v (tb_nwave t) (tb_record t).
Definition set_nwave (v : Z) t := mk_dtab (tb_revision t) (tb_date_obs t) (tb_arrname t)
  (tb_insname t) (tb_corrname t) (tb_x t) (tb_numrec t) v (tb_record t).
End DtabSetters.

Definition vr_set_target_id (v : Z) (r : vis_record) := mk_vis_record v (vr_time r) (vr_mjd r)
  (vr_int_time r) (vr_visamp r) (vr_visamperr r) (vr_corrindx_visamp r) (vr_visphi r)
  (vr_visphierr r) (vr_corrindx_visphi r) (vr_visrefmap r) (vr_rvis r) (vr_rviserr r)
  (vr_corrindx_rvis r) (vr_ivis r) (vr_iviserr r) (vr_corrindx_ivis r) (vr_ucoord r)
  (vr_vcoord r) (vr_sta_index r) (vr_flag r).
Definition vr_set_time (v : f64) (r : vis_record) := mk_vis_record (vr_target_id r) v (vr_mjd r)
  (vr_int_time r) (vr_visamp r) (vr_visamperr r) (vr_corrindx_visamp r) (vr_visphi r)
  (vr_visphierr r) (vr_corrindx_visphi r) (vr_visrefmap r) (vr_rvis r) (vr_rviserr r)
  (vr_corrindx_rvis r) (vr_ivis r) (vr_iviserr r) (vr_corrindx_ivis r) (vr_ucoord r)
  (vr_vcoord r) (vr_sta_index r) (vr_flag r).
Definition v2_set_target_id (v : Z) (r : vis2_record) := mk_vis2_record v (v2_time r) (v2_mjd r)
  (v2_int_time r) (v2_vis2data r) (v2_vis2err r) (v2_corrindx_vis2data r) (v2_ucoord r)
  (v2_vcoord r) (v2_sta_index r) (v2_flag r).
Definition v2_set_time (v : f64) (r : vis2_record) := mk_vis2_record (v2_target_id r) v (v2_mjd r)
  (v2_int_time r) (v2_vis2data r) (v2_vis2err r) (v2_corrindx_vis2data r) (v2_ucoord r)
  (v2_vcoord r) (v2_sta_index r) (v2_flag r).
Definition t3_set_target_id (v : Z) (r : t3_record) := mk_t3_record v (t3_time r) (t3_mjd r)
  (t3_int_time r) (t3_t3amp r) (t3_t3amperr r) (t3_corrindx_t3amp r) (t3_t3phi r) (t3_t3phierr r)
  (t3_corrindx_t3phi r) (t3_u1coord r) (t3_v1coord r) (t3_u2coord r) (t3_v2coord r)
  (t3_sta_index r) (t3_flag r).
Definition t3_set_time (v : f64) (r : t3_record) := mk_t3_record (t3_target_id r) v (t3_mjd r)
  (t3_int_time r) (t3_t3amp r) (t3_t3amperr r) (t3_corrindx_t3amp r) (t3_t3phi r) (t3_t3phierr r)
  (t3_corrindx_t3phi r) (t3_u1coord r) (t3_v1coord r) (t3_u2coord r) (t3_v2coord r)
  (t3_sta_index r) (t3_flag r).
Definition fr_set_target_id (v : Z) (r : flux_record) := mk_flux_record v (fr_mjd r)
  (fr_int_time r) (fr_fluxdata r) (fr_fluxerr r) (fr_corrindx_fluxdata r) (fr_sta_index r)
  (fr_flag r).
Definition ip_set_target_id (v : Z) (r : inspol_record) := mk_inspol_record v (ip_insname r)
  (ip_mjd_obs r) (ip_mjd_end r) (ip_jxx r) (ip_jyy r) (ip_jxy r) (ip_jyx r) (ip_sta_index r).
Definition ip_set_insname (v : string) (r : inspol_record) := mk_inspol_record (ip_target_id r) v
  (ip_mjd_obs r) (ip_mjd_end r) (ip_jxx r) (ip_jyy r) (ip_jxy r) (ip_jyx r) (ip_sta_index r).
Definition tg_set_target_id (v : Z) (t : target) := mk_target v (tg_target t) (tg_raep0 t)
  (tg_decep0 t) (tg_equinox t) (tg_ra_err t) (tg_dec_err t) (tg_sysvel t) (tg_veltyp t)
  (tg_veldef t) (tg_pmra t) (tg_pmdec t) (tg_pmra_err t) (tg_pmdec_err t) (tg_parallax t)
  (tg_para_err t) (tg_spectyp t) (tg_category t).
Definition is_set_arrname (v : string) (t : oi_inspol) := mk_inspol (is_revision t)
  (is_date_obs t) (is_npol t) v (is_orient t) (is_model t) (is_numrec t) (is_nwave t)
  (is_record t).
Definition is_set_record (v : list inspol_record) (t : oi_inspol) := mk_inspol (is_revision t)
  (is_date_obs t) (is_npol t) (is_arrname t) (is_orient t) (is_model t) (is_numrec t)
  (is_nwave t) v.
Definition ar_set_revision (v : Z) (a : oi_array) := mk_array v (ar_arrname a) (ar_frame a)
  (ar_arrayx a) (ar_arrayy a) (ar_arrayz a) (ar_nelement a) (ar_elem a).
Definition ar_set_arrname (v : string) (a : oi_array) := mk_array (ar_revision a) v (ar_frame a)
  (ar_arrayx a) (ar_arrayy a) (ar_arrayz a) (ar_nelement a) (ar_elem a).
Definition wv_set_revision (v : Z) (w : oi_wavelength) := mk_wavelength v (wv_insname w)
  (wv_nwave w) (wv_eff_wave w) (wv_eff_band w).
Definition wv_set_insname (v : string) (w : oi_wavelength) := mk_wavelength (wv_revision w) v
  (wv_nwave w) (wv_eff_wave w) (wv_eff_band w).
Definition co_set_corrname (v : string) (c : oi_corr) := mk_corr (co_revision c) v (co_ndata c)
  (co_ncorr c) (co_iindx c) (co_jindx c) (co_corr c).
Definition ot_set_revision (v : Z) (t : oi_target) := mk_oi_target v (ot_ntarget t) (ot_targ t)
  (ot_usecategory t).

(** ** Well-formedness: counts agree with storage *)

Definition len_is {A} (n : Z) (l : list A) : bool := Z.of_nat (List.length l) =? n.
Definition opt_len_is {A} (n : Z) (o : option (list A)) : bool :=
  match o with Some l => len_is n l | None => false end.
Definition is_none {A} (o : option A) : bool := match o with None => true | Some _ => false end.

Definition wf_array (a : oi_array) : bool := len_is (ar_nelement a) (ar_elem a).
Definition wf_targets (t : oi_target) : bool := len_is (ot_ntarget t) (ot_targ t).
Definition wf_wavelength (w : oi_wavelength) : bool :=
  len_is (wv_nwave w) (wv_eff_wave w) && len_is (wv_nwave w) (wv_eff_band w).
Definition wf_corr (c : oi_corr) : bool :=
  len_is (co_ncorr c) (co_iindx c) && len_is (co_ncorr c) (co_jindx c)
  && len_is (co_ncorr c) (co_corr c).
Definition wf_inspol_record (nwave : Z) (r : inspol_record) : bool :=
  len_is nwave (ip_jxx r) && len_is nwave (ip_jyy r)
  && len_is nwave (ip_jxy r) && len_is nwave (ip_jyx r).
Definition wf_inspol (t : oi_inspol) : bool :=
  len_is (is_numrec t) (is_record t) && forallb (wf_inspol_record (is_nwave t)) (is_record t).
(** Optional columns are allocated exactly when in use. *)
Definition wf_vis_record (x : vis_extra) (nwave : Z) (r : vis_record) : bool :=
  len_is nwave (vr_visamp r) && len_is nwave (vr_visamperr r)
  && len_is nwave (vr_visphi r) && len_is nwave (vr_visphierr r)
  && len_is nwave (vr_flag r)
  && (if vx_usevisrefmap x then opt_len_is (nwave * nwave) (vr_visrefmap r)
      else is_none (vr_visrefmap r))
  && (if vx_usecomplex x then
        opt_len_is nwave (vr_rvis r) && opt_len_is nwave (vr_rviserr r)
        && opt_len_is nwave (vr_ivis r) && opt_len_is nwave (vr_iviserr r)
      else is_none (vr_rvis r) && is_none (vr_rviserr r)
           && is_none (vr_ivis r) && is_none (vr_iviserr r)).
Definition wf_vis2_record (nwave : Z) (r : vis2_record) : bool :=
  len_is nwave (v2_vis2data r) && len_is nwave (v2_vis2err r) && len_is nwave (v2_flag r).
Definition wf_t3_record (nwave : Z) (r : t3_record) : bool :=
  len_is nwave (t3_t3amp r) && len_is nwave (t3_t3amperr r)
  && len_is nwave (t3_t3phi r) && len_is nwave (t3_t3phierr r) && len_is nwave (t3_flag r).
Definition wf_flux_record (nwave : Z) (r : flux_record) : bool :=
  len_is nwave (fr_fluxdata r) && len_is nwave (fr_fluxerr r) && len_is nwave (fr_flag r).
Definition wf_dtab {X R} (wfr : Z -> R -> bool) (t : dtab X R) : bool :=
  len_is (tb_numrec t) (tb_record t) && (0 <=? tb_nwave t)
  && forallb (wfr (tb_nwave t)) (tb_record t).
Definition wf_vis (t : oi_vis) : bool := wf_dtab (wf_vis_record (tb_x t)) t.
Definition wf_vis2 (t : oi_vis2) : bool := wf_dtab wf_vis2_record t.
Definition wf_t3 (t : oi_t3) : bool := wf_dtab wf_t3_record t.
Definition wf_flux (t : oi_flux) : bool := wf_dtab wf_flux_record t.

Definition wf_fits (o : oi_fits) : bool :=
  wf_targets (o_targets o)
  && forallb wf_array (o_arrayList o) && forallb wf_wavelength (o_wavelengthList o)
  && forallb wf_corr (o_corrList o) && forallb wf_inspol (o_inspolList o)
  && forallb wf_vis (o_visList o) && forallb wf_vis2 (o_vis2List o)
  && forallb wf_t3 (o_t3List o) && forallb wf_flux (o_fluxList o)
  && len_is (o_numArray o) (o_arrayList o) && len_is (o_numWavelength o) (o_wavelengthList o)
  && len_is (o_numCorr o) (o_corrList o) && len_is (o_numInspol o) (o_inspolList o)
  && len_is (o_numVis o) (o_visList o) && len_is (o_numVis2 o) (o_vis2List o)
  && len_is (o_numT3 o) (o_t3List o) && len_is (o_numFlux o) (o_fluxList o).
