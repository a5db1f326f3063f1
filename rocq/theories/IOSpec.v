(** What a table must satisfy to fit in a FITS file, and what is read back of it. *)
From Verif Require Export Types FitsModel.

(** ** Character strings *)

Fixpoint all_chars (p : ascii -> bool) (s : string) : bool :=
  match s with EmptyString => true | String c s' => p c && all_chars p s' end.
Fixpoint no_trailing_blank (s : string) : bool :=
  match s with
  | EmptyString => true
  | String c EmptyString => negb (Ascii.eqb c " ")
  | String _ s' => no_trailing_blank s'
  end.
(** characters taken on a header card: quotes are doubled *)
Fixpoint card_length (s : string) : Z :=
  match s with
  | EmptyString => 0
  | String c s' => (if Ascii.eqb c "'" then 2 else 1) + card_length s'
  end.
Definition card_text (s : string) : bool :=
  all_chars (fun c => let n := Z.of_nat (nat_of_ascii c) in (32 <=? n) && (n <=? 126)) s
  && no_trailing_blank s && (card_length s <=? 68).
Definition cell_text (width : Z) (s : string) : bool := (strlen s <=? width) && no_trailing_blank s.
(** oi_flux.calstat: a terminating null, or a character that is kept *)
Definition char_text (c : ascii) : bool :=
  Ascii.eqb c zero || card_text (String c EmptyString).

Definition short (z : Z) : bool := (-32768 <=? z) && (z <=? 32767).
Definition long (z : Z) : bool := (-2147483648 <=? z) && (z <=? 2147483647).

Section Storable.
Variable E : cfitsio.

(** a double written to a header *)
Definition key_double (x : f64) : bool := negb (is_none (cf_key_double E x)).
Definition kept_double (x : f64) : f64 :=
  match cf_key_double E x with Some y => y | None => x end.

Definition storable_header (h : oi_header) : bool :=
  forallb card_text
    [h_origin h; h_date_obs h; h_telescop h; h_instrume h; h_observer h; h_insmode h; h_object h;
     h_referenc h; h_author h; h_prog_id h; h_procsoft h; h_obstech h].
Definition storable_element (e : element) : bool :=
  cell_text 16 (el_tel_name e) && cell_text 16 (el_sta_name e) && short (el_sta_index e)
  && cell_text 6 (el_fovtype e).
Definition storable_array (a : oi_array) : bool :=
  wf_array a && (1 <=? ar_nelement a) && card_text (ar_arrname a) && card_text (ar_frame a)
  && key_double (ar_arrayx a) && key_double (ar_arrayy a) && key_double (ar_arrayz a)
  && forallb storable_element (ar_elem a).
Definition storable_target1 (usecategory : bool) (t : target) : bool :=
  short (tg_target_id t) && cell_text 32 (tg_target t) && cell_text 8 (tg_veltyp t)
  && cell_text 8 (tg_veldef t) && cell_text 32 (tg_spectyp t)
  && (if usecategory then cell_text 3 (tg_category t) else true).
Definition storable_target (t : oi_target) : bool :=
  wf_targets t && (1 <=? ot_ntarget t) && forallb (storable_target1 (ot_usecategory t)) (ot_targ t).
Definition storable_wavelength (w : oi_wavelength) : bool :=
  wf_wavelength w && (1 <=? wv_nwave w) && card_text (wv_insname w).
Definition storable_corr (c : oi_corr) : bool :=
  wf_corr c && (1 <=? co_ncorr c) && card_text (co_corrname c)
  && forallb long (co_iindx c) && forallb long (co_jindx c).
Definition storable_inspol_record (r : inspol_record) : bool :=
  short (ip_target_id r) && cell_text 70 (ip_insname r) && short (ip_sta_index r).
Definition storable_inspol (t : oi_inspol) : bool :=
  wf_inspol t && (1 <=? is_numrec t) && (1 <=? is_nwave t) && (is_nwave t <=? 9999)
  && forallb card_text [is_date_obs t; is_arrname t; is_orient t; is_model t]
  && forallb storable_inspol_record (is_record t).

Definition storable_dtab {X R} (t : dtab X R) : bool :=
  (1 <=? tb_numrec t) && (1 <=? tb_nwave t) && (tb_nwave t <=? 9999)
  && forallb card_text [tb_date_obs t; tb_arrname t; tb_insname t; tb_corrname t].
(** the indices into an OI_CORR matter when there is one *)
Definition indices (corrname : string) (l : list Z) : bool := is_empty corrname || forallb long l.
Definition storable_vis_record (t : oi_vis) (r : vis_record) : bool :=
  short (vr_target_id r) && short (fst (vr_sta_index r)) && short (snd (vr_sta_index r))
  && indices (tb_corrname t) [vr_corrindx_visamp r; vr_corrindx_visphi r]
  && (negb (vx_usecomplex (tb_x t))
      || indices (tb_corrname t) [vr_corrindx_rvis r; vr_corrindx_ivis r]).
Definition storable_vis (t : oi_vis) : bool :=
  wf_vis t && storable_dtab t
  && forallb card_text [vx_amptyp (tb_x t); vx_phityp (tb_x t); vx_complexunit (tb_x t);
                        vx_ampunit (tb_x t)]
  && forallb (storable_vis_record t) (tb_record t).
Definition storable_vis2_record (t : oi_vis2) (r : vis2_record) : bool :=
  short (v2_target_id r) && short (fst (v2_sta_index r)) && short (snd (v2_sta_index r))
  && indices (tb_corrname t) [v2_corrindx_vis2data r].
Definition storable_vis2 (t : oi_vis2) : bool :=
  wf_vis2 t && storable_dtab t && forallb (storable_vis2_record t) (tb_record t).
Definition storable_t3_record (t : oi_t3) (r : t3_record) : bool :=
  short (t3_target_id r) && short (fst (fst (t3_sta_index r))) && short (snd (fst (t3_sta_index r)))
  && short (snd (t3_sta_index r))
  && indices (tb_corrname t) [t3_corrindx_t3amp r; t3_corrindx_t3phi r].
Definition storable_t3 (t : oi_t3) : bool :=
  wf_t3 t && storable_dtab t && forallb (storable_t3_record t) (tb_record t).
Definition storable_flux_record (t : oi_flux) (r : flux_record) : bool :=
  short (fr_target_id r) && (is_empty (tb_arrname t) || short (fr_sta_index r))
  && indices (tb_corrname t) [fr_corrindx_fluxdata r].
Definition storable_flux (t : oi_flux) : bool :=
  wf_flux t && storable_dtab t
  && card_text (fx_fovtype (tb_x t)) && card_text (fx_fluxunit (tb_x t))
  && char_text (fx_calstat (tb_x t))
  && (is_empty (fx_fovtype (tb_x t)) || key_double (fx_fov (tb_x t)))
  && forallb (storable_flux_record t) (tb_record t).

Definition storable_fits (o : oi_fits) : bool :=
  storable_header (o_header o) && storable_target (o_targets o)
  && forallb storable_array (o_arrayList o) && forallb storable_wavelength (o_wavelengthList o)
  && forallb storable_corr (o_corrList o) && forallb storable_inspol (o_inspolList o)
  && forallb storable_vis (o_visList o) && forallb storable_vis2 (o_vis2List o)
  && forallb storable_t3 (o_t3List o) && forallb storable_flux (o_fluxList o).

(** ** What is read back

    [cf_junk_*] marks members that have no place in the file and are left unset. *)

Definition stored_header (h : oi_header) : oi_header :=
  mk_header (h_origin h) (cf_today E) (h_date_obs h) "OIFITS2" (h_telescop h) (h_instrume h)
    (h_observer h) (h_insmode h) (h_object h) (h_referenc h) (h_author h) (h_prog_id h)
    (h_procsoft h) (h_obstech h).
Definition stored_array (a : oi_array) : oi_array :=
  mk_array 2 (ar_arrname a) (ar_frame a) (kept_double (ar_arrayx a)) (kept_double (ar_arrayy a))
    (kept_double (ar_arrayz a)) (ar_nelement a) (ar_elem a).
Definition stored_target1 (usecategory : bool) (t : target) : target :=
  mk_target (tg_target_id t) (tg_target t) (tg_raep0 t) (tg_decep0 t) (tg_equinox t)
    (tg_ra_err t) (tg_dec_err t) (tg_sysvel t) (tg_veltyp t) (tg_veldef t) (tg_pmra t)
    (tg_pmdec t) (tg_pmra_err t) (tg_pmdec_err t) (tg_parallax t) (tg_para_err t)
    (tg_spectyp t) (if usecategory then tg_category t else cf_junk_str E).
Definition stored_target (t : oi_target) : oi_target :=
  mk_oi_target 2 (ot_ntarget t) (map (stored_target1 (ot_usecategory t)) (ot_targ t))
    (ot_usecategory t).
Definition stored_wavelength (w : oi_wavelength) : oi_wavelength := wv_set_revision 2 w.
Definition stored_corr (c : oi_corr) : oi_corr :=
  mk_corr 1 (co_corrname c) (co_ndata c) (co_ncorr c) (co_iindx c) (co_jindx c) (co_corr c).

(** read_oi_inspol reads as many floats as there are channels, that is the real and
    imaginary parts of the first half of them, into an array of doubles *)
Definition misread (nwave : Z) (l : list cplx) : list cplx :=
  map (cf_pun E) (map to_f64 (firstn (Z.to_nat nwave) (flat_map (fun c => [fst c; snd c]) l))).
Definition stored_inspol_record (nwave : Z) (r : inspol_record) : inspol_record :=
  mk_inspol_record (ip_target_id r) (ip_insname r) (ip_mjd_obs r) (ip_mjd_end r)
    (misread nwave (ip_jxx r)) (misread nwave (ip_jyy r)) (misread nwave (ip_jxy r))
    (misread nwave (ip_jyx r)) (ip_sta_index r).
Definition stored_inspol (t : oi_inspol) : oi_inspol :=
  mk_inspol 1 (is_date_obs t) (is_npol t) (is_arrname t) (is_orient t) (is_model t) (is_numrec t)
    (is_nwave t) (map (stored_inspol_record (is_nwave t)) (is_record t)).

Definition index_if (b : bool) (i : Z) : Z := if b then i else cf_junk_int E.
Definition order_if_any (i : Z) : Z := if 0 <=? i then i else -1.
Definition stored_dtab {X R} (revision : Z) (x : X) (f : R -> R) (t : dtab X R) : dtab X R :=
  mk_dtab revision (tb_date_obs t) (tb_arrname t) (tb_insname t) (tb_corrname t) x (tb_numrec t)
    (tb_nwave t) (map f (tb_record t)).
Definition stored_vis_record (t : oi_vis) (r : vis_record) : vis_record :=
  let corr := nonempty (tb_corrname t) in
  let cc := corr && vx_usecomplex (tb_x t) in
  mk_vis_record (vr_target_id r) f64_zero (vr_mjd r) (vr_int_time r)
    (vr_visamp r) (vr_visamperr r) (index_if corr (vr_corrindx_visamp r))
    (vr_visphi r) (vr_visphierr r) (index_if corr (vr_corrindx_visphi r)) (vr_visrefmap r)
    (vr_rvis r) (vr_rviserr r) (index_if cc (vr_corrindx_rvis r))
    (vr_ivis r) (vr_iviserr r) (index_if cc (vr_corrindx_ivis r))
    (vr_ucoord r) (vr_vcoord r) (vr_sta_index r) (vr_flag r).
Definition stored_vis_extra (x : vis_extra) : vis_extra :=
  mk_vis_extra (vx_amptyp x) (vx_phityp x) (order_if_any (vx_amporder x))
    (order_if_any (vx_phiorder x)) (vx_usevisrefmap x) (vx_usecomplex x)
    (if vx_usecomplex x then vx_complexunit x else EmptyString)
    (if str_eqb (vx_amptyp x) "correlated flux" then vx_ampunit x else EmptyString).
Definition stored_vis (t : oi_vis) : oi_vis :=
  stored_dtab 2 (stored_vis_extra (tb_x t)) (stored_vis_record t) t.
Definition stored_vis2_record (t : oi_vis2) (r : vis2_record) : vis2_record :=
  mk_vis2_record (v2_target_id r) f64_zero (v2_mjd r) (v2_int_time r) (v2_vis2data r)
    (v2_vis2err r) (index_if (nonempty (tb_corrname t)) (v2_corrindx_vis2data r))
    (v2_ucoord r) (v2_vcoord r) (v2_sta_index r) (v2_flag r).
Definition stored_vis2 (t : oi_vis2) : oi_vis2 := stored_dtab 2 tt (stored_vis2_record t) t.
Definition stored_t3_record (t : oi_t3) (r : t3_record) : t3_record :=
  let corr := nonempty (tb_corrname t) in
  mk_t3_record (t3_target_id r) f64_zero (t3_mjd r) (t3_int_time r)
    (t3_t3amp r) (t3_t3amperr r) (index_if corr (t3_corrindx_t3amp r))
    (t3_t3phi r) (t3_t3phierr r) (index_if corr (t3_corrindx_t3phi r))
    (t3_u1coord r) (t3_v1coord r) (t3_u2coord r) (t3_v2coord r) (t3_sta_index r) (t3_flag r).
Definition stored_t3 (t : oi_t3) : oi_t3 := stored_dtab 2 tt (stored_t3_record t) t.
Definition stored_flux_record (t : oi_flux) (r : flux_record) : flux_record :=
  mk_flux_record (fr_target_id r) (fr_mjd r) (fr_int_time r) (fr_fluxdata r) (fr_fluxerr r)
    (index_if (nonempty (tb_corrname t)) (fr_corrindx_fluxdata r))
    (if nonempty (tb_arrname t) then fr_sta_index r else -1) (fr_flag r).
Definition stored_flux_extra (x : flux_extra) : flux_extra :=
  mk_flux_extra (if nonempty (fx_fovtype x) then kept_double (fx_fov x) else f64_nan)
    (fx_fovtype x) (fx_calstat x) (fx_fluxunit x).
Definition stored_flux (t : oi_flux) : oi_flux :=
  stored_dtab 1 (stored_flux_extra (tb_x t)) (stored_flux_record t) t.
End Storable.
