(** A dataset with its character strings cut to what fits in a file. *)
From Verif Require Export WritableSpec.

(** [card s], [cell w s]: what is read of the string [s] from a header and from a table column of
    [w] characters (FitsModel.v).  [cut_to] says what these are: the longest beginning of [s] that
    fits, without the blanks at its end. *)
Definition cut_to (size : string -> Z) (n : Z) (s t : string) : Prop :=
  exists blanks rest, s = (t ++ blanks ++ rest)%string
    /\ all_chars (fun c => Ascii.eqb c " ") blanks = true /\ no_trailing_blank t = true
    /\ size (t ++ blanks)%string <= n
    /\ (forall c r, rest = String c r -> n < size (t ++ blanks ++ String c EmptyString)%string).
(** characters that a header cannot hold become blanks *)
Fixpoint shown (s : string) : string :=
  match s with
  | EmptyString => EmptyString
  | String c s' =>
      let n := Z.of_nat (nat_of_ascii c) in
      String (if (32 <=? n) && (n <=? 126) then c else " "%char) (shown s')
  end.

Section Cut.

Definition cut_header (h : oi_header) : oi_header :=
  mk_header (card (h_origin h)) (h_date h) (card (h_date_obs h)) (h_content h) (card (h_telescop h))
    (card (h_instrume h)) (card (h_observer h)) (card (h_insmode h)) (card (h_object h))
    (card (h_referenc h)) (card (h_author h)) (card (h_prog_id h)) (card (h_procsoft h))
    (card (h_obstech h)).
Definition cut_element (e : element) : element :=
  mk_element (cell 16 (el_tel_name e)) (cell 16 (el_sta_name e)) (el_sta_index e) (el_diameter e)
    (el_staxyz e) (el_fov e) (cell 6 (el_fovtype e)).
Definition cut_array (a : oi_array) : oi_array :=
  mk_array (ar_revision a) (card (ar_arrname a)) (card (ar_frame a)) (ar_arrayx a) (ar_arrayy a)
    (ar_arrayz a) (ar_nelement a) (map cut_element (ar_elem a)).
Definition cut_target1 (t : target) : target :=
  mk_target (tg_target_id t) (cell 32 (tg_target t)) (tg_raep0 t) (tg_decep0 t) (tg_equinox t)
    (tg_ra_err t) (tg_dec_err t) (tg_sysvel t) (cell 8 (tg_veltyp t)) (cell 8 (tg_veldef t)) (tg_pmra t)
    (tg_pmdec t) (tg_pmra_err t) (tg_pmdec_err t) (tg_parallax t) (tg_para_err t)
    (cell 32 (tg_spectyp t)) (cell 3 (tg_category t)).
Definition cut_target (t : oi_target) : oi_target :=
  mk_oi_target (ot_revision t) (ot_ntarget t) (map cut_target1 (ot_targ t)) (ot_usecategory t).
Definition cut_wavelength (w : oi_wavelength) : oi_wavelength :=
  mk_wavelength (wv_revision w) (card (wv_insname w)) (wv_nwave w) (wv_eff_wave w) (wv_eff_band w).
Definition cut_corr (c : oi_corr) : oi_corr :=
  mk_corr (co_revision c) (card (co_corrname c)) (co_ndata c) (co_ncorr c) (co_iindx c) (co_jindx c) (co_corr c).
Definition cut_inspol_record (r : inspol_record) : inspol_record :=
  mk_inspol_record (ip_target_id r) (cell 70 (ip_insname r)) (ip_mjd_obs r) (ip_mjd_end r) (ip_jxx r)
    (ip_jyy r) (ip_jxy r) (ip_jyx r) (ip_sta_index r).
Definition cut_inspol (t : oi_inspol) : oi_inspol :=
  mk_inspol (is_revision t) (card (is_date_obs t)) (is_npol t) (card (is_arrname t)) (card (is_orient t))
    (card (is_model t)) (is_numrec t) (is_nwave t) (map cut_inspol_record (is_record t)).
Definition cut_dtab {X R} (x : X) (t : dtab X R) : dtab X R :=
  mk_dtab (tb_revision t) (card (tb_date_obs t)) (card (tb_arrname t)) (card (tb_insname t))
    (card (tb_corrname t)) x (tb_numrec t) (tb_nwave t) (tb_record t).
Definition cut_vis (t : oi_vis) : oi_vis :=
  let x := tb_x t in
  cut_dtab (mk_vis_extra (card (vx_amptyp x)) (card (vx_phityp x)) (vx_amporder x) (vx_phiorder x)
              (vx_usevisrefmap x) (vx_usecomplex x) (card (vx_complexunit x)) (card (vx_ampunit x))) t.
Definition cut_vis2 (t : oi_vis2) : oi_vis2 := cut_dtab tt t.
Definition cut_t3 (t : oi_t3) : oi_t3 := cut_dtab tt t.
(** CALSTAT is one character *)
Definition cut_char (c : ascii) : ascii := if printable c && negb (Ascii.eqb c " ") then c else zero.
Definition cut_flux (t : oi_flux) : oi_flux :=
  let x := tb_x t in
  cut_dtab (mk_flux_extra (fx_fov x) (card (fx_fovtype x)) (cut_char (fx_calstat x)) (card (fx_fluxunit x))) t.

(** the lookup tables are not written *)
Definition cut (o : oi_fits) : oi_fits :=
  mk_fits (cut_header (o_header o)) (cut_target (o_targets o))
    (o_numArray o) (o_numWavelength o) (o_numCorr o) (o_numInspol o) (o_numVis o) (o_numVis2 o)
    (o_numT3 o) (o_numFlux o)
    (map cut_array (o_arrayList o)) (map cut_wavelength (o_wavelengthList o)) (map cut_corr (o_corrList o))
    (map cut_inspol (o_inspolList o)) (map cut_vis (o_visList o)) (map cut_vis2 (o_vis2List o))
    (map cut_t3 (o_t3List o)) (map cut_flux (o_fluxList o))
    (o_arrayHash o) (o_wavelengthHash o) (o_corrHash o).

(** A string that decides what is written does not become empty. *)
Definition kept (s : string) : Prop := s = EmptyString \/ card s <> EmptyString.
Definition kept_dtab {X R} (t : dtab X R) : Prop := kept (tb_arrname t) /\ kept (tb_corrname t).
Definition kept_vis (t : oi_vis) : Prop :=
  kept_dtab t /\ kept (vx_amptyp (tb_x t)) /\ kept (vx_phityp (tb_x t))
  /\ (card (vx_amptyp (tb_x t)) = "correlated flux"%string -> vx_amptyp (tb_x t) = "correlated flux"%string).
Definition kept_strings (o : oi_fits) : Prop :=
  Forall kept [h_referenc (o_header o); h_author (o_header o); h_prog_id (o_header o);
               h_procsoft (o_header o); h_obstech (o_header o)]
  /\ Forall kept_vis (o_visList o) /\ Forall kept_dtab (o_vis2List o) /\ Forall kept_dtab (o_t3List o)
  /\ Forall (fun t => kept_dtab t /\ kept (fx_fovtype (tb_x t))) (o_fluxList o).

(** every table has rows and channels *)
Definition filled_dtab {X R} (t : dtab X R) : Prop := 1 <= tb_numrec t /\ 1 <= tb_nwave t.
Definition filled (o : oi_fits) : Prop :=
  1 <= ot_ntarget (o_targets o) /\ Forall (fun a => 1 <= ar_nelement a) (o_arrayList o)
  /\ Forall (fun w => 1 <= wv_nwave w) (o_wavelengthList o) /\ Forall (fun c => 1 <= co_ncorr c) (o_corrList o)
  /\ Forall (fun t => 1 <= is_numrec t /\ 1 <= is_nwave t) (o_inspolList o)
  /\ Forall filled_dtab (o_visList o) /\ Forall filled_dtab (o_vis2List o)
  /\ Forall filled_dtab (o_t3List o) /\ Forall filled_dtab (o_fluxList o).
End Cut.
