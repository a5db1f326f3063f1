(** What the claims about demo_write are stated with: the text of a dataset. *)
From Verif Require Export ScanModel DemoSpec WritableSpec.
Open Scope string_scope.
Open Scope list_scope.
Open Scope Z_scope.

(** ** Words *)

(** white space, as isspace has it *)
Definition white (c : ascii) : Prop := In (nat_of_ascii c) [9; 10; 11; 12; 13; 32]%nat.
Fixpoint every (P : ascii -> Prop) (s : string) : Prop :=
  match s with EmptyString => True | String c s' => P c /\ every P s' end.
Definition word (w : string) : Prop := w <> EmptyString /\ every (fun c => ~ white c) w.
Definition gap (s : string) : Prop := s <> EmptyString /\ every white s.
(** a text consisting of these words: white space between any two, perhaps some at the end,
    none at the start *)
Inductive spaced : list string -> string -> Prop :=
  | spaced_nil : spaced [] EmptyString
  | spaced_last w : word w -> spaced [w] w
  | spaced_cons w s ws t : word w -> gap s -> spaced ws t -> spaced (w :: ws) (w ++ s ++ t)%string.

(** what a word stands for *)
Inductive token :=
  | W (w : string)
  | I (z : Z)
  | F (x : f32)
  | D (x : f64)
  | Im (x : f32).       (* a number followed by an i *)

(** nothing follows, or white space does *)
Definition ends (s : string) : Prop := match s with EmptyString => True | String c _ => white c end.

Section Text.
Variable N : numbers.

(** an integer is as printf prints it; a floating point number is anything that the C library
    reads as that number, whatever comes after the word *)
Definition stands (t : token) (w : string) : Prop :=
  word w /\
  match t with
  | W w' => w = w'
  | I z => w = fmt_d z
  | F x => forall rest, ends rest -> nm_float N (w ++ rest) = Some (x, rest)
  | D x => forall rest, ends rest -> nm_double N (w ++ rest) = Some (x, rest)
  | Im x => exists n, w = (n ++ "i")%string /\ word n
      /\ forall rest, ends rest -> nm_float N (n ++ String "i" rest) = Some (x, String "i" rest)
  end.

(** ** The words for each table *)

Definition element_tokens (e : element) : list token :=
  let '(x, y, z) := el_staxyz e in
  [W "tel_name"; W (el_tel_name e); W "sta_name"; W (el_sta_name e);
   W "staxyz"; D x; D y; D z; W "diameter"; F (el_diameter e);
   W "fov"; D (el_fov e); W "fovtype"; W (el_fovtype e)].
Definition array_tokens (a : oi_array) : list token :=
  [W "OI_ARRAY"; W "arrname"; W (ar_arrname a); W "frame"; W (ar_frame a);
   W "arrayx"; D (ar_arrayx a); W "arrayy"; D (ar_arrayy a); W "arrayz"; D (ar_arrayz a);
   W "nelement"; I (ar_nelement a)]
  ++ flat_map element_tokens (ar_elem a).
Definition opt_word (keyword s : string) : list token := if is_empty s then [] else [W keyword; W s].
Definition opt_int (keyword : string) (z : Z) : list token := if z =? -1 then [] else [W keyword; I z].
Definition target_tokens (t : target) : list token :=
  [W "target_id"; I (tg_target_id t); W "target"; W (tg_target t);
   W "raep0"; D (tg_raep0 t); W "decep0"; D (tg_decep0 t); W "equinox"; F (tg_equinox t);
   W "ra_err"; D (tg_ra_err t); W "dec_err"; D (tg_dec_err t); W "sysvel"; D (tg_sysvel t);
   W "veltyp"; W (tg_veltyp t); W "veldef"; W (tg_veldef t);
   W "pmra"; D (tg_pmra t); W "pmdec"; D (tg_pmdec t);
   W "pmra_err"; D (tg_pmra_err t); W "pmdec_err"; D (tg_pmdec_err t);
   W "parallax"; F (tg_parallax t); W "para_err"; F (tg_para_err t); W "spectyp"; W (tg_spectyp t)]
  ++ opt_word "category" (tg_category t).
Definition targets_tokens (t : oi_target) : list token :=
  [W "OI_TARGET"; W "ntarget"; I (ot_ntarget t)] ++ flat_map target_tokens (ot_targ t).
Definition wavelength_tokens (w : oi_wavelength) : list token :=
  [W "OI_WAVELENGTH"; W "insname"; W (wv_insname w); W "nwave"; I (wv_nwave w)]
  ++ W "eff_wave" :: map F (wv_eff_wave w) ++ W "eff_band" :: map F (wv_eff_band w).
Definition corr_tokens (c : oi_corr) : list token :=
  [W "OI_CORR"; W "corrname"; W (co_corrname c); W "ndata"; I (co_ndata c); W "ncorr"; I (co_ncorr c)]
  ++ W "iindx" :: map I (co_iindx c) ++ W "jindx" :: map I (co_jindx c) ++ W "corr" :: map D (co_corr c).
Definition cplx_tokens (c : cplx) : list token := [F (fst c); Im (snd c)].
Definition inspol_record_tokens (r : inspol_record) : list token :=
  [W "target_id"; I (ip_target_id r); W "insname"; W (ip_insname r); W "mjd_obs"; D (ip_mjd_obs r);
   W "mjd_end"; D (ip_mjd_end r)]
  ++ W "jxx" :: flat_map cplx_tokens (ip_jxx r) ++ W "jyy" :: flat_map cplx_tokens (ip_jyy r)
  ++ W "jxy" :: flat_map cplx_tokens (ip_jxy r) ++ W "jyx" :: flat_map cplx_tokens (ip_jyx r)
  ++ [W "sta_index"; I (ip_sta_index r)].
Definition inspol_tokens (t : oi_inspol) : list token :=
  [W "OI_INSPOL"; W "date-obs"; W (is_date_obs t); W "npol"; I (is_npol t); W "arrname"; W (is_arrname t);
   W "orient"; W (is_orient t); W "model"; W (is_model t); W "numrec"; I (is_numrec t)]
  ++ flat_map inspol_record_tokens (is_record t).
Definition vis_record_tokens (r : vis_record) : list token :=
  [W "target_id"; I (vr_target_id r); W "time"; D (vr_time r); W "mjd"; D (vr_mjd r);
   W "int_time"; D (vr_int_time r)]
  ++ W "visamp" :: map D (vr_visamp r) ++ W "visamperr" :: map D (vr_visamperr r)
  ++ [W "corrindx_visamp"; I (vr_corrindx_visamp r)]
  ++ W "visphi" :: map D (vr_visphi r) ++ W "visphierr" :: map D (vr_visphierr r)
  ++ [W "corrindx_visphi"; I (vr_corrindx_visphi r); W "ucoord"; D (vr_ucoord r); W "vcoord"; D (vr_vcoord r);
      W "sta_index"; I (fst (vr_sta_index r)); I (snd (vr_sta_index r))].
Definition vis_tokens (t : oi_vis) : list token :=
  [W "OI_VIS"; W "date-obs"; W (tb_date_obs t); W "arrname"; W (tb_arrname t); W "insname"; W (tb_insname t);
   W "corrname"; W (tb_corrname t)]
  ++ opt_word "amptyp" (vx_amptyp (tb_x t)) ++ opt_word "phityp" (vx_phityp (tb_x t))
  ++ opt_int "amporder" (vx_amporder (tb_x t)) ++ opt_int "phiorder" (vx_phiorder (tb_x t))
  ++ [W "numrec"; I (tb_numrec t)] ++ flat_map vis_record_tokens (tb_record t).
Definition vis2_record_tokens (r : vis2_record) : list token :=
  [W "target_id"; I (v2_target_id r); W "time"; D (v2_time r); W "mjd"; D (v2_mjd r);
   W "int_time"; D (v2_int_time r)]
  ++ W "vis2data" :: map D (v2_vis2data r) ++ W "vis2err" :: map D (v2_vis2err r)
  ++ [W "corrindx_vis2data"; I (v2_corrindx_vis2data r); W "ucoord"; D (v2_ucoord r); W "vcoord"; D (v2_vcoord r);
      W "sta_index"; I (fst (v2_sta_index r)); I (snd (v2_sta_index r))].
Definition names_tokens {X R} (keyword : string) (t : dtab X R) : list token :=
  [W keyword; W "date-obs"; W (tb_date_obs t); W "arrname"; W (tb_arrname t); W "insname"; W (tb_insname t);
   W "corrname"; W (tb_corrname t); W "numrec"; I (tb_numrec t)].
Definition vis2_tokens (t : oi_vis2) : list token :=
  names_tokens "OI_VIS2" t ++ flat_map vis2_record_tokens (tb_record t).
Definition t3_record_tokens (r : t3_record) : list token :=
  let '(i, j, k) := t3_sta_index r in
  [W "target_id"; I (t3_target_id r); W "time"; D (t3_time r); W "mjd"; D (t3_mjd r);
   W "int_time"; D (t3_int_time r)]
  ++ W "t3amp" :: map D (t3_t3amp r) ++ W "t3amperr" :: map D (t3_t3amperr r)
  ++ [W "corrindx_t3amp"; I (t3_corrindx_t3amp r)]
  ++ W "t3phi" :: map D (t3_t3phi r) ++ W "t3phierr" :: map D (t3_t3phierr r)
  ++ [W "corrindx_t3phi"; I (t3_corrindx_t3phi r); W "u1coord"; D (t3_u1coord r); W "v1coord"; D (t3_v1coord r);
      W "u2coord"; D (t3_u2coord r); W "v2coord"; D (t3_v2coord r); W "sta_index"; I i; I j; I k].
Definition t3_tokens (t : oi_t3) : list token :=
  names_tokens "OI_T3" t ++ flat_map t3_record_tokens (tb_record t).
Definition flux_record_tokens (r : flux_record) : list token :=
  [W "target_id"; I (fr_target_id r); W "mjd"; D (fr_mjd r); W "int_time"; D (fr_int_time r)]
  ++ W "fluxdata" :: map D (fr_fluxdata r) ++ W "fluxerr" :: map D (fr_fluxerr r)
  ++ [W "corrindx_fluxdata"; I (fr_corrindx_fluxdata r)] ++ opt_int "sta_index" (fr_sta_index r).
Definition flux_tokens (t : oi_flux) : list token :=
  [W "OI_FLUX"; W "date-obs"; W (tb_date_obs t)] ++ opt_word "arrname" (tb_arrname t)
  ++ [W "insname"; W (tb_insname t); W "corrname"; W (tb_corrname t)]
  ++ (if is_empty (fx_fovtype (tb_x t)) then []
      else [W "fov"; D (fx_fov (tb_x t)); W "fovtype"; W (fx_fovtype (tb_x t))])
  ++ [W "calstat"; W (String (fx_calstat (tb_x t)) EmptyString); W "numrec"; I (tb_numrec t)]
  ++ flat_map flux_record_tokens (tb_record t).
Definition demo_tokens (m : demo) : list token :=
  array_tokens (dm_array m) ++ targets_tokens (dm_targets m) ++ wavelength_tokens (dm_wave m)
  ++ corr_tokens (dm_corr m) ++ inspol_tokens (dm_inspol m) ++ vis_tokens (dm_vis m)
  ++ vis2_tokens (dm_vis2 m) ++ t3_tokens (dm_t3 m) ++ flux_tokens (dm_flux m).

(** [s] is a text for the tables of [m] *)
Definition text_of (m : demo) (s : string) : Prop :=
  exists ws, Forall2 stands (demo_tokens m) ws /\ spaced ws s.
End Text.

(** ** The tables that such a text can hold *)

(** at most [n] characters *)
Definition within (n : Z) (w : string) : Prop := strlen w <= n.
Definition int (z : Z) : Prop := -2147483648 <= z <= 2147483647.
(** as many as [n] says, and at least one *)
Definition counts {A} (n : Z) (l : list A) : Prop := n = Z.of_nat (List.length l) /\ 1 <= n /\ int n.
Definition channels {A} (nwave : Z) (l : list A) : Prop := nwave = Z.of_nat (List.length l).
Definition no_flags (nwave : Z) (l : list bool) : Prop := l = repeat false (Z.to_nat nwave).

Record plain_array (a : oi_array) : Prop := {
  pa_revision : ar_revision a = 2;
  pa_names : within 70 (ar_arrname a) /\ within 70 (ar_frame a);
  pa_count : counts (ar_nelement a) (ar_elem a);
  pa_elem : Forall (fun e => within 16 (el_tel_name e) /\ within 16 (el_sta_name e) /\ within 6 (el_fovtype e)) (ar_elem a);
  pa_stations : forall i e, nth_error (ar_elem a) i = Some e -> el_sta_index e = Z.of_nat i + 1 }.
Record plain_targets (t : oi_target) : Prop := {
  pt_revision : ot_revision t = 2;
  pt_count : counts (ot_ntarget t) (ot_targ t);
  pt_targ : Forall (fun t => int (tg_target_id t) /\ within 16 (tg_target t) /\ within 8 (tg_veltyp t)
    /\ within 8 (tg_veldef t) /\ within 16 (tg_spectyp t) /\ within 3 (tg_category t)) (ot_targ t);
  pt_category : ot_usecategory t = true <-> Exists (fun t => tg_category t <> EmptyString) (ot_targ t) }.
Record plain_wavelength (w : oi_wavelength) : Prop := {
  pw_revision : wv_revision w = 2;
  pw_name : within 70 (wv_insname w);
  pw_count : counts (wv_nwave w) (wv_eff_wave w) /\ channels (wv_nwave w) (wv_eff_band w) }.
Record plain_corr (c : oi_corr) : Prop := {
  pc_revision : co_revision c = 1;
  pc_name : within 70 (co_corrname c);
  pc_ndata : int (co_ndata c);
  pc_count : counts (co_ncorr c) (co_iindx c) /\ channels (co_ncorr c) (co_jindx c) /\ channels (co_ncorr c) (co_corr c);
  pc_index : Forall int (co_iindx c) /\ Forall int (co_jindx c) }.
Record plain_inspol (nwave : Z) (t : oi_inspol) : Prop := {
  pi_revision : is_revision t = 1;
  pi_names : within 70 (is_date_obs t) /\ within 70 (is_arrname t) /\ within 70 (is_orient t) /\ within 70 (is_model t);
  pi_npol : int (is_npol t);
  pi_count : counts (is_numrec t) (is_record t) /\ is_nwave t = nwave;
  pi_record : Forall (fun r => int (ip_target_id r) /\ within 70 (ip_insname r) /\ int (ip_sta_index r)
    /\ channels nwave (ip_jxx r) /\ channels nwave (ip_jyy r) /\ channels nwave (ip_jxy r) /\ channels nwave (ip_jyx r))
    (is_record t) }.
(** the members of a data table that all kinds have *)
Record plain_data {X R} (revision nwave : Z) (t : dtab X R) : Prop := {
  pd_revision : tb_revision t = revision;
  pd_names : within 70 (tb_date_obs t) /\ within 70 (tb_arrname t) /\ within 70 (tb_insname t) /\ within 70 (tb_corrname t);
  pd_count : counts (tb_numrec t) (tb_record t) /\ tb_nwave t = nwave }.
(** [junk]: what the members that are not set hold *)
Record plain_vis_record (junk nwave : Z) (r : vis_record) : Prop := {
  pv_ints : int (vr_target_id r) /\ int (vr_corrindx_visamp r) /\ int (vr_corrindx_visphi r)
    /\ int (fst (vr_sta_index r)) /\ int (snd (vr_sta_index r));
  pv_channels : channels nwave (vr_visamp r) /\ channels nwave (vr_visamperr r)
    /\ channels nwave (vr_visphi r) /\ channels nwave (vr_visphierr r);
  pv_unused : vr_visrefmap r = None /\ vr_rvis r = None /\ vr_rviserr r = None /\ vr_corrindx_rvis r = junk
    /\ vr_ivis r = None /\ vr_iviserr r = None /\ vr_corrindx_ivis r = junk;
  pv_flags : no_flags nwave (vr_flag r) }.
Record plain_vis (junk nwave : Z) (t : oi_vis) : Prop := {
  pv_data : plain_data 2 nwave t;
  pv_types : within 70 (vx_amptyp (tb_x t)) /\ within 70 (vx_phityp (tb_x t));
  pv_orders : int (vx_amporder (tb_x t)) /\ int (vx_phiorder (tb_x t));
  (** AMPORDER is not the first of the optional words, nor PHIORDER the first after AMPTYP *)
  pv_amporder : vx_amporder (tb_x t) <> -1 -> vx_amptyp (tb_x t) <> EmptyString \/ vx_phityp (tb_x t) <> EmptyString;
  pv_phiorder : vx_phiorder (tb_x t) <> -1 -> vx_phityp (tb_x t) <> EmptyString \/ vx_amporder (tb_x t) <> -1;
  pv_absent : vx_usevisrefmap (tb_x t) = false /\ vx_usecomplex (tb_x t) = false
    /\ vx_complexunit (tb_x t) = EmptyString /\ vx_ampunit (tb_x t) = EmptyString;
  pv_record : Forall (plain_vis_record junk nwave) (tb_record t) }.
Record plain_vis2 (nwave : Z) (t : oi_vis2) : Prop := {
  p2_data : plain_data 2 nwave t;
  p2_record : Forall (fun r => int (v2_target_id r) /\ int (v2_corrindx_vis2data r)
    /\ int (fst (v2_sta_index r)) /\ int (snd (v2_sta_index r))
    /\ channels nwave (v2_vis2data r) /\ channels nwave (v2_vis2err r) /\ no_flags nwave (v2_flag r)) (tb_record t) }.
Record plain_t3 (nwave : Z) (t : oi_t3) : Prop := {
  p3_data : plain_data 2 nwave t;
  p3_record : Forall (fun r => int (t3_target_id r) /\ int (t3_corrindx_t3amp r) /\ int (t3_corrindx_t3phi r)
    /\ int (fst (fst (t3_sta_index r))) /\ int (snd (fst (t3_sta_index r))) /\ int (snd (t3_sta_index r))
    /\ channels nwave (t3_t3amp r) /\ channels nwave (t3_t3amperr r)
    /\ channels nwave (t3_t3phi r) /\ channels nwave (t3_t3phierr r) /\ no_flags nwave (t3_flag r)) (tb_record t) }.
Record plain_flux (nwave : Z) (t : oi_flux) : Prop := {
  pf_data : plain_data 1 nwave t;
  pf_fov : within 6 (fx_fovtype (tb_x t)) /\ (fx_fovtype (tb_x t) = EmptyString -> fx_fov (tb_x t) = f64_zero);
  pf_unit : fx_fluxunit (tb_x t) = "Jy"%string;
  pf_record : Forall (fun r => int (fr_target_id r) /\ int (fr_corrindx_fluxdata r) /\ int (fr_sta_index r)
    /\ channels nwave (fr_fluxdata r) /\ channels nwave (fr_fluxerr r) /\ no_flags nwave (fr_flag r)) (tb_record t) }.
Record plain (junk : Z) (m : demo) : Prop := {
  pl_array : plain_array (dm_array m);
  pl_targets : plain_targets (dm_targets m);
  pl_wave : plain_wavelength (dm_wave m);
  pl_corr : plain_corr (dm_corr m);
  pl_inspol : plain_inspol (wv_nwave (dm_wave m)) (dm_inspol m);
  pl_vis : plain_vis junk (wv_nwave (dm_wave m)) (dm_vis m);
  pl_vis2 : plain_vis2 (wv_nwave (dm_wave m)) (dm_vis2 m);
  pl_t3 : plain_t3 (wv_nwave (dm_wave m)) (dm_t3 m);
  pl_flux : plain_flux (wv_nwave (dm_wave m)) (dm_flux m) }.

(** ** Files *)

(** lines waiting on stdin: names, each ended by a newline, and then the rest *)
Fixpoint typing (names : list string) (rest : string) : string :=
  match names with [] => rest | n :: l => (n ++ String "010" (typing l rest))%string end.
(** a name that fgets reads whole *)
Definition line (name : string) : Prop :=
  all_chars (fun c => negb (Ascii.eqb c "010")) name = true /\ strlen name <= 1023.
(** what the keywords of the primary header are to be *)
Definition demo_keywords (E : cfitsio) (m : demo) (object : string) : oi_header :=
  mk_header "ESO" (cf_today E) (tb_date_obs (dm_vis m)) "OIFITS2" (ar_arrname (dm_array m))
    (wv_insname (dm_wave m)) "Astronomer" "Low_JHK" object "" "" "" "" "".
(** the name of the first target *)
Definition demo_object (m : demo) : string :=
  match ot_targ (dm_targets m) with t :: _ => tg_target t | [] => EmptyString end.
(** every table fits in a FITS file *)
Definition storable_demo (E : cfitsio) (m : demo) : bool :=
  card_text (demo_object m) && storable_target (dm_targets m) && storable_array E (dm_array m)
  && storable_wavelength (dm_wave m) && storable_corr (dm_corr m) && storable_inspol (dm_inspol m)
  && storable_vis (dm_vis m) && storable_vis2 (dm_vis2 m) && storable_t3 (dm_t3 m) && storable_flux E (dm_flux m).
(** the tables refer to those that are there *)
Definition refers {X R} (m : demo) (t : dtab X R) : Prop :=
  (tb_arrname t = EmptyString \/ tb_arrname t = ar_arrname (dm_array m))
  /\ (tb_corrname t = EmptyString \/ tb_corrname t = co_corrname (dm_corr m))
  /\ tb_insname t = wv_insname (dm_wave m).
Definition all_refer (m : demo) : Prop :=
  refers m (dm_vis m) /\ refers m (dm_vis2 m) /\ refers m (dm_t3 m) /\ refers m (dm_flux m)
  /\ is_arrname (dm_inspol m) = ar_arrname (dm_array m).
(** [o] consists of these tables, as they are kept in a file *)
Definition keeps_demo (E : cfitsio) (m : demo) (o : oi_fits) : Prop :=
  has_tables o (demo_keywords E m (demo_object m)) (stored_target E (dm_targets m))
    [stored_array E (dm_array m)] [stored_wavelength (dm_wave m)] [stored_corr (dm_corr m)]
    [stored_inspol E (dm_inspol m)] [stored_vis E (dm_vis m)] [stored_vis2 E (dm_vis2 m)]
    [stored_t3 E (dm_t3 m)] [stored_flux E (dm_flux m)].

(** ** Whatever is read *)

(** every array has as many elements as its table says, and there is at least one of each *)
Definition shaped (m : demo) : Prop :=
  wf_array (dm_array m) = true /\ wf_targets (dm_targets m) = true /\ wf_wavelength (dm_wave m) = true
  /\ wf_corr (dm_corr m) = true /\ wf_inspol (dm_inspol m) = true /\ wf_vis (dm_vis m) = true
  /\ wf_vis2 (dm_vis2 m) = true /\ wf_t3 (dm_t3 m) = true /\ wf_flux (dm_flux m) = true
  /\ Forall (fun n => 1 <= n) [ar_nelement (dm_array m); ot_ntarget (dm_targets m); wv_nwave (dm_wave m);
       co_ncorr (dm_corr m); is_numrec (dm_inspol m); tb_numrec (dm_vis m); tb_numrec (dm_vis2 m);
       tb_numrec (dm_t3 m); tb_numrec (dm_flux m)]
  /\ Forall (fun n => n = wv_nwave (dm_wave m))
       [is_nwave (dm_inspol m); tb_nwave (dm_vis m); tb_nwave (dm_vis2 m); tb_nwave (dm_t3 m); tb_nwave (dm_flux m)].
(** the integers of the tables fit in the columns, and the numbers in the keywords *)
Definition writable_demo (E : cfitsio) (m : demo) : bool :=
  writable_target (dm_targets m) && writable_vis (dm_vis m) && writable_vis2 (dm_vis2 m) && writable_t3 (dm_t3 m)
  && writable_flux E (dm_flux m) && writable_array E (dm_array m) && writable_corr (dm_corr m)
  && writable_inspol (dm_inspol m).
