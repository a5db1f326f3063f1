(** Properties C35-C40: reading and writing files.  [E] stands for cfitsio and for the
    contents of uninitialised storage: every theorem holds for all of them. *)
From Verif Require Import FileModel IOClaims IOProofs IOSkip WriteKeys IOMain Sample.
Open Scope list_scope.
Open Scope Z_scope.

(** ** C35: a table written is read back.  [stored_x] (IOSpec.v) says field by field what is
    read; [storable_x] which tables fit in FITS.  Nothing before the new HDU changes. *)

Theorem C35_header : forall E h cur, storable_header h = true ->
  exists f', write_oi_header E h (mk_file [] 0, 0) = Ok (f', 0) /\ List.length (f_hdus f') = 1%nat
    /\ read_oi_header E (mk_file (f_hdus f') cur, 0) = Ok (Some (stored_header E h), (f', 0)).
Proof. exact header_round_trip. Qed.
Print Assumptions C35_header.
Theorem C35_target : forall E t f, storable_target t = true -> existsb (target_like E) (f_hdus f) = false ->
  exists f' h, write_oi_target E t (f, 0) = Ok (f', 0) /\ f_hdus f' = base_hdus f ++ [h]
    /\ forall cur, read_oi_target E (mk_file (f_hdus f') cur, 0) = Ok (Some (stored_target E t), (f', 0)).
Proof. exact target_round_trip. Qed.
Print Assumptions C35_target.
Theorem C35_array : forall E t extver, storable_array E t = true ->
  write_read_next (write_oi_array E t extver) (read_next_oi_array E) (stored_array E t).
Proof. exact array_round_trip. Qed.
Print Assumptions C35_array.
Theorem C35_wavelength : forall E t extver, storable_wavelength t = true ->
  write_read_next (write_oi_wavelength E t extver) (read_next_oi_wavelength E) (stored_wavelength t).
Proof. exact wavelength_round_trip. Qed.
Print Assumptions C35_wavelength.
Theorem C35_corr : forall E t extver, storable_corr t = true ->
  write_read_next (write_oi_corr E t extver) (read_next_oi_corr E) (stored_corr t).
Proof. exact corr_round_trip. Qed.
Print Assumptions C35_corr.
Theorem C35_vis : forall E t extver, storable_vis t = true ->
  write_read_next (write_oi_vis E t extver) (read_next_oi_vis E) (stored_vis E t).
Proof. exact vis_round_trip. Qed.
Print Assumptions C35_vis.
Theorem C35_vis2 : forall E t extver, storable_vis2 t = true ->
  write_read_next (write_oi_vis2 E t extver) (read_next_oi_vis2 E) (stored_vis2 E t).
Proof. exact vis2_round_trip. Qed.
Print Assumptions C35_vis2.
Theorem C35_t3 : forall E t extver, storable_t3 t = true ->
  write_read_next (write_oi_t3 E t extver) (read_next_oi_t3 E) (stored_t3 E t).
Proof. exact t3_round_trip. Qed.
Print Assumptions C35_t3.
Theorem C35_flux : forall E t extver, storable_flux E t = true ->
  write_read_next (write_oi_flux E t extver) (read_next_oi_flux E) (stored_flux E t).
Proof. exact flux_round_trip. Qed.
Print Assumptions C35_flux.
(** all but the Jones matrices, see [C36_inspol_refuted] *)
Theorem C35_inspol : forall E t extver, storable_inspol t = true ->
  write_read_next (write_oi_inspol E t extver) (read_next_oi_inspol E) (stored_inspol E t).
Proof. exact inspol_round_trip. Qed.
Print Assumptions C35_inspol.
(** the samples have several rows and channels; OI_VIS has all its optional columns *)
Example C35_case : storable_header s_header = true /\ storable_target s_targets = true
  /\ storable_array e0 s_array1 = true /\ storable_wavelength s_wave1 = true /\ storable_corr s_corr = true
  /\ storable_vis s_vis = true /\ storable_vis2 s_vis2 = true /\ storable_t3 s_t3 = true
  /\ storable_flux e0 s_flux = true /\ storable_inspol s_inspol = true.
Proof. repeat split; vm_compute; reflexivity. Qed.

(** tables of version 2 with zero TIME and every optional part come back unchanged *)
Theorem C35_array_same : forall E a,
  ar_revision a = 2 -> cf_key_double E (ar_arrayx a) = Some (ar_arrayx a) ->
  cf_key_double E (ar_arrayy a) = Some (ar_arrayy a) -> cf_key_double E (ar_arrayz a) = Some (ar_arrayz a) ->
  stored_array E a = a.
Proof. exact exact_array. Qed.
Print Assumptions C35_array_same.
Theorem C35_target_same : forall E t, ot_revision t = 2 -> ot_usecategory t = true -> stored_target E t = t.
Proof. exact exact_target. Qed.
Print Assumptions C35_target_same.
Theorem C35_wavelength_same : forall w, wv_revision w = 2 -> stored_wavelength w = w.
Proof. exact exact_wavelength. Qed.
Print Assumptions C35_wavelength_same.
Theorem C35_corr_same : forall c, co_revision c = 1 -> stored_corr c = c.
Proof. exact exact_corr. Qed.
Print Assumptions C35_corr_same.
Theorem C35_vis_same : forall E t,
  tb_revision t = 2 -> Forall (fun r => vr_time r = f64_zero) (tb_record t) ->
  nonempty (tb_corrname t) = true -> vx_usecomplex (tb_x t) = true ->
  -1 <= vx_amporder (tb_x t) -> -1 <= vx_phiorder (tb_x t) ->
  (vx_amptyp (tb_x t) = "correlated flux" \/ vx_ampunit (tb_x t) = "")%string ->
  stored_vis E t = t.
Proof. exact exact_vis. Qed.
Print Assumptions C35_vis_same.
Theorem C35_vis2_same : forall E t,
  tb_revision t = 2 -> Forall (fun r => v2_time r = f64_zero) (tb_record t) ->
  nonempty (tb_corrname t) = true -> stored_vis2 E t = t.
Proof. exact exact_vis2. Qed.
Print Assumptions C35_vis2_same.
Theorem C35_t3_same : forall E t,
  tb_revision t = 2 -> Forall (fun r => t3_time r = f64_zero) (tb_record t) ->
  nonempty (tb_corrname t) = true -> stored_t3 E t = t.
Proof. exact exact_t3. Qed.
Print Assumptions C35_t3_same.
Theorem C35_flux_same : forall E t,
  tb_revision t = 1 -> nonempty (tb_corrname t) = true -> nonempty (tb_arrname t) = true ->
  nonempty (fx_fovtype (tb_x t)) = true -> cf_key_double E (fx_fov (tb_x t)) = Some (fx_fov (tb_x t)) ->
  stored_flux E t = t.
Proof. exact exact_flux. Qed.
Print Assumptions C35_flux_same.
Example C35_same_case : stored_vis e0 s_vis = s_vis /\ stored_array e0 s_array1 = s_array1
  /\ stored_target e0 s_targets = s_targets.
Proof.
  split; [|split]; [apply C35_vis_same|apply C35_array_same|apply C35_target_same]; try reflexivity;
    try discriminate; [repeat constructor|now right].
Qed.

(** ** C36: a whole dataset *)

Theorem C36_round_trip : forall E o name d, storable_fits E o = true -> find_file name d = None ->
  exists d' o',
    write_oi_fits E name o d 0 = Ok (d', 0)
    /\ (forall other, other <> name -> find_file other d' = find_file other d)
    /\ read_oi_fits E name d' 0 = Ok (Some o', 0)
    /\ has_tables o' (stored_header E (o_header o)) (stored_target E (o_targets o))
         (map (stored_array E) (o_arrayList o)) (map stored_wavelength (o_wavelengthList o))
         (map stored_corr (o_corrList o)) (map (stored_inspol E) (o_inspolList o))
         (map (stored_vis E) (o_visList o)) (map (stored_vis2 E) (o_vis2List o))
         (map (stored_t3 E) (o_t3List o)) (map (stored_flux E) (o_fluxList o)).
Proof. exact file_round_trip. Qed.
Print Assumptions C36_round_trip.
Example C36_case : storable_fits e0 s_fits = true.
Proof. exact s_storable. Qed.
(** Jones matrices of OI_INSPOL are lost: different datasets give the same file contents. *)
Theorem C36_inspol_refuted : forall E name d, find_file name d = None ->
  exists o1 o2 d1 d2 r1 r2,
    storable_fits E o1 = true /\ storable_fits E o2 = true /\ o_inspolList o1 <> o_inspolList o2
    /\ write_oi_fits E name o1 d 0 = Ok (d1, 0) /\ write_oi_fits E name o2 d 0 = Ok (d2, 0)
    /\ read_oi_fits E name d1 0 = Ok (Some r1, 0) /\ read_oi_fits E name d2 0 = Ok (Some r2, 0)
    /\ o_inspolList r1 = o_inspolList r2.
Proof. exact inspol_lost. Qed.
Print Assumptions C36_inspol_refuted.

(** ** C37: any dataset that is written without an error is written as version 2 *)

Theorem C37_version2 : forall E name o d st d', write_oi_fits E name o d st = Ok (d', 0) ->
  st = 0 /\ find_file name d = None /\ exists hdus, d' = (name, hdus) :: d /\ version2 o hdus.
Proof. exact file_keys. Qed.
Print Assumptions C37_version2.
(** a dataset of version 1 *)
Example C37_case : exists d', write_oi_fits e0 "f" s_v1 [] 0 = Ok (d', 0) /\ List.length d' = 1%nat.
Proof. eexists. split; vm_compute; reflexivity. Qed.

(** ** C38: what read_oi_fits returns is what each table alone gives *)

Theorem C38_exactly : forall E name d p rest r st,
  find_file name d = Some (p :: rest) -> read_oi_fits E name d 0 = Ok (Some r, st) ->
  st = 0
  /\ o_arrayList r = flat_map (readable (read_next_oi_array E)) rest
  /\ o_wavelengthList r = flat_map (readable (read_next_oi_wavelength E)) rest
  /\ o_corrList r = flat_map (readable (read_next_oi_corr E)) rest
  /\ o_inspolList r = flat_map (readable (read_next_oi_inspol E)) rest
  /\ o_visList r = flat_map (readable (read_next_oi_vis E)) rest
  /\ o_vis2List r = flat_map (readable (read_next_oi_vis2 E)) rest
  /\ o_t3List r = flat_map (readable (read_next_oi_t3 E)) rest
  /\ o_fluxList r = flat_map (readable (read_next_oi_flux E)) rest
  /\ all_readable E (read_next_oi_array E) "OI_ARRAY" rest
  /\ all_readable E (read_next_oi_wavelength E) "OI_WAVELENGTH" rest.
Proof. exact fits_inv. Qed.
Print Assumptions C38_exactly.
(** it succeeds for version 2 files whatever other tables are unreadable *)
Theorem C38_succeeds : forall E name d p rest h s tg s',
  find_file name d = Some (p :: rest) ->
  read_oi_header E (mk_file (p :: rest) 1, 0) = Ok (Some h, s) -> h_content h = "OIFITS2"%string ->
  read_oi_target E (mk_file (p :: rest) 1, 0) = Ok (Some tg, s') ->
  all_readable E (read_next_oi_array E) "OI_ARRAY" rest ->
  all_readable E (read_next_oi_wavelength E) "OI_WAVELENGTH" rest ->
  (forall h, In h rest ->
     returns_something (alone (read_next_oi_corr E) h)
     /\ returns_something (alone (read_next_oi_inspol E) h)
     /\ returns_something (alone (read_next_oi_vis E) h)
     /\ returns_something (alone (read_next_oi_vis2 E) h)
     /\ returns_something (alone (read_next_oi_t3 E) h)
     /\ returns_something (alone (read_next_oi_flux E) h)) ->
  exists o, read_oi_fits E name d 0 = Ok (Some o, 0) /\ o_header o = h /\ o_targets o = tg.
Proof. exact fits_succeeds. Qed.
Print Assumptions C38_succeeds.
(** a table without a required column (or with two) or keyword is one of the unreadable ones *)
Theorem C38_vis_malformed : forall E h c,
  In c vis_columns /\ lacks_column h c \/ In c data_keywords /\ lacks_keyword h c ->
  readable (read_next_oi_vis E) h = [].
Proof. exact vis_malformed. Qed.
Print Assumptions C38_vis_malformed.
Theorem C38_vis2_malformed : forall E h c,
  In c vis2_columns /\ lacks_column h c \/ In c data_keywords /\ lacks_keyword h c ->
  readable (read_next_oi_vis2 E) h = [].
Proof. exact vis2_malformed. Qed.
Print Assumptions C38_vis2_malformed.
Theorem C38_t3_malformed : forall E h c,
  In c t3_columns /\ lacks_column h c \/ In c data_keywords /\ lacks_keyword h c ->
  readable (read_next_oi_t3 E) h = [].
Proof. exact t3_malformed. Qed.
Print Assumptions C38_t3_malformed.
Theorem C38_inspol_malformed : forall E h c,
  In c inspol_columns /\ lacks_column h c \/ In c inspol_keywords /\ lacks_keyword h c ->
  readable (read_next_oi_inspol E) h = [].
Proof. exact inspol_malformed. Qed.
Print Assumptions C38_inspol_malformed.
Theorem C38_corr_malformed : forall E h c,
  In c corr_columns /\ lacks_column h c \/ In c corr_keywords /\ lacks_keyword h c ->
  readable (read_next_oi_corr E) h = [].
Proof. exact corr_malformed. Qed.
Print Assumptions C38_corr_malformed.
(** of the columns of OI_FLUX only FLUXDATA is required, see [C38_flux_refuted] *)
Theorem C38_flux_malformed : forall E h c,
  c = "FLUXDATA"%string /\ lacks_column h c \/ In c flux_keywords /\ lacks_keyword h c ->
  readable (read_next_oi_flux E) h = [].
Proof. exact flux_malformed. Qed.
Print Assumptions C38_flux_malformed.
(** two of four OI_VIS2 tables have no VIS2ERR; the others, with 2 and 3 rows, are read *)
Example C38_case : (In "VIS2ERR"%string vis2_columns /\ lacks_column x_bad "VIS2ERR")
  /\ forall E, exists o, read_oi_fits E "f" [("f"%string, x_file)] 0 = Ok (Some o, 0)
  /\ (map tb_numrec (o_vis2List o), o_numVis2 o, map wv_insname (o_wavelengthList o))
     = ([2; 3], 2, ["I"%string]).
Proof. exact (conj x_bad_lacks x_read). Qed.
(** a table without rows makes the program abort, whatever else is in the file *)
Theorem C38_empty_refuted : forall E,
  read_oi_fits E "f" [("f"%string, x_file ++ [x_vis2 0])] 0 = Abort
  /\ exists o, read_oi_fits E "f" [("f"%string, x_file)] 0 = Ok (Some o, 0).
Proof. exact empty_table. Qed.
Print Assumptions C38_empty_refuted.
(** an OI_FLUX table without five of its columns is returned, with undefined contents *)
Theorem C38_flux_refuted : forall E,
  Forall (lacks_column x_flux) ["TARGET_ID"; "MJD"; "INT_TIME"; "FLUXERR"; "FLAG"]%string
  /\ exists o, read_oi_fits E "f" [("f"%string, x_file ++ [x_flux])] 0 = Ok (Some o, 0)
       /\ (map (fun t => map fr_target_id (tb_record t)) (o_fluxList o),
           map (fun t => map fr_fluxerr (tb_record t)) (o_fluxList o))
          = ([[cf_junk_int E]], [[[cf_junk_dbl E; cf_junk_dbl E]]]).
Proof. exact flux_accepted. Qed.
Print Assumptions C38_flux_refuted.

(** ** C39: by name.  Missing: HDUs before it that are not binary tables. *)

Theorem C39_array_partial : forall E name, finds E (read_oi_array E name) "OI_ARRAY" "ARRNAME" name.
Proof. exact array_finds. Qed.
Print Assumptions C39_array_partial.
Theorem C39_wavelength_partial : forall E name,
  finds E (read_oi_wavelength E name) "OI_WAVELENGTH" "INSNAME" name.
Proof. exact wavelength_finds. Qed.
Print Assumptions C39_wavelength_partial.
Theorem C39_corr_partial : forall E name, finds E (read_oi_corr E name) "OI_CORR" "CORRNAME" name.
Proof. exact corr_finds. Qed.
Print Assumptions C39_corr_partial.
Theorem C39_array_absent : forall E name, not_found E (read_oi_array E name) "OI_ARRAY" "ARRNAME" name.
Proof. exact array_not_found. Qed.
Print Assumptions C39_array_absent.
Theorem C39_wavelength_absent : forall E name,
  not_found E (read_oi_wavelength E name) "OI_WAVELENGTH" "INSNAME" name.
Proof. exact wavelength_not_found. Qed.
Print Assumptions C39_wavelength_absent.
Theorem C39_corr_absent : forall E name, not_found E (read_oi_corr E name) "OI_CORR" "CORRNAME" name.
Proof. exact corr_not_found. Qed.
Print Assumptions C39_corr_absent.
Example C39_case : forall E, forallb is_binary [x_target; x_vis2 2] = true
  /\ existsb (matches E "OI_WAVELENGTH" "INSNAME" "I") [x_target; x_vis2 2] = false
  /\ is_binary x_wave = true /\ matches E "OI_WAVELENGTH" "INSNAME" "I" x_wave = true.
Proof. repeat split. Qed.
(** with an image before it the table is not found *)
Theorem C39_image_refuted : forall E,
  matches E "OI_WAVELENGTH" "INSNAME" "I" x_wave = true
  /\ (exists w, read_oi_wavelength E "I" (mk_file [x_primary; x_wave; x_image] 1, 0)
                = Ok (Some w, (mk_file [x_primary; x_wave; x_image] 2, 0)))
  /\ read_oi_wavelength E "I" (mk_file [x_primary; x_image; x_wave] 1, 0)
     = Ok (None, (mk_file [x_primary; x_image; x_wave] 2, KEY_NO_EXIST)).
Proof. exact hidden_by_image. Qed.
Print Assumptions C39_image_refuted.

(** ** C40: with an error set *)

Theorem C40_call : forall E c f st, st <> 0 -> perform E c (f, st) = Ok (Nothing, (f, st)).
Proof. exact perform_set. Qed.
Print Assumptions C40_call.
(** the calls after the first error, in any sequence *)
Theorem C40_calls : forall E l1 l2 s o1 s1, perform_all E l1 s = Ok (o1, s1) -> snd s1 <> 0 ->
  perform_all E (l1 ++ l2) s = Ok (o1 ++ repeat Nothing (List.length l2), s1).
Proof. exact perform_all_app. Qed.
Print Assumptions C40_calls.
Theorem C40_files : forall E name o d st, st <> 0 ->
  write_oi_fits E name o d st = Ok (d, st) /\ read_oi_fits E name d st = Ok (None, st).
Proof. exact files_set. Qed.
Print Assumptions C40_files.
(** the second call fails: there is no OI_TARGET *)
Example C40_case : forall E, exists o,
  perform_all E [ReadHeader; ReadTarget] (mk_file [x_primary; x_wave] 1, 0)
  = Ok ([o; Nothing], (mk_file [x_primary; x_wave] 1, BAD_HDU_NUM)).
Proof. intros E. eexists. vm_compute. reflexivity. Qed.
