(** Property C39 for files written by the library, and C62: demo_read of oitable-demo.c.
    [E] stands for cfitsio and for the contents of uninitialised storage. *)
From Verif Require Import ByName DemoSpec DemoProofs DemoWhole DemoMain Sample IOMain FileModel.
Open Scope list_scope.
Open Scope Z_scope.

(** ** C39: in a file that the library has written, the first table of that name is read,
    wherever the file is *)

Theorem C39_written_array : forall E o name d d' n a, storable_fits E o = true -> find_file name d = None ->
  write_oi_fits E name o d 0 = Ok (d', 0) -> find (fun a => str_eqb (ar_arrname a) n) (o_arrayList o) = Some a ->
  exists hdus, find_file name d' = Some hdus
    /\ forall cur, exists c, read_oi_array E n (mk_file hdus cur, 0) = Ok (Some (stored_array E a), (mk_file hdus c, 0)).
Proof. exact written_array. Qed.
Print Assumptions C39_written_array.
Theorem C39_written_wavelength : forall E o name d d' n a, storable_fits E o = true -> find_file name d = None ->
  write_oi_fits E name o d 0 = Ok (d', 0) ->
  find (fun a => str_eqb (wv_insname a) n) (o_wavelengthList o) = Some a ->
  exists hdus, find_file name d' = Some hdus
    /\ forall cur, exists c, read_oi_wavelength E n (mk_file hdus cur, 0) = Ok (Some (stored_wavelength a), (mk_file hdus c, 0)).
Proof. exact written_wavelength. Qed.
Print Assumptions C39_written_wavelength.
Theorem C39_written_corr : forall E o name d d' n a, storable_fits E o = true -> find_file name d = None ->
  write_oi_fits E name o d 0 = Ok (d', 0) -> find (fun a => str_eqb (co_corrname a) n) (o_corrList o) = Some a ->
  exists hdus, find_file name d' = Some hdus
    /\ forall cur, exists c, read_oi_corr E n (mk_file hdus cur, 0) = Ok (Some (stored_corr a), (mk_file hdus c, 0)).
Proof. exact written_corr. Qed.
Print Assumptions C39_written_corr.
(** the second array and the second wavelength table of the sample *)
Example C39_written_case : storable_fits e0 s_fits = true /\ write_oi_fits e0 "a" s_fits [] 0 = Ok (a_disk, 0)
  /\ option_map ar_arrname (find (fun a => str_eqb (ar_arrname a) "CHARA") (o_arrayList s_fits)) = Some "CHARA"%string
  /\ option_map wv_insname (find (fun a => str_eqb (wv_insname a) "PIONIER") (o_wavelengthList s_fits)) = Some "PIONIER"%string
  /\ option_map co_corrname (find (fun a => str_eqb (co_corrname a) "CORR1") (o_corrList s_fits)) = Some "CORR1"%string.
Proof. split; [exact a_storable|]. split; [exact a_disk_written|]. repeat split. Qed.

(** ** C62: demo_read *)

(** When it succeeds and what it prints.  [demo_reads]: the header and the targets are
    readable, so is every OI_VIS after the OI_TARGET (HDU number [k]) and every other data
    table in the file, and so are the tables these name. *)
Theorem C62_success : forall E input name d p l lines,
  types input name -> find_file name d = Some (p :: l) ->
  demo_read E input d = Ok (lines, 0) <->
  exists k vis vis2 t3 flux inspol,
    demo_reads E (p :: l) k vis vis2 t3 flux inspol /\ (vis2 = [] \/ vis <> [])
    /\ lines = printed name vis vis2 t3 flux inspol.
Proof. exact demo_read_iff. Qed.
Print Assumptions C62_success.

(** a file written by the library *)
Theorem C62_written : forall E o name d d' input, storable_fits E o = true -> all_resolved o ->
  (o_vis2List o = [] \/ o_visList o <> []) -> find_file name d = None ->
  write_oi_fits E name o d 0 = Ok (d', 0) -> types input name ->
  demo_read E input d'
  = Ok (printed name (o_visList o) (o_vis2List o) (o_t3List o) (o_fluxList o) (o_inspolList o), 0).
Proof. exact demo_written. Qed.
Print Assumptions C62_written.
Example C62_case : storable_fits e0 s_fits = true /\ all_resolved s_fits
  /\ (o_vis2List s_fits = [] \/ o_visList s_fits <> []) /\ write_oi_fits e0 "a" s_fits [] 0 = Ok (a_disk, 0)
  /\ types ("a" ++ nl) "a".
Proof.
  split; [exact a_storable|]. split; [exact a_resolved|]. split; [right; discriminate|].
  split; [exact a_disk_written|exact a_typed].
Qed.

(** each line has the names of its own table exactly when every OI_VIS2 happens to have
    the CORRNAME of the last OI_VIS *)
Theorem C62_own_names : forall name vis vis2 t3 flux inspol,
  printed name vis vis2 t3 flux inspol = meant name vis vis2 t3 flux inspol
  <-> Forall (fun t : oi_vis2 => tb_corrname t = last_corrname vis) vis2.
Proof. exact shown_own. Qed.
Print Assumptions C62_own_names.
(** the OI_VIS2 of the sample has no CORRNAME *)
Theorem C62_corrname_refuted : map tb_corrname (o_vis2List s_fits) = [""%string]
  /\ demo_read e0 ("a" ++ nl) a_disk
  = Ok (["Reading FITS file a...";
         "Read OI_VIS      with  ARRNAME=VLTI INSNAME=GRAVITY CORRNAME=CORR1";
         "Read OI_VIS2     with  ARRNAME=CHARA INSNAME=PIONIER CORRNAME=CORR1";
         "Read OI_T3       with  ARRNAME=VLTI INSNAME=GRAVITY CORRNAME=";
         "Read OI_FLUX     with  ARRNAME=VLTI INSNAME=GRAVITY CORRNAME=";
         "Read OI_INSPOL   with  ARRNAME=VLTI"]%string, 0).
Proof. exact (conj eq_refl wrong_corrname). Qed.
Print Assumptions C62_corrname_refuted.

(** with OI_VIS2 but no OI_VIS, what is printed was never set *)
Theorem C62_undefined : forall E o name d d' input, storable_fits E o = true -> all_resolved o ->
  o_visList o = [] -> o_vis2List o <> [] -> find_file name d = None ->
  write_oi_fits E name o d 0 = Ok (d', 0) -> types input name ->
  demo_read E input d' = UB.
Proof. exact demo_undefined. Qed.
Print Assumptions C62_undefined.
Example C62_undefined_case : storable_fits e0 no_vis = true /\ all_resolved no_vis
  /\ o_visList no_vis = [] /\ o_vis2List no_vis <> [].
Proof. exact (conj no_vis_storable (conj no_vis_resolved no_vis_tables)). Qed.

(** an OI_VIS before the OI_TARGET is read by read_oi_fits but not here *)
Theorem C62_order_refuted :
  read_oi_fits e0 "a" late_disk 0 = Ok (Some late_fits, 0)
  /\ map tb_insname (o_visList late_fits) = ["GRAVITY"%string]
  /\ demo_read e0 ("a" ++ nl) late_disk
     = Ok (["Reading FITS file a...";
            "Read OI_T3       with  ARRNAME=VLTI INSNAME=GRAVITY CORRNAME=";
            "Read OI_FLUX     with  ARRNAME=VLTI INSNAME=GRAVITY CORRNAME=";
            "Read OI_INSPOL   with  ARRNAME=VLTI"]%string, 0).
Proof. exact late_target. Qed.
Print Assumptions C62_order_refuted.

(** a name that is not ended by a newline loses its last character *)
Theorem C62_newline_refuted : forall name c,
  all_chars (fun c => negb (Ascii.eqb c "010")) (name ++ String c EmptyString) = true ->
  strlen (name ++ String c EmptyString) <= 1024 ->
  typed_name (name ++ String c EmptyString) = Ok name.
Proof. exact no_newline. Qed.
Print Assumptions C62_newline_refuted.
Example C62_newline_case : typed_name "data.fits" = Ok "data.fit"%string.
Proof. reflexivity. Qed.
