(** What a file written by write_oi_fits declares itself to be: CONTENT, EXTNAME, OI_REVN,
    EXTVER and the TIME columns.  Nothing here depends on the model of write_fits.c. *)
From Verif Require Import Base Types FloatModel FitsModel.
Open Scope list_scope.
Open Scope Z_scope.

(** the second column is TIME, a double per row, all zero, and no other has that name *)
Definition time_zero (h : hdu) : Prop :=
  exists c0 c1 rest, hd_cols h = c0 :: c1 :: rest
    /\ c_name c1 = "TIME"%string /\ c_form c1 = mk_form Double 1
    /\ Forall (fun v => v = VDbl f64_zero) (c_data c1)
    /\ Forall (fun c => c_name c <> "TIME"%string) (c0 :: rest).
(** a binary table with that EXTNAME, OI_REVN, EXTVER, and perhaps a TIME column *)
Definition state (name : string) (rv ev : option Z) (time : bool) (h : hdu) : Prop :=
  hd_type h = BINARY_TBL
  /\ find_key "EXTNAME" (hd_keys h) = Some (KStr name)
  /\ find_key "OI_REVN" (hd_keys h) = option_map KInt rv
  /\ find_key "EXTVER" (hd_keys h) = option_map KInt ev
  /\ (time = true -> time_zero h).
(** [n] tables of one kind, EXTVER counting from 1 *)
Definition kind_of_table (name : string) (rv : Z) (time : bool) (n : nat) (l : list hdu) : Prop :=
  List.length l = n
  /\ forall i h, nth_error l i = Some h -> state name (Some rv) (Some (Z.of_nat i + 1)) time h.
(** the HDUs of a version 2 file with the number of tables of a dataset *)
Definition version2 (o : oi_fits) (hdus : list hdu) : Prop :=
  exists p t arrays waves corrs inspols vis vis2 t3 flux,
    hdus = p :: t :: arrays ++ waves ++ corrs ++ inspols ++ vis ++ vis2 ++ t3 ++ flux
    /\ hd_type p = IMAGE_HDU /\ find_key "CONTENT" (hd_keys p) = Some (KStr "OIFITS2")
    /\ state "OI_TARGET" (Some 2) None false t
    /\ kind_of_table "OI_ARRAY" 2 false (List.length (o_arrayList o)) arrays
    /\ kind_of_table "OI_WAVELENGTH" 2 false (List.length (o_wavelengthList o)) waves
    /\ kind_of_table "OI_CORR" 1 false (List.length (o_corrList o)) corrs
    /\ kind_of_table "OI_INSPOL" 1 false (List.length (o_inspolList o)) inspols
    /\ kind_of_table "OI_VIS" 2 true (List.length (o_visList o)) vis
    /\ kind_of_table "OI_VIS2" 2 true (List.length (o_vis2List o)) vis2
    /\ kind_of_table "OI_T3" 2 true (List.length (o_t3List o)) t3
    /\ kind_of_table "OI_FLUX" 1 false (List.length (o_fluxList o)) flux.
