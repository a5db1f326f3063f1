(** More cases against properties C25 (merging), C38 (reading) and C46 (writing). *)
From Verif Require Import Base Sample Types MergeModel MergeSpec FitsModel ReadModel WriteModel IOMain FindingMain
  LayoutMain OddMain.
Open Scope string_scope.
Open Scope list_scope.
Open Scope Z_scope.

(** An array at a place that is not a number takes the place of all others with its stations. *)
Theorem C25_array_nan_refuted :
  let a := one_array s_header (array_at "BROKEN" "GEOCENTRIC" S754_nan) in
  let b := one_array s_header (array_at "CHARA" "GEOCENTRIC" (fl 7 1)) in
  exists out, Forall (fun d => wf_fits d = true) [a; b] /\ Forall names_fit [a; b]
    /\ merge_oi_fits_list [a; b] = Ok out /\ distinct_names out
    /\ seen_arrays b = ([("CHARA", "GEOCENTRIC", fl 7 1)], ["CHARA"])
    /\ seen_arrays out = ([("BROKEN", "GEOCENTRIC", S754_nan)], ["BROKEN"; "BROKEN"]).
Proof. exact nan_array. Qed.
Print Assumptions C25_array_nan_refuted.

(** FRAME is not compared: geocentric coordinates become those of another frame. *)
Theorem C25_frame_refuted :
  let a := one_array s_header (array_at "SKY" "SKY" (fl 7 1)) in
  let b := one_array s_header (array_at "CHARA" "GEOCENTRIC" (fl 7 1)) in
  exists out, Forall (fun d => wf_fits d = true) [a; b] /\ Forall names_fit [a; b]
    /\ merge_oi_fits_list [a; b] = Ok out /\ distinct_names out
    /\ seen_arrays b = ([("CHARA", "GEOCENTRIC", fl 7 1)], ["CHARA"])
    /\ seen_arrays out = ([("SKY", "SKY", fl 7 1)], ["SKY"; "SKY"]).
Proof. exact frame_ignored. Qed.
Print Assumptions C25_frame_refuted.

(** Whether merging an array without stations aborts depends on the order of the inputs. *)
Theorem C25_no_stations_refuted :
  let a := one_array s_header (array_at "SKY" "SKY" (fl 1 1)) in
  let b := one_array s_header (no_array "CHARA") in
  Forall (fun d => wf_fits d = true) [a; b] /\ merge_oi_fits_list [b] = Abort /\ merge_oi_fits_list [b; a] = Abort
  /\ exists out, merge_oi_fits_list [a; b] = Ok out
       /\ seen_arrays b = ([("CHARA", "GEOCENTRIC", fl 1 1)], ["CHARA"])
       /\ seen_arrays out = ([("SKY", "SKY", fl 1 1)], ["SKY"; "SKY"]).
Proof. exact no_stations. Qed.
Print Assumptions C25_no_stations_refuted.

(** In tables of revision 0 CORRNAME is read for OI_VIS but not for OI_VIS2. *)
Theorem C38_revision_refuted : forall E, exists o, read_oi_fits E "f" [("f", x_old)] 0 = Ok (Some o, 0)
  /\ seen_corr o = ([(0, "C")], [(0, "")]).
Proof. exact revision_zero. Qed.
Print Assumptions C38_revision_refuted.

(** A text column whose name occurs twice: an uninitialised type code is tested. *)
Theorem C38_twice_refuted : forall E,
  read_oi_fits E "f" [("f", [x_primary; twice "TARGET" x_target; x_wave; x_vis2 2])] 0 = UB
  /\ (exists o, read_oi_fits E "f" [("f", [x_primary; x_target; x_wave; x_vis2 2])] 0 = Ok (Some o, 0)).
Proof. exact column_twice. Qed.
Print Assumptions C38_twice_refuted.
(** A column of numbers that occurs twice costs only its table. *)
Example C38_twice_case : forall E,
  exists o, read_oi_fits E "f" [("f", [x_primary; x_target; x_wave; twice "MJD" (x_vis2 2); x_vis2 3])] 0 = Ok (Some o, 0)
    /\ map tb_numrec (o_vis2List o) = [3].
Proof. exact number_twice. Qed.

(** RVIS to CORRINDX_IVIS are between VISPHI and VISPHIERR. *)
Theorem C46_order_refuted : exists d hdus h rows, wf_fits d = true
  /\ write_oi_fits e0 "f" d [] 0 = Ok ([("f", hdus)], 0) /\ In h hdus
  /\ shape h = ("OI_VIS", ["TARGET_ID"; "TIME"; "MJD"; "INT_TIME"; "VISAMP"; "VISAMPERR"; "CORRINDX_VISAMP"; "VISPHI";
          "RVIS"; "RVISERR"; "CORRINDX_RVIS"; "IVIS"; "IVISERR"; "CORRINDX_IVIS"; "VISPHIERR";
          "CORRINDX_VISPHI"; "VISREFMAP"; "UCOORD"; "VCOORD"; "STA_INDEX"; "FLAG"], rows).
Proof. exact column_order. Qed.
Print Assumptions C46_order_refuted.
