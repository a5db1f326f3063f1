(** C39: tables that are not found by name. *)
From Verif Require Import FitsModel ReadModel IOClaims IOMain HiddenSpec HiddenProofs.
Open Scope list_scope.
Open Scope string_scope.
Open Scope Z_scope.

(** With C39_*_partial and C39_*_absent these are all cases: the table, an HDU that is not a
    binary table, or the end of the file comes first. *)
Theorem C39_array_stops : forall E name, stops_at_other E (read_oi_array E name) "OI_ARRAY" "ARRNAME" name.
Proof. exact array_stops. Qed.
Print Assumptions C39_array_stops.
Theorem C39_wavelength_stops : forall E name,
  stops_at_other E (read_oi_wavelength E name) "OI_WAVELENGTH" "INSNAME" name.
Proof. exact wavelength_stops. Qed.
Print Assumptions C39_wavelength_stops.
Theorem C39_corr_stops : forall E name, stops_at_other E (read_oi_corr E name) "OI_CORR" "CORRNAME" name.
Proof. exact corr_stops. Qed.
Print Assumptions C39_corr_stops.
(** No table after an image (without OI_REVN) is found. *)
Theorem C39_array_hidden : forall E name, hides E (read_oi_array E name) "OI_ARRAY" "ARRNAME" name.
Proof. exact array_hidden. Qed.
Print Assumptions C39_array_hidden.
Theorem C39_wavelength_hidden : forall E name,
  hides E (read_oi_wavelength E name) "OI_WAVELENGTH" "INSNAME" name.
Proof. exact wavelength_hidden. Qed.
Print Assumptions C39_wavelength_hidden.
Theorem C39_corr_hidden : forall E name, hides E (read_oi_corr E name) "OI_CORR" "CORRNAME" name.
Proof. exact corr_hidden. Qed.
Print Assumptions C39_corr_hidden.
Example C39_hidden_case : forall E, forallb is_binary [x_target; x_vis2 2] = true
  /\ existsb (matches E "OI_WAVELENGTH" "INSNAME" "I") [x_target; x_vis2 2] = false
  /\ is_binary x_image = false /\ lacks_keyword x_image "OI_REVN"
  /\ matches E "OI_WAVELENGTH" "INSNAME" "I" x_wave = true.
Proof. repeat split. Qed.

(** An ASCII table is taken for the table asked for, and given its name. *)
Theorem C39_other_refuted : forall E, matches E "OI_WAVELENGTH" "INSNAME" "I" x_other = false
  /\ exists w, read_oi_wavelength E "I" (mk_file [x_primary; x_target; x_other] 1, 0)
               = Ok (Some w, (mk_file [x_primary; x_target; x_other] 3, 0)) /\ wv_insname w = "I".
Proof. exact other_read. Qed.
Print Assumptions C39_other_refuted.
