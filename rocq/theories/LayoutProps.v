(** C46: the layout of every table written. *)
From Verif Require Import WriteModel LayoutSpec LayoutMain IOSpec Sample IOMain LayoutFile.
Open Scope string_scope.
Open Scope list_scope.
Open Scope Z_scope.

(** ** C46: a file written without an error, and each table of it *)

Theorem C46_layout : forall E name o d st d', write_oi_fits E name o d st = Ok (d', 0) ->
  exists hdus, d' = (name, hdus) :: d /\ file_of E o hdus.
Proof. exact file_layout. Qed.
Print Assumptions C46_layout.
(** with every optional column and a dataset that does not survive a round trip *)
Example C46_case : storable_fits e0 l_fits = false /\
  exists hdus, write_oi_fits e0 "f" l_fits [] 0 = Ok ([("f", hdus)], 0)
  /\ map shape hdus =
       [("", [], 0);
        ("OI_TARGET",
         ["TARGET_ID"; "TARGET"; "RAEP0"; "DECEP0"; "EQUINOX"; "RA_ERR"; "DEC_ERR"; "SYSVEL"; "VELTYP";
          "VELDEF"; "PMRA"; "PMDEC"; "PMRA_ERR"; "PMDEC_ERR"; "PARALLAX"; "PARA_ERR"; "SPECTYP";
          "CATEGORY"], 1);
        ("OI_WAVELENGTH", ["EFF_WAVE"; "EFF_BAND"], 3);
        ("OI_CORR", ["IINDX"; "JINDX"; "CORR"], 2);
        ("OI_VIS",
         ["TARGET_ID"; "TIME"; "MJD"; "INT_TIME"; "VISAMP"; "VISAMPERR"; "CORRINDX_VISAMP"; "VISPHI";
          "RVIS"; "RVISERR"; "CORRINDX_RVIS"; "IVIS"; "IVISERR"; "CORRINDX_IVIS"; "VISPHIERR";
          "CORRINDX_VISPHI"; "VISREFMAP"; "UCOORD"; "VCOORD"; "STA_INDEX"; "FLAG"], 2);
        ("OI_FLUX",
         ["TARGET_ID"; "MJD"; "INT_TIME"; "FLUXDATA"; "FLUXERR"; "STA_INDEX"; "FLAG"], 1)].
Proof. split; [vm_compute; reflexivity|]. eexists. split; vm_compute; reflexivity. Qed.

(** a call of one of the functions for a single table *)
Theorem C46_target : forall E t, adds (write_oi_target E t) (target_table E t).
Proof. exact target_adds. Qed.
Print Assumptions C46_target.
Theorem C46_array : forall E t extver, adds (write_oi_array E t extver) (array_table E t extver).
Proof. exact array_adds. Qed.
Print Assumptions C46_array.
Theorem C46_wavelength : forall E t extver, adds (write_oi_wavelength E t extver) (wavelength_table E t extver).
Proof. exact wavelength_adds. Qed.
Print Assumptions C46_wavelength.
Theorem C46_corr : forall E t extver, adds (write_oi_corr E t extver) (corr_table E t extver).
Proof. exact corr_adds. Qed.
Print Assumptions C46_corr.
Theorem C46_inspol : forall E t extver, adds (write_oi_inspol E t extver) (inspol_table E t extver).
Proof. exact inspol_adds. Qed.
Print Assumptions C46_inspol.
Theorem C46_vis : forall E t extver, adds (write_oi_vis E t extver) (vis_table E t extver).
Proof. exact vis_adds. Qed.
Print Assumptions C46_vis.
Theorem C46_vis2 : forall E t extver, adds (write_oi_vis2 E t extver) (vis2_table E t extver).
Proof. exact vis2_adds. Qed.
Print Assumptions C46_vis2.
Theorem C46_t3 : forall E t extver, adds (write_oi_t3 E t extver) (t3_table E t extver).
Proof. exact t3_adds. Qed.
Print Assumptions C46_t3.
Theorem C46_flux : forall E t extver, adds (write_oi_flux E t extver) (flux_table E t extver).
Proof. exact flux_adds. Qed.
Print Assumptions C46_flux.
Example C46_tables_case : exists f, write_oi_vis e0 s_vis 3 (mk_file [null_primary] 1, 0) = Ok (f, 0)
  /\ List.length (f_hdus f) = 2%nat.
Proof. eexists. split; vm_compute; reflexivity. Qed.
