(** Further cases against C25, C38 and C48. *)
From Verif Require Import Base FloatModel Types FileModel FitsModel FilterMain MergeModel MergeSpec IOClaims IOMain ReadModel ToolModel ToolSpec ToolMerge Sample FindingMain.
Open Scope string_scope.

(** An OI_VIS that names an OI_CORR but has none of the columns that refer to it is returned, with
    undefined contents. *)
Theorem C38_corrindx_refuted : forall E,
  Forall (lacks_column x_vis) ["CORRINDX_VISAMP"; "CORRINDX_VISPHI"]
  /\ exists o, read_oi_fits E "f" [("f", x_file ++ [x_vis])%list] 0 = Ok (Some o, 0)
       /\ map (fun t => (tb_corrname t, map (fun r => (vr_corrindx_visamp r, vr_corrindx_visphi r)) (tb_record t)))
            (o_visList o) = [("C", [(cf_junk_int E, cf_junk_int E)])].
Proof. exact vis_accepted. Qed.
Print Assumptions C38_corrindx_refuted.

(** Wavelengths that are not numbers are close to all others: the instrument of the second input is
    lost, and its data refer to the first. *)
Theorem C25_nan_refuted : exists out,
  Forall (fun d => wf_fits d = true) [no_numbers; numbers] /\ Forall names_fit [no_numbers; numbers]
  /\ merge_oi_fits_list [no_numbers; numbers] = Ok out /\ distinct_names out
  /\ map (fun w => (wv_insname w, wv_eff_wave w)) (o_wavelengthList numbers)
     = [("PIONIER", [fl32 16 10000000; fl32 17 10000000])]
  /\ map (fun w => (wv_insname w, wv_eff_wave w)) (o_wavelengthList out) = [("BROKEN", [S754_nan; S754_nan])]
  /\ map tb_insname (o_vis2List out) = ["BROKEN"; "BROKEN"].
Proof. exact nan_wavelengths. Qed.
Print Assumptions C25_nan_refuted.

(** With names that leave no room for a suffix ([roomy_names] in C48_output), the third data table
    of the file written by oifits-merge has the wavelengths of the second. *)
Theorem C48_names_refuted : forall fmt, exists names d ins o x o', Forall2 (fun n o => reads e0 n d o) names ins
  /\ targets_match ins /\ Forall (fun o => storable_fits e0 o = true) ins /\ find_file "o" d = None
  /\ merge_oi_fits_list ins = Ok o /\ distinct_names o
  /\ oifits_merge e0 fmt ("o" :: names) d = Ok x /\ x_status x = 0 /\ reads e0 "o" (x_disk x) o'
  /\ waves_seen o = [two_waves 20; two_waves 30; two_waves 40]
  /\ waves_seen o' = [two_waves 20; two_waves 30; two_waves 30].
Proof. exact long_names. Qed.
Print Assumptions C48_names_refuted.
