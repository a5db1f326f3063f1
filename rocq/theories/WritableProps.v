(** Properties C63 and C64: when a dataset can be written, and what is then read. *)
From Verif Require Import FileModel ReadModel IOSpec WriteModel WriteTables IOClaims IOMain Sample WritableSpec CutSpec
  CutWhole WritableMain.
Open Scope string_scope.
Open Scope list_scope.
Open Scope Z_scope.

(** ** C63: the outcome of write_oi_fits, for any dataset in memory *)

Theorem C63_defined : forall E o name d, wf_fits o = true -> channels_counted o ->
  write_oi_fits E name o d 0 <> UB.
Proof. exact write_defined. Qed.
Print Assumptions C63_defined.
Theorem C63_aborts : forall E o name d, wf_fits o = true -> channels_counted o -> find_file name d = None ->
  (write_oi_fits E name o d 0 = Abort <-> stuck E o).
Proof. exact write_aborts. Qed.
Print Assumptions C63_aborts.
Theorem C63_succeeds : forall E o name d, wf_fits o = true -> channels_counted o -> find_file name d = None ->
  ((exists d', write_oi_fits E name o d 0 = Ok (d', 0)) <-> Forall good (verdicts E o)).
Proof. exact write_succeeds. Qed.
Print Assumptions C63_succeeds.
Theorem C63_one_file : forall E o name d d' st, wf_fits o = true -> channels_counted o -> find_file name d = None ->
  write_oi_fits E name o d 0 = Ok (d', st) -> exists hdus, d' = (name, hdus) :: d.
Proof. exact write_adds. Qed.
Print Assumptions C63_one_file.
(** A file that exists is not changed, whatever the dataset. *)
Theorem C63_existing : forall E o name d st, find_file name d <> None \/ st <> 0 ->
  exists st', write_oi_fits E name o d st = Ok (d, st') /\ st' <> 0.
Proof. exact write_existing. Qed.
Print Assumptions C63_existing.
Example C63_case : wf_fits s_fits = true /\ channels_counted s_fits /\ Forall good (verdicts e0 s_fits).
Proof. split; [reflexivity|]. split; [exact w_counted|exact w_good]. Qed.
(** 10000 channels *)
Example C63_abort_case : wf_fits (w_wide 4) = true /\ channels_counted (w_wide 4) /\ stuck e0 (w_wide 4)
  /\ write_oi_fits e0 "f" (w_wide 4) [] 0 = Abort.
Proof.
  split; [apply w_wide_wf|]. split; [apply w_wide_counted|]. split; [exact w_wide_stuck|exact w_wide_aborts].
Qed.
(** 10000 channels after a target that cannot be written: no abort, but an error *)
Example C63_error_case : ~ stuck e0 (w_wide 40000) /\ ~ Forall good (verdicts e0 (w_wide 40000)).
Proof. exact w_wide_far. Qed.
Example C63_target_case : exists hdus st, write_oi_fits e0 "f" w_far [] 0 = Ok ([("f", hdus)], st) /\ st <> 0.
Proof. exact w_far_bad. Qed.
Example C63_nan_case : exists hdus st, write_oi_fits e_nan "f" w_nan [] 0 = Ok ([("f", hdus)], st) /\ st <> 0.
Proof. exact w_nan_bad. Qed.

(** ** C64: what is read of any dataset that was written without an error *)

Theorem C64_read_back : forall E o name d d', wf_fits o = true -> kept_strings o -> filled o ->
  write_oi_fits E name o d 0 = Ok (d', 0) ->
  exists o', read_oi_fits E name d' 0 = Ok (Some o', 0)
    /\ has_tables o' (stored_header E (cut_header (o_header o))) (stored_target E (cut_target (o_targets o)))
         (map (fun a => stored_array E (cut_array a)) (o_arrayList o))
         (map (fun w => stored_wavelength (cut_wavelength w)) (o_wavelengthList o))
         (map (fun c => stored_corr (cut_corr c)) (o_corrList o))
         (map (fun t => stored_inspol E (cut_inspol t)) (o_inspolList o))
         (map (fun t => stored_vis E (cut_vis t)) (o_visList o))
         (map (fun t => stored_vis2 E (cut_vis2 t)) (o_vis2List o))
         (map (fun t => stored_t3 E (cut_t3 t)) (o_t3List o))
         (map (fun t => stored_flux E (cut_flux t)) (o_fluxList o)).
Proof. exact read_cut. Qed.
Print Assumptions C64_read_back.
Example C64_case : wf_fits c_fits = true /\ kept_strings c_fits /\ filled c_fits
  /\ exists d', write_oi_fits e0 "f" c_fits [] 0 = Ok (d', 0).
Proof. split; [exact c_wf|]. split; [exact c_kept|]. split; [exact c_filled|exact c_written]. Qed.
Theorem C64_header_text : forall s, cut_to card_length 68 (shown s) (card s).
Proof. exact card_cut. Qed.
Print Assumptions C64_header_text.
Example C64_header_case : card (c_name "A") = c_name "" /\ card "O'Neill  " = "O'Neill".
Proof. split; vm_compute; reflexivity. Qed.
Theorem C64_column_text : forall w s, 0 <= w -> cut_to strlen w s (cell w s).
Proof. exact cell_cut. Qed.
Print Assumptions C64_column_text.
Example C64_column_case : cell 16 "alpha Centauri A and B" = "alpha Centauri A".
Proof. reflexivity. Qed.
(** Names that differ after their 68th character become one: a table that referred to the second
    array refers to the first when the file is read. *)
Theorem C64_reference_refuted : exists o d' o',
  wf_fits o = true /\ kept_strings o /\ filled o
  /\ write_oi_fits e0 "f" o [] 0 = Ok (d', 0) /\ read_oi_fits e0 "f" d' 0 = Ok (Some o', 0)
  /\ map tb_arrname (o_vis2List o) = [c_name "B"] /\ oi_fits_lookup_array o (c_name "B") = Some c_b
  /\ (exists t, o_vis2List o' = [t]
      /\ oi_fits_lookup_array o' (tb_arrname t) = Some (stored_array e0 (cut_array c_a)))
  /\ ar_elem c_a <> ar_elem c_b.
Proof. exact names_collide. Qed.
Print Assumptions C64_reference_refuted.
