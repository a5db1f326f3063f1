(** C68: checksums are reported but do not change what is read. *)
From Verif Require Import Sample IOMain ToolMain ChksumModel ChksumSpec ChksumMain.
Open Scope string_scope.
Open Scope list_scope.
Open Scope Z_scope.

(** The dataset, the status and any undefined behaviour are those of read_oi_fits without
    verify_chksum, whatever the checksums. *)
Theorem C68_same : forall E V name d st,
  (forall hdus h, find_file name d = Some hdus -> In h hdus -> verifiable E V h) ->
  silenced (read_file_named E V name d st) = read_oi_fits E name d st.
Proof. exact read_same. Qed.
Print Assumptions C68_same.
(** each function of read_fits.c likewise; [read_next_table] for the tables of every kind *)
Theorem C68_readers : forall E V,
  only_warns E V (read_header E V) (read_oi_header E) /\ only_warns E V (read_targets E V) (read_oi_target E)
  /\ (forall n, only_warns E V (read_array E V n) (read_oi_array E n))
  /\ (forall n, only_warns E V (read_wavelength E V n) (read_oi_wavelength E n))
  /\ (forall n, only_warns E V (read_corr E V n) (read_oi_corr E n))
  /\ (forall A n (r : hdu -> rd (option A)), only_warns E V (read_next_table E V n r) (read_next E n r)).
Proof. exact readers_warn. Qed.
Print Assumptions C68_readers.
(** What is printed, in order, when the file is read. *)
Theorem C68_warnings : forall E V name d m o p rest, find_file name d = Some (p :: rest) ->
  (forall h, In h (p :: rest) -> verifiable E V h) ->
  read_file_named E V name d 0 = Ok (m, (Some o, 0)) -> m = flat_map (warnings E V) (seen E p rest).
Proof. exact read_warnings. Qed.
Print Assumptions C68_warnings.
(** Every HDU that is part of the dataset is verified, once, and no other is. *)
Theorem C68_once : forall E V name d m o p rest, find_file name d = Some (p :: rest) -> is_binary p = false ->
  (forall h, In h (p :: rest) -> verifiable E V h) ->
  read_file_named E V name d 0 = Ok (m, (Some o, 0)) ->
  exists l, m = flat_map (warnings E V) l /\ NoDup l
    /\ forall n h, In (n, h) l <-> hdu_at (p :: rest) n h /\ relevant E (p :: rest) n h.
Proof. exact read_once. Qed.
Print Assumptions C68_once.
(** Also when reading fails, a warning is about an HDU of the file whose checksum is wrong; *)
Theorem C68_about : forall E V name d st m r,
  (forall hdus h, find_file name d = Some hdus -> In h hdus -> verifiable E V h) ->
  read_file_named E V name d st = Ok (m, r) ->
  forall t, In t m -> exists hdus n h, find_file name d = Some hdus /\ hdu_at hdus n h /\ In t (warnings E V (n, h)).
Proof. exact read_about. Qed.
Print Assumptions C68_about.
(** nothing is printed if all checksums are right or missing. *)
Theorem C68_silent : forall E V name d st m r,
  (forall hdus h, find_file name d = Some hdus -> In h hdus -> verifiable E V h
    /\ wrong_data V h = false /\ wrong_hdu V h = false) ->
  read_file_named E V name d st = Ok (m, r) -> m = [].
Proof. exact read_silent. Qed.
Print Assumptions C68_silent.
(** a file of eleven HDUs or more, with two checksums wrong *)
Example C68_case : (forall hdus h, find_file "a" t_disk = Some hdus -> In h hdus -> verifiable e0 z_verdict h)
  /\ printed (read_file_named e0 z_verdict "a" t_disk 0)
     = ["WARNING! HDU checksum verification failed for HDU #1 (EXTNAME='' EXTVER=0)
"; "WARNING! Data checksum verification failed for HDU #10 (EXTNAME='OI_VIS2' EXTVER=1)
"]
  /\ List.length (vis2_of (read_file_named e0 z_verdict "a" t_disk 0)) = 1%nat
  /\ (forall p rest, find_file "a" t_disk = Some (p :: rest) -> is_binary p = false).
Proof.
  split; [exact z_verifiable|]. split; [exact z_prints|]. split; [vm_compute; reflexivity|].
  intros p rest [= <- _]. reflexivity.
Qed.

(** The checksums are the last thing written to each HDU: a file that was written and not
    changed gives no warning when it is read. *)
Theorem C68_written : forall E V name o d st d', write_oi_fits E name o d st = Ok (d', 0) -> sound E V ->
  (forall hdus h, find_file name d' = Some hdus -> In h hdus -> signed E h)
  /\ silenced (read_file_named E V name d' 0) = read_oi_fits E name d' 0
  /\ forall m r, read_file_named E V name d' 0 = Ok (m, r) -> m = [].
Proof. exact written_silent. Qed.
Print Assumptions C68_written.
Example C68_written_case : sound e0 y_verdict
  /\ (exists d', write_oi_fits e0 "f" s_fits [] 0 = Ok (d', 0) /\ d' <> [])
  /\ y_verdict (update_key "DATASUM" (KInt 8) (update_key "CHECKSUM" (KStr "sum") null_primary))
     = mk_verdict (Some (-1)) (Some 1) 0.
Proof.
  split; [exact y_sound|]. split; [|reflexivity]. eexists. split; [vm_compute; reflexivity|discriminate].
Qed.

(** If fits_verify_chksum reports an error together with a wrong checksum, the name printed is
    an array that was never written. *)
Theorem C68_error_undefined : forall E V name d p rest, find_file name d = Some (p :: rest) ->
  v_status (V p) <> 0 -> wrong_data V p = true \/ wrong_hdu V p = true ->
  read_file_named E V name d 0 = UB.
Proof. exact failed_reading. Qed.
Print Assumptions C68_error_undefined.
Example C68_error_case : exists rest p, find_file "a" t_disk = Some (p :: rest)
  /\ read_file_named e0 (fun _ => mk_verdict (Some (-1)) (Some (-1)) 107) "a" t_disk 0 = UB.
Proof.
  do 2 eexists. split; [reflexivity|]. eapply C68_error_undefined; [reflexivity|discriminate|now left].
Qed.
(** Without the condition on EXTVER a wrong checksum does change what is read: a table whose
    EXTVER is not a number is read if its checksum is right and dropped if it is wrong. *)
Theorem C68_extver_refuted : exists V d m m' r r',
  read_file_named e0 right "a" d 0 = Ok (m, (Some r, 0)) /\ List.length (o_vis2List r) = 1%nat
  /\ (forall h, v_status (V h) = 0)
  /\ read_file_named e0 V "a" d 0 = Ok (m', (Some r', 0)) /\ o_vis2List r' = [].
Proof. exact version_lost. Qed.
Print Assumptions C68_extver_refuted.
