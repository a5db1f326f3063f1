(** The claims about checksums, and concrete files. *)
From Coq Require Import Lia.
From Verif Require Import BaseLemmas Sample IOMain ToolMain WriteModel WriteTables ReadFile ChksumSpec ChksumProofs ChksumWrite
  ChksumWhole.
Open Scope string_scope.
Open Scope list_scope.
Open Scope Z_scope.

Section Claims.
Variable E : cfitsio.
Variable V : hdu -> verdict.

Lemma named_sim name d st hdus :
  (find_file name d = Some hdus) -> (forall h, In h hdus -> verifiable E V h) ->
  sim E V hdus (fun _ => True) (read_file_named E V name d st) (read_oi_fits E name d st).
Proof.
  intros Hf Hv. unfold read_file_named, read_oi_fits. destruct (negb _); [now apply sim_ret|]. rewrite Hf.
  now apply sim_file.
Qed.
Lemma read_same name d st : (forall hdus h, find_file name d = Some hdus -> In h hdus -> verifiable E V h) ->
  silenced (read_file_named E V name d st) = read_oi_fits E name d st.
Proof.
  intros Hv. destruct (find_file name d) as [hdus|] eqn:Hf.
  - apply (named_sim name d st hdus Hf). eauto.
  - unfold read_file_named, read_oi_fits. rewrite Hf. now destruct (negb _).
Qed.
Lemma read_about name d st m r : (forall hdus h, find_file name d = Some hdus -> In h hdus -> verifiable E V h) ->
  read_file_named E V name d st = Ok (m, r) ->
  forall t, In t m -> exists hdus n h, find_file name d = Some hdus /\ hdu_at hdus n h /\ In t (warnings E V (n, h)).
Proof.
  intros Hv H t Ht. destruct (find_file name d) as [hdus|] eqn:Hf.
  - destruct (named_sim name d st hdus Hf) as [_ Hs]; [eauto|]. apply Hs in H as [H _].
    rewrite Forall_forall in H. destruct (H t Ht) as (n & h & Ha & Hi). eauto 6.
  - unfold read_file_named in H. rewrite Hf in H. destruct (negb _); injection H as <- <-; destruct Ht.
Qed.
Lemma read_silent name d st m r : (forall hdus h, find_file name d = Some hdus -> In h hdus -> verifiable E V h
    /\ wrong_data V h = false /\ wrong_hdu V h = false) ->
  read_file_named E V name d st = Ok (m, r) -> m = [].
Proof.
  intros Hv H. destruct m as [|t m]; [reflexivity|].
  destruct (read_about name d st (t :: m) r) with (t := t) as (hdus & n & h & Hf & [_ Ha] & Ht);
    [intros hdus h Hf Hi; exact (proj1 (Hv _ _ Hf Hi))|exact H|now left|].
  apply nth_error_In in Ha. destruct (Hv _ _ Hf Ha) as (_ & H1 & H2). unfold warnings in Ht. cbn [fst snd] in Ht.
  rewrite H1, H2 in Ht. destruct Ht.
Qed.
Lemma read_warnings name d m o p rest : find_file name d = Some (p :: rest) ->
  (forall h, In h (p :: rest) -> verifiable E V h) ->
  read_file_named E V name d 0 = Ok (m, (Some o, 0)) -> m = flat_map (warnings E V) (seen E p rest).
Proof.
  intros Hf Hv. unfold read_file_named. cbn [Z.eqb negb]. rewrite Hf. now apply file_prints.
Qed.
Lemma read_once name d m o p rest : find_file name d = Some (p :: rest) -> is_binary p = false ->
  (forall h, In h (p :: rest) -> verifiable E V h) ->
  read_file_named E V name d 0 = Ok (m, (Some o, 0)) ->
  exists l, m = flat_map (warnings E V) l /\ NoDup l
    /\ forall n h, In (n, h) l <-> hdu_at (p :: rest) n h /\ relevant E (p :: rest) n h.
Proof.
  intros Hf Hp Hv H. exists (seen E p rest). split; [now apply (read_warnings name d m o)|].
  split; [now apply seen_once|]. intros n h. now apply seen_which.
Qed.
Lemma written_silent name o d st d' : write_oi_fits E name o d st = Ok (d', 0) -> sound E V ->
  (forall hdus h, find_file name d' = Some hdus -> In h hdus -> signed E h)
  /\ silenced (read_file_named E V name d' 0) = read_oi_fits E name d' 0
  /\ forall m r, read_file_named E V name d' 0 = Ok (m, r) -> m = [].
Proof.
  intros H Hs. apply file_signed in H as (hdus & -> & Ha).
  assert (Hf : forall hs h, find_file name ((name, hdus) :: d) = Some hs -> In h hs -> signed E h).
  { intros hs h Hf Hi. cbn [find_file] in Hf. rewrite str_eqb_refl in Hf. injection Hf as <-.
    unfold all_signed in Ha. rewrite Forall_forall in Ha. auto. }
  assert (Hv : forall hs h, find_file name ((name, hdus) :: d) = Some hs -> In h hs -> verifiable E V h
      /\ wrong_data V h = false /\ wrong_hdu V h = false).
  { intros hs h H1 H2. apply (Hf _ _ H1) in H2. apply Hs in H2. unfold verifiable, wrong_data, wrong_hdu. rewrite H2.
    cbn. repeat split; try discriminate. intros [|]; discriminate. }
  split; [exact Hf|]. split; [apply read_same; intros hs h H1 H2; exact (proj1 (Hv _ _ H1 H2))|].
  intros m r. now apply read_silent.
Qed.
Lemma sim_warns {A} (v : pio A) (r : io A) :
  (forall hdus, (forall h, In h hdus -> verifiable E V h) -> forall f st, f_hdus f = hdus ->
     sim E V hdus (kept hdus) (v (f, st)) (r (f, st))) -> only_warns E V v r.
Proof.
  intros H f st Hv. destruct (H (f_hdus f) Hv f st eq_refl) as [H1 H2]. split; [exact H1|].
  intros m a Hm t Ht. apply H2 in Hm as [Hm _]. rewrite Forall_forall in Hm. exact (Hm t Ht).
Qed.
Lemma readers_warn :
  only_warns E V (read_header E V) (read_oi_header E) /\ only_warns E V (read_targets E V) (read_oi_target E)
  /\ (forall n, only_warns E V (read_array E V n) (read_oi_array E n))
  /\ (forall n, only_warns E V (read_wavelength E V n) (read_oi_wavelength E n))
  /\ (forall n, only_warns E V (read_corr E V n) (read_oi_corr E n))
  /\ (forall A n (r : hdu -> rd (option A)), only_warns E V (read_next_table E V n r) (read_next E n r)).
Proof.
  split; [apply sim_warns; intros hdus Hv f st; now apply sim_header|].
  split; [apply sim_warns; intros hdus Hv f st; now apply sim_targets|].
  split; [intros n; apply sim_warns; intros hdus Hv f st; now apply sim_array|].
  split; [intros n; apply sim_warns; intros hdus Hv f st; now apply sim_wavelength|].
  split; [intros n; apply sim_warns; intros hdus Hv f st; now apply sim_corr|].
  intros A n r. apply sim_warns; intros hdus Hv f st; now apply sim_next.
Qed.

(** ** When fits_verify_chksum fails *)

Lemma failed_undefined h n : v_status (V h) <> 0 -> wrong_data V h = true \/ wrong_hdu V h = true ->
  verify_chksum E V h n 0 = UB.
Proof.
  unfold verify_chksum, wrong_data, wrong_hdu. cbn [Z.eqb negb].
  destruct (V h) as [data hduv st]. cbn [v_dataok v_hduok v_status]. intros Hst Hw.
  assert (Hn : chksum_name E h st = Ok ((None, None), st)).
  { assert (Hk : forall A (x : A) r, key_opt x r st = Ok ((None, true), st)).
    { intros A x r. unfold key_opt, rbind, get_status. cbn [bind fst snd].
      destruct (Z.eqb_spec st 0); [congruence|reflexivity]. }
    unfold chksum_name, rbind, read_key_opt_string, read_key_opt_int. rewrite Hk. cbn [bind fst snd negb].
    rewrite Hk. reflexivity. }
  destruct data as [d|]; [|reflexivity]. cbn [var wrong] in *. rewrite bind_Ok.
  destruct (d =? -1); rewrite bind_Ok || idtac.
  - cbn [negb]. rewrite Hn. reflexivity.
  - destruct hduv as [u|]; [|reflexivity]. cbn [wrong] in Hw. destruct Hw as [Hw|Hw]; [discriminate|].
    cbn [var]. rewrite !bind_Ok, Hw. cbn [negb]. rewrite Hn. cbn [bind]. rewrite Hw. reflexivity.
Qed.
Lemma failed_reading name d p rest : find_file name d = Some (p :: rest) ->
  v_status (V p) <> 0 -> wrong_data V p = true \/ wrong_hdu V p = true ->
  read_file_named E V name d 0 = UB.
Proof.
  intros Hf H1 H2. unfold read_file_named. cbn [Z.eqb negb]. rewrite Hf. unfold read_file.
  assert (Hh : read_header E V (mk_file (p :: rest) 1, 0) = UB).
  { unfold read_header, guard_pio. cbn [snd Z.eqb negb]. unfold fits_movabs_hdu, movabs. cbn [f_hdus Z.eqb negb List.length].
    destruct (Z.ltb_spec (Z.of_nat (Datatypes.S (List.length rest))) 1); [lia|].
    cbn [Z.ltb Z.compare Pos.compare Pos.compare_cont orb]. rewrite bind_Ok. unfold verified_chdu.
    change (chdu (fst (mk_file (p :: rest) 1, 0))) with (Some p). cbv iota. cbn [snd]. now rewrite failed_undefined. }
  rewrite Hh. reflexivity.
Qed.
End Claims.

(** ** Concrete files *)

(** the data of the OI_VIS2 tables and the header of the primary HDU are wrong *)
Definition z_verdict (h : hdu) : verdict :=
  if named e0 "OI_VIS2" h then mk_verdict (Some (-1)) (Some 1) 0
  else if is_binary h then mk_verdict (Some 1) (Some 1) 0
  else mk_verdict (Some 0) (Some (-1)) 0.
Definition vis2_of {A} (x : pr (option oi_fits * A)) : list oi_vis2 :=
  match x with Ok (_, (Some o, _)) => o_vis2List o | _ => [] end.
Definition printed {A} (x : pr A) : list string := match x with Ok (m, _) => m | _ => [] end.
Lemma z_verifiable hdus h : find_file "a" t_disk = Some hdus -> In h hdus -> verifiable e0 z_verdict h.
Proof.
  intros [= <-] Hi. cbn in Hi. repeat (destruct Hi as [<-|Hi]; [vm_compute; intuition discriminate|]). destruct Hi.
Qed.
Lemma z_prints : printed (read_file_named e0 z_verdict "a" t_disk 0)
  = ["WARNING! HDU checksum verification failed for HDU #1 (EXTNAME='' EXTVER=0)
"; "WARNING! Data checksum verification failed for HDU #10 (EXTNAME='OI_VIS2' EXTVER=1)
"].
Proof. vm_compute. reflexivity. Qed.
(** the same file, with an EXTVER that is not a number *)
Definition odd_version (h : hdu) : hdu :=
  if named e0 "OI_VIS2" h then update_key "EXTVER" (KStr "one") h else h.
Definition z_disk : disk := map (fun nf => (fst nf, map odd_version (snd nf))) t_disk.
Definition right (h : hdu) : verdict := mk_verdict (Some 1) (Some 1) 0.
Lemma version_lost : exists V d m m' r r',
  read_file_named e0 right "a" d 0 = Ok (m, (Some r, 0)) /\ List.length (o_vis2List r) = 1%nat
  /\ (forall h, v_status (V h) = 0)
  /\ read_file_named e0 V "a" d 0 = Ok (m', (Some r', 0)) /\ o_vis2List r' = [].
Proof.
  exists z_verdict, z_disk. do 4 eexists. split; [vm_compute; reflexivity|]. split; [reflexivity|].
  split; [intros h; unfold z_verdict; destruct (named _ _ _); [reflexivity|]; destruct (is_binary h); reflexivity|].
  split; [vm_compute; reflexivity|reflexivity].
Qed.

(** checksums that are compared with the keywords *)
Definition y_verdict (h : hdu) : verdict :=
  match find_key "CHECKSUM" (hd_keys h), find_key "DATASUM" (hd_keys h) with
  | Some (KStr s), Some (KInt n) =>
      mk_verdict (Some (if n =? 7 then 1 else -1)) (Some (if str_eqb s "sum" then 1 else -1)) 0
  | _, _ => mk_verdict (Some 0) (Some 0) 0
  end.
Lemma update_found k v h : find_key k (hd_keys (update_key k v h)) = Some v.
Proof.
  unfold update_key. destruct (find_key k (hd_keys h)) as [w|] eqn:Hk.
  - unfold with_keys. cbn [hd_keys]. revert Hk. induction (hd_keys h) as [|[k' v'] l IH]; [discriminate|].
    cbn [find_key map fst]. destruct (str_eqb k' k) eqn:He; cbn [find_key].
    + now rewrite str_eqb_refl.
    + rewrite He. exact IH.
  - unfold add_key, with_keys. cbn [hd_keys]. revert Hk. induction (hd_keys h) as [|[k' v'] l IH]; cbn [find_key app].
    + intros _. now rewrite str_eqb_refl.
    + destruct (str_eqb k' k); [discriminate|exact IH].
Qed.
Lemma y_sound : sound e0 y_verdict.
Proof.
  intros h (b & f & H & Hf). unfold fits_write_chksum, on_chdu in H. cbn in H. injection H as <-. cbn in Hf.
  injection Hf as <-. unfold y_verdict. rewrite find_update_other by reflexivity. now rewrite !update_found.
Qed.
