(** Concrete cases of datasets that can and cannot be written; what a string is cut to. *)
From Coq Require Import Lia.
From Verif Require Import BaseLemmas FileProofs FileModel ReadModel IOSpec FitsText WriteModel WriteTables
  IOClaims IOProofs IOMain Sample WritableSpec WritableWhole CutSpec CutProofs CutWhole.
Open Scope string_scope.
Open Scope list_scope.
Open Scope Z_scope.

(** ** Strings *)

Lemma app_nil_str s : (s ++ "")%string = s.
Proof. induction s; cbn; congruence. Qed.
Lemma app_assoc_str a b c : ((a ++ b) ++ c)%string = (a ++ b ++ c)%string.
Proof. induction a; cbn; congruence. Qed.
Lemma rtrim_split s : exists blanks, s = (rtrim s ++ blanks)%string
  /\ all_chars (fun c => Ascii.eqb c " ") blanks = true.
Proof.
  induction s as [|c s (b & IH & Hb)]; [now exists ""%string|]. cbn [rtrim].
  destruct (Ascii.eqb c blank && is_empty (rtrim s)) eqn:H.
  - apply andb_true_iff in H as [H1 H2]. exists (String c s). split; [reflexivity|].
    destruct (rtrim s); [|discriminate]. cbn [all_chars]. unfold blank in H1. rewrite H1. cbn [append] in IH. now rewrite IH.
  - exists b. cbn. now rewrite <- IH.
Qed.
Lemma shown_sanitize s : shown s = sanitize s.
Proof. induction s as [|c s IH]; [reflexivity|]. cbn [shown sanitize]. cbv zeta. now rewrite IH. Qed.
Lemma sanitize_quote c : Ascii.eqb (if printable c then c else blank) quote = Ascii.eqb c quote.
Proof.
  destruct (printable c) eqn:H; [reflexivity|]. change (Ascii.eqb blank quote) with false.
  destruct (Ascii.eqb_spec c quote) as [E|E]; [|reflexivity]. subst c. vm_compute in H. discriminate.
Qed.
Lemma fit_sanitize n s : sanitize (fit_card n s) = fit_card n (sanitize s).
Proof.
  revert n. induction s as [|c s IH]; intros n; [reflexivity|]. cbn [fit_card sanitize]. cbv zeta.
  rewrite sanitize_quote. destruct (_ <=? n); cbn [sanitize]; [now rewrite IH|reflexivity].
Qed.
Lemma fit_split n s : 0 <= n -> exists rest, s = (fit_card n s ++ rest)%string
  /\ (forall c r, rest = String c r -> n < card_length (fit_card n s ++ String c EmptyString)%string).
Proof.
  revert n. induction s as [|c s IH]; intros n Hn; [exists ""%string; split; [reflexivity|discriminate]|].
  cbn [fit_card]. cbv zeta. destruct (Z.leb_spec (if Ascii.eqb c quote then 2 else 1) n) as [H|H].
  - destruct (IH (n - (if Ascii.eqb c quote then 2 else 1)) ltac:(lia)) as (rest & E & Hr).
    exists rest. cbn [append]. split; [congruence|]. intros c' r Er. specialize (Hr c' r Er).
    cbn [card_length]. unfold quote in *. lia.
  - exists (String c s). split; [reflexivity|]. intros c' r Er. injection Er as <- _. cbn [append card_length].
    unfold quote in H. lia.
Qed.
Lemma card_cut s : cut_to card_length 68 (shown s) (card s).
Proof.
  rewrite shown_sanitize. unfold card. rewrite fit_sanitize.
  destruct (fit_split 68 (sanitize s) ltac:(lia)) as (rest & E & Hr).
  destruct (rtrim_split (fit_card 68 (sanitize s))) as (b & Eb & Hb).
  exists b, rest. split; [rewrite <- app_assoc_str, <- Eb; exact E|]. split; [exact Hb|].
  split; [apply rtrim_no_trailing|]. rewrite <- Eb. split; [apply fit_card_length; lia|].
  intros c r Er. rewrite <- app_assoc_str, <- Eb. eauto.
Qed.
Lemma strlen_app a b : strlen (a ++ b)%string = strlen a + strlen b.
Proof. unfold strlen. induction a; cbn [append String.length] in *; lia. Qed.
Lemma sub_split n s : exists rest, s = (substring 0 n s ++ rest)%string
  /\ (rest <> ""%string -> String.length (substring 0 n s) = n).
Proof.
  revert n. induction s as [|c s IH]; intros n.
  - exists ""%string. split; [now destruct n|easy].
  - destruct n as [|n]; [exists (String c s); now split|]. destruct (IH n) as (rest & E & Hr). exists rest.
    cbn [substring append String.length]. split; [congruence|]. intros H. now rewrite Hr.
Qed.
Lemma cell_cut w s : 0 <= w -> cut_to strlen w s (cell w s).
Proof.
  intros Hw. unfold cell. destruct (sub_split (Z.to_nat w) s) as (rest & E & Hr).
  destruct (rtrim_split (substring 0 (Z.to_nat w) s)) as (b & Eb & Hb).
  exists b, rest. split; [rewrite <- app_assoc_str, <- Eb; exact E|]. split; [exact Hb|].
  split; [apply rtrim_no_trailing|]. rewrite <- Eb. split.
  - unfold strlen. pose proof (MergeNames.substring_length (Z.to_nat w) s). lia.
  - intros c r Er. rewrite <- app_assoc_str, <- Eb, strlen_app. unfold strlen at 1. rewrite Hr by (now subst rest).
    cbn. lia.
Qed.

(** ** The outcome of writing *)

Section Outcome.
Variable E : cfitsio.
Lemma write_defined o name d : wf_fits o = true -> channels_counted o -> write_oi_fits E name o d 0 <> UB.
Proof.
  intros Hw Hc. destruct (find_file name d) eqn:Hd.
  - unfold write_oi_fits. cbn [Z.eqb negb]. rewrite Hd. discriminate.
  - destruct (write_outcome E o name d Hw Hc Hd) as [H1 H2]. intros HU.
    assert (Hn : ~ stuck E o) by (intros Hs; apply H1 in Hs; congruence).
    destruct (H2 Hn) as (h & st & Hr & _). congruence.
Qed.
Lemma write_aborts o name d : wf_fits o = true -> channels_counted o -> find_file name d = None ->
  (write_oi_fits E name o d 0 = Abort <-> stuck E o).
Proof. intros Hw Hc Hd. now apply write_outcome. Qed.
Lemma write_succeeds o name d : wf_fits o = true -> channels_counted o -> find_file name d = None ->
  ((exists d', write_oi_fits E name o d 0 = Ok (d', 0)) <-> Forall good (verdicts E o)).
Proof.
  intros Hw Hc Hd. destruct (write_outcome E o name d Hw Hc Hd) as [H1 H2]. split.
  - intros [d' H]. destruct H2 as (h & st & Hr & Hs).
    + intros Hst. apply H1 in Hst. congruence.
    + rewrite H in Hr. injection Hr as _ Hst. apply Hs. auto.
  - intros Hg. destruct H2 as (h & st & Hr & Hs); [|exists ((name, h) :: d); rewrite Hr; repeat f_equal; now apply Hs].
    intros (before & after & v & Hv & _ & Hf). rewrite Hv, Forall_app in Hg. destruct Hg as [_ Hg].
    apply Forall_inv in Hg. rewrite Hg in Hf. discriminate.
Qed.
Lemma write_adds o name d d' st : wf_fits o = true -> channels_counted o -> find_file name d = None ->
  write_oi_fits E name o d 0 = Ok (d', st) -> exists hdus, d' = (name, hdus) :: d.
Proof.
  intros Hw Hc Hd H. destruct (write_outcome E o name d Hw Hc Hd) as [H1 H2]. destruct H2 as (h & st' & Hr & _).
  - intros Hst. apply H1 in Hst. congruence.
  - rewrite H in Hr. injection Hr as Hr _. eauto.
Qed.
Lemma write_existing o name d st : find_file name d <> None \/ st <> 0 ->
  exists st', write_oi_fits E name o d st = Ok (d, st') /\ st' <> 0.
Proof.
  intros H. unfold write_oi_fits. destruct (Z.eqb_spec st 0) as [->|N]; cbn [negb]; [|now exists st].
  destruct H as [H|H]; [|now destruct H]. destruct (find_file name d); [|now destruct H].
  exists FILE_NOT_CREATED. split; [reflexivity|discriminate].
Qed.
End Outcome.

(** ** Cases *)

Lemma w_good : Forall good (verdicts e0 s_fits).
Proof. repeat (constructor; [reflexivity|]). constructor. Qed.
Lemma w_counted : channels_counted s_fits.
Proof. repeat (constructor; [cbn; lia|]). constructor. Qed.
(** a target that no 16-bit number can name *)
Definition w_far : oi_fits :=
  mk_fits s_header (mk_oi_target 2 1 [s_target 40000 "alpha"] false) 0 0 0 0 0 0 0 0 [] [] [] [] [] [] [] [] [] [] [].
Lemma w_far_bad : exists hdus st, write_oi_fits e0 "f" w_far [] 0 = Ok ([("f"%string, hdus)], st) /\ st <> 0.
Proof. eexists _, _. split; [vm_compute; reflexivity|discriminate]. Qed.
(** an array whose X coordinate is not a number *)
Definition e_nan : cfitsio :=
  mk_cfitsio (fun x => match x with S754_nan => None | _ => Some x end) (fun _ => None) (fun _ => None) (fun _ => "?")
    "2026-11-16" (fun _ => (KStr "sum", KInt 7)) 77 "junk" f64_zero (S754_zero false) true
    (fun _ => (S754_zero false, S754_zero false)).
Definition w_nan : oi_fits :=
  mk_fits s_header s_targets 1 0 0 0 0 0 0 0 [mk_array 2 "VLTI" "GEOCENTRIC" S754_nan (fl 2 1) (fl 3 1) 1 [s_element "A0" 1 10]]
    [] [] [] [] [] [] [] [] [] [].
Lemma w_nan_bad : exists hdus st, write_oi_fits e_nan "f" w_nan [] 0 = Ok ([("f"%string, hdus)], st) /\ st <> 0.
Proof. eexists _, _. split; [vm_compute; reflexivity|discriminate]. Qed.
(** a table with 10000 channels *)
Definition w_channels : nat := Z.to_nat 10000.
Definition w_wide (tid : Z) : oi_fits :=
  mk_fits s_header (mk_oi_target 2 1 [s_target tid "alpha"] false) 0 0 0 0 0 1 0 0 [] [] [] [] []
    [mk_dtab 2 "2019-12-30" "" "PIONIER" "" tt 1 10000
       [mk_vis2_record tid f64_zero (fl 58847 1) (fl 10 1) (repeat (fl 1 2) w_channels) (repeat (fl 1 100) w_channels) 1
          (fl 60 1) (fl 80 1) (1, 5) (repeat false w_channels)]]
    [] [] [] [] [].
Lemma w_repeat {A} (x : A) : len_is 10000 (repeat x w_channels) = true.
Proof. unfold len_is. rewrite repeat_length. unfold w_channels. rewrite Z2Nat.id by lia. reflexivity. Qed.
Lemma w_wide_wf tid : wf_fits (w_wide tid) = true.
Proof.
  unfold wf_fits, w_wide.
  cbn [o_targets o_arrayList o_wavelengthList o_corrList o_inspolList o_visList o_vis2List o_t3List o_fluxList forallb].
  unfold wf_vis2, wf_dtab. cbn [tb_numrec tb_nwave tb_record forallb]. unfold wf_vis2_record. cbn [v2_vis2data v2_vis2err v2_flag].
  rewrite !w_repeat. reflexivity.
Qed.
Lemma w_wide_stuck : stuck e0 (w_wide 4).
Proof. exists [(true, true)], [], (false, true). split; [reflexivity|]. split; [repeat constructor|reflexivity]. Qed.
Lemma w_wide_counted tid : channels_counted (w_wide tid).
Proof. constructor. Qed.
Lemma w_wide_aborts : write_oi_fits e0 "f" (w_wide 4) [] 0 = Abort.
Proof. apply write_aborts; [apply w_wide_wf|apply w_wide_counted|reflexivity|apply w_wide_stuck]. Qed.
(** unless an earlier table has already failed *)
Lemma w_wide_far : ~ stuck e0 (w_wide 40000) /\ ~ Forall good (verdicts e0 (w_wide 40000)).
Proof.
  assert (V : verdicts e0 (w_wide 40000) = [(true, false); (false, false)]) by reflexivity.
  split; unfold stuck; rewrite V.
  - intros (before & after & v & H & Hg & Hf). destruct before as [|b before].
    + injection H as <- _. discriminate.
    + injection H as <- _. apply Forall_inv in Hg. discriminate.
  - intros H. apply Forall_inv in H. discriminate.
Qed.

(** ** What is read of cut strings *)

Definition tens (n : nat) : string := String.concat "" (repeat "0123456789"%string n).
(** two arrays whose names differ in the 69th character only *)
Definition c_name (last : string) : string := (tens 6 ++ "01234567" ++ last)%string.
Definition c_a : oi_array := mk_array 2 (c_name "A") "GEOCENTRIC" (fl 1 1) (fl 2 1) (fl 3 1) 1 [s_element "A0" 1 10].
Definition c_b : oi_array := mk_array 2 (c_name "B") "GEOCENTRIC" (fl 7 1) (fl 8 1) (fl 9 1) 2 [s_element "E1" 1 40; s_element "W2" 5 50].
Definition c_vis2 : oi_vis2 := set_arrname (c_name "B") s_vis2.
Definition c_fits : oi_fits :=
  mk_fits s_header s_targets 2 1 0 0 0 1 0 0 [c_a; c_b] [s_wave2] [] [] [] [c_vis2] [] []
    [(c_name "B", Some c_b); (c_name "A", Some c_a)] [("PIONIER"%string, Some s_wave2)] [].
Lemma c_wf : wf_fits c_fits = true.
Proof. vm_compute. reflexivity. Qed.
Lemma c_kept : kept_strings c_fits.
Proof.
  assert (K : kept (c_name "B")) by (right; vm_compute; discriminate).
  assert (K0 : kept "") by now left. assert (K1 : kept "P1") by (right; vm_compute; discriminate).
  unfold kept_strings. cbn [o_header o_visList o_vis2List o_t3List o_fluxList c_fits].
  split; [|split; [constructor|split; [|split; constructor]]].
  - repeat (constructor; [assumption|]). constructor.
  - constructor; [|constructor]. now split.
Qed.
Lemma c_filled : filled c_fits.
Proof. repeat split; repeat constructor; cbn; lia. Qed.
Lemma c_written : exists d', write_oi_fits e0 "f" c_fits [] 0 = Ok (d', 0).
Proof. eexists. vm_compute. reflexivity. Qed.
Lemma names_collide : exists o d' o',
  wf_fits o = true /\ kept_strings o /\ filled o
  /\ write_oi_fits e0 "f" o [] 0 = Ok (d', 0) /\ read_oi_fits e0 "f" d' 0 = Ok (Some o', 0)
  /\ map tb_arrname (o_vis2List o) = [c_name "B"] /\ oi_fits_lookup_array o (c_name "B") = Some c_b
  /\ (exists t, o_vis2List o' = [t]
      /\ oi_fits_lookup_array o' (tb_arrname t) = Some (stored_array e0 (cut_array c_a)))
  /\ ar_elem c_a <> ar_elem c_b.
Proof.
  exists c_fits. destruct c_written as [d' H]. exists d'.
  destruct (read_cut e0 c_fits "f" [] d' c_wf c_kept c_filled H) as (o' & Hr & Ht). exists o'.
  split; [exact c_wf|]. split; [exact c_kept|]. split; [exact c_filled|]. split; [exact H|]. split; [exact Hr|].
  split; [reflexivity|]. split; [vm_compute; reflexivity|]. split; [|discriminate].
  vm_compute in H. injection H as <-. vm_compute in Hr. injection Hr as <-.
  eexists. split; [reflexivity|]. vm_compute. reflexivity.
Qed.
