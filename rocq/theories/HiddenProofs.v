(** What ends the search for a table by name. *)
From Coq Require Import Lia.
From Verif Require Import BaseLemmas FitsModel ReadModel IOSpec IOClaims IOProofs IOMain HiddenSpec.
Open Scope list_scope.
Open Scope Z_scope.

Section Hidden.
Variable E : cfitsio.
Lemma specific_other name keyword value pre x post : forall cur,
  forallb is_binary pre = true -> existsb (matches E name keyword value) pre = false -> is_binary x = false ->
  specific_named E (pre ++ x :: post) cur name keyword value = (cur + Z.of_nat (List.length pre) + 1, 0).
Proof.
  induction pre as [|h' pre IH]; intros cur Hb Hp Hh; cbn [app specific_named List.length].
  - rewrite Hh. f_equal. lia.
  - cbn [forallb] in Hb. apply andb_true_iff in Hb as [Hb' Hb]. rewrite Hb'.
    cbn [existsb] in Hp. apply orb_false_iff in Hp as [Hp' Hp]. unfold matches in Hp'.
    assert (Hr : specific_named E (pre ++ x :: post) (cur + 1) name keyword value
                 = (cur + Z.of_nat (Datatypes.S (List.length pre)) + 1, 0)).
    { rewrite IH by assumption. f_equal. lia. }
    destruct (key_text E h' "EXTNAME"); [|exact Hr]. destruct (key_text E h' keyword); [|exact Hr].
    now rewrite Hp'.
Qed.
Lemma by_name_other {A} name keyword value (r : hdu -> rd (option A)) :
  stops_at_other E (by_name E name keyword value r) name keyword value.
Proof.
  intros p pre x post cur H1 H2 H3. rewrite (by_name_at E name keyword value r p pre x post cur _
    (specific_other name keyword value pre x post 1 H1 H2 H3) eq_refl).
  unfold alone. change [null_primary; x] with (null_primary :: [] ++ x :: []).
  rewrite (by_name_at E name keyword value r null_primary [] x [] 1 _
    (specific_other name keyword value [] x [] 1 eq_refl eq_refl H3) eq_refl).
  destruct (r x 0) as [(a, st)| |]; [|reflexivity|reflexivity]. cbn [bind fst snd].
  do 4 f_equal. lia.
Qed.
Lemma by_name_hides {A} name keyword value (r : hdu -> rd (option A)) :
  (forall x, lacks_keyword x "OI_REVN" -> r x 0 = Ok (None, KEY_NO_EXIST)) ->
  hides E (by_name E name keyword value r) name keyword value.
Proof.
  intros R p pre x post cur H1 H2 H3 H4. rewrite (by_name_at E name keyword value r p pre x post cur _
    (specific_other name keyword value pre x post 1 H1 H2 H3) eq_refl).
  rewrite (R x H4). cbn [bind fst snd]. do 4 f_equal. lia.
Qed.
Lemma no_revision {A} x (k : Z -> rd (option A)) : lacks_keyword x "OI_REVN" ->
  unless_error (rbind (key_int E x "OI_REVN") (fun v => unless_error (k v))) 0 = Ok (None, KEY_NO_EXIST).
Proof. intros H. unfold lacks_keyword in H. unfold key_int, read_key_int. rewrite H. reflexivity. Qed.

Lemma array_stops name : stops_at_other E (read_oi_array E name) "OI_ARRAY" "ARRNAME" name.
Proof. exact (by_name_other "OI_ARRAY" "ARRNAME" name (fun h => read_oi_array_chdu E h (Some name))). Qed.
Lemma wavelength_stops name : stops_at_other E (read_oi_wavelength E name) "OI_WAVELENGTH" "INSNAME" name.
Proof. exact (by_name_other "OI_WAVELENGTH" "INSNAME" name (fun h => read_oi_wavelength_chdu E h (Some name))). Qed.
Lemma corr_stops name : stops_at_other E (read_oi_corr E name) "OI_CORR" "CORRNAME" name.
Proof. exact (by_name_other "OI_CORR" "CORRNAME" name (fun h => read_oi_corr_chdu E h (Some name))). Qed.
Lemma array_hidden name : hides E (read_oi_array E name) "OI_ARRAY" "ARRNAME" name.
Proof.
  apply (by_name_hides "OI_ARRAY" "ARRNAME" name (fun h => read_oi_array_chdu E h (Some name))).
  intros x H. unfold read_oi_array_chdu. apply no_revision. exact H.
Qed.
Lemma wavelength_hidden name : hides E (read_oi_wavelength E name) "OI_WAVELENGTH" "INSNAME" name.
Proof.
  apply (by_name_hides "OI_WAVELENGTH" "INSNAME" name (fun h => read_oi_wavelength_chdu E h (Some name))).
  intros x H. unfold read_oi_wavelength_chdu. apply no_revision. exact H.
Qed.
Lemma corr_hidden name : hides E (read_oi_corr E name) "OI_CORR" "CORRNAME" name.
Proof.
  apply (by_name_hides "OI_CORR" "CORRNAME" name (fun h => read_oi_corr_chdu E h (Some name))).
  intros x H. unfold read_oi_corr_chdu. apply no_revision. exact H.
Qed.
End Hidden.

(** ** Concrete cases *)
Open Scope string_scope.

(** an ASCII table, of another name *)
Definition x_other : hdu :=
  mk_hdu ASCII_TBL [("EXTNAME", KStr "BANDS"); ("OI_REVN", KInt 2); ("INSNAME", KStr "J")] (hd_cols x_wave) 2.
Lemma other_read E : matches E "OI_WAVELENGTH" "INSNAME" "I" x_other = false
  /\ exists w, read_oi_wavelength E "I" (mk_file [x_primary; x_target; x_other] 1, 0)
               = Ok (Some w, (mk_file [x_primary; x_target; x_other] 3, 0)) /\ wv_insname w = "I".
Proof. split; [reflexivity|]. eexists. split; [vm_compute; reflexivity|reflexivity]. Qed.
