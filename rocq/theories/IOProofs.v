(** What the functions reading and writing files do, from the lemmas on tables. *)
From Coq Require Import Lia.
From Verif Require Import BaseLemmas FileProofs FileModel ReadModel IOSpec FitsRows WriteTables WriteProofs WriteData
  WriteVis IOClaims ReadCells ReadProofs ReadVis ReadFile RoundTrip.
Open Scope list_scope.
Open Scope Z_scope.

Section IO.
Variable E : cfitsio.
Local Notation target_like := (target_like E).
Local Notation all_readable := (all_readable E).
Local Notation matches := (matches E).

(** ** One table *)

Lemma chdu_last l h : chdu (mk_file (l ++ [h]) (Z.of_nat (List.length l) + 1)) = Some h.
Proof.
  unfold chdu. cbn [f_cur f_hdus]. destruct (Z.ltb_spec (Z.of_nat (List.length l) + 1) 1); [lia|].
  replace (Z.to_nat (Z.of_nat (List.length l) + 1 - 1)) with (List.length l) by lia.
  rewrite nth_error_app2 by lia. now rewrite Nat.sub_diag.
Qed.
Lemma chdu_middle l h l' cur :
  cur = Z.of_nat (List.length l) + 1 -> chdu (mk_file (l ++ h :: l') cur) = Some h.
Proof.
  intros ->. unfold chdu. cbn [f_cur f_hdus]. destruct (Z.ltb_spec (Z.of_nat (List.length l) + 1) 1); [lia|].
  replace (Z.to_nat (Z.of_nat (List.length l) + 1 - 1)) with (List.length l) by lia.
  rewrite nth_error_app2 by lia. now rewrite Nat.sub_diag.
Qed.

Lemma base_with_primary f : f_hdus (with_primary f) = base_hdus f.
Proof. unfold with_primary, base_hdus. destruct (f_hdus f) eqn:H; [|exact H]. unfold append_hdu. cbn. now rewrite H. Qed.

Lemma write_read_next_ok {A} w h name (r : hdu -> rd (option A)) a :
  writes w h -> is_table E name h -> returns (r h) (Some a) ->
  write_read_next w (read_next E name r) a.
Proof.
  intros Hw Ht Hr f. exists (append_hdu h (with_primary f)), h. split; [apply Hw|].
  unfold append_hdu. cbn [f_hdus]. rewrite base_with_primary. split; [reflexivity|].
  unfold read_next, guard_io, next_named_hdu. cbn [snd Z.eqb negb f_hdus f_cur].
  rewrite Nat2Z.id, skipn_app, skipn_all, Nat.sub_diag, skipn_O, app_nil_l.
  rewrite (next_named_found E name [] h []);
    [|reflexivity|rewrite (table_named E name) by exact Ht; now apply str_eqb_eq].
  cbn [List.length Z.of_nat]. rewrite Z.add_0_r. cbn [snd Z.eqb negb].
  unfold at_chdu. cbn [fst snd]. rewrite chdu_last, Hr. reflexivity.
Qed.

Lemma array_round_trip a extver : storable_array E a = true ->
  write_read_next (write_oi_array E a extver) (read_next_oi_array E) (stored_array E a).
Proof. intros H. eapply write_read_next_ok; [now apply writes_array|apply array_table|now apply read_array]. Qed.
Lemma wavelength_round_trip a extver : storable_wavelength a = true ->
  write_read_next (write_oi_wavelength E a extver) (read_next_oi_wavelength E) (stored_wavelength a).
Proof. intros H. eapply write_read_next_ok; [now apply writes_wavelength|apply wavelength_table|now apply read_wavelength]. Qed.
Lemma corr_round_trip a extver : storable_corr a = true ->
  write_read_next (write_oi_corr E a extver) (read_next_oi_corr E) (stored_corr a).
Proof. intros H. eapply write_read_next_ok; [now apply writes_corr|apply corr_table|now apply read_corr]. Qed.
Lemma inspol_round_trip a extver : storable_inspol a = true ->
  write_read_next (write_oi_inspol E a extver) (read_next_oi_inspol E) (stored_inspol E a).
Proof. intros H. eapply write_read_next_ok; [now apply writes_inspol|apply inspol_table|now apply read_inspol]. Qed.
Lemma vis_round_trip a extver : storable_vis a = true ->
  write_read_next (write_oi_vis E a extver) (read_next_oi_vis E) (stored_vis E a).
Proof. intros H. eapply write_read_next_ok; [now apply writes_vis|apply vis_table|now apply read_vis]. Qed.
Lemma vis2_round_trip a extver : storable_vis2 a = true ->
  write_read_next (write_oi_vis2 E a extver) (read_next_oi_vis2 E) (stored_vis2 E a).
Proof. intros H. eapply write_read_next_ok; [now apply writes_vis2|apply vis2_table|now apply read_vis2]. Qed.
Lemma t3_round_trip a extver : storable_t3 a = true ->
  write_read_next (write_oi_t3 E a extver) (read_next_oi_t3 E) (stored_t3 E a).
Proof. intros H. eapply write_read_next_ok; [now apply writes_t3|apply t3_table|now apply read_t3]. Qed.
Lemma flux_round_trip a extver : storable_flux E a = true ->
  write_read_next (write_oi_flux E a extver) (read_next_oi_flux E) (stored_flux E a).
Proof. intros H. eapply write_read_next_ok; [now apply writes_flux|apply flux_table|now apply read_flux]. Qed.

Lemma movnam_found pre h post : forall i,
  existsb target_like pre = false -> target_like h = true ->
  movnam E (pre ++ h :: post) i "OI_TARGET" = Some (i + Z.of_nat (List.length pre)).
Proof.
  induction pre as [|h' pre IH]; intros i Hp Hh; cbn [movnam app List.length].
  - change (upper "OI_TARGET") with "OI_TARGET"%string. unfold target_like in Hh. rewrite Hh. f_equal. lia.
  - cbn [existsb] in Hp. apply orb_false_iff in Hp as [H1 H2].
    change (upper "OI_TARGET") with "OI_TARGET"%string. unfold target_like in H1. rewrite H1.
    rewrite IH by assumption. f_equal. lia.
Qed.
Lemma target_round_trip t f : storable_target t = true -> existsb target_like (f_hdus f) = false ->
  exists f' h, write_oi_target E t (f, 0) = Ok (f', 0) /\ f_hdus f' = base_hdus f ++ [h]
    /\ forall cur, read_oi_target E (mk_file (f_hdus f') cur, 0) = Ok (Some (stored_target E t), (f', 0)).
Proof.
  intros H Hn. exists (append_hdu (target_hdu E t) (with_primary f)), (target_hdu E t).
  split; [now apply writes_target|]. unfold append_hdu. cbn [f_hdus]. rewrite base_with_primary.
  split; [reflexivity|]. intros cur. unfold read_oi_target, guard_io. cbn [snd Z.eqb negb].
  unfold fits_movnam_hdu. cbn [Z.eqb negb f_hdus].
  rewrite movnam_found.
  - unfold at_chdu. cbn [fst snd]. rewrite (Z.add_comm 1), chdu_last. now rewrite read_targets.
  - unfold base_hdus. destruct (f_hdus f); [reflexivity|exact Hn].
  - destruct (target_table E t) as [H1 H2]. unfold target_like. now rewrite H1, H2.
Qed.
Lemma header_round_trip h cur : storable_header h = true ->
  exists f', write_oi_header E h (mk_file [] 0, 0) = Ok (f', 0) /\ List.length (f_hdus f') = 1%nat
    /\ read_oi_header E (mk_file (f_hdus f') cur, 0) = Ok (Some (stored_header E h), (f', 0)).
Proof.
  intros H. eexists. split; [now apply writes_header|]. split; [reflexivity|].
  unfold append_hdu, read_oi_header, guard_io, fits_movabs_hdu, movabs, at_chdu, chdu. cbn -[read_oi_header_chdu header_hdu].
  rewrite read_header by assumption. reflexivity.
Qed.

(** ** A whole dataset *)

Lemma find_file_cons name name' l d :
  find_file name ((name', l) :: d) = if str_eqb name' name then Some l else find_file name d.
Proof. reflexivity. Qed.

Lemma assemble_two h tg ar wv co ip vs v2 t3 fx :
  h_content h = "OIFITS2"%string ->
  exists o, assemble h tg ar wv co ip vs v2 t3 fx = Ok o /\ has_tables o h tg ar wv co ip vs v2 t3 fx.
Proof.
  intros H. unfold assemble. cbv zeta.
  match goal with |- context [is_oi_fits_two ?x] => assert (Ht : is_oi_fits_two x = true) end.
  { unfold is_oi_fits_two. cbn [o_header]. now apply str_eqb_eq. }
  rewrite Ht. eexists. split; [reflexivity|]. unfold has_tables. cbn. repeat split.
Qed.
Lemma file_round_trip o name d : storable_fits E o = true -> find_file name d = None ->
  exists d' o',
    write_oi_fits E name o d 0 = Ok (d', 0)
    /\ (forall other, other <> name -> find_file other d' = find_file other d)
    /\ read_oi_fits E name d' 0 = Ok (Some o', 0)
    /\ has_tables o' (stored_header E (o_header o)) (stored_target E (o_targets o))
         (map (stored_array E) (o_arrayList o)) (map stored_wavelength (o_wavelengthList o))
         (map stored_corr (o_corrList o)) (map (stored_inspol E) (o_inspolList o))
         (map (stored_vis E) (o_visList o)) (map (stored_vis2 E) (o_vis2List o))
         (map (stored_t3 E) (o_t3List o)) (map (stored_flux E) (o_fluxList o)).
Proof.
  intros H Hd. destruct (write_tables_ok E o H) as (cur & Hw).
  destruct (assemble_two (stored_header E (o_header o)) (stored_target E (o_targets o))
         (map (stored_array E) (o_arrayList o)) (map stored_wavelength (o_wavelengthList o))
         (map stored_corr (o_corrList o)) (map (stored_inspol E) (o_inspolList o))
         (map (stored_vis E) (o_visList o)) (map (stored_vis2 E) (o_vis2List o))
         (map (stored_t3 E) (o_t3List o)) (map (stored_flux E) (o_fluxList o)) eq_refl) as (o' & Ho & Ht).
  exists ((name, file_hdus E o) :: d), o'. split; [|split; [|split; [|exact Ht]]].
  - unfold write_oi_fits. cbn [Z.eqb negb]. rewrite Hd, Hw. reflexivity.
  - intros other Hn. rewrite find_file_cons. destruct (str_eqb name other) eqn:He; [|reflexivity].
    apply str_eqb_eq in He. congruence.
  - unfold read_oi_fits. cbn [Z.eqb negb]. rewrite find_file_cons, (proj2 (str_eqb_eq name name) eq_refl).
    rewrite read_tables_ok by exact H. unfold read_back. rewrite Ho. reflexivity.
Qed.

(** ** Reading a file with unreadable tables *)

(** what is read of an HDU when it is the only extension of a file *)
Lemma alone_named {A} name (r : hdu -> rd (option A)) h : named E name h = true ->
  alone (read_next E name r) h = (p <- r h 0 ;; Ok (fst p, (mk_file [null_primary; h] 2, snd p))).
Proof.
  intros H. unfold alone, read_next, guard_io, next_named_hdu. cbn [snd Z.eqb negb f_cur f_hdus].
  change (skipn _ _) with [h]. rewrite (next_named_found E name [] h []) by (assumption || reflexivity).
  reflexivity.
Qed.
Lemma alone_other {A} name (r : hdu -> rd (option A)) h : named E name h = false ->
  alone (read_next E name r) h = Ok (None, (mk_file [null_primary; h] 2, END_OF_FILE)).
Proof.
  intros H. unfold alone, read_next, guard_io, next_named_hdu. cbn [snd Z.eqb negb f_cur f_hdus].
  change (skipn _ _) with [h]. rewrite (next_named_none E name [h]) by (cbn; now rewrite H).
  reflexivity.
Qed.

Lemma collect_skip {A} name (r : hdu -> rd (option A)) l ts st :
  collect true r (filter (named E name) l) = Ok (ts, st) ->
  st = 0 /\ ts = flat_map (readable (read_next E name r)) l.
Proof.
  revert ts st. induction l as [|h l IH]; intros ts st; cbn [filter flat_map].
  - intros [= <- <-]. auto.
  - unfold readable at 1. destruct (named E name h) eqn:Hn.
    + cbn [collect]. rewrite alone_named by exact Hn. intros H.
      apply bind_inv in H as ((a, s) & Hr & H). rewrite Hr, bind_Ok. cbn [fst snd].
      destruct a as [a|].
      * apply bind_inv in H as ((ts', st') & Hc & H). injection H as <- <-.
        apply IH in Hc as [-> ->]. auto.
      * apply IH in H as [-> ->]. auto.
    + rewrite alone_other by exact Hn. apply IH.
Qed.
Lemma collect_strict {A} name (r : hdu -> rd (option A)) l ts :
  (forall h, agrees (r h)) ->
  collect false r (filter (named E name) l) = Ok (ts, 0) ->
  ts = flat_map (readable (read_next E name r)) l
  /\ forall h, In h l -> named E name h = true -> readable (read_next E name r) h <> [].
Proof.
  intros Ha. revert ts. induction l as [|h l IH]; intros ts; cbn [filter flat_map].
  - intros [= <-]. split; [reflexivity|]. intros h [].
  - destruct (named E name h) eqn:Hn.
    + cbn [collect]. intros H. apply bind_inv in H as ((a, s) & Hr & H).
      assert (Hh : readable (read_next E name r) h = match a with Some a => [a] | None => [] end).
      { unfold readable. rewrite alone_named by exact Hn. rewrite Hr. now destruct a. }
      rewrite Hh. destruct a as [a|].
      * apply bind_inv in H as ((ts', st') & Hc & H). cbn [fst snd] in H. injection H as <- ->.
        apply IH in Hc as [-> Hall]. split; [reflexivity|].
        intros h' [<-|Hi] Hn'; [rewrite Hh; discriminate|auto].
      * injection H as <- ->. apply Ha in Hr. exfalso. now apply Hr.
    + intros H. apply IH in H as [-> Hall].
      assert (Hh : readable (read_next E name r) h = []).
      { unfold readable. now rewrite alone_other. }
      rewrite Hh. split; [reflexivity|]. intros h' [<-|Hi] Hn'; [congruence|auto].
Qed.
Lemma loop_inv {A} (m : res (list A * wstate)) hdus c l s :
  loop_is m hdus c -> m = Ok (l, s) -> c = Ok (l, snd s) /\ f_hdus (fst s) = hdus.
Proof.
  unfold loop_is. destruct c as [(l', st)| |]; [|congruence|congruence].
  intros (cur & ->) [= <- <-]. auto.
Qed.

Lemma header_io_inv p rest cur h s :
  read_oi_header E (mk_file (p :: rest) cur, 0) = Ok (h, s) -> f_hdus (fst s) = p :: rest
  /\ (h = None <-> snd s <> 0).
Proof.
  unfold read_oi_header, guard_io, fits_movabs_hdu, movabs. cbn [snd Z.eqb negb f_hdus List.length].
  destruct (Z.ltb_spec (Z.of_nat (Datatypes.S (List.length rest))) 1); [lia|].
  cbn [Z.ltb Z.compare Pos.compare Pos.compare_cont orb]. rewrite bind_Ok. unfold at_chdu. cbn.
  intros H0. apply bind_inv in H0 as ((a, st) & Hr & H0). injection H0 as <- <-. split; [reflexivity|].
  exact (agrees_header E p 0 a st Hr).
Qed.
Lemma target_io_inv f st h s :
  read_oi_target E (f, st) = Ok (h, s) -> snd s = 0 -> f_hdus (fst s) = f_hdus f /\ st = 0.
Proof.
  unfold read_oi_target, guard_io. cbn [snd]. destruct (Z.eqb_spec st 0) as [->|Hn]; cbn [negb].
  - unfold fits_movnam_hdu. cbn [Z.eqb negb]. destruct (movnam _ _ _ _).
    + unfold at_chdu. cbn [fst snd]. destruct (chdu _).
      * intros H. apply bind_inv in H as ((a, st) & Hr & H). injection H as <- <-. auto.
      * intros [= <- <-]. auto.
    + unfold at_chdu. cbn [fst snd]. destruct (chdu f).
      * intros H. apply bind_inv in H as ((a, st) & Hr & H). injection H as <- <-. auto.
      * intros [= <- <-]. auto.
  - intros [= <- <-]. cbn. intros. congruence.
Qed.

Lemma read_tables_inv p rest cur r st :
  read_tables E (mk_file (p :: rest) cur, 0) = Ok (Some r, st) ->
  st = 0
  /\ o_arrayList r = flat_map (readable (read_next_oi_array E)) rest
  /\ o_wavelengthList r = flat_map (readable (read_next_oi_wavelength E)) rest
  /\ o_corrList r = flat_map (readable (read_next_oi_corr E)) rest
  /\ o_inspolList r = flat_map (readable (read_next_oi_inspol E)) rest
  /\ o_visList r = flat_map (readable (read_next_oi_vis E)) rest
  /\ o_vis2List r = flat_map (readable (read_next_oi_vis2 E)) rest
  /\ o_t3List r = flat_map (readable (read_next_oi_t3 E)) rest
  /\ o_fluxList r = flat_map (readable (read_next_oi_flux E)) rest
  /\ all_readable (read_next_oi_array E) "OI_ARRAY" rest
  /\ all_readable (read_next_oi_wavelength E) "OI_WAVELENGTH" rest.
Proof.
  intros H. unfold read_tables in H.
  apply bind_inv in H as ((hd, (f0, st0)) & Hhd & H).
  apply header_io_inv in Hhd as [Hf0 _]. cbn [fst] in Hf0.
  apply bind_inv in H as ((tg, (f1, st1)) & Htg & H). unfold ok_status at 1 in H. cbn [snd] in H.
  destruct (Z.eqb_spec st1 0) as [->|]; cbn [negb] in H; [|discriminate].
  apply target_io_inv in Htg as [Hf1 _]; [|reflexivity]. cbn [fst] in Hf1. rewrite Hf0 in Hf1.
  destruct f1 as [h1 c1]. cbn [f_hdus] in Hf1. subst h1.
  unfold read_next_oi_array, read_next_oi_wavelength, read_next_oi_corr, read_next_oi_inspol, read_next_oi_vis,
    read_next_oi_vis2, read_next_oi_t3, read_next_oi_flux in *.
  Ltac grab H fin agr L Hc :=
    let f := fresh "f" in let st := fresh "st" in let HH := fresh in let Hf := fresh in
    apply bind_inv in H as ((L & (f, st)) & HH & H);
    match type of HH with read_all ?sk (read_next _ ?n ?r) (mk_file (?p :: ?hs) ?c, 0) = _ =>
      pose proof (loop_inv _ _ _ _ _ (read_all_collect _ n r sk p hs c fin agr) HH)
        as [Hc Hf]; cbn [fst snd] in Hc, Hf; clear HH; destruct f as [? ?]; cbn [f_hdus] in Hf; match type of Hf with ?v = _ => subst v end end.
  Ltac status H := unfold ok_status at 1 in H; cbn [snd] in H;
    match type of H with (if negb (?st =? 0) then _ else _) = _ =>
      let Hz := fresh "Hz" in
      destruct (Z.eqb_spec st 0) as [Hz|]; cbn [negb] in H; [rewrite Hz in *; clear Hz|discriminate] end.
  grab H (fun h => fine_array E h None) (fun h => agrees_array E h None) La Ha. status H.
  grab H (fun h => fine_wavelength E h None) (fun h => agrees_wavelength E h None) Lw Hw. status H.
  grab H (fun h => fine_corr E h None) (fun h => agrees_corr E h None) Lc Hc. apply collect_skip in Hc as [-> Hc].
  grab H (fun h => fine_inspol E h) (fun h => agrees_inspol E h) Li Hi. apply collect_skip in Hi as [-> Hi].
  grab H (fun h => fine_vis E h) (fun h => agrees_vis E h) Lv Hv. apply collect_skip in Hv as [-> Hv].
  grab H (fun h => fine_vis2 E h) (fun h => agrees_vis2 E h) Lv2 Hv2. apply collect_skip in Hv2 as [-> Hv2].
  grab H (fun h => fine_t3 E h) (fun h => agrees_t3 E h) Lt3 Ht. apply collect_skip in Ht as [-> Ht].
  grab H (fun h => fine_flux E h) (fun h => agrees_flux E h) Lf Hf. apply collect_skip in Hf as [-> Hf].
  apply collect_strict in Ha as [Ha Ha']; [|intros; apply agrees_array].
  apply collect_strict in Hw as [Hw Hw']; [|intros; apply agrees_wavelength].
  destruct hd as [hd|]; [|discriminate]. destruct tg as [tg|]; [|discriminate].
  apply bind_inv in H as (o & Ho & H). cbn [snd] in H. injection H as <- <-.
  assert (Hl : o_arrayList o = La /\ o_wavelengthList o = Lw /\ o_corrList o = Lc /\ o_inspolList o = Li
    /\ o_visList o = Lv /\ o_vis2List o = Lv2 /\ o_t3List o = Lt3 /\ o_fluxList o = Lf).
  { revert Ho. unfold assemble. cbv zeta. destruct (is_oi_fits_two _).
    - intros [= <-]. cbn. auto 10.
    - intros Ho. apply bind_inv in Ho as (h' & _ & Ho). injection Ho as <-. cbn. auto 10. }
  destruct Hl as (-> & -> & -> & -> & -> & -> & -> & ->). auto 15.
Qed.

(** reading the HDU neither aborts nor is undefined *)
Lemma collect_skip_progress {A} name (r : hdu -> rd (option A)) l :
  (forall h, In h l -> returns_something (alone (read_next E name r) h)) ->
  exists ts, collect true r (filter (named E name) l) = Ok (ts, 0).
Proof.
  induction l as [|h l IH]; intros H; [eexists; reflexivity|].
  destruct IH as (ts & Hts); [intros h' Hh'; apply H; now right|]. cbn [filter].
  destruct (named E name h) eqn:Hn; [|eauto]. cbn [collect].
  destruct (H h (or_introl eq_refl)) as (x & Hx). rewrite alone_named in Hx by exact Hn.
  apply bind_inv in Hx as ((a, st) & -> & _). rewrite bind_Ok. destruct a; [|eauto].
  rewrite Hts, bind_Ok. eauto.
Qed.
Lemma collect_strict_progress {A} name (r : hdu -> rd (option A)) l :
  all_readable (read_next E name r) name l ->
  exists ts, collect false r (filter (named E name) l) = Ok (ts, 0).
Proof.
  induction l as [|h l IH]; intros H; [eexists; reflexivity|].
  destruct IH as (ts & Hts); [intros h' Hh'; apply H; now right|]. cbn [filter].
  destruct (named E name h) eqn:Hn; [|eauto]. cbn [collect].
  specialize (H h (or_introl eq_refl) Hn). unfold readable in H. rewrite alone_named in H by exact Hn.
  destruct (r h 0) as [([a|], st)| |]; cbn in H; try congruence. rewrite bind_Ok.
  rewrite Hts, bind_Ok. eauto.
Qed.

Lemma read_tables_succeeds p rest h s tg s' :
  read_oi_header E (mk_file (p :: rest) 1, 0) = Ok (Some h, s) -> h_content h = "OIFITS2"%string ->
  read_oi_target E (mk_file (p :: rest) 1, 0) = Ok (Some tg, s') ->
  all_readable (read_next_oi_array E) "OI_ARRAY" rest ->
  all_readable (read_next_oi_wavelength E) "OI_WAVELENGTH" rest ->
  (forall h, In h rest ->
     returns_something (alone (read_next_oi_corr E) h)
     /\ returns_something (alone (read_next_oi_inspol E) h)
     /\ returns_something (alone (read_next_oi_vis E) h)
     /\ returns_something (alone (read_next_oi_vis2 E) h)
     /\ returns_something (alone (read_next_oi_t3 E) h)
     /\ returns_something (alone (read_next_oi_flux E) h)) ->
  exists o, read_tables E (mk_file (p :: rest) 1, 0) = Ok (Some o, 0)
    /\ o_header o = h /\ o_targets o = tg.
Proof.
  intros Hh Hc Ht Ha Hw Hall. unfold read_tables. rewrite Hh, bind_Ok.
  assert (Hs : s = (mk_file (p :: rest) 1, 0)).
  { revert Hh. unfold read_oi_header, guard_io, fits_movabs_hdu, movabs. cbn [snd Z.eqb negb f_hdus List.length].
    destruct (Z.ltb_spec (Z.of_nat (Datatypes.S (List.length rest))) 1); [lia|].
    cbn [Z.ltb Z.compare Pos.compare Pos.compare_cont orb]. rewrite bind_Ok. unfold at_chdu. cbn.
    intros H0. apply bind_inv in H0 as ((a, st) & Hr & H0). cbn [fst snd] in H0. injection H0 as -> <-.
    f_equal. destruct (Z.eq_dec st 0) as [|Hn]; [assumption|].
    apply (agrees_header E p 0 _ _ Hr) in Hn. discriminate. }
  rewrite Hs, Ht, bind_Ok.
  assert (Hs' : exists cur, s' = (mk_file (p :: rest) cur, 0)).
  { revert Ht. unfold read_oi_target, guard_io. cbn [snd Z.eqb negb].
    unfold fits_movnam_hdu. cbn [Z.eqb negb f_hdus]. destruct (movnam _ _ _ _); unfold at_chdu; cbn [fst snd];
    (destruct (chdu _) as [hh|]; [|intros; discriminate]; intros H0; apply bind_inv in H0 as ((a, st) & Hr & H0);
     cbn [fst snd] in H0; injection H0 as -> <-; eexists; f_equal;
     destruct (Z.eq_dec st 0) as [|Hn]; [eassumption|];
     apply (agrees_target E hh _ _ _ Hr) in Hn; discriminate). }
  destruct Hs' as (cur & ->). unfold ok_status at 1. cbn [snd Z.eqb negb].
  unfold read_next_oi_array, read_next_oi_wavelength, read_next_oi_corr, read_next_oi_inspol, read_next_oi_vis,
    read_next_oi_vis2, read_next_oi_t3, read_next_oi_flux in *.
  Ltac go fin agr Hpr :=
    match goal with |- context [read_all ?sk (read_next ?E ?n ?r) (mk_file (?p :: ?hs) ?c, 0)] =>
      let l := fresh "l" in let Hl := fresh in
      destruct Hpr as (l & Hl);
      destruct (read_all_ok E sk n r p hs c l 0 fin agr Hl) as (? & ->) end; rewrite bind_Ok.
  go (fun h => fine_array E h None) (fun h => agrees_array E h None) (collect_strict_progress _ _ _ Ha).
  unfold ok_status at 1. cbn [snd Z.eqb negb].
  go (fun h => fine_wavelength E h None) (fun h => agrees_wavelength E h None) (collect_strict_progress _ _ _ Hw).
  unfold ok_status at 1. cbn [snd Z.eqb negb].
  go (fun h => fine_corr E h None) (fun h => agrees_corr E h None)
    (collect_skip_progress _ _ _ (fun h Hi => proj1 (Hall h Hi))).
  go (fun h => fine_inspol E h) (fun h => agrees_inspol E h)
    (collect_skip_progress _ _ _ (fun h Hi => proj1 (proj2 (Hall h Hi)))).
  go (fun h => fine_vis E h) (fun h => agrees_vis E h)
    (collect_skip_progress _ _ _ (fun h Hi => proj1 (proj2 (proj2 (Hall h Hi))))).
  go (fun h => fine_vis2 E h) (fun h => agrees_vis2 E h)
    (collect_skip_progress _ _ _ (fun h Hi => proj1 (proj2 (proj2 (proj2 (Hall h Hi)))))).
  go (fun h => fine_t3 E h) (fun h => agrees_t3 E h)
    (collect_skip_progress _ _ _ (fun h Hi => proj1 (proj2 (proj2 (proj2 (proj2 (Hall h Hi))))))).
  go (fun h => fine_flux E h) (fun h => agrees_flux E h)
    (collect_skip_progress _ _ _ (fun h Hi => proj2 (proj2 (proj2 (proj2 (proj2 (Hall h Hi))))))).
  match goal with |- exists o, bind (assemble ?h ?tg ?a ?b ?c ?d ?e ?f ?g ?i) _ = _ /\ _ =>
    destruct (assemble_two h tg a b c d e f g i Hc) as (o & -> & Ho) end.
  exists o. split; [reflexivity|]. destruct Ho as (Ho1 & Ho2 & _). auto.
Qed.

(** ** Reading by name *)

Lemma specific_found name keyword value pre h post : forall cur,
  forallb is_binary pre = true -> existsb (matches name keyword value) pre = false ->
  is_binary h = true -> matches name keyword value h = true ->
  specific_named E (pre ++ h :: post) cur name keyword value
  = (cur + Z.of_nat (List.length pre) + 1, 0).
Proof.
  induction pre as [|h' pre IH]; intros cur Hb Hp Hh Hm; cbn [app specific_named List.length].
  - rewrite Hh. unfold matches in Hm. destruct (key_text E h "EXTNAME"); [|discriminate].
    destruct (key_text E h keyword); [|discriminate]. rewrite Hm. f_equal. lia.
  - cbn [forallb] in Hb. apply andb_true_iff in Hb as [Hb' Hb]. rewrite Hb'.
    cbn [existsb] in Hp. apply orb_false_iff in Hp as [Hp' Hp]. unfold matches in Hp'.
    assert (Hr : specific_named E (pre ++ h :: post) (cur + 1) name keyword value
                 = (cur + Z.of_nat (Datatypes.S (List.length pre)) + 1, 0)).
    { rewrite IH by assumption. f_equal. lia. }
    destruct (key_text E h' "EXTNAME"); [|exact Hr]. destruct (key_text E h' keyword); [|exact Hr].
    now rewrite Hp'.
Qed.
Lemma specific_none name keyword value l : forall cur,
  forallb is_binary l = true -> existsb (matches name keyword value) l = false ->
  specific_named E l cur name keyword value = (cur + Z.of_nat (List.length l), BAD_HDU_NUM).
Proof.
  induction l as [|h' l IH]; intros cur Hb Hp; cbn [specific_named List.length].
  - f_equal. lia.
  - cbn [forallb] in Hb. apply andb_true_iff in Hb as [Hb' Hb]. rewrite Hb'.
    cbn [existsb] in Hp. apply orb_false_iff in Hp as [Hp' Hp]. unfold matches in Hp'.
    assert (Hr : specific_named E l (cur + 1) name keyword value
                 = (cur + Z.of_nat (Datatypes.S (List.length l)), BAD_HDU_NUM)).
    { rewrite IH by assumption. f_equal. lia. }
    destruct (key_text E h' "EXTNAME"); [|exact Hr]. destruct (key_text E h' keyword); [|exact Hr].
    now rewrite Hp'.
Qed.
Lemma specific_stops name keyword value pre h post : forall cur,
  forallb is_binary pre = true -> existsb (matches name keyword value) pre = false ->
  is_binary h = false ->
  specific_named E (pre ++ h :: post) cur name keyword value
  = (cur + Z.of_nat (List.length pre) + 1, 0).
Proof.
  induction pre as [|h' pre IH]; intros cur Hb Hp Hh; cbn [app specific_named List.length].
  - rewrite Hh. f_equal. lia.
  - cbn [forallb] in Hb. apply andb_true_iff in Hb as [Hb' Hb]. rewrite Hb'.
    cbn [existsb] in Hp. apply orb_false_iff in Hp as [Hp' Hp]. unfold matches in Hp'.
    assert (Hr : specific_named E (pre ++ h :: post) (cur + 1) name keyword value
                 = (cur + Z.of_nat (Datatypes.S (List.length pre)) + 1, 0)).
    { rewrite IH by assumption. f_equal. lia. }
    destruct (key_text E h' "EXTNAME"); [|exact Hr]. destruct (key_text E h' keyword); [|exact Hr].
    now rewrite Hp'.
Qed.

(** a function reading the table with [keyword] = [value] *)
Definition by_name {A} (name keyword value : string) (r : hdu -> rd (option A)) : io A :=
  guard_io (fun s => at_chdu r (specific_named_hdu E name keyword value s)).
Lemma by_name_at {A} name keyword value (r : hdu -> rd (option A)) p pre h post cur i :
  specific_named E (pre ++ h :: post) 1 name keyword value = (i, 0) ->
  i = 1 + Z.of_nat (List.length pre) + 1 ->
  by_name name keyword value r (mk_file (p :: pre ++ h :: post) cur, 0)
  = (a <- r h 0 ;; Ok (fst a, (mk_file (p :: pre ++ h :: post) i, snd a))).
Proof.
  intros Hs Hi. unfold by_name, guard_io. cbn [snd Z.eqb negb]. unfold specific_named_hdu.
  cbn [Z.eqb negb f_hdus f_cur]. change (skipn 1 (p :: pre ++ h :: post)) with (pre ++ h :: post).
  rewrite Hs. replace (match pre ++ h :: post with [] => cur | _ :: _ => i end) with i
    by (now destruct pre).
  unfold at_chdu. cbn [fst snd].
  change (p :: pre ++ h :: post) with ((p :: pre) ++ h :: post).
  rewrite chdu_middle by (cbn [List.length]; lia). reflexivity.
Qed.
(** the same table is read as when it is alone in the file *)
Lemma by_name_found {A} name keyword value (r : hdu -> rd (option A)) p pre h post cur :
  forallb is_binary pre = true -> existsb (matches name keyword value) pre = false ->
  is_binary h = true -> matches name keyword value h = true ->
  by_name name keyword value r (mk_file (p :: pre ++ h :: post) cur, 0)
  = (x <- alone (by_name name keyword value r) h ;;
     Ok (fst x, (mk_file (p :: pre ++ h :: post) (Z.of_nat (List.length pre) + 2), snd (snd x)))).
Proof.
  intros H1 H2 H3 H4. rewrite (by_name_at name keyword value r p pre h post cur _
    (specific_found name keyword value pre h post 1 H1 H2 H3 H4) eq_refl).
  unfold alone. change [null_primary; h] with (null_primary :: [] ++ h :: []).
  rewrite (by_name_at name keyword value r null_primary [] h [] 1 _
    (specific_found name keyword value [] h [] 1 eq_refl eq_refl H3 H4) eq_refl).
  destruct (r h 0) as [(a, st)| |]; [|reflexivity|reflexivity]. cbn [bind fst snd].
  do 4 f_equal. lia.
Qed.
Lemma by_name_none {A} name keyword value (r : hdu -> rd (option A)) p l cur :
  (forall h, agrees (r h)) -> (forall h st, st <> 0 -> r h st = Ok (None, st)) ->
  forallb is_binary l = true -> existsb (matches name keyword value) l = false ->
  exists f', by_name name keyword value r (mk_file (p :: l) cur, 0) = Ok (None, (f', BAD_HDU_NUM))
             /\ f_hdus f' = p :: l.
Proof.
  intros Ha Hr H1 H2. unfold by_name, guard_io. cbn [snd Z.eqb negb]. unfold specific_named_hdu.
  cbn [Z.eqb negb f_hdus f_cur]. change (skipn 1 (p :: l)) with l.
  rewrite specific_none by assumption. unfold at_chdu. cbn [fst snd].
  destruct (chdu _).
  - rewrite Hr by discriminate. rewrite bind_Ok. cbn [fst snd]. eexists. split; reflexivity.
  - eexists. split; reflexivity.
Qed.
Lemma unless_set {A} (k : rd (option A)) st : st <> 0 -> unless_error k st = Ok (None, st).
Proof.
  intros H. unfold unless_error, rbind, get_status. rewrite bind_Ok. cbn [fst snd].
  now destruct (Z.eqb_spec st 0).
Qed.

(** a table written by the library *)
Lemma matches_table name keyword value value' l c n :
  str_eqb "CHECKSUM" keyword = false -> str_eqb "DATASUM" keyword = false ->
  lookup "EXTNAME" l = Some (KStr name) -> lookup keyword l = Some (KStr value') ->
  matches name keyword value (sums E (mk_hdu BINARY_TBL (mkkeys l) c n)) = str_eqb value' value.
Proof.
  intros Hc Hd H1 H2. unfold matches, key_text. rewrite !find_keys by (assumption || reflexivity).
  rewrite H1, H2. cbn [option_map]. now rewrite (proj2 (str_eqb_eq name name) eq_refl).
Qed.
End IO.
