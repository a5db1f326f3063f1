(** What the programs in src/util do to files. *)
From Coq Require Import Lia.
From Verif Require Import BaseLemmas ReadModel ReadFile IOMain IOProofs WriteKeys ReadWf ToolModel ToolSpec
  FileProofs FilterFinal FilterMain MergeFacts MergeWhole ToolFilter ToolMerge ToolProofs
  CheckModel CheckRules CheckWhole.
Open Scope list_scope.
Open Scope Z_scope.

(** ** Tables that were read *)

Section Tables.
Variable E : cfitsio.
Lemma tables_yield :
  yields (read_oi_target E) (fun t => wf_targets t = true /\ 0 < ot_ntarget t)
  /\ (forall name, yields (read_oi_array E name) (fun a => wf_array a = true /\ 0 < ar_nelement a))
  /\ (forall name, yields (read_oi_wavelength E name) (fun w => wf_wavelength w = true /\ 0 < wv_nwave w))
  /\ (forall name, yields (read_oi_corr E name) (fun c => wf_corr c = true /\ 0 < co_ncorr c))
  /\ yields (read_next_oi_array E) (fun a => wf_array a = true /\ 0 < ar_nelement a)
  /\ yields (read_next_oi_wavelength E) (fun w => wf_wavelength w = true /\ 0 < wv_nwave w)
  /\ yields (read_next_oi_corr E) (fun c => wf_corr c = true /\ 0 < co_ncorr c)
  /\ yields (read_next_oi_inspol E) (fun t => wf_inspol t = true /\ 0 < is_numrec t /\ 0 < is_nwave t)
  /\ yields (read_next_oi_vis E) (fun t => wf_vis t = true /\ 0 < tb_numrec t /\ 0 < tb_nwave t)
  /\ yields (read_next_oi_vis2 E) (fun t => wf_vis2 t = true /\ 0 < tb_numrec t /\ 0 < tb_nwave t)
  /\ yields (read_next_oi_t3 E) (fun t => wf_t3 t = true /\ 0 < tb_numrec t /\ 0 < tb_nwave t)
  /\ yields (read_next_oi_flux E) (fun t => wf_flux t = true /\ 0 < tb_numrec t /\ 0 < tb_nwave t).
Proof.
  repeat match goal with |- _ /\ _ => split end.
  - apply (io_guard _ good_target). intros s a s'. apply (io_chdu _ good_target). intros h. apply en_target.
  - intros name. apply (io_guard _ good_array). intros s a s'. apply (io_chdu _ good_array). intros h. apply en_array.
  - intros name. apply (io_guard _ good_wave). intros s a s'. apply (io_chdu _ good_wave). intros h. apply en_wave.
  - intros name. apply (io_guard _ good_corr). intros s a s'. apply (io_chdu _ good_corr). intros h. apply en_corr.
  - apply io_next. intros h. apply en_array.
  - apply io_next. intros h. apply en_wave.
  - apply io_next. intros h. apply en_corr.
  - apply io_next. intros h. apply en_inspol.
  - apply io_next. intros h. apply en_vis.
  - apply io_next. intros h. apply en_vis2.
  - apply io_next. intros h. apply en_t3.
  - apply io_next. intros h. apply en_flux.
Qed.
End Tables.

(** ** Datasets that were read *)

Section Read.
Variable E : cfitsio.
Lemma unique_first {A B} (key : A -> B) l a a' :
  NoDup (map key l) -> In a l -> first_match (fun x => key x = key a) l a' -> a' = a.
Proof.
  intros N Ha (b & c & -> & Hk & Hb). rewrite map_app in N. cbn [map] in N. apply NoDup_remove_2 in N.
  apply in_app_or in Ha as [Ha|[Ha|Ha]]; [exfalso|exact Ha|exfalso].
  - exact (Hb _ Ha eq_refl).
  - apply N, in_or_app. right. rewrite Hk. now apply in_map.
Qed.
Lemma read_consistent name d o : reads E name d o -> channels_match o -> consistent o.
Proof.
  intros R [M1 M2 M3 M4 M5 M6 M7]. destruct (read_wf E _ _ _ _ _ R) as (W & N & T).
  destruct (read_assembled E _ _ _ _ _ R) as (h & A).
  destruct N as (N1 & N2 & N3 & N4 & N5 & N6 & N7 & N8). rewrite Forall_forall in *.
  split; try assumption.
  - intros w Hw. split; [now apply N2|now apply M1].
  - intros w Hw U. destruct (assemble_complete _ _ _ _ _ _ _ _ _ _ _ A) as (C1 & C2 & C3 & C4).
    assert (L : lookup_result (fun x => wv_insname x = wv_insname w) (o_wavelengthList o)
                  (oi_fits_lookup_wavelength o (wv_insname w))).
    { destruct U as [(t & Ht & Hn)|[(t & Ht & Hn)|[(t & Ht & Hn)|(t & Ht & Hn)]]]; rewrite <- Hn;
        [apply (C1 t Ht)|apply (C2 t Ht)|apply (C3 t Ht)|apply (C4 t Ht)]. }
    unfold oi_fits_lookup_wavelength in L. unfold lookup_result in L. destruct (hash_lookup _ _) as [w'|].
    + f_equal. eapply (unique_first wv_insname); eassumption.
    + exfalso. exact (L w Hw eq_refl).
  - intros t Ht. split; [now apply N5|]. intros w Hw. now apply M3.
  - intros t Ht. split; [now apply N6|]. intros w Hw. now apply M4.
  - intros t Ht. split; [now apply N7|]. intros w Hw. now apply M5.
  - intros t Ht. split; [now apply N8|]. intros w Hw. now apply M6.
  - intros t Ht. split; [now apply N4|now apply M7].
Qed.
Lemma read_mergeable names d ins :
  Forall2 (fun n o => reads E n d o) names ins -> targets_match ins -> mergeable ins.
Proof.
  intros R (M & L). split; [|exact L]. clear L.
  induction R as [|n o names ins R _ IH]; [constructor|]. inversion_clear M. constructor; [|auto].
  destruct (read_wf E _ _ _ _ _ R) as (W & N & _). intuition.
Qed.
Lemma read_found name d o : reads E name d o -> named_elsewhere o -> arrays_found o /\ corrs_found o.
Proof.
  intros R (N1 & N2). destruct (read_assembled E _ _ _ _ _ R) as (h & A).
  destruct (assemble_complete _ _ _ _ _ _ _ _ _ _ _ A) as (C1 & C2 & C3 & C4).
  split; [split; [|split; [|split; [|split]]]|split; [|split; [|split]]]; intros t Ht.
  - intros Hn. destruct (N1 t Ht Hn) as (_ & U).
    destruct U as [(u & Hu & Hx)|[(u & Hu & Hx)|[(u & Hu & Hx)|(u & Hu & Hx)]]]; rewrite <- Hx in *;
      [exact (proj1 (proj1 (C1 u Hu)) Hn)|exact (proj1 (proj1 (C2 u Hu)) Hn)
      |exact (proj1 (proj1 (C3 u Hu)) Hn)|exact (proj1 (C4 u Hu) Hn)].
  - exact (proj1 (proj1 (C1 t Ht))).
  - exact (proj1 (proj1 (C2 t Ht))).
  - exact (proj1 (proj1 (C3 t Ht))).
  - exact (proj1 (C4 t Ht)).
  - exact (proj2 (C1 t Ht)).
  - exact (proj2 (C2 t Ht)).
  - exact (proj2 (C3 t Ht)).
  - intros Hn. destruct (N2 t Ht Hn) as [(u & Hu & Hx)|[(u & Hu & Hx)|(u & Hu & Hx)]]; rewrite <- Hx in *;
      [exact (proj2 (C1 u Hu) Hn)|exact (proj2 (C2 u Hu) Hn)|exact (proj2 (C3 u Hu) Hn)].
Qed.
End Read.

(** ** oifits-merge *)

Section Programs.
Variables (E : cfitsio) (fmt : string -> f64 -> string).

Lemma read_files_ok names d ins : Forall2 (fun n o => reads E n d o) names ins ->
  read_files E names d = Ok (Some ins).
Proof.
  induction 1 as [|n o names ins R _ IH]; [reflexivity|]. cbn [read_files]. rewrite R, bind_Ok. cbn [fst snd Z.eqb negb].
  now rewrite IH, bind_Ok.
Qed.
Lemma read_files_inv names d r : read_files E names d = Ok r ->
  match r with
  | Some ins => Forall2 (fun n o => reads E n d o) names ins
  | None => exists n, In n names /\ cannot_read E n d
  end.
Proof.
  revert r. induction names as [|n names IH]; intros r H; cbn [read_files] in H; [injection H as <-; constructor|].
  apply bind_inv in H as ((o, st) & H1 & H2). cbn [fst snd] in H2.
  destruct (Z.eqb_spec st 0) as [->|Hs]; cbn [negb] in H2.
  - destruct o as [o|]; [|discriminate]. apply bind_inv in H2 as (rest & H3 & H4). injection H4 as <-.
    apply IH in H3. destruct rest as [l|].
    + constructor; assumption.
    + destruct H3 as (m & Hm & Hc). exists m. split; [now right|exact Hc].
  - injection H2 as <-. exists n. split; [now left|]. exists st. split; [exact Hs|].
    destruct o as [o|]; [|exact H1]. apply read_status in H1. contradiction.
Qed.
Lemma read_files_cannot before n after d ins : Forall2 (fun n o => reads E n d o) before ins ->
  cannot_read E n d -> read_files E (before ++ n :: after) d = Ok None.
Proof.
  intros R (st & Hs & Hc). induction R as [|m o before ins R _ IH]; cbn [app read_files].
  - rewrite Hc, bind_Ok. cbn [fst snd]. now destruct (Z.eqb_spec st 0).
  - rewrite R, bind_Ok. cbn [fst snd Z.eqb negb]. now rewrite IH, bind_Ok.
Qed.

Lemma merge_inv args d x : oifits_merge E fmt args d = Ok x ->
  (exists m, x = mk_outcome 2 m d)
  \/ exists out names, args = out :: names /\ (2 <= List.length names)%nat
     /\ ((exists n, In n names /\ cannot_read E n d) /\ x = mk_outcome 1 "" d
         \/ exists ins o text, Forall2 (fun n o => reads E n d o) names ins /\ merge_oi_fits_list ins = Ok o
              /\ format_oi_fits_summary fmt o = Ok text
              /\ writing E out o d ("=== MERGED DATA: ===" ++ newline ++ text) = Ok x).
Proof.
  unfold oifits_merge. destruct args as [|out [|n1 [|n2 names]]]; try (intros [= <-]; left; now eexists).
  intros H. right. exists out, (n1 :: n2 :: names). split; [reflexivity|]. split; [cbn; lia|].
  apply bind_inv in H as (r & H1 & H2). apply read_files_inv in H1. destruct r as [ins|].
  - right. apply bind_inv in H2 as (o & H2 & H3). apply bind_inv in H3 as (text & H3 & H4).
    exists ins, o, text. auto.
  - left. injection H2 as <-. now split.
Qed.
Theorem merge_output out names d ins :
  (2 <= List.length names)%nat -> Forall2 (fun n o => reads E n d o) names ins -> targets_match ins ->
  Forall (fun o => storable_fits E o = true) ins -> roomy_names ins -> find_file out d = None ->
  exists o x text, merge_oi_fits_list ins = Ok o /\ oifits_merge E fmt (out :: names) d = Ok x
    /\ x_status x = 0 /\ x_stdout x = ("=== MERGED DATA: ===" ++ nl ++ text)%string /\ summary_of fmt o text
    /\ only_adds out d (x_disk x) /\ file_holds E out (x_disk x) o.
Proof.
  intros L R T S Rm F. pose proof (read_mergeable E _ _ _ R T) as M.
  destruct (merge_defined ins M) as (o & Ho).
  assert (NE : ins <> []) by (intros ->; inversion R; subst; cbn in L; lia).
  pose proof (merged_storable E ins o NE S M Rm Ho) as So.
  assert (W : wf_fits o = true).
  { eapply merged_wf; [|exact Ho]. destruct M as (M & _). eapply Forall_impl; [|exact M]. now intros ? []. }
  destruct (summary_ok fmt o W) as (text & Ht & Hs).
  destruct (writing_ok E out o d ("=== MERGED DATA: ===" ++ newline ++ text) So F) as (x & H1 & H2 & H3 & H4 & H5).
  exists o, x, text. split; [exact Ho|]. split; [|auto].
  unfold oifits_merge. destruct names as [|n1 [|n2 names]]; [cbn in L; lia|cbn in L; lia|].
  now rewrite (read_files_ok _ _ _ R), bind_Ok, Ho, bind_Ok, Ht, bind_Ok.
Qed.
Theorem merge_files args d x : oifits_merge E fmt args d = Ok x ->
  (x_disk x = d \/ exists out, hd_error args = Some out /\ only_adds out d (x_disk x))
  /\ (x_status x = 0 -> exists out names ins o hdus, args = out :: names /\ (2 <= List.length names)%nat
        /\ Forall2 (fun n o => reads E n d o) names ins /\ merge_oi_fits_list ins = Ok o
        /\ find_file out d = None /\ x_disk x = (out, hdus) :: d /\ version2 o hdus)
  /\ (x_status x = 0 \/ x_status x = 1 \/ x_status x = 2).
Proof.
  intros H. apply merge_inv in H as [(m & ->)|(out & names & -> & L & [(C & ->)|(ins & o & text & R & Ho & Ht & Hw)])].
  - cbn. split; [now left|]. split; [discriminate|auto].
  - cbn. split; [now left|]. split; [discriminate|auto].
  - apply writing_inv in Hw as (H1 & H2 & H3 & H4 & _). split; [right; exists out; now split|]. split; [|tauto].
    intros H0. destruct (H2 H0) as (F & hdus & Hd & V). exists out, names, ins, o, hdus. auto 10.
Qed.
Theorem merge_existing out names d hdus x : find_file out d = Some hdus ->
  oifits_merge E fmt (out :: names) d = Ok x -> x_status x <> 0 /\ x_disk x = d.
Proof.
  intros F H. apply merge_inv in H as [(m & ->)|(o' & names' & [= <- <-] & L & [(C & ->)|(ins & o & text & R & Ho & Ht & Hw)])].
  - now cbn.
  - now cbn.
  - apply writing_inv in Hw as (_ & _ & H3 & _). destruct H3 as (-> & ->); [congruence|]. now split.
Qed.
Theorem merge_usage args d : (List.length args < 3)%nat -> exists m, oifits_merge E fmt args d = Ok (mk_outcome 2 m d).
Proof. unfold oifits_merge. destruct args as [|a [|b [|c l]]]; cbn; intros H; try lia; eexists; reflexivity. Qed.
Theorem merge_unreadable out before n after d ins :
  (2 <= List.length (before ++ n :: after))%nat ->
  Forall2 (fun n o => reads E n d o) before ins -> cannot_read E n d ->
  oifits_merge E fmt (out :: before ++ n :: after) d = Ok (mk_outcome 1 "" d).
Proof.
  intros L R C. unfold oifits_merge. pose proof (read_files_cannot before n after d ins R C) as H.
  destruct (before ++ n :: after) as [|n1 [|n2 names]]; [cbn in L; lia|cbn in L; lia|].
  now rewrite H, bind_Ok.
Qed.

(** ** oifits-upgrade *)

Definition new_header (origin observer insmode : string) (h : oi_header) : oi_header :=
  mk_header (cut origin) (h_date h) (h_date_obs h) (h_content h) (h_telescop h) (h_instrume h) (cut observer)
    (cut insmode) (h_object h) (h_referenc h) (h_author h) (h_prog_id h) (h_procsoft h) (h_obstech h).
Lemma set_header_wf h o : wf_fits (set_header h o) = wf_fits o.
Proof. reflexivity. Qed.
Lemma strlcpy_cut s : strlcpy FLEN_VALUE s = cut s.
Proof. reflexivity. Qed.
Theorem upgrade_output inName out origin observer insmode more d o :
  reads E inName d o -> h_content (o_header o) <> "OIFITS2"%string -> o_arrayList o <> [] ->
  storable_fits E o = true -> card_text (cut origin) = true -> card_text (cut observer) = true ->
  card_text (cut insmode) = true -> find_file out d = None ->
  exists o' x text, relabelled origin observer insmode o o'
    /\ oifits_upgrade E fmt (inName :: out :: origin :: observer :: insmode :: more) d = Ok x
    /\ x_status x = 0 /\ x_stdout x = ("=== INPUT DATA: ===" ++ nl ++ text)%string /\ summary_of fmt o' text
    /\ only_adds out d (x_disk x) /\ file_holds E out (x_disk x) o'.
Proof.
  intros R V A S C1 C2 C3 F. pose proof (reads_wf E _ _ _ R) as W.
  set (o' := set_header (new_header origin observer insmode (o_header o)) o).
  assert (So : storable_fits E o' = true).
  { unfold storable_fits in S |- *. unfold o'. cbn [set_header o_header o_targets o_arrayList o_wavelengthList o_corrList
      o_inspolList o_visList o_vis2List o_t3List o_fluxList].
    repeat match goal with H : (_ && _)%bool = true |- _ => apply andb_true_iff in H as (? & ?) end.
    repeat (apply andb_true_intro; split; [|assumption]).
    unfold storable_header, new_header in *. cbn -[card_text cut] in *. ands. bands; assumption. }
  destruct (summary_ok fmt o' W) as (text & Ht & Hs).
  destruct (writing_ok E out o' d ("=== INPUT DATA: ===" ++ newline ++ text) So F) as (x & H1 & H2 & H3 & H4 & H5).
  exists o', x, text. split; [now repeat split|]. split; [|auto].
  unfold oifits_upgrade. rewrite (reading_reads E _ _ _ _ R).
  unfold is_oi_fits_two. destruct (str_eqb _ _) eqn:Ev; [apply str_eqb_eq in Ev; contradiction|].
  destruct (Z.eqb_spec (o_numArray o) 0) as [Hz|Hz].
  - exfalso. unfold wf_fits, len_is in W.
    repeat match goal with H : (_ && _)%bool = true |- _ => apply andb_true_iff in H as (? & ?) end.
    repeat match goal with H : (_ =? _) = true |- _ => apply Z.eqb_eq in H end.
    destruct (o_arrayList o); [now apply A|]. cbn [List.length] in *. lia.
  - transitivity (t <- format_oi_fits_summary fmt o' ;;
                  writing E out o' d ("=== INPUT DATA: ===" ++ newline ++ t)); [reflexivity|].
    now rewrite Ht, bind_Ok.
Qed.
Lemma upgrade_inv args d x : oifits_upgrade E fmt args d = Ok x ->
  (exists s m, (s = 1 \/ s = 2) /\ x = mk_outcome s m d)
  \/ exists inName out rest o o' text, args = inName :: out :: rest /\ reads E inName d o
     /\ h_content (o_header o) <> "OIFITS2"%string /\ o_numArray o <> 0
     /\ o_targets o' = o_targets o /\ o_arrayList o' = o_arrayList o /\ o_wavelengthList o' = o_wavelengthList o
     /\ o_corrList o' = o_corrList o /\ o_inspolList o' = o_inspolList o /\ o_visList o' = o_visList o
     /\ o_vis2List o' = o_vis2List o /\ o_t3List o' = o_t3List o /\ o_fluxList o' = o_fluxList o
     /\ writing E out o' d ("=== INPUT DATA: ===" ++ newline ++ text) = Ok x.
Proof.
  unfold oifits_upgrade. destruct args as [|inName [|out [|origin [|observer more]]]];
    try (intros [= <-]; left; do 2 eexists; split; [|reflexivity]; now right).
  intros H. apply reading_inv in H as [(C & ->)|(o & R & H)].
  - left. do 2 eexists. split; [|reflexivity]. now left.
  - unfold is_oi_fits_two in H. destruct (str_eqb _ _) eqn:Ev.
    + injection H as <-. left. do 2 eexists. split; [|reflexivity]. now left.
    + destruct (Z.eqb_spec (o_numArray o) 0) as [Hz|Hz].
      * injection H as <-. left. do 2 eexists. split; [|reflexivity]. now left.
      * cbv zeta in H. apply bind_inv in H as (text & Ht & H). right.
        exists inName, out, (origin :: observer :: more), o.
        match type of H with writing _ _ ?o2 _ _ = _ => exists o2 end. exists text.
        split; [reflexivity|]. split; [exact R|]. split; [now apply str_eqb_neq|]. split; [exact Hz|].
        do 9 (split; [reflexivity|]). exact H.
Qed.
Theorem upgrade_files args d x : oifits_upgrade E fmt args d = Ok x ->
  (x_disk x = d \/ exists out, nth_error args 1 = Some out /\ only_adds out d (x_disk x))
  /\ (x_status x = 0 -> exists inName out rest o o' hdus, args = inName :: out :: rest /\ reads E inName d o
        /\ h_content (o_header o) <> "OIFITS2"%string /\ o_arrayList o <> [] /\ find_file out d = None
        /\ o_targets o' = o_targets o /\ o_arrayList o' = o_arrayList o /\ o_wavelengthList o' = o_wavelengthList o
        /\ o_corrList o' = o_corrList o /\ o_inspolList o' = o_inspolList o /\ o_visList o' = o_visList o
        /\ o_vis2List o' = o_vis2List o /\ o_t3List o' = o_t3List o /\ o_fluxList o' = o_fluxList o
        /\ x_disk x = (out, hdus) :: d /\ version2 o' hdus)
  /\ (x_status x = 0 \/ x_status x = 1 \/ x_status x = 2).
Proof.
  intros H. apply upgrade_inv in H as [(s & m & Hs & ->)|(inName & out & rest & o & o' & text & -> & R & V & A & T1 & T2 & T3 & T4 & T5 & T6 & T7 & T8 & T9 & H)].
  - cbn. split; [now left|]. split; [intros ->; destruct Hs; discriminate|]. tauto.
  - apply writing_inv in H as (H1 & H2 & H3 & H4 & _). split; [right; exists out; now split|]. split; [|tauto].
    intros H0. destruct (H2 H0) as (F & hdus & Hd & Ve). exists inName, out, rest, o, o', hdus.
    assert (N : o_arrayList o <> []).
    { intros Hn. apply A. pose proof (reads_wf E _ _ _ R) as W. unfold wf_fits, len_is in W.
      repeat match goal with H : (_ && _)%bool = true |- _ => apply andb_true_iff in H as (? & ?) end.
      repeat match goal with H : (_ =? _) = true |- _ => apply Z.eqb_eq in H end.
      rewrite Hn in *. cbn [List.length] in *. lia. }
    repeat (split; [assumption || reflexivity|]). exact Ve.
Qed.
Theorem upgrade_existing inName out rest d hdus x : find_file out d = Some hdus ->
  oifits_upgrade E fmt (inName :: out :: rest) d = Ok x -> x_status x <> 0 /\ x_disk x = d.
Proof.
  intros F H. apply upgrade_inv in H as [(s & m & Hs & ->)|(i & o' & rest' & o1 & o2 & text & [= <- <- <-] & H)].
  - cbn. split; [|reflexivity]. destruct Hs; congruence.
  - destruct H as (_ & _ & _ & _ & _ & _ & _ & _ & _ & _ & _ & _ & H).
    apply writing_inv in H as (_ & _ & H3 & _). destruct H3 as (-> & ->); [congruence|]. now split.
Qed.
(** refused, nothing changed *)
Theorem upgrade_usage args d : (List.length args < 4)%nat -> exists m, oifits_upgrade E fmt args d = Ok (mk_outcome 2 m d).
Proof. unfold oifits_upgrade. destruct args as [|a [|b [|c [|e l]]]]; cbn; intros H; try lia; eexists; reflexivity. Qed.
Theorem upgrade_refused inName out origin observer more d :
  cannot_read E inName d
  \/ (exists o, reads E inName d o /\ (h_content (o_header o) = "OIFITS2"%string \/ o_arrayList o = [])) ->
  exists m, oifits_upgrade E fmt (inName :: out :: origin :: observer :: more) d = Ok (mk_outcome 1 m d).
Proof.
  intros [C|(o & R & H)]; unfold oifits_upgrade.
  - rewrite (reading_cannot E _ _ _ C). now eexists.
  - rewrite (reading_reads E _ _ _ _ R). unfold is_oi_fits_two. destruct (str_eqb _ _) eqn:Ev; [now eexists|].
    destruct H as [H|H]; [rewrite H in Ev; discriminate|].
    destruct (Z.eqb_spec (o_numArray o) 0) as [Hz|Hz]; [now eexists|]. exfalso. apply Hz.
    pose proof (reads_wf E _ _ _ R) as W. unfold wf_fits, len_is in W.
    repeat match goal with H : (_ && _)%bool = true |- _ => apply andb_true_iff in H as (? & ?) end.
    repeat match goal with H : (_ =? _) = true |- _ => apply Z.eqb_eq in H end.
    rewrite H in *. cbn [List.length] in *. lia.
Qed.
(** the output cannot be upgraded again *)
Lemma holds_version2 name d o : file_holds E name d o ->
  exists o', reads E name d o' /\ h_content (o_header o') = "OIFITS2"%string.
Proof. intros (o' & R & H & _). exists o'. split; [exact R|]. now rewrite H. Qed.
Theorem upgrade_twice name d o out origin observer more : file_holds E name d o ->
  exists m, oifits_upgrade E fmt (name :: out :: origin :: observer :: more) d = Ok (mk_outcome 1 m d).
Proof.
  intros H. apply upgrade_refused. right. destruct (holds_version2 _ _ _ H) as (o' & R & C). exists o'. auto.
Qed.

End Programs.

(** ** oifits-filter *)

Section Filtering.
Variables (E : cfitsio) (fmt : string -> f64 -> string) (pow_half : f64 -> f64) (can_remove : string -> bool).

Lemma user_fresh opts : fresh_filter (user_filter opts).
Proof.
  unfold user_filter.
  assert (G : forall p, fresh_filter (ps_filter p) ->
    fresh_filter (ps_filter (fold_left (fun p op => set_option op p) opts p))).
  { induction opts as [|op opts IH]; intros p Hp; [exact Hp|]. cbn [fold_left]. apply IH. now destruct op. }
  specialize (G filter_pre_parse). exact (G (conj eq_refl (conj eq_refl eq_refl))).
Qed.
Lemma short_name s : (String.length s <= 1024)%nat -> strlcpy FLEN_FILENAME s = s.
Proof.
  clear. intros H. unfold strlcpy. change (Z.to_nat (FLEN_FILENAME - 1)) with 1024%nat. revert H.
  generalize 1024%nat as n. induction s as [|c s IH]; intros n H; cbn [String.length] in H.
  - now destruct n.
  - destruct n as [|n]; [lia|]. cbn [substring]. rewrite IH; [reflexivity|lia].
Qed.
Definition filter_run clobber opts inName out d : res outcome :=
  oifits_filter E fmt pow_half can_remove (Some (mk_command_line clobber opts [inName; out])) d.

Lemma filter_inv cl d x : oifits_filter E fmt pow_half can_remove cl d = Ok x ->
  (exists s m, (s = 1 \/ s = 2) /\ x = mk_outcome s m d)
  \/ exists clobber opts a1 a2 o f' o' text, cl = Some (mk_command_line clobber opts [a1; a2])
     /\ reads E (strlcpy FLEN_FILENAME a1) d o /\ apply_oi_filter pow_half o (user_filter opts) = Ok (f', o')
     /\ let out := strlcpy FLEN_FILENAME a2 in
        ((find_file out d = None /\ writing E out o' d text = Ok x)
         \/ (find_file out d <> None /\ clobber = true /\ can_remove out = true
             /\ writing E out o' (remove_file out d) text = Ok x)).
Proof.
  unfold oifits_filter. destruct cl as [[clobber opts args]|];
    [|intros [= <-]; left; do 2 eexists; split; [|reflexivity]; now right].
  cbn [cl_clobber cl_options cl_args].
  destruct args as [|a1 [|a2 [|a3 args]]];
    try (intros [= <-]; left; do 2 eexists; split; [|reflexivity]; now right).
  cbv zeta. intros H. apply reading_inv in H as [(C & ->)|(o & R & H)].
  - left. do 2 eexists. split; [|reflexivity]. now left.
  - apply bind_inv in H as (t1 & _ & H). apply bind_inv in H as ((f', o') & Ha & H).
    apply bind_inv in H as (t2 & _ & H). cbn [snd] in H.
    destruct (find_file (strlcpy FLEN_FILENAME a2) d) as [hdus|] eqn:F.
    + destruct clobber; cbn [negb] in H; [|injection H as <-; left; do 2 eexists; split; [|reflexivity]; now left].
      destruct (can_remove _) eqn:Cr; cbn [negb] in H;
        [|injection H as <-; left; do 2 eexists; split; [|reflexivity]; now left].
      right. exists true, opts, a1, a2, o, f', o'. eexists. split; [reflexivity|]. split; [exact R|]. split; [exact Ha|].
      right. split; [congruence|]. split; [reflexivity|]. split; [exact Cr|exact H].
    + right. exists clobber, opts, a1, a2, o, f', o'. eexists. split; [reflexivity|]. split; [exact R|].
      split; [exact Ha|]. left. split; [exact F|exact H].
Qed.
Lemma filter_described f : format_oi_filter fmt f = filter_text fmt f.
Proof.
  unfold format_oi_filter, filter_text. cbn [String.concat].
  change newline with nl. change (f64_of_Z (10 ^ 9)) with c_1e9. cbv zeta.
  replace (f_target_id f <? 0) with (negb (0 <=? f_target_id f)) by (rewrite Z.ltb_antisym; reflexivity).
  assert (A : forall (b : bool) yes no r, (("  " ++ (if b then yes else no) ++ nl) ++ r
    = (if b then "  " ++ yes else "  " ++ no) ++ nl ++ r)%string).
  { clear. intros [] yes no r; now rewrite <- !sapp_assoc. }
  assert (A' : forall (b : bool) yes no, ("  " ++ (if b then yes else no) ++ nl
    = (if b then "  " ++ yes else "  " ++ no) ++ nl ++ "")%string).
  { clear. intros [] yes no; now rewrite sapp_nil, <- ?sapp_assoc. }
  rewrite !A, A'. destruct (0 <=? f_target_id f); cbn [negb]; rewrite <- !sapp_assoc; reflexivity.
Qed.
Theorem filter_output clobber opts inName out d o :
  (String.length inName <= 1024)%nat -> (String.length out <= 1024)%nat ->
  reads E inName d o -> channels_match o -> storable_fits E o = true ->
  f_target_id (user_filter opts) < 0
    \/ (exists t, In t (ot_targ (o_targets o)) /\ tg_target_id t = f_target_id (user_filter opts)) ->
  find_file out d = None \/ (clobber = true /\ can_remove out = true) ->
  exists f' o' x, apply_oi_filter pow_half o (user_filter opts) = Ok (f', o')
    /\ filter_run clobber opts inName out d = Ok x /\ x_status x = 0
    /\ (exists text1 text2, summary_of fmt o text1 /\ summary_of fmt o' text2
          /\ x_stdout x = ("=== INPUT DATA: ===" ++ nl ++ text1 ++ "=== Applying filter: ===" ++ nl
               ++ filter_text fmt (user_filter opts) ++ "--> OUTPUT DATA: ===" ++ nl ++ text2)%string)
    /\ others_kept out d (x_disk x) /\ file_holds E out (x_disk x) o'.
Proof.
  intros L1 L2 R M S T F. pose proof (read_consistent E _ _ _ R M) as C.
  pose proof (user_fresh opts) as HF.
  destruct (final_no_crash pow_half o (user_filter opts) C HF) as (o' & Ha).
  pose proof (filtered_storable E pow_half o (user_filter opts) (user_filter opts) o' C HF Ha T S) as So.
  pose proof (main_consistent pow_half _ _ _ _ C HF Ha T) as C'.
  destruct (summary_ok fmt o (cs_wf _ C)) as (t1 & Ht1 & Hs1).
  destruct (summary_ok fmt o' (cs_wf _ C')) as (t2 & Ht2 & Hs2).
  set (text := ("=== INPUT DATA: ===" ++ newline ++ t1 ++ "=== Applying filter: ==="
              ++ newline ++ format_oi_filter fmt (user_filter opts) ++ "--> OUTPUT DATA: ===" ++ newline
              ++ t2)%string).
  assert (G : forall d0, find_file out d0 = None -> others_kept out d d0 ->
    exists x, writing E out o' d0 text = Ok x /\ x_status x = 0
      /\ (exists text1 text2, summary_of fmt o text1 /\ summary_of fmt o' text2
          /\ x_stdout x = ("=== INPUT DATA: ===" ++ nl ++ text1 ++ "=== Applying filter: ===" ++ nl
               ++ filter_text fmt (user_filter opts) ++ "--> OUTPUT DATA: ===" ++ nl ++ text2)%string)
      /\ others_kept out d (x_disk x) /\ file_holds E out (x_disk x) o').
  { intros d0 F0 K0. destruct (writing_ok E out o' d0 text So F0) as (x & H1 & H2 & H3 & (H4 & _) & H5).
    exists x. split; [exact H1|]. split; [exact H2|]. rewrite H3.
    split; [exists t1, t2; split; [exact Hs1|]; split; [exact Hs2|];
      unfold text; rewrite filter_described; reflexivity|].
    split; [|exact H5]. eapply others_trans; eassumption. }
  unfold filter_run, oifits_filter. cbn [cl_clobber cl_options cl_args]. cbv zeta.
  rewrite (short_name _ L1), (short_name _ L2), (reading_reads E _ _ _ _ R), Ht1, bind_Ok, Ha, bind_Ok. cbn [snd].
  rewrite Ht2, bind_Ok. fold text. exists (user_filter opts), o'.
  destruct (find_file out d) as [hdus|] eqn:Fo.
  - destruct F as [F|(-> & Cr)]; [discriminate|]. rewrite Cr. cbn [negb].
    destruct (G (remove_file out d)) as (x & Gx); [rewrite find_removed; now rewrite str_eqb_refl|apply others_removed|].
    exists x. split; [reflexivity|exact Gx].
  - destruct (G d Fo (others_refl _ _)) as (x & Gx). exists x. split; [reflexivity|exact Gx].
Qed.
Theorem filter_files clobber opts inName out d x :
  (String.length out <= 1024)%nat -> filter_run clobber opts inName out d = Ok x ->
  others_kept out d (x_disk x)
  /\ (clobber = false -> only_adds out d (x_disk x))
  /\ (clobber = false -> find_file out d <> None -> x_status x = 1 /\ x_disk x = d)
  /\ (x_status x = 0 -> (String.length inName <= 1024)%nat ->
      exists o f' o' hdus, reads E inName d o /\ apply_oi_filter pow_half o (user_filter opts) = Ok (f', o')
        /\ find_file out (x_disk x) = Some hdus /\ version2 o' hdus)
  /\ (x_status x = 0 \/ x_status x = 1).
Proof.
  intros L H. unfold filter_run in H.
  assert (S2 : x_status x <> 2 -> x_status x = 0 \/ x_status x = 1 \/ x_status x = 2 -> x_status x = 0 \/ x_status x = 1) by tauto.
  apply filter_inv in H as H'.
  destruct H' as [(s & m & Hs & ->)|(cb & op & a1 & a2 & o & f' & o' & text & [= <- <- <- <-] & R & Ha & Hw)].
  - cbn [x_disk x_status] in *. split; [apply others_refl|]. split; [intros _; apply adds_refl|].
    assert (Hs1 : s = 1).
    { destruct Hs as [Hs|Hs]; [exact Hs|exfalso]. subst s. unfold oifits_filter in H. cbn [cl_clobber cl_options cl_args] in H.
      cbv zeta in H. apply reading_inv in H as [(_ & Hx)|(o & R & H)]; [discriminate|].
      apply bind_inv in H as (t1 & _ & H). apply bind_inv in H as ((f', o') & Ha & H).
      apply bind_inv in H as (t2 & _ & H). destruct (find_file _ _); [destruct (negb _); [discriminate|destruct (negb _); [discriminate|]]|];
        apply writing_inv in H as (_ & _ & _ & [Hx|Hx] & _); discriminate. }
    subst s. repeat split; auto; discriminate.
  - cbv zeta in Hw. rewrite (short_name _ L) in Hw.
    destruct Hw as [(F & Hw)|(F & -> & Cr & Hw)]; apply writing_inv in Hw as (H1 & H2 & H3 & H4 & _).
    + split; [apply H1|]. split; [intros _; exact H1|]. split; [intros _ N; contradiction|]. split; [|exact H4].
      intros H0 L1. destruct (H2 H0) as (_ & hdus & Hd & V). rewrite (short_name _ L1) in R.
      exists o, f', o', hdus. split; [exact R|]. split; [exact Ha|]. split; [|exact V].
      rewrite Hd, find_file_cons, str_eqb_refl. reflexivity.
    + split; [eapply others_trans; [apply others_removed|apply H1]|]. split; [discriminate|]. split; [discriminate|].
      split; [|exact H4].
      intros H0 L1. destruct (H2 H0) as (_ & hdus & Hd & V). rewrite (short_name _ L1) in R.
      exists o, f', o', hdus. split; [exact R|]. split; [exact Ha|]. split; [|exact V].
      rewrite Hd, find_file_cons, str_eqb_refl. reflexivity.
Qed.
(** the output file exists and is not to be replaced, or cannot be *)
Theorem filter_refused clobber opts inName out d o :
  (String.length inName <= 1024)%nat -> (String.length out <= 1024)%nat ->
  reads E inName d o -> channels_match o ->
  f_target_id (user_filter opts) < 0
    \/ (exists t, In t (ot_targ (o_targets o)) /\ tg_target_id t = f_target_id (user_filter opts)) ->
  find_file out d <> None -> clobber = false \/ can_remove out = false ->
  exists f' o' text1 text2, apply_oi_filter pow_half o (user_filter opts) = Ok (f', o')
    /\ summary_of fmt o text1 /\ summary_of fmt o' text2
    /\ filter_run clobber opts inName out d = Ok (mk_outcome 1
         ("=== INPUT DATA: ===" ++ nl ++ text1 ++ "=== Applying filter: ===" ++ nl
          ++ filter_text fmt (user_filter opts) ++ "--> OUTPUT DATA: ===" ++ nl ++ text2
          ++ (if clobber then "Failed to remove existing output file '" ++ out ++ "'" ++ nl
              else "Output file '" ++ out ++ "' exists and '--clobber' not specified -> Exiting..." ++ nl)) d).
Proof.
  intros L1 L2 R M T F Cl. pose proof (read_consistent E _ _ _ R M) as C.
  pose proof (user_fresh opts) as HF.
  destruct (final_no_crash pow_half o (user_filter opts) C HF) as (o' & Ha).
  pose proof (main_consistent pow_half _ _ _ _ C HF Ha T) as C'.
  destruct (summary_ok fmt o (cs_wf _ C)) as (t1 & Ht1 & Hs1).
  destruct (summary_ok fmt o' (cs_wf _ C')) as (t2 & Ht2 & Hs2).
  exists (user_filter opts), o', t1, t2. split; [exact Ha|]. split; [exact Hs1|]. split; [exact Hs2|].
  unfold filter_run, oifits_filter. cbn [cl_clobber cl_options cl_args]. cbv zeta.
  rewrite (short_name _ L1), (short_name _ L2), (reading_reads E _ _ _ _ R), Ht1, bind_Ok, Ha, bind_Ok. cbn [snd].
  rewrite Ht2, bind_Ok, filter_described. change newline with nl.
  destruct (find_file out d); [|now destruct F].
  destruct clobber; cbn [negb].
  - destruct Cl as [Cl|Cl]; [discriminate|]. rewrite Cl. cbn [negb]. rewrite <- !sapp_assoc. reflexivity.
  - rewrite <- !sapp_assoc. reflexivity.
Qed.
Theorem filter_usage clobber opts args d : List.length args <> 2%nat ->
  exists m, oifits_filter E fmt pow_half can_remove (Some (mk_command_line clobber opts args)) d = Ok (mk_outcome 2 m d).
Proof.
  unfold oifits_filter. cbn [cl_args].
  destruct args as [|a [|b [|c l]]]; cbn [List.length]; intros H; try (eexists; reflexivity). now destruct H.
Qed.
Theorem filter_unremovable opts inName out d x : (String.length out <= 1024)%nat -> find_file out d <> None ->
  can_remove out = false -> filter_run true opts inName out d = Ok x -> x_status x = 1 /\ x_disk x = d.
Proof.
  intros L F Cr H. pose proof H as H'. unfold filter_run in H'. apply filter_inv in H'.
  destruct H' as [(s & m & Hs & ->)|(cb & op & a1 & a2 & o & f' & o' & text & [= <- <- <- <-] & R & Ha & Hw)].
  - destruct (filter_files true opts inName out d _ L H) as (_ & _ & _ & _ & [K|K]); cbn in *; [|tauto].
    destruct Hs; lia.
  - cbv zeta in Hw. rewrite (short_name _ L) in Hw. destruct Hw as [(N & _)|(_ & _ & C & _)]; [contradiction|congruence].
Qed.
Theorem filter_unreadable clobber opts inName out d :
  (String.length inName <= 1024)%nat -> cannot_read E inName d ->
  filter_run clobber opts inName out d = Ok (mk_outcome 1 "" d).
Proof.
  intros L C. unfold filter_run, oifits_filter. cbn [cl_clobber cl_options cl_args]. cbv zeta.
  rewrite (short_name _ L). exact (reading_cannot E _ _ _ C).
Qed.

End Filtering.

(** ** oifits-check *)

Section Checking.
Variable E : cfitsio.
Variable fmt : string -> f64 -> string.

Lemma levels_nil : levels_ok [].
Proof. intros v []. Qed.
Lemma levels_app a b : levels_ok a -> levels_ok b -> levels_ok (a ++ b).
Proof. intros A B v Hv. apply in_app_or in Hv as [Hv|Hv]; auto. Qed.
Lemma levels_flat {A} (f : A -> list violation) l : (forall a, levels_ok (f a)) -> levels_ok (flat_map f l).
Proof. intros H v Hv. apply in_flat_map in Hv as (a & _ & Hv). exact (H a v Hv). Qed.
Lemma levels_when1 b d t : levels_ok (when b 1 d t).
Proof. unfold when. destruct b; [|apply levels_nil]. intros v [<-|[]]. now left. Qed.
Lemma levels_when2 b d t : levels_ok (when b 2 d t).
Proof. unfold when. destruct b; [|apply levels_nil]. intros v [<-|[]]. now right. Qed.
Lemma findings_levels o : Forall levels_ok (findings o).
Proof.
  assert (T : forall v2 : bool, forall a b, levels_ok a -> levels_ok b -> levels_ok (if v2 then a else b)) by (intros []; auto).
  unfold findings. repeat apply Forall_cons; try apply Forall_nil.
  all: unfold missing_tables, revision_violations, bad_revisions, header_violations, keyword_violations, visrefmap_violations,
    target_violations, unlisted_in, arrname_violations, unnamed_inspol, unnamed, element_violations, stationless,
    corr_violations, uncorrelated, flagging_violations, t3amp_violations, order_violations, time_violations, timed,
    flux_violations, over_tables, over_records, over_channels, over; cbv zeta.
  all: repeat first [apply levels_app|apply levels_when1|apply levels_when2|apply T|apply levels_nil|apply levels_flat; intros ?].
  - intros v Hv. apply in_map_iff in Hv as (t & <- & _). now left.
  - intros v [<-|[]]. now right.
Qed.
Lemma worst_positive vs v : levels_ok vs -> In v vs -> 0 < fold_right Z.max 0 (map v_level vs).
Proof.
  intros L. induction vs as [|w vs IH]; intros Hv; [destruct Hv|]. cbn [map fold_right].
  destruct Hv as [->|Hv]; [destruct (L v (or_introl eq_refl)) as [-> | ->]; lia|].
  specialize (IH (fun u Hu => L u (or_intror Hu)) Hv). lia.
Qed.
Lemma run_checks o cs vss : Forall2 (fun c vs => reports (c o) vs) cs vss -> Forall levels_ok vss ->
  forall w text, 0 <= w -> exists w',
    foreach cs (run_check o) (w, text) = Ok (w', (text ++ fold_right String.append "" (map finding_text vss))%string)
    /\ 0 <= w' /\ (w' = 0 <-> w = 0 /\ forallb (fun vs => match vs with [] => true | _ => false end) vss = true).
Proof.
  intros H. induction H as [|c vs cs vss (r & Hc & Hr) H IH]; intros L w text Hw.
  - exists w. cbn [foreach map fold_right forallb]. rewrite sapp_nil. split; [reflexivity|]. split; [exact Hw|]. tauto.
  - inversion L as [|? ? L1 L2]; subst. cbn [foreach map fold_right forallb].
    unfold run_check at 1. rewrite Hc, bind_Ok. destruct vs as [|v vs].
    + destruct Hr as (_ & Hl & _). cbn [map fold_right] in Hl. rewrite Hl, Z.eqb_refl. rewrite bind_Ok.
      cbn [finding_text]. exact (IH L2 w text Hw).
    + pose proof (worst_positive _ v L1 (or_introl eq_refl)) as P.
      assert (Hp : 0 < cr_level r) by (rewrite (proj1 (proj2 Hr)); exact P).
      unfold OI_BREACH_NONE. rewrite (proj2 (Z.eqb_neq _ 0)) by lia.
      unfold print_check_result. rewrite (format_level _ _ v Hr L1 eq_refl), bind_Ok. cbn [fmt_s]. rewrite !bind_Ok.
      cbn [fst snd]. rewrite (proj1 (proj2 Hr)) in *. set (worst := fold_right Z.max 0 (map v_level (v :: vs))) in *.
      destruct (IH L2 (if worst >? w then worst else w) (text ++ report_text (v :: vs) (v_desc v) worst)%string)
        as (w' & E1 & E2 & E3); [destruct (worst >? w); lia|].
      exists w'. rewrite E1, sapp_assoc. split; [reflexivity|]. split; [exact E2|].
      rewrite E3. cbn [andb]. split; [|intros (_ & ?); discriminate].
      intros (Hx & _). destruct (Z.gtb_spec worst w); lia.
Qed.
Lemma all_reports o : wf_fits o = true -> fluxes_nonempty o -> arrays_found o -> corrs_found o -> checkable o ->
  Forall2 (fun c vs => reports (c o) vs) checks (findings o).
Proof.
  intros W Fx A C (T & I). unfold checks, findings. repeat apply Forall2_cons; try apply Forall2_nil.
  - now apply tables_reports.
  - apply header_reports.
  - apply keywords_reports.
  - apply visrefmap_reports.
  - now apply unique_reports.
  - now apply targets_reports.
  - apply arrname_reports.
  - now apply elements_reports.
  - now apply corr_reports.
  - now apply flagging_reports.
  - now apply t3amp_reports.
  - now apply waveorder_reports.
  - now apply time_reports.
  - now apply flux_reports.
Qed.
Lemma flux_records o : wf_fits o = true -> tables_nonempty o -> fluxes_nonempty o.
Proof.
  intros W (_ & _ & _ & _ & _ & _ & _ & Ne) t Ht. pose proof (proj1 (Forall_forall _ _) Ne t Ht) as (Hn & _).
  assert (Wt : wf_flux t = true).
  { unfold wf_fits in W. repeat match type of W with (_ && _)%bool = true => apply andb_prop in W as (W & ?) end.
    match goal with H : forallb wf_flux _ = true |- _ => exact (proj1 (forallb_forall _ _) H t Ht) end. }
  unfold wf_flux, wf_dtab in Wt. apply andb_prop in Wt as (Wt & _). apply andb_prop in Wt as (Wt & _).
  unfold len_is in Wt. apply Z.eqb_eq in Wt. intros E0. rewrite E0 in Wt. cbn in Wt. lia.
Qed.
Definition check_run name d : res outcome := oifits_check E fmt [name] d.
Theorem check_output name d o : (String.length name <= 1024)%nat -> reads E name d o -> named_elsewhere o -> checkable o ->
  exists text, summary_of fmt o text /\ check_run name d = Ok (mk_outcome 0 (text ++ check_text o) d).
Proof.
  intros L R N K. destruct (read_found E _ _ _ R N) as (A & C).
  destruct (read_wf E _ _ _ _ _ R) as (W & Ne & _).
  destruct (summary_ok fmt o W) as (text & Ht & Hs). exists text. split; [exact Hs|].
  assert (Fx : fluxes_nonempty o) by exact (flux_records o W Ne).
  destruct (run_checks o _ _ (all_reports o W Fx A C K) (findings_levels o) 0 text) as (w & E1 & E2 & E3); [lia|].
  unfold check_run, oifits_check. rewrite (short_name _ L), (reading_reads E _ _ _ _ R), Ht, bind_Ok.
  unfold OI_BREACH_NONE. rewrite E1, bind_Ok. cbn [fst snd]. unfold check_text.
  destruct (forallb _ (findings o)).
  - rewrite (proj2 E3), Z.eqb_refl by tauto. rewrite !sapp_assoc. reflexivity.
  - rewrite (proj2 (Z.eqb_neq w 0)) by (intros ->; destruct (proj1 E3 eq_refl); discriminate).
    rewrite sapp_nil. reflexivity.
Qed.
Lemma each_app {A S} (l1 l2 : list A) (f : A -> S -> res S) s :
  foreach (l1 ++ l2) f s = (s' <- foreach l1 f s ;; foreach l2 f s').
Proof. revert s. induction l1 as [|a l1 IH]; intros s; [reflexivity|]. cbn [app foreach]. destruct (f a s); cbn; auto. Qed.
Theorem check_aborts name d o : (String.length name <= 1024)%nat -> reads E name d o -> named_elsewhere o ->
  (~ tables_present o /\ ~ revisions_ok o) \/ (~ inspol_named o /\ ~ elements_present o) -> check_run name d = Abort.
Proof.
  intros L R N K. destruct (read_found E _ _ _ R N) as (A & C).
  destruct (read_wf E _ _ _ _ _ R) as (W & Ne & _).
  destruct (summary_ok fmt o W) as (text & Ht & _).
  unfold check_run, oifits_check. rewrite (short_name _ L), (reading_reads E _ _ _ _ R), Ht, bind_Ok.
  assert (T : {tables_present o \/ revisions_ok o} + {~ tables_present o /\ ~ revisions_ok o}).
  { destruct (missing_tables o) eqn:E1; [left; left; now apply missing_nil|].
    destruct (revision_violations o) eqn:E2; [left; right; now apply revision_nil|].
    right. split; intros H; [apply missing_nil in H|apply revision_nil in H]; congruence. }
  unfold checks. destruct T as [T|(T1 & T2)].
  - destruct K as [K|(K1 & K2)]; [tauto|].
    match goal with |- context [foreach ?l] => rewrite <- (firstn_skipn 7 l) end. rewrite each_app.
    destruct (run_checks o [check_tables; check_header; check_keywords; check_visrefmap; check_unique_targets;
      check_targets_present; check_arrname] (firstn 7 (findings o))) with (w := 0) (text := text) as (w & E1 & _); [| |lia|].
    + repeat apply Forall2_cons; try apply Forall2_nil; [now apply tables_reports|apply header_reports|apply keywords_reports
        |apply visrefmap_reports|now apply unique_reports|now apply targets_reports|apply arrname_reports].
    + apply Forall_forall. intros vs Hv. apply (proj1 (Forall_forall _ _) (findings_levels o)).
      rewrite <- (firstn_skipn 7 (findings o)). apply in_or_app. now left.
    + cbn [firstn skipn]. unfold OI_BREACH_NONE. rewrite E1, bind_Ok. cbn [foreach].
      unfold run_check at 1. rewrite (elements_abort o W A K1 K2). reflexivity.
  - cbn [foreach]. unfold run_check at 1. rewrite (tables_abort o W T1 T2). reflexivity.
Qed.
Theorem check_unreadable name d : (String.length name <= 1024)%nat -> cannot_read E name d ->
  check_run name d = Ok (mk_outcome 1 "" d).
Proof. intros L C. unfold check_run, oifits_check. rewrite (short_name _ L). exact (reading_cannot E _ _ _ C). Qed.
Theorem check_usage args d : List.length args <> 1%nat ->
  exists m, oifits_check E fmt args d = Ok (mk_outcome 2 m d).
Proof. unfold oifits_check. destruct args as [|a [|b l]]; intros H; [| |]; try (eexists; reflexivity). now destruct H. Qed.

(** ** The filter of the command line *)

Lemma latest_last {A} (pick : filter_option -> option A) opts op :
  latest pick (opts ++ [op]) = match pick op with Some a => Some a | None => latest pick opts end.
Proof.
  induction opts as [|o opts IH]; cbn [app latest]; [now destruct (pick op)|].
  rewrite IH. now destruct (pick op).
Qed.
Lemma user_filter_ok opts : filter_of opts (user_filter opts).
Proof.
  split; try apply user_fresh; unfold user_filter;
    (induction opts as [|op opts IH] using rev_ind; [try reflexivity; vm_compute; reflexivity|]);
    rewrite fold_left_app, latest_last; cbn [fold_left];
    destruct op; solve [exact IH|reflexivity].
Qed.
Lemma user_filter_default : user_filter [] = init_oi_filter.
Proof. vm_compute. reflexivity. Qed.

End Checking.
