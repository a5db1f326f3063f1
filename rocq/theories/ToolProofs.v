(** The programs in src/util. *)
From Coq Require Import Lia.
From Verif Require Import BaseLemmas ReadModel ReadFile IOMain IOProofs WriteKeys ReadWf ToolModel ToolSpec
  FileProofs FloatLemmas FilterFinal FilterMain MergeFacts MergeWhole ToolFilter ToolMerge.
Open Scope list_scope.
Open Scope Z_scope.

(** ** Files *)

Lemma find_removed name other d :
  find_file other (remove_file name d) = if str_eqb other name then None else find_file other d.
Proof.
  induction d as [|(n, h) d IH]; cbn [remove_file filter find_file fst].
  - now destruct (str_eqb other name).
  - fold (remove_file name d). destruct (str_eqb n name) eqn:E1; cbn [negb].
    + rewrite IH. apply str_eqb_eq in E1 as ->. destruct (str_eqb other name) eqn:E2; [reflexivity|].
      destruct (str_eqb name other) eqn:E3; [|reflexivity]. apply str_eqb_eq in E3 as ->.
      now rewrite str_eqb_refl in E2.
    + cbn [find_file]. rewrite IH. destruct (str_eqb n other) eqn:E2; [|reflexivity].
      apply str_eqb_eq in E2 as ->. now rewrite E1.
Qed.
Lemma others_refl name d : others_kept name d d.
Proof. intros other _. reflexivity. Qed.
Lemma adds_refl name d : only_adds name d d.
Proof. split; [apply others_refl|auto]. Qed.
Lemma others_cons name h d : others_kept name d ((name, h) :: d).
Proof.
  intros other Ho. rewrite find_file_cons. destruct (str_eqb name other) eqn:E1; [|reflexivity].
  apply str_eqb_eq in E1. now subst.
Qed.
Lemma others_removed name d : others_kept name d (remove_file name d).
Proof.
  intros other Ho. rewrite find_removed. destruct (str_eqb other name) eqn:E1; [|reflexivity].
  apply str_eqb_eq in E1. contradiction.
Qed.
Lemma others_trans name d1 d2 d3 : others_kept name d1 d2 -> others_kept name d2 d3 -> others_kept name d1 d3.
Proof. intros H1 H2 other Ho. rewrite (H2 _ Ho). apply H1, Ho. Qed.

Section Programs.
Variable E : cfitsio.
Notation reads := (reads E).
Notation cannot_read := (cannot_read E).
Notation file_holds := (file_holds E).

Lemma write_inv name o d d' st : write_oi_fits E name o d 0 = Ok (d', st) ->
  (st <> 0 /\ d' = d /\ find_file name d <> None)
  \/ (find_file name d = None /\ exists h, d' = (name, h) :: d).
Proof.
  unfold write_oi_fits. cbn [Z.eqb negb]. destruct (find_file name d) eqn:F.
  - intros [= <- <-]. left. repeat split; discriminate.
  - intros H. apply bind_inv in H as (s & _ & H). injection H as <- _. right. split; [reflexivity|]. now eexists.
Qed.
Lemma write_adds name o d d' st : write_oi_fits E name o d 0 = Ok (d', st) -> only_adds name d d'.
Proof.
  intros H. apply write_inv in H as [(_ & -> & _)|(F & h & ->)]; [apply adds_refl|].
  split; [apply others_cons|]. rewrite F. discriminate.
Qed.
Lemma write_exists name o d h : find_file name d = Some h -> write_oi_fits E name o d 0 = Ok (d, FILE_NOT_CREATED).
Proof. intros H. unfold write_oi_fits. cbn [Z.eqb negb]. now rewrite H. Qed.

Lemma reading_reads name d o k : reads name d o -> reading E name d k = k o.
Proof. intros H. unfold reading. now rewrite H. Qed.
Lemma reading_cannot name d k : cannot_read name d -> reading E name d k = Ok (mk_outcome EXIT_FAILURE "" d).
Proof.
  intros (st & Hs & H). unfold reading. rewrite H, bind_Ok. cbn [snd]. now destruct (Z.eqb_spec st 0).
Qed.
Lemma reading_inv name d k x : reading E name d k = Ok x ->
  (cannot_read name d /\ x = mk_outcome EXIT_FAILURE "" d) \/ exists o, reads name d o /\ k o = Ok x.
Proof.
  unfold reading. intros H. apply bind_inv in H as ((o, st) & H1 & H2). cbn [fst snd] in H2.
  destruct (Z.eqb_spec st 0) as [->|Hs]; cbn [negb] in H2.
  - destruct o as [o|]; [|discriminate]. right. exists o. split; [exact H1|exact H2].
  - left. injection H2 as <-. split; [|reflexivity]. exists st. split; [exact Hs|].
    destruct o as [o|]; [|exact H1]. apply read_status in H1. contradiction.
Qed.

(** a dataset and the file it is read from *)
Lemma reads_wf name d o : reads name d o -> wf_fits o = true.
Proof. intros H. exact (proj1 (read_wf E _ _ _ _ _ H)). Qed.

(** ** writing *)
Lemma writing_inv name o d text x : writing E name o d text = Ok x ->
  only_adds name d (x_disk x)
  /\ (x_status x = 0 -> find_file name d = None
        /\ exists hdus, x_disk x = (name, hdus) :: d /\ version2 o hdus)
  /\ (find_file name d <> None -> x_status x = 1 /\ x_disk x = d)
  /\ (x_status x = 0 \/ x_status x = 1) /\ x_stdout x = text.
Proof.
  unfold writing. intros H. apply bind_inv in H as ((d', st) & H1 & H2). injection H2 as <-.
  cbn [x_status x_disk x_stdout fst snd]. split; [eapply write_adds; eassumption|].
  split; [|split; [|split; [|reflexivity]]].
  - destruct (Z.eqb_spec st 0) as [->|]; [|discriminate]. intros _.
    apply file_keys in H1 as (_ & F & hdus & -> & V). split; [exact F|]. now exists hdus.
  - intros F. destruct (find_file name d) as [h|] eqn:F'; [|contradiction].
    rewrite (write_exists _ _ _ _ F') in H1. injection H1 as <- <-. now split.
  - destruct (st =? 0); auto.
Qed.
Lemma writing_ok name o d text : storable_fits E o = true -> find_file name d = None ->
  exists x, writing E name o d text = Ok x /\ x_status x = 0 /\ x_stdout x = text
    /\ only_adds name d (x_disk x) /\ file_holds name (x_disk x) o.
Proof.
  intros Hs F. destruct (file_round_trip E o name d Hs F) as (d' & o' & H1 & H2 & H3 & H4).
  unfold writing. rewrite H1, bind_Ok. eexists. split; [reflexivity|]. cbn [x_status x_stdout x_disk fst snd].
  split; [reflexivity|]. split; [reflexivity|]. split.
  - split; [exact H2|]. rewrite F. discriminate.
  - exists o'. split; [exact H3|exact H4].
Qed.
End Programs.

(** ** Summaries *)

Lemma sapp_assoc (a b c : string) : (a ++ (b ++ c) = (a ++ b) ++ c)%string.
Proof. induction a as [|x a IH]; cbn; [reflexivity|now rewrite IH]. Qed.
Lemma sapp_nil (a : string) : (a ++ "" = a)%string.
Proof. induction a as [|x a IH]; cbn; [reflexivity|now rewrite IH]. Qed.
Lemma format_list_ok {A} (f : Z -> A -> res string) (P : A -> Prop) l :
  (forall n a, P a -> exists s, f n a = Ok s) -> Forall P l ->
  forall n, exists s, format_list f n l = Ok s.
Proof.
  intros H. induction 1 as [|a l Ha _ IH]; intros n; [now eexists|]. cbn [format_list].
  destruct (H n a Ha) as (s & ->). destruct (IH (n + 1)) as (r & Hr). rewrite bind_Ok, Hr, bind_Ok. now eexists.
Qed.
Lemma format_list_parts {A} (f : Z -> A -> res string) l : forall n s,
  format_list f n l = Ok s -> exists items, s = fold_right String.append ""%string items
    /\ List.length items = List.length l
    /\ forall i a p, nth_error l i = Some a -> nth_error items i = Some p -> f (n + Z.of_nat i) a = Ok p.
Proof.
  induction l as [|b l IH]; intros n s H; cbn [format_list] in H.
  - injection H as <-. exists []. split; [reflexivity|]. split; [reflexivity|]. intros [|i]; discriminate.
  - apply bind_inv in H as (p & Hp & H). apply bind_inv in H as (r & Hr & H). injection H as <-.
    destruct (IH _ _ Hr) as (items & -> & L & Q). exists (p :: items). split; [reflexivity|].
    split; [cbn; congruence|]. intros [|i] a q; cbn [nth_error].
    + intros [= ->] [= ->]. rewrite Z.add_0_r. exact Hp.
    + intros H1 H2. rewrite <- (Q i a q H1 H2). f_equal. lia.
Qed.
Lemma min_ok w : wf_wavelength w = true -> exists m, get_min_wavelength w = Ok m /\ least w m.
Proof.
  intros H. unfold wf_wavelength, len_is in H. apply andb_true_iff in H as (H & _). apply Z.eqb_eq in H.
  unfold get_min_wavelength.
  rewrite (for_foreach (fun x m => Ok (if flt x m then x else m)) (wv_eff_wave w)) by (symmetry; exact H).
  rewrite foreach_fold. eexists. split; [reflexivity|]. unfold least.
  assert (G : forall l seen m0, (In m0 seen \/ m0 = (to_f32 (f64_of_Z 100000000000))) -> Forall (fun x => SFltb x m0 = false) seen ->
    let m := fold_left (fun m x => if flt x m then x else m) l m0 in
    (In m (seen ++ l) \/ m = (to_f32 (f64_of_Z 100000000000))) /\ Forall (fun x => SFltb x m = false) (seen ++ l)).
  { induction l as [|x l IH]; intros seen m0 H1 H2; cbn [fold_left].
    - rewrite app_nil_r. auto.
    - replace (seen ++ x :: l) with ((seen ++ [x]) ++ l) by now rewrite <- List.app_assoc.
      apply IH.
      + destruct (flt x m0); [left; apply in_or_app; right; now left|].
        destruct H1; [left; apply in_or_app; now left|now right].
      + apply Forall_app. destruct (flt x m0) eqn:Ex.
        * split; [|constructor; [apply flt_irrefl|constructor]]. eapply Forall_impl; [|exact H2]. intros y Hy.
          cbv beta in *. destruct (SFltb y x) eqn:Ey; [|reflexivity].
          pose proof (flt_trans _ _ _ Ey Ex) as Hc. unfold flt in Hc. congruence.
        * split; [exact H2|]. constructor; [exact Ex|constructor]. }
  exact (G (wv_eff_wave w) [] (to_f32 (f64_of_Z 100000000000)) (or_intror eq_refl) (Forall_nil _)).
Qed.
Lemma max_ok w : wf_wavelength w = true -> exists m, get_max_wavelength w = Ok m /\ greatest w m.
Proof.
  intros H. unfold wf_wavelength, len_is in H. apply andb_true_iff in H as (H & _). apply Z.eqb_eq in H.
  unfold get_max_wavelength.
  rewrite (for_foreach (fun x m => Ok (if fgt x m then x else m)) (wv_eff_wave w)) by (symmetry; exact H).
  rewrite foreach_fold. eexists. split; [reflexivity|]. unfold greatest.
  assert (G : forall l seen m0, (In m0 seen \/ m0 = to_f32 f64_zero) -> Forall (fun x => SFltb m0 x = false) seen ->
    let m := fold_left (fun m x => if fgt x m then x else m) l m0 in
    (In m (seen ++ l) \/ m = to_f32 f64_zero) /\ Forall (fun x => SFltb m x = false) (seen ++ l)).
  { induction l as [|x l IH]; intros seen m0 H1 H2; cbn [fold_left].
    - rewrite app_nil_r. auto.
    - replace (seen ++ x :: l) with ((seen ++ [x]) ++ l) by now rewrite <- List.app_assoc.
      
      apply IH.
      + destruct (fgt x m0); [left; apply in_or_app; right; now left|].
        destruct H1; [left; apply in_or_app; now left|now right].
      + apply Forall_app. destruct (fgt x m0) eqn:Ex.
        * split; [|constructor; [apply flt_irrefl|constructor]]. eapply Forall_impl; [|exact H2]. intros y Hy.
          cbv beta in *. destruct (SFltb x y) eqn:Ey; [|reflexivity].
          pose proof (flt_trans _ _ _ Ex Ey) as Hc. unfold flt in Hc. congruence.
        * split; [exact H2|]. constructor; [exact Ex|constructor]. }
  exact (G (wv_eff_wave w) [] (to_f32 f64_zero) (or_intror eq_refl) (Forall_nil _)).
Qed.

Section Summary.
Variable fmt : string -> f64 -> string.
Lemma item_ld n text : item n text ("    #" ++ fmt_ld 2 n ++ text)%string.
Proof.
  exists (2 - String.length (string_of_Z n))%nat. unfold fmt_ld. cbv zeta. now rewrite <- (sapp_assoc (string_of_Z n)).
Qed.
Lemma listed_of {A} name (l : list A) (f : Z -> A -> res string) (describe : Z -> A -> string -> Prop) s n :
  Z.of_nat (List.length l) = n ->
  format_list f 1 l = Ok s ->
  (forall i a p, In a l -> f i a = Ok p -> describe i a p) ->
  listed name l describe ("  " ++ fmt_d n ++ " " ++ name ++ " tables:" ++ newline ++ s)%string.
Proof.
  intros <- Hs Hd. destruct (format_list_parts f l 1 s Hs) as (items & -> & L & Q). exists items.
  split; [reflexivity|]. split; [exact L|]. intros i a p H1 H2. rewrite Z.add_comm.
  apply Hd; [eapply nth_error_In; eassumption|exact (Q i a p H1 H2)].
Qed.
Lemma data_part {X R} i (t : dtab X R) p : format_dtab i t = Ok p -> data_item i t p.
Proof.
  intros [= <-]. unfold data_item. do 2 eexists. 
  unfold fmt_wd. cbv zeta. rewrite <- !(sapp_assoc (repeat_char _ _)). apply item_ld.
Qed.
Lemma summary_ok o : wf_fits o = true ->
  exists text, format_oi_fits_summary fmt o = Ok text /\ summary_of fmt o text.
Proof.
  intros W. unfold wf_fits, len_is in W.
  repeat match goal with H : (_ && _)%bool = true |- _ => apply andb_true_iff in H as (? & ?) end.
  repeat match goal with H : (_ =? _) = true |- _ => apply Z.eqb_eq in H end.
  match goal with H : forallb wf_wavelength _ = true |- _ => rename H into Hw end.
  rewrite forallb_forall in Hw.
  assert (T : forall A (f : Z -> A -> res string) l, (forall n a, In a l -> exists s, f n a = Ok s) ->
    exists s, format_list f 1 l = Ok s).
  { intros A f l Hf. eapply (format_list_ok f (fun a => In a l)); [exact Hf|]. now apply Forall_forall. }
  destruct (T _ format_array (o_arrayList o)) as (sa & Ha); [now eexists|].
  destruct (T _ (format_wavelength fmt) (o_wavelengthList o)) as (sw & Hsw).
  { intros n w Hin. destruct (min_ok w (Hw _ Hin)) as (lo & E1 & _). destruct (max_ok w (Hw _ Hin)) as (hi & E2 & _).
    unfold format_wavelength. rewrite E1, bind_Ok, E2, bind_Ok. now eexists. }
  destruct (T _ format_corr (o_corrList o)) as (sc & Hc); [now eexists|].
  destruct (T _ format_inspol (o_inspolList o)) as (si & Hi); [now eexists|].
  destruct (T _ format_dtab (o_visList o)) as (sv & Hv); [now eexists|].
  destruct (T _ format_dtab (o_vis2List o)) as (s2 & H2'); [now eexists|].
  destruct (T _ format_dtab (o_t3List o)) as (s3 & H3'); [now eexists|].
  destruct (T _ format_dtab (o_fluxList o)) as (sf & Hf); [now eexists|].
  unfold format_oi_fits_summary. cbv zeta.
  rewrite Ha, bind_Ok, Hsw, bind_Ok, Hc, bind_Ok, Hi, bind_Ok, Hv, bind_Ok, H2', bind_Ok, H3', bind_Ok, Hf, bind_Ok.
  eexists. split; [reflexivity|].
  set (part := fun n name s => ("  " ++ fmt_d n ++ " " ++ name ++ " tables:" ++ newline ++ s)%string).
  exists (part (o_numArray o) "OI_ARRAY"%string sa), (part (o_numWavelength o) "OI_WAVELENGTH"%string sw),
    (part (o_numCorr o) "OI_CORR"%string sc), (part (o_numInspol o) "OI_INSPOL"%string si),
    (part (o_numVis o) "OI_VIS"%string sv), (part (o_numVis2 o) "OI_VIS2"%string s2),
    (part (o_numT3 o) "OI_T3"%string s3), (part (o_numFlux o) "OI_FLUX"%string sf).
  split.
  { assert (P : forall n name s r,
      (("  " ++ fmt_d n ++ " " ++ name ++ " tables:" ++ newline) ++ s ++ r)%string = (part n name s ++ r)%string)
      by (intros; unfold part; rewrite <- !sapp_assoc; reflexivity).
    assert (P' : forall n name s,
      (("  " ++ fmt_d n ++ " " ++ name ++ " tables:" ++ newline) ++ s)%string = part n name s)
      by (intros; unfold part; rewrite <- !sapp_assoc; reflexivity).
    cbv beta. rewrite !P, P'. clearbody part. unfold is_oi_fits_two, str_eqb, keyword_line.
    destruct (String.eqb _ _); reflexivity. }
  assert (I : forall A B C D F G H I : Prop, A -> B -> C -> D -> F -> G -> H -> I -> A /\ B /\ C /\ D /\ F /\ G /\ H /\ I)
    by tauto.
  apply I; (eapply listed_of; [eassumption|eassumption|]); intros i a p Hin Hp;
    first [apply data_part; exact Hp|injection Hp as <-; apply item_ld|idtac].
  unfold format_wavelength in Hp.
  destruct (min_ok a (Hw _ Hin)) as (lo & E1 & L1). destruct (max_ok a (Hw _ Hin)) as (hi & E2 & L2).
  rewrite E1, bind_Ok, E2, bind_Ok in Hp. injection Hp as <-. exists lo, hi. split; [exact L1|]. split; [exact L2|].
  apply item_ld.
Qed.
End Summary.
