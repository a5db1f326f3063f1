(** oifits-merge run in steps. *)
From Coq Require Import Lia.
From Verif Require Import BaseLemmas FileModel FileSpec FileProofs MergeModel MergeSpec
  MergeProofs MergeHeader MergeWhole MergeFacts MergeStepsSpec MergeStepsWhole MergeStepsHeader FitsModel ReadModel WriteModel IOSpec IOClaims
  IOProofs ReadWf RoundTrip WriteProofs WriteVis ByName TwiceSpec TwiceProofs ToolModel ToolSpec ToolFilter ToolMerge ToolProofs ToolPrograms
  StepsSpec StepsStored StepsWhole RoundTrip WriteProofs.
Open Scope list_scope.
Open Scope Z_scope.

Lemma numbered_prefix {A} (g : A -> Z -> hdu) (f : A -> A) (ok : A -> bool) l m :
  (forall a v, ok a = true -> g (f a) v = g a v) -> forallb ok l = true ->
  forall k, numbered g k (map f l ++ m) = numbered g k (l ++ m).
Proof.
  intros H. induction l as [|a l IH]; intros Ho k; [reflexivity|]. cbn [forallb] in Ho. apply andb_true_iff in Ho as [Ha Ho].
  cbn [map app numbered]. now rewrite H, IH.
Qed.
Lemma forallb_prefix {A} (p : A -> bool) (f : A -> A) l m : (forall a, p a = true -> p (f a) = true) ->
  forallb p (l ++ m) = true -> forallb p (map f l ++ m) = true.
Proof.
  intros H. rewrite !forallb_app, !andb_true_iff. intros [H1 H2]. split; [|exact H2]. eapply forallb_imp; eassumption.
Qed.
Lemma forallb_of_map {A B} (p : B -> bool) (q : A -> bool) (s : A -> B) l : (forall a, p (s a) = q a) ->
  forallb p (map s l) = forallb q l.
Proof. intros H. induction l as [|a l IH]; [reflexivity|]. cbn [map forallb]. now rewrite H, IH. Qed.
Lemma map_same {A} (f : A -> A) l : Forall (fun a => f a = a) l -> map f l = l.
Proof. induction 1 as [|a l H _ IH]; [reflexivity|]. cbn [map]. now rewrite H, IH. Qed.

Section Files.
Variables (E : cfitsio) (fmt : string -> f64 -> string).
Hypothesis HE : settled E.

(** One run *)
Lemma merge_written out names d ins o : (2 <= List.length names)%nat -> Forall2 (fun n o => reads E n d o) names ins ->
  merge_oi_fits_list ins = Ok o -> wf_fits o = true -> storable_fits E o = true -> find_file out d = None ->
  exists x, oifits_merge E fmt (out :: names) d = Ok x /\ x_status x = 0
    /\ find_file out (x_disk x) = Some (file_hdus E o) /\ others_kept out d (x_disk x)
    /\ exists o1, reads E out (x_disk x) o1 /\ tables_of E o1 o.
Proof.
  intros L R Ho Wo So F. destruct (summary_ok fmt o Wo) as (text & Ht & Hs).
  destruct (file_round_trip E o out d So F) as (d' & o1 & K1 & K2 & K3 & K4).
  pose proof (written_hdus E o out d d' So F K1) as HH.
  unfold oifits_merge. destruct names as [|n1 [|n2 names]]; [cbn in L; lia|cbn in L; lia|].
  rewrite (read_files_ok E _ _ _ R), bind_Ok, Ho, bind_Ok, Ht, bind_Ok. unfold writing. rewrite K1, bind_Ok.
  eexists. split; [reflexivity|]. cbn [x_status x_disk fst snd]. split; [reflexivity|]. split; [exact HH|]. split; [exact K2|].
  exists o1. split; [exact K3|exact K4].
Qed.
Lemma reads_kept b d d' names ins : find_file b d = None -> others_kept b d d' ->
  Forall2 (fun n o => reads E n d o) names ins -> Forall2 (fun n o => reads E n d' o) names ins.
Proof.
  intros F K. induction 1 as [|n o names ins R _ IH]; constructor; [|exact IH].
  unfold reads, read_oi_fits in *. cbn [Z.eqb negb] in *. assert (N : n <> b).
  { intros ->. rewrite F in R. discriminate. }
  now rewrite (K n N).
Qed.
Lemma storable_fit d : storable_fits E d = true -> names_fit d.
Proof.
  intros S. destruct (storable_parts_of E d S) as (_ & _ & S1 & S2 & S3 & _). rewrite forallb_forall in S1, S2, S3.
  split; [|split]; apply Forall_forall; intros x Hx; apply card_fits.
  - specialize (S1 x Hx). unfold storable_array in S1. ands. assumption.
  - specialize (S2 x Hx). unfold storable_wavelength in S2. ands. assumption.
  - specialize (S3 x Hx). unfold storable_corr in S3. ands. assumption.
Qed.
Lemma storable_header_fits d : storable_fits E d = true -> header_fits d.
Proof.
  intros S. destruct (storable_parts_of E d S) as (S1 & _). unfold storable_header in S1. rewrite forallb_forall in S1.
  unfold header_fits. apply Forall_forall. intros s Hs. apply card_fits, S1. cbn in *. tauto.
Qed.
Lemma roomy_first ia ib : roomy_names (ia ++ ib) -> roomy_names ia.
Proof.
  intros (R1 & R2 & R3 & R4 & R5 & R6). rewrite !flat_map_app, !app_length in *.
  split; [|split; [|split; [|split; [|split]]]]; try lia; intros d x Hd; [apply R1|apply R2|apply R3]; apply in_or_app; now left.
Qed.

Section Steps.
Variables (ia ib : list oi_fits) (d1 d1' out : oi_fits).
Hypothesis M : mergeable (ia ++ ib).
Hypothesis St : Forall (fun o => storable_fits E o = true) (ia ++ ib).
Hypothesis Pn : plain_names ia.
Hypothesis Sd : some_dated ia.
Hypothesis Rv : Forall standard_revisions ia.
Hypothesis Ex : Forall (exact_arrays E) ia.
Hypothesis Ip : Forall (fun o => o_inspolList o = []) ia.
Hypothesis Ke : keys_early ia ib.
Hypothesis H1 : merge_oi_fits_list ia = Ok d1.
Hypothesis H3 : merge_oi_fits_list (ia ++ ib) = Ok out.
Hypothesis S1 : storable_fits E d1 = true.
Hypothesis S3 : storable_fits E out = true.
Hypothesis T : tables_of E d1' d1.
Hypothesis W1' : wf_fits d1' = true.
Hypothesis N1' : tables_nonempty d1'.

Lemma steps_same : exists out', merge_oi_fits_list (d1' :: ib) = Ok out' /\ wf_fits out' = true
  /\ storable_fits E out' = true /\ file_hdus E out' = file_hdus E out.
Proof using All.
  assert (W : Forall (fun d => wf_fits d = true) (ia ++ ib)) by (destruct M as [F _]; eapply Forall_impl; [|exact F]; cbv beta; tauto).
  assert (Wa : Forall (fun d => wf_fits d = true) ia) by (apply Forall_app in W; tauto).
  assert (D : Forall dated ia).
  { destruct M as [F _]. apply Forall_app in F as [F _]. eapply Forall_impl; [|exact F]. cbv beta. tauto. }
  assert (Fit : Forall names_fit ia) by (apply Forall_app in St as [F _]; eapply Forall_impl; [|exact F]; exact storable_fit).
  assert (Hf : Forall header_fits (ia ++ ib)) by (eapply Forall_impl; [|exact St]; exact storable_header_fits).
  pose proof (merged_distinct ia d1 Wa H1 Fit Pn) as Dn.
  destruct (merged_version2 ia d1 Wa H1 Rv) as (V2 & _).
  destruct (MergeProofs.merge_inv _ _ H3) as [R3].
  pose proof (date_in_steps ia ib d1 _ D Sd H1 (mr_date _ _ R3)) as Ed.
  pose proof (steps_but_header ia ib d1 out W Fit Dn H1 H3 _ Ed) as H2.
  assert (Eh : header_from (d1 :: ib) (mr_mjd _ _ R3) = o_header out).
  { destruct (header_in_steps ia ib d1 _ out Hf H1 H3 H2) as (O & Q & E1 & E2). cbn [set_header_of o_header] in *.
    apply header_ext. intros key Hk. apply in_app_iff in Hk as [Hk|Hk]; [apply Q; auto|].
    apply in_app_iff in Hk as [Hk|Hk]; [auto|]. destruct Hk as [<-|[<-|[<-|[]]]]; [exact E1| |exact E2].
    rewrite (mr_header _ _ R3). reflexivity. }
  assert (Fa : map (stored_array E) (o_arrayList d1) = o_arrayList d1).
  { apply map_same. pose proof (arrays_from_inputs ia d1 Wa H1) as K. rewrite Forall_forall in K, Ex. apply Forall_forall.
    intros a' Ha'. destruct (K a' Ha') as (d & a & Hd & Ha & Ea). destruct (Ex d Hd a Ha) as (X1 & X2 & X3).
    destruct V2 as (_ & V2 & _). rewrite Forall_forall in V2. specialize (V2 a' Ha').
    pose proof (f_equal ar_arrayx Ea) as Y1. pose proof (f_equal ar_arrayy Ea) as Y2. pose proof (f_equal ar_arrayz Ea) as Y3.
    cbn in Y1, Y2, Y3. unfold stored_array, kept_double. rewrite Y1, Y2, Y3, X1, X2, X3, <- Y1, <- Y2, <- Y3, <- V2. now destruct a'. }
  assert (Fw : map stored_wavelength (o_wavelengthList d1) = o_wavelengthList d1).
  { apply map_same. destruct V2 as (_ & _ & V2 & _). eapply Forall_impl; [|exact V2]. cbv beta. intros w Hw.
    unfold stored_wavelength. rewrite <- Hw. now destruct w. }
  assert (Fc : map stored_corr (o_corrList d1) = o_corrList d1).
  { apply map_same. destruct V2 as (_ & _ & _ & V2 & _). eapply Forall_impl; [|exact V2]. cbv beta. intros w Hw.
    unfold stored_corr. rewrite <- Hw. now destruct w. }
  assert (Fi : o_inspolList d1 = []).
  { pose proof (kept_inspol ia d1 Wa H1) as K. assert (Z0 : from_inputs o_inspolList ia = []).
    { clear -Ip. unfold from_inputs. revert Ip. induction ia as [|d l IH]; intros Ip; [reflexivity|]. inversion_clear Ip as [|? ? Hd Hl].
      cbn [flat_map]. rewrite Hd. exact (IH Hl). }
    rewrite Z0 in K. inversion K. reflexivity. }
  destruct (steps_through_file E ia ib d1 d1' out W Fit Dn H1 H3 T W1' N1' Fa Fw Fc Fi V2 _ Ed)
    as (out' & rows & rev & v & v2 & t3 & fl & H2' & G1 & G2 & G3 & G4 & G5 & G6 & G7 & G8 & (G9 & G9') & (G10 & G10') & (G11 & G11') & G12 & G12').
  rewrite Eh in G1. exists out'. split; [exact H2'|]. split.
  { apply (merged_wf (d1' :: ib)); [|exact H2']. constructor; [exact W1'|]. apply Forall_app in W; tauto. }
  assert (Ln : List.length rows = List.length (ot_targ (o_targets out))).
  { rewrite <- (map_length (stored_target1 E false) rows), G3. apply map_length. }
  destruct (storable_parts_of E out S3) as (P1 & P2 & P3 & P4 & P5 & P6 & P7 & P8 & P9 & P10).
  destruct (storable_parts_of E d1 S1) as (_ & _ & _ & _ & _ & _ & Q7 & Q8 & Q9 & Q10).
  split.
  - unfold storable_fits. rewrite G1, G5, G6, G7, G8, G9', G10', G11', G12'.
    rewrite G9 in P7. rewrite G10 in P8. rewrite G11 in P9. rewrite G12 in P10. bands; auto.
    + rewrite G2. rewrite G4 in P2. unfold storable_target, wf_targets, len_is in *. cbn [ot_ntarget ot_targ ot_usecategory] in *.
      rewrite Ln in *. ands. bands; auto.
      rewrite <- (forallb_of_map (storable_target1 false) (storable_target1 false) (stored_target1 E false)) by reflexivity.
      rewrite G3. rewrite (forallb_of_map (storable_target1 false) (storable_target1 false) (stored_target1 E false)) by reflexivity. assumption.
    + apply forallb_prefix; [apply TwiceProofs.vis_again|exact P7].
    + apply forallb_prefix; [apply TwiceProofs.vis2_again|exact P8].
    + apply forallb_prefix; [apply TwiceProofs.t3_again|exact P9].
    + apply forallb_prefix; [apply (TwiceProofs.flux_again E HE)|exact P10].
  - unfold file_hdus. rewrite G1, G5, G6, G7, G8, G9', G10', G11', G12', G9, G10, G11, G12.
    rewrite (numbered_prefix (A:=oi_vis) _ _ storable_vis) by (assumption || intros; apply vis_same).
    rewrite (numbered_prefix (A:=oi_vis2) _ _ storable_vis2) by (assumption || intros; apply vis2_same).
    rewrite (numbered_prefix (A:=oi_t3) _ _ storable_t3) by (assumption || intros; apply t3_same).
    rewrite (numbered_prefix (A:=oi_flux) _ _ (storable_flux E)) by (assumption || apply (flux_same E HE)).
    f_equal. f_equal. rewrite <- (target_same E (o_targets out')), <- (target_same E (o_targets out)). f_equal.
    rewrite G2, G4. unfold stored_target. cbn [ot_ntarget ot_targ ot_usecategory]. now rewrite G3, Ln.
Qed.
End Steps.

Theorem merge_steps na nb ia ib b c e d :
  (2 <= List.length na)%nat -> (1 <= List.length nb)%nat ->
  Forall2 (fun n o => reads E n d o) na ia -> Forall2 (fun n o => reads E n d o) nb ib ->
  targets_match (ia ++ ib) -> Forall (fun o => storable_fits E o = true) (ia ++ ib) -> roomy_names (ia ++ ib) ->
  plain_names ia -> some_dated ia -> Forall standard_revisions ia -> Forall (exact_arrays E) ia ->
  Forall (fun o => o_inspolList o = []) ia -> keys_early ia ib ->
  find_file b d = None -> find_file c d = None -> find_file e d = None -> c <> b ->
  exists x1 x2 x3 hdus,
    oifits_merge E fmt (b :: na) d = Ok x1 /\ x_status x1 = 0
    /\ oifits_merge E fmt (c :: b :: nb) (x_disk x1) = Ok x2 /\ x_status x2 = 0
    /\ oifits_merge E fmt (e :: na ++ nb) d = Ok x3 /\ x_status x3 = 0
    /\ find_file c (x_disk x2) = Some hdus /\ find_file e (x_disk x3) = Some hdus.
Proof.
  intros La Lb Ra Rb Tm St Rm Pn Sd Rv Ex Ip Ke Fb Fc Fe Ncb.
  pose proof (Forall2_app Ra Rb) as R. pose proof (read_mergeable E _ _ _ R Tm) as M.
  pose proof (mergeable_first ia ib M) as Ma.
  destruct (merge_defined _ M) as (out & H3). destruct (merge_defined _ Ma) as (d1 & H1).
  assert (W : Forall (fun d => wf_fits d = true) (ia ++ ib)) by (destruct M as [F _]; eapply Forall_impl; [|exact F]; cbv beta; tauto).
  assert (Wa : Forall (fun d => wf_fits d = true) ia) by (apply Forall_app in W; tauto).
  assert (Sa : Forall (fun o => storable_fits E o = true) ia) by (apply Forall_app in St; tauto).
  assert (Na : ia <> []) by (intros ->; inversion Ra; subst; cbn in La; lia).
  assert (Nab : ia ++ ib <> []) by (intros Z0; apply app_eq_nil in Z0; tauto).
  pose proof (merged_storable E ia d1 Na Sa Ma (roomy_first ia ib Rm) H1) as S1.
  pose proof (merged_storable E (ia ++ ib) out Nab St M Rm H3) as S3.
  destruct (merge_written b na d ia d1 La Ra H1 (merged_wf ia d1 Wa H1) S1 Fb) as (x1 & X1 & X1s & _ & X1k & d1' & R1 & T).
  destruct (read_wf E _ _ _ _ _ R1) as (W1' & N1' & _).
  destruct (steps_same ia ib d1 d1' out M St Pn Sd Rv Ex Ip Ke H1 H3 S1 S3 T W1' N1') as (out' & H2 & Wo' & S2 & Hd).
  assert (R2 : Forall2 (fun n o => reads E n (x_disk x1) o) (b :: nb) (d1' :: ib)).
  { constructor; [exact R1|]. exact (reads_kept b d _ nb ib Fb X1k Rb). }
  assert (Fc1 : find_file c (x_disk x1) = None) by (rewrite (X1k c Ncb); exact Fc).
  destruct (merge_written c (b :: nb) (x_disk x1) (d1' :: ib) out') as (x2 & X2 & X2s & X2h & _); auto.
  { cbn [List.length]. lia. }
  destruct (merge_written e (na ++ nb) d (ia ++ ib) out) as (x3 & X3 & X3s & X3h & _); auto.
  { rewrite app_length. lia. }
  { exact (merged_wf _ _ W H3). }
  exists x1, x2, x3, (file_hdus E out). rewrite Hd in X2h. auto 10.
Qed.

(** Files that the library wrote have exact array coordinates. *)
Lemma holds_exact name d o : storable_fits E o = true -> file_holds E name d o -> exists o', reads E name d o' /\ exact_arrays E o'.
Proof.
  intros S (o' & R & T). exists o'. split; [exact R|]. destruct T as (_ & _ & T3 & _). intros a Ha. rewrite T3 in Ha.
  apply in_map_iff in Ha as (a0 & <- & Ha0). destruct (storable_parts_of E o S) as (_ & _ & S1 & _). rewrite forallb_forall in S1.
  specialize (S1 a0 Ha0). unfold storable_array in S1. ands. cbn [stored_array ar_arrayx ar_arrayy ar_arrayz].
  assert (K : forall x, key_double E x = true -> cf_key_double E (kept_double E x) = Some (kept_double E x)).
  { intros x. unfold key_double, kept_double. destruct (cf_key_double E x) as [y|] eqn:Hy; [|discriminate]. intros _. now apply (HE x). }
  auto.
Qed.
End Files.
