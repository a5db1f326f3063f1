(** Lemmas about the parts of oimerge.c: inversion of successful runs. *)
From Verif Require Import BaseLemmas FileModel FileSpec FileProofs MergeModel MergeSpec.
From Coq Require Import Lia.
Open Scope Z_scope.

Ltac inv_bind H :=
  let a := fresh "a" in let E := fresh "E" in
  apply bind_inv in H as (a & E & H).

(** What a successful merge consists of *)
Record merge_run (ins : list oi_fits) (out : oi_fits) := {
  mr_mjd : Z; mr_rev : Z; mr_ids : hash Z; mr_ha : list (hash string); mr_hi : list (hash string);
  mr_hc : list (hash string);
  mr_date : files_min_mjd ins = Ok mr_mjd;
  mr_header : o_header out =
    mk_header (merge_key ins h_origin true init_oi_fits) "[unset]"
       (strlcpy FLEN_VALUE (format_date (mjd2date mr_mjd))) "OIFITS2"
       (merge_key ins h_telescop true init_oi_fits) (merge_key ins h_instrume true init_oi_fits)
       (merge_key ins h_observer true init_oi_fits) (merge_key ins h_insmode true init_oi_fits)
       (merge_key ins h_object true init_oi_fits) (merge_key ins h_referenc false init_oi_fits)
       (merge_key ins h_author false init_oi_fits) (merge_key ins h_prog_id false init_oi_fits)
       (merge_key ins h_procsoft false init_oi_fits) (merge_key ins h_obstech false init_oi_fits);
  mr_targets : foreach ins merge_target_table (2, [], hash_new) = Ok (mr_rev, ot_targ (o_targets out), mr_ids);
  mr_target_tab : o_targets out
    = mk_oi_target mr_rev (Z.of_nat (List.length (ot_targ (o_targets out))))
        (ot_targ (o_targets out)) false;
  mr_arrays : merge_tables ar_arrname ar_set_arrname "array" match_oi_array copy_oi_array
      (map o_arrayList ins) (mk_tables [] hash_new 0)
    = Ok (mr_ha, mk_tables (o_arrayList out) (o_arrayHash out) (o_numArray out));
  mr_waves : merge_tables wv_insname wv_set_insname "ins" match_oi_wavelength copy_oi_wavelength
      (map o_wavelengthList ins) (mk_tables [] hash_new 0)
    = Ok (mr_hi, mk_tables (o_wavelengthList out) (o_wavelengthHash out) (o_numWavelength out));
  mr_corrs : merge_tables co_corrname co_set_corrname "ins" (fun _ _ => Ok None) dup_oi_corr
      (map o_corrList ins) (mk_tables [] hash_new 0)
    = Ok (mr_hc, mk_tables (o_corrList out) (o_corrHash out) (o_numCorr out));
  mr_inspol : merge_all_oi_inspol mr_ids ins mr_ha mr_hi ([], 0)
    = Ok (o_inspolList out, o_numInspol out);
  mr_vis : merge_all_oi_vis mr_ids ins mr_ha mr_hi mr_hc ([], 0) = Ok (o_visList out, o_numVis out);
  mr_vis2 : merge_all_oi_vis2 mr_ids ins mr_ha mr_hi mr_hc ([], 0)
    = Ok (o_vis2List out, o_numVis2 out);
  mr_t3 : merge_all_oi_t3 mr_ids ins mr_ha mr_hi mr_hc ([], 0) = Ok (o_t3List out, o_numT3 out);
  mr_flux : merge_all_oi_flux mr_ids ins mr_ha mr_hi mr_hc ([], 0)
    = Ok (o_fluxList out, o_numFlux out) }.

Lemma merge_inv ins out : merge_oi_fits_list ins = Ok out -> inhabited (merge_run ins out).
Proof.
  unfold merge_oi_fits_list. intros H.
  apply bind_inv in H as (o1 & E1 & H). unfold merge_oi_header in E1.
  apply bind_inv in E1 as ([] & _ & E1). apply bind_inv in E1 as (mjd & Emjd & E1).
  injection E1 as <-.
  apply bind_inv in H as (ro & E2 & H). unfold merge_oi_target in E2.
  apply bind_inv in E2 as ([[rev rows] h] & Etg & E2). injection E2 as <-. cbn beta iota in H.
  apply bind_inv in H as (ro & E3 & H). unfold merge_all_oi_array in E3.
  apply bind_inv in E3 as ([ha ta] & Ea & E3). injection E3 as <-. cbn beta iota in H.
  apply bind_inv in H as (ro & E4 & H). unfold merge_all_oi_wavelength in E4.
  apply bind_inv in E4 as ([hi tw] & Ew & E4). injection E4 as <-. cbn beta iota in H.
  apply bind_inv in H as (ro & E5 & H). unfold merge_all_oi_corr in E5.
  apply bind_inv in E5 as ([hc tc] & Ec & E5). injection E5 as <-. cbn beta iota in H.
  apply bind_inv in H as ([ip nip] & Eip & H). apply bind_inv in H as ([v nv] & Ev & H).
  apply bind_inv in H as ([v2 nv2] & Ev2 & H). apply bind_inv in H as ([t3 nt3] & Et3 & H).
  apply bind_inv in H as ([fx nfx] & Efx & H).
  injection H as <-. constructor. destruct ta, tw, tc.
  econstructor; cbn; try reflexivity; try eassumption.
Qed.

(** Conversely *)
Lemma merge_intro ins mjd rev rows ids ha ta hi tw hc tc ip v v2 t3 fl :
  files_min_mjd ins = Ok mjd ->
  foreach ins merge_target_table (2, [], hash_new) = Ok (rev, rows, ids) ->
  merge_tables ar_arrname ar_set_arrname "array" match_oi_array copy_oi_array
      (map o_arrayList ins) (mk_tables [] hash_new 0) = Ok (ha, ta) ->
  merge_tables wv_insname wv_set_insname "ins" match_oi_wavelength copy_oi_wavelength
      (map o_wavelengthList ins) (mk_tables [] hash_new 0) = Ok (hi, tw) ->
  merge_tables co_corrname co_set_corrname "ins" (fun _ _ => Ok None) dup_oi_corr
      (map o_corrList ins) (mk_tables [] hash_new 0) = Ok (hc, tc) ->
  merge_all_oi_inspol ids ins ha hi ([], 0) = Ok ip ->
  merge_all_oi_vis ids ins ha hi hc ([], 0) = Ok v ->
  merge_all_oi_vis2 ids ins ha hi hc ([], 0) = Ok v2 ->
  merge_all_oi_t3 ids ins ha hi hc ([], 0) = Ok t3 ->
  merge_all_oi_flux ids ins ha hi hc ([], 0) = Ok fl ->
  exists out, merge_oi_fits_list ins = Ok out
    /\ o_arrayList out = tl_list ta /\ o_wavelengthList out = tl_list tw
    /\ o_targets out = mk_oi_target rev (Z.of_nat (List.length rows)) rows false.
Proof.
  intros H1 H2 H3 H4 H5 H6 H7 H8 H9 H10.
  unfold merge_oi_fits_list, merge_oi_header, merge_oi_target, merge_all_oi_array,
    merge_all_oi_wavelength, merge_all_oi_corr.
  cbn [assert_ strlen h_origin o_header init_oi_fits empty_header String.length Z.of_nat Z.eqb bind].
  rewrite H1. cbn [bind]. rewrite H2. cbn [bind].
  cbn [o_arrayList o_arrayHash o_numArray set_targets set_header init_oi_fits].
  rewrite H3. cbn [bind o_wavelengthList o_wavelengthHash o_numWavelength set_arrays set_targets
    set_header init_oi_fits].
  rewrite H4. cbn [bind o_corrList o_corrHash o_numCorr set_wavelengths set_arrays set_targets
    set_header init_oi_fits].
  rewrite H5. cbn [bind o_inspolList o_numInspol o_visList o_numVis o_vis2List o_numVis2
    o_t3List o_numT3 o_fluxList o_numFlux set_corrs set_wavelengths set_arrays set_targets
    set_header init_oi_fits].
  rewrite H6. cbn [bind]. rewrite H7. cbn [bind]. rewrite H8. cbn [bind]. rewrite H9. cbn [bind].
  rewrite H10. cbn [bind]. eexists. split; [reflexivity|]. repeat split.
Qed.

(** ** Loops *)

(** Invariant of a successful loop over a list *)
Lemma foreach_invariant {A S} (P : list A -> S -> Prop) (body : A -> S -> res S) l s0 s :
  P [] s0 ->
  (forall pre a s s', P pre s -> In a l -> body a s = Ok s' -> P (pre ++ [a]) s') ->
  foreach l body s0 = Ok s -> P l s.
Proof.
  intros H0 Hs. assert (G : forall post pre s1, (forall a, In a post -> In a l) ->
    P pre s1 -> foreach post body s1 = Ok s -> P (pre ++ post) s).
  { induction post as [|a post IH]; intros pre s1 Hin Hp H.
    - injection H as <-. now rewrite app_nil_r.
    - cbn in H. inv_bind H. replace (pre ++ a :: post) with ((pre ++ [a]) ++ post)
        by now rewrite <- app_assoc.
      eapply IH; [|eapply Hs; eauto with datatypes|exact H].
      intros; apply Hin; now right. }
  intros H. apply (G l [] s0); auto.
Qed.

(** Progress of a loop over a list *)
Lemma foreach_progress {A S} (P : list A -> S -> Prop) (body : A -> S -> res S) l s0 :
  P [] s0 ->
  (forall pre a post s, l = pre ++ a :: post -> P pre s ->
     exists s', body a s = Ok s' /\ P (pre ++ [a]) s') ->
  exists s, foreach l body s0 = Ok s /\ P l s.
Proof.
  intros H0 Hs. assert (G : forall post pre s1, l = pre ++ post -> P pre s1 ->
    exists s, foreach post body s1 = Ok s /\ P l s).
  { induction post as [|a post IH]; intros pre s1 E Hp.
    - exists s1. rewrite app_nil_r in E. subst. auto.
    - destruct (Hs _ _ _ _ E Hp) as (s' & Hb & Hp'). cbn. rewrite Hb. cbn [bind].
      apply (IH (pre ++ [a])); [now rewrite <- app_assoc|exact Hp']. }
  apply (G l []); auto.
Qed.

Lemma foreach_app {A S} (body : A -> S -> res S) l1 l2 s :
  foreach (l1 ++ l2) body s = (s' <- foreach l1 body s ;; foreach l2 body s').
Proof.
  revert s. induction l1 as [|a l1 IH]; intros s; [reflexivity|]. cbn.
  destruct (body a s); cbn; auto.
Qed.

Lemma memdup_inv {A} n (l l' : list A) : memdup n l = Ok l' ->
  0 < n /\ n <= Z.of_nat (length l) /\ l' = firstn (Z.to_nat n) l.
Proof.
  unfold memdup, chkmalloc. destruct (Z.ltb_spec 0 n); [|discriminate]. cbn [bind].
  destruct (Z.ltb_spec (Z.of_nat (length l)) n); [discriminate|]. intros [= <-]. auto.
Qed.

Lemma get_lt {A} (l : list A) n : n = Z.of_nat (length l) -> 0 < n -> exists a l', l = a :: l'.
Proof. destruct l; cbn; intros; [lia|eauto]. Qed.

(** A loop reading records succeeds only if every record is accepted. *)
Lemma map_records_inv {R} n (l : list R) f out : len_is n l = true ->
  map_records n l f = Ok out -> Forall2 (fun r r' => f r = Ok r') l out.
Proof.
  intros Hl. unfold map_records. rewrite for_foreach with (body := fun r out =>
    r' <- f r ;; Ok (out ++ [r'])) by (now apply len_is_eq).
  apply (foreach_invariant (fun pre out => Forall2 (fun r r' => f r = Ok r') pre out)).
  - constructor.
  - intros pre a s s' Hp _ Hb. inv_bind Hb. injection Hb as <-.
    apply Forall2_app; auto.
Qed.

Lemma update_records_inv_gen {R} (f : R -> res R) (l pre : list R) out :
  for_from (length l) (Z.of_nat (length pre))
    (fun i l => r <- get l i ;; r' <- f r ;; put l i r') (pre ++ l) = Ok out ->
  exists l', out = pre ++ l' /\ Forall2 (fun r r' => f r = Ok r') l l'.
Proof.
  revert pre. induction l as [|r l IH]; intros pre H.
  - injection H as <-. exists []. auto.
  - cbn [length for_from] in H. rewrite get_middle in H. cbn [bind] in H.
    inv_bind H. inv_bind E. rewrite put_middle in E. injection E as <-.
    replace (Z.of_nat (length pre) + 1) with (Z.of_nat (length (pre ++ [a0]))) in H
      by (rewrite app_length; cbn; lia).
    replace (pre ++ a0 :: l) with ((pre ++ [a0]) ++ l) in H by now rewrite <- app_assoc.
    apply IH in H as (l' & -> & H). exists (a0 :: l'). rewrite <- app_assoc. auto.
Qed.
Lemma update_records_inv {R} n (f : R -> res R) (l out : list R) : len_is n l = true ->
  update_records n f l = Ok out -> Forall2 (fun r r' => f r = Ok r') l out.
Proof.
  intros Hl. apply len_is_eq in Hl. unfold update_records, for_. subst n. rewrite Nat2Z.id.
  intros H. destruct (update_records_inv_gen f l [] out H) as (l' & -> & F). exact F.
Qed.
Lemma update_records_progress {R} n (f : R -> res R) (l : list R) : len_is n l = true ->
  (forall r, In r l -> exists r', f r = Ok r') -> exists out, update_records n f l = Ok out.
Proof.
  intros Hl Hf. apply len_is_eq in Hl. unfold update_records, for_. subst n. rewrite Nat2Z.id.
  assert (G : forall l pre, (forall r, In r l -> exists r', f r = Ok r') ->
    exists out, for_from (length l) (Z.of_nat (length pre))
      (fun i l => r <- get l i ;; r' <- f r ;; put l i r') (pre ++ l) = Ok out).
  { clear l Hf. induction l as [|r l IH]; intros pre Hf; [cbn; eauto|].
    cbn [length for_from]. rewrite get_middle. cbn [bind].
    destruct (Hf r) as (r' & ->); [now left|]. cbn [bind]. rewrite put_middle. cbn [bind].
    replace (Z.of_nat (length pre) + 1) with (Z.of_nat (length (pre ++ [r'])))
      by (rewrite app_length; cbn; lia).
    replace (pre ++ r' :: l) with ((pre ++ [r']) ++ l) by now rewrite <- app_assoc.
    apply IH. intros; apply Hf; now right. }
  apply (G l []). exact Hf.
Qed.
