(** One renaming for all tables of an input. *)
From Verif Require Import BaseLemmas FileModel FileSpec FileProofs MergeModel MergeSpec
  MergeProofs MergeNames MergeNamed MergeTables MergeTargets MergeHeader MergeData MergeWhole ConformSpec.
From Coq Require Import Lia.
Open Scope list_scope.
Open Scope Z_scope.

Definition renaming_of (h : hash string * (hash string * hash string)) : renaming :=
  mk_renaming (replace_optional (fst h)) (replace_name (fst (snd h))) (replace_optional (snd (snd h))).
Definition renamings (ha hi hc : list (hash string)) : list renaming :=
  map renaming_of (combine ha (combine hi hc)).

Lemma with_inputs_cons {T} (tabs : oi_fits -> list T) d ins f fs :
  with_inputs tabs (d :: ins) (f :: fs) = map (pair f) (tabs d) ++ with_inputs tabs ins fs.
Proof. reflexivity. Qed.
Lemma labelled {T} (tabs : oi_fits -> list T) (f : oi_fits -> hash string -> hash string -> hash string -> T -> res T)
    (S : hash string -> hash string -> Prop) (Q : renaming -> T -> T -> Prop) ins :
  (forall d a i c z t t', In d ins -> In t (tabs d) -> S c z -> f d a i c t = Ok t' -> Q (renaming_of (a, (i, z))) t t') ->
  forall ha hi hc hz l0 n0 s, Forall2 S hc hz ->
  for_inputs ins ha hi hc (fun d a i c s => foreach (tabs d) (step f d a i c) s) (l0, n0) = Ok s ->
  exists l', fst s = l0 ++ l' /\ Forall2 (fun ft t' => Q (fst ft) (snd ft) t') (with_inputs tabs ins (renamings ha hi hz)) l'.
Proof.
  intros HQ. induction ins as [|d ins IH]; intros ha hi hc hz l0 n0 s HS H.
  - cbn in H. injection H as <-. exists []. rewrite app_nil_r. split; [reflexivity|]. constructor.
  - cbn [for_inputs] in H. destruct ha as [|a ha]; [discriminate|]. destruct hi as [|i hi]; [discriminate|].
    destruct HS as [|c z hc hz Sc HS]; [discriminate|]. apply bind_inv in H as ((l1 & n1) & E & H).
    assert (A : exists k, l1 = l0 ++ k /\ Forall2 (fun ft t' => Q (fst ft) (snd ft) t') (map (pair (renaming_of (a, (i, z)))) (tabs d)) k).
    { change l1 with (fst (l1, n1)).
      apply (foreach_invariant (fun pre s => exists k, fst s = l0 ++ k
        /\ Forall2 (fun ft t' => Q (fst ft) (snd ft) t') (map (pair (renaming_of (a, (i, z)))) pre) k)) in E.
      - exact E.
      - exists []. rewrite app_nil_r. split; [reflexivity|constructor].
      - intros pre t s1 s2 (k & Ek & F) Hin Hb. unfold step in Hb. apply bind_inv in Hb as (t' & Et & Hb). injection Hb as <-.
        exists (k ++ [t']). cbn [fst]. rewrite Ek, app_assoc. split; [reflexivity|]. rewrite map_app. apply Forall2_app; [exact F|].
        constructor; [|constructor]. cbn [fst snd]. eapply HQ; [now left|exact Hin|exact Sc|exact Et]. }
    destruct A as (k & -> & Fk).
    destruct (IH (fun d0 a0 i0 c0 z0 t t' Hd => HQ d0 a0 i0 c0 z0 t t' (or_intror Hd)) ha hi hc hz _ _ s HS H) as (k2 & E2 & F2).
    exists (k ++ k2). rewrite E2, app_assoc. split; [reflexivity|].
    change (renamings (a :: ha) (i :: hi) (z :: hz)) with (renaming_of (a, (i, z)) :: renamings ha hi hz).
    rewrite with_inputs_cons. apply Forall2_app; assumption.
Qed.
Lemma Forall2_same {A} (l : list A) : Forall2 eq l l.
Proof. induction l; constructor; auto. Qed.
Lemma Forall2_any {A B} (l : list A) (m : list B) : List.length l = List.length m -> Forall2 (fun _ _ => True) l m.
Proof. revert m. induction l as [|a l IH]; intros [|b m] L; try discriminate; constructor; auto. Qed.

Section Merge.
Variables (ins : list oi_fits) (out : oi_fits).
Hypothesis W : Forall (fun d => wf_fits d = true) ins.
Hypothesis H : merge_oi_fits_list ins = Ok out.
Lemma merge_renamed : exists fs, List.length fs = List.length ins /\ Forall keeps_blank fs
  /\ Forall2 renamed (with_inputs o_visList ins fs) (o_visList out)
  /\ Forall2 renamed (with_inputs o_vis2List ins fs) (o_vis2List out)
  /\ Forall2 renamed (with_inputs o_t3List ins fs) (o_t3List out)
  /\ Forall2 renamed (with_inputs o_fluxList ins fs) (o_fluxList out)
  /\ Forall2 inspol_renamed (with_inputs o_inspolList ins fs) (o_inspolList out).
Proof.
  pose proof (wf_parts_intro ins W) as P. apply merge_inv in H as [R].
  destruct (merge_tables_inv ar_arrname ar_set_arrname "array" match_oi_array copy_oi_array
    array_good same_stations (fun _ _ => eq_refl) array_good_rename same_stations_rename
    array_matching_sound array_copy_sound _ _ _ (wp_arrays _ P) (mr_arrays _ _ R)) as [_ Ra].
  destruct (merge_tables_inv wv_insname wv_set_insname "ins" match_oi_wavelength copy_oi_wavelength
    wave_good same_wavebands (fun _ _ => eq_refl) wave_good_rename same_wavebands_rename
    wave_matching_sound wave_copy_sound _ _ _ (wp_waves _ P) (mr_waves _ _ R)) as [_ Rw].
  destruct (merge_tables_inv co_corrname co_set_corrname "ins" (fun _ _ => Ok None) dup_oi_corr
    corr_good merged_corr (fun _ _ => eq_refl) corr_good_rename merged_corr_rename
    corr_matching_sound corr_copy_sound _ _ _ (wp_corrs _ P) (mr_corrs _ _ R)) as [_ Rc].
  apply Forall2_length in Ra, Rw, Rc. rewrite map_length in Ra, Rw, Rc.
  exists (renamings (mr_ha _ _ R) (mr_hi _ _ R) (mr_hc _ _ R)). split.
  { unfold renamings. rewrite map_length, !combine_length. lia. }
  split.
  { unfold renamings. apply Forall_forall. intros r Hr. apply in_map_iff in Hr as (x & <- & _). split; reflexivity. }
  assert (D : forall {X R'} (copy : dtab X R' -> res (dtab X R')) id set_id (tabs : oi_fits -> list (dtab X R')) l n,
    (forall d t t', In d ins -> In t (tabs d) -> copy t = Ok t' ->
       tb_arrname t' = tb_arrname t /\ tb_insname t' = tb_insname t /\ tb_corrname t' = tb_corrname t) ->
    merge_data_tables copy id set_id tabs (mr_ids _ _ R) ins (mr_ha _ _ R) (mr_hi _ _ R) (mr_hc _ _ R) ([], 0) = Ok (l, n) ->
    Forall2 renamed (with_inputs tabs ins (renamings (mr_ha _ _ R) (mr_hi _ _ R) (mr_hc _ _ R))) l).
  { intros X R' copy id set_id tabs l n HC HM. unfold merge_data_tables in HM.
    destruct (labelled tabs (merge_data_table copy id set_id (mr_ids _ _ R)) eq
      (fun f t t' => tb_arrname t' = rn_array f (tb_arrname t) /\ tb_insname t' = rn_ins f (tb_insname t)
        /\ tb_corrname t' = rn_corr f (tb_corrname t)) ins) with (3 := HM) (hz := mr_hc _ _ R) as (l' & El & F).
    - intros d a i c z t t' Hd Ht <- Et. unfold merge_data_table in Et. apply bind_inv in Et as (t1 & E1 & Et).
      destruct (HC d t t1 Hd Ht E1) as (A1 & A2 & A3). cbv zeta in Et. apply bind_inv in Et as (rec & _ & Et). injection Et as <-.
      cbn. now rewrite A1, A2, A3.
    - apply Forall2_same.
    - cbn [fst app] in El. subst l'. eapply Forall2_impl'; [|exact F]. intros (f0 & t0) t1 F0. exact F0. }
  split; [|split; [|split; [|split]]].
  - eapply D; [|exact (mr_vis _ _ R)]. intros d t t' Hd Ht Ec. destruct (vis_copied t t' (wp_vis _ P d t Hd Ht) Ec) as (_ & A & _). unfold same_attributes in A. tauto.
  - eapply D; [|exact (mr_vis2 _ _ R)]. intros d t t' Hd Ht Ec. destruct (vis2_copied t t' (wp_vis2 _ P d t Hd Ht) Ec) as (_ & A & _). unfold same_attributes in A. tauto.
  - eapply D; [|exact (mr_t3 _ _ R)]. intros d t t' Hd Ht Ec. destruct (t3_copied t t' (wp_t3 _ P d t Hd Ht) Ec) as (_ & A & _). unfold same_attributes in A. tauto.
  - eapply D; [|exact (mr_flux _ _ R)]. intros d t t' Hd Ht Ec. destruct (flux_copied t t' (wp_flux _ P d t Hd Ht) Ec) as (_ & A & _). unfold same_attributes in A. tauto.
  - pose proof (mr_inspol _ _ R) as HM. unfold merge_all_oi_inspol in HM.
    destruct (labelled o_inspolList (fun d a i _ => merge_inspol_table (mr_ids _ _ R) d a i) (fun _ _ => True)
      (fun f t t' => is_arrname t' = rn_array f (is_arrname t)
        /\ Forall2 (fun r r' => ip_insname r' = rn_ins f (ip_insname r)) (is_record t) (is_record t')) ins)
      with (3 := HM) (hz := mr_hc _ _ R) as (l' & El & F).
    + intros d a i c z t t' Hd Ht _ Et. apply inspol_placed_intro in Et; [|exact (wp_inspol _ P d t Hd Ht)].
      destruct Et as (_ & _ & _ & _ & _ & _ & _ & A & F). split; [exact A|].
      eapply Forall2_impl'; [|exact F]. intros r r' (n & _ & ->). reflexivity.
    + apply Forall2_any. lia.
    + cbn [fst app] in El. subst l'. eapply Forall2_impl'; [|exact F]. intros (f0 & t0) t1 F0. exact F0.
Qed.
End Merge.
