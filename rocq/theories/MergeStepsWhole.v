(** Merging in steps: the whole dataset. *)
From Verif Require Import BaseLemmas DateModel DateSpec FileModel FileSpec FileProofs MergeModel MergeSpec
  MergeProofs MergeNames MergeNamed MergeTables MergeTargets MergeHeader MergeData MergeWhole MergeFacts MergeSteps.
From Coq Require Import Lia.
Open Scope Z_scope.

(** ** Tables copied once are copied again as they are *)

Lemma array_matching_copy a c0 c l : array_good a -> Forall array_good l -> match_oi_array a l = Ok None ->
  copy_oi_array a = Ok c0 -> (c = c0 \/ exists n, c = ar_set_arrname n c0) -> match_oi_array c l = Ok None.
Proof.
  intros Ga Gl M Ec Hc. destruct (array_copy_sound a c0 Ga Ec) as (Gc & _ & _).
  apply copy_array_inv in Ec as [_ E]; [|exact Ga]. subst c0.
  assert (G : array_good c) by (destruct Hc as [E|[n E]]; subst c; [exact Gc|exact Gc]).
  rewrite match_oi_array_ok in * by assumption. f_equal. injection M as M.
  destruct (find (array_matchb c) l) as [x|] eqn:F; [|reflexivity]. exfalso.
  apply find_some in F as [Hx F]. pose proof (find_none _ _ M x Hx) as N.
  rewrite (array_matchb_upgrade a x c Hc F) in N. discriminate.
Qed.
Lemma array_copy_copy a c0 c : array_good a -> copy_oi_array a = Ok c0 ->
  (c = c0 \/ exists n, c = ar_set_arrname n c0) -> copy_oi_array c = Ok c.
Proof.
  intros Ga Ec Hc. destruct (array_copy_sound a c0 Ga Ec) as (Gc & _ & _).
  apply copy_array_inv in Ec as [P E]; [|exact Ga]. subst c0.
  assert (K : array_good c /\ 0 < ar_nelement c /\ ar_revision c <> 1).
  { assert (K : array_good (upgrade_oi_array a) /\ 0 < ar_nelement (upgrade_oi_array a) /\ ar_revision (upgrade_oi_array a) <> 1).
    { split; [exact Gc|]. split; [now rewrite (proj1 (proj2 (upgrade_array_elem a)))|].
      unfold upgrade_oi_array. destruct (Z.eqb_spec (ar_revision a) 1); cbn; lia. }
    destruct Hc as [E|[n E]]; subst c; exact K. }
  destruct K as (K1 & K2 & K3). unfold copy_oi_array. rewrite dup_oi_array_ok by assumption. cbn [bind].
  unfold upgrade_oi_array. destruct (Z.eqb_spec (ar_revision c) 1); [contradiction|reflexivity].
Qed.
Lemma wave_matching_copy a c0 c l : wave_good a -> Forall wave_good l -> match_oi_wavelength a l = Ok None ->
  copy_oi_wavelength a = Ok c0 -> (c = c0 \/ exists n, c = wv_set_insname n c0) -> match_oi_wavelength c l = Ok None.
Proof.
  intros Ga Gl M Ec Hc. destruct (wave_copy_sound a c0 Ga Ec) as (Gc & _ & _).
  apply copy_wave_inv in Ec as [_ E]; [|exact Ga]. subst c0.
  assert (G : wave_good c) by (destruct Hc as [E|[n E]]; subst c; [exact Gc|exact Gc]).
  rewrite match_oi_wavelength_ok in * by assumption. rewrite <- M. f_equal.
  destruct (upgrade_wave_fields a) as (E1 & E2 & E3 & _).
  assert (K : wv_nwave c = wv_nwave a /\ wv_eff_wave c = wv_eff_wave a /\ wv_eff_band c = wv_eff_band a)
    by (destruct Hc as [E|[n E]]; subst c; cbn; auto).
  destruct K as (K1 & K2 & K3). induction l as [|x l IH]; [reflexivity|]. cbn [find].
  unfold wave_matchb. now rewrite K1, K2, K3.
Qed.
Lemma wave_copy_copy a c0 c : wave_good a -> copy_oi_wavelength a = Ok c0 ->
  (c = c0 \/ exists n, c = wv_set_insname n c0) -> copy_oi_wavelength c = Ok c.
Proof.
  intros Ga Ec Hc. destruct (wave_copy_sound a c0 Ga Ec) as (Gc & _ & _).
  apply copy_wave_inv in Ec as [P E]; [|exact Ga]. subst c0.
  assert (K : wave_good c /\ 0 < wv_nwave c /\ wv_revision c <> 1).
  { assert (K : wave_good (upgrade_oi_wavelength a) /\ 0 < wv_nwave (upgrade_oi_wavelength a) /\ wv_revision (upgrade_oi_wavelength a) <> 1).
    { split; [exact Gc|]. split; [now rewrite (proj1 (upgrade_wave_fields a))|].
      unfold upgrade_oi_wavelength. destruct (Z.eqb_spec (wv_revision a) 1); cbn; lia. }
    destruct Hc as [E|[n E]]; subst c; exact K. }
  destruct K as (K1 & K2 & K3). unfold copy_oi_wavelength. rewrite dup_oi_wavelength_ok by assumption. cbn [bind].
  unfold upgrade_oi_wavelength. destruct (Z.eqb_spec (wv_revision c) 1); [contradiction|reflexivity].
Qed.
Lemma corr_copy_copy a c0 c : corr_good a -> dup_oi_corr a = Ok c0 ->
  (c = c0 \/ exists n, c = co_set_corrname n c0) -> dup_oi_corr c = Ok c.
Proof.
  intros Ga Ec Hc. apply copy_corr_inv in Ec as [P E]; [|exact Ga]. subst c0.
  apply dup_oi_corr_ok; destruct Hc as [E|[n E]]; subst c; assumption.
Qed.

Lemma upgraded_same {X R} (time : R -> f64) (same : R -> R -> Prop) (t t' : dtab X R) :
  tb_revision t <> 1 -> upgraded time same t t' -> t' = t.
Proof. intros N [(R1 & _)|[_ E]]; [contradiction|exact E]. Qed.
Lemma rev12_not1 r : rev12 r <> 1.
Proof. unfold rev12. destruct (Z.eqb_spec r 1); lia. Qed.

Lemma vis2_copy_again t : wf_vis2 t = true -> 0 < tb_numrec t -> 0 < tb_nwave t -> tb_revision t <> 1 -> copy_oi_vis2 t = Ok t.
Proof.
  intros W P1 P2 N. unfold copy_oi_vis2. rewrite dup_oi_vis2_ok by auto. cbn [bind].
  destruct (upgrade_oi_vis2_ok t W) as (t' & E & U). now rewrite E, (upgraded_same _ _ _ _ N U).
Qed.
Lemma t3_copy_again t : wf_t3 t = true -> 0 < tb_numrec t -> 0 < tb_nwave t -> tb_revision t <> 1 -> copy_oi_t3 t = Ok t.
Proof.
  intros W P1 P2 N. unfold copy_oi_t3. rewrite dup_oi_t3_ok by auto. cbn [bind].
  destruct (upgrade_oi_t3_ok t W) as (t' & E & U). now rewrite E, (upgraded_same _ _ _ _ N U).
Qed.
Lemma vis_copy_again t : wf_vis t = true -> 0 < tb_numrec t -> 0 < tb_nwave t -> tb_revision t <> 1 ->
  (forall r, In r (tb_record t) -> vis_dup_image (tb_x t) r = r) -> copy_oi_vis t = Ok t.
Proof.
  intros W P1 P2 N Im. unfold copy_oi_vis. rewrite dup_oi_vis_image by auto. cbn [bind].
  assert (E0 : set_record (map (vis_dup_image (tb_x t)) (tb_record t)) t = t).
  { rewrite (map_ext_in _ (fun r => r)) by exact Im. rewrite map_id. now destruct t. }
  rewrite E0. destruct (upgrade_oi_vis_ok t W) as (t' & E & U). now rewrite E, (upgraded_same _ _ _ _ N U).
Qed.

(** ** Tables of a merge merged again *)

Lemma keeps_replace l h n : keeps_names (fun x : string => x) l h -> Forall (fun s => fits_value s = true) l ->
  replace_name h n = n.
Proof.
  intros K F. unfold replace_name. destruct (hash_lookup h n) as [m|] eqn:E; [|reflexivity].
  apply K in E as [-> Hin]. rewrite map_id in Hin. rewrite Forall_forall in F. now apply strlcpy_fits, F.
Qed.
Lemma keeps_replace_optional l h n : keeps_names (fun x : string => x) l h -> Forall (fun s => fits_value s = true) l ->
  replace_optional h n = n.
Proof. intros K F. unfold replace_optional. destruct (0 <? strlen n); [now apply (keeps_replace l)|reflexivity]. Qed.
Lemma keeps_map {A} (name : A -> string) l h : keeps_names name l h -> keeps_names (fun x : string => x) (map name l) h.
Proof. intros K n m H. rewrite map_id. now apply K. Qed.

(** A TARGET_ID that the merge has given is given again. *)
Lemma replace_id_again ins d d1 h1 h id n : wf_targets (o_targets d) = true -> wf_targets (o_targets d1) = true ->
  target_inv (all_targets ins) (ot_targ (o_targets d1)) h1 ->
  (forall n k, hash_lookup h1 n = Some k -> hash_lookup h n = Some k) ->
  replace_target_id d h1 id = Ok n -> replace_target_id d1 h n = Ok n.
Proof.
  intros W W1 I M H.
  destruct (replace_id_inv d h1 id n W H) as (t & _ & L). pose proof L as L'.
  destruct I as [Er Lk]. rewrite Lk in L. apply target_of_some in L as (t' & Hin & Et & Ei).
  unfold replace_target_id, oi_fits_lookup_target. rewrite search_ok by exact W1.
  subst n. rewrite (find_unique tg_target_id); [|rewrite Er, renumber_ids; apply zrange_nodup|exact Hin].
  cbn [bind]. rewrite Et. rewrite (M _ _ L'). reflexivity.
Qed.

Lemma merge_data_table_copy {X R} (copy : dtab X R -> res (dtab X R)) (id : R -> Z) (set_id : Z -> R -> R) ids d a i c t t1 :
  merge_data_table copy id set_id ids d a i c t = Ok t1 -> exists c0, copy t = Ok c0.
Proof. intros H. unfold merge_data_table in H. apply bind_inv in H as (c0 & E & _). eauto. Qed.

Section Again.
Variables (ins : list oi_fits) (d1 : oi_fits) (h1 h : hash Z) (a1 i1 c1 : hash string).
Hypothesis W : Forall (fun d => wf_fits d = true) ins.
Hypothesis W1 : wf_targets (o_targets d1) = true.
Hypothesis I : target_inv (all_targets ins) (ot_targ (o_targets d1)) h1.
Hypothesis M : forall n k, hash_lookup h1 n = Some k -> hash_lookup h n = Some k.
Hypothesis Ka : forall n, replace_optional a1 n = n.
Hypothesis Ki : forall n, replace_name i1 n = n.
Hypothesis Kc : forall n, replace_optional c1 n = n.

Lemma wf_targets_in d : In d ins -> wf_targets (o_targets d) = true.
Proof using W. intros Hd. pose proof (wp_targets _ (wf_parts_intro ins W)) as T. rewrite Forall_forall in T. auto. Qed.

Lemma table_again {X R} (copy : dtab X R -> res (dtab X R)) (id : R -> Z) (set_id : Z -> R -> R) d a i c t t1 c0 :
  In d ins -> (forall n r, id (set_id n r) = n) -> (forall n m r, set_id n (set_id m r) = set_id n r) ->
  copy t = Ok c0 -> len_is (tb_numrec c0) (tb_record c0) = true ->
  merge_data_table copy id set_id h1 d a i c t = Ok t1 -> copy t1 = Ok t1 ->
  merge_data_table copy id set_id h d1 a1 i1 c1 t1 = Ok t1.
Proof using W W1 I M Ka Ki Kc.
  intros Hd Si Ss Ec Ln H E. unfold merge_data_table in H. rewrite Ec in H. cbn [bind] in H. cbv zeta in H.
  apply bind_inv in H as (rec & Er & H). injection H as H.
  cbn [tb_record set_corrname set_insname set_arrname tb_numrec] in Er.
  pose proof (update_records_inv _ _ _ _ Ln Er) as F.
  assert (Er1 : tb_record t1 = rec) by (rewrite <- H; reflexivity).
  assert (En1 : tb_numrec t1 = tb_numrec c0) by (rewrite <- H; reflexivity).
  unfold merge_data_table. rewrite E. cbn [bind]. cbv zeta.
  cbn [tb_record set_corrname set_insname set_arrname tb_numrec tb_arrname tb_insname tb_corrname].
  rewrite Ka, Ki, Kc.
  rewrite update_records_same.
  - cbn [bind]. f_equal. clear. destruct t1; reflexivity.
  - rewrite Er1, En1. unfold len_is in *. now rewrite <- (Forall2_length _ _ _ F).
  - rewrite Er1. intros r Hr. clear -F Hr Si Ss W W1 I M Hd.
    induction F as [|x y l m K F IH]; [contradiction|]. destruct Hr as [<-|Hr]; [|auto].
    apply bind_inv in K as (n & En & K). injection K as <-.
    rewrite Si. rewrite (replace_id_again ins d d1 h1 h (id x) n (wf_targets_in d Hd) W1 I M En). cbn [bind]. now rewrite Ss.
Qed.

Lemma inspol_again d a i t t1 : In d ins -> wf_inspol t = true -> wf_inspol t1 = true ->
  merge_inspol_table h1 d a i t = Ok t1 -> merge_inspol_table h d1 a1 i1 t1 = Ok t1.
Proof using W W1 I M Ka Ki.
  intros Hd Wt Wt1 H. pose proof (inspol_placed_intro h1 d a i t t1 Wt H) as Pl.
  unfold merge_inspol_table in H. apply bind_inv in H as (t0 & E & _).
  destruct (inspol_pos t t0 Wt E) as [P1 P2].
  destruct Pl as (_ & _ & _ & _ & _ & En & Ew & _ & F).
  unfold merge_inspol_table. rewrite dup_oi_inspol_ok by (rewrite ?En, ?Ew; assumption). cbn [bind]. cbv zeta.
  cbn [is_record is_set_arrname is_numrec is_arrname].
  unfold wf_inspol in Wt1. apply andb_true_iff in Wt1 as [Ln _].
  rewrite update_records_same; [|exact Ln|].
  - cbn [bind]. rewrite update_records_same; [|exact Ln|].
    + cbn [bind]. rewrite Ka. f_equal. clear. destruct t1; reflexivity.
    + intros r _. rewrite Ki. clear. destruct r; reflexivity.
  - intros r Hr. clear -F Hr W W1 I M Hd. induction F as [|x y l m (n & En & ->) F IH]; [contradiction|].
    destruct Hr as [<-|Hr]; [|auto]. cbn [ip_target_id ip_set_insname ip_set_target_id].
    rewrite (replace_id_again ins d d1 h1 h (ip_target_id x) n (wf_targets_in d Hd) W1 I M En). cbn [bind]. reflexivity.
Qed.

Lemma vis2_again d a i c t t1 : In d ins -> wf_vis2 t = true -> wf_vis2 t1 = true ->
  merge_data_table copy_oi_vis2 v2_target_id v2_set_target_id h1 d a i c t = Ok t1 ->
  merge_data_table copy_oi_vis2 v2_target_id v2_set_target_id h d1 a1 i1 c1 t1 = Ok t1.
Proof using W W1 I M Ka Ki Kc.
  intros Hd Wt Wt1 H.
  pose proof (placed_intro copy_oi_vis2 v2_target_id v2_set_target_id wf_vis2 rev12 _ vis2_copied h1 d a i c t t1 Wt H) as Pl.
  destruct (merge_data_table_copy _ _ _ _ _ _ _ _ _ _ H) as (c0 & Ec).
  eapply (table_again copy_oi_vis2 _ _ d a i c t t1 c0); auto.
  - now destruct (vis2_copied t c0 Wt Ec) as (_ & _ & Ln & _).
  - unfold copy_oi_vis2 in Ec. apply bind_inv in Ec as (cc & Ec & _). destruct (vis2_pos t cc Wt Ec) as [P1 P2].
    destruct Pl as (Rv & _ & _ & En & Ew & _). apply vis2_copy_again; rewrite ?En, ?Ew; auto. rewrite Rv. apply rev12_not1.
Qed.
Lemma t3_again d a i c t t1 : In d ins -> wf_t3 t = true -> wf_t3 t1 = true ->
  merge_data_table copy_oi_t3 t3_target_id t3_set_target_id h1 d a i c t = Ok t1 ->
  merge_data_table copy_oi_t3 t3_target_id t3_set_target_id h d1 a1 i1 c1 t1 = Ok t1.
Proof using W W1 I M Ka Ki Kc.
  intros Hd Wt Wt1 H.
  pose proof (placed_intro copy_oi_t3 t3_target_id t3_set_target_id wf_t3 rev12 _ t3_copied h1 d a i c t t1 Wt H) as Pl.
  destruct (merge_data_table_copy _ _ _ _ _ _ _ _ _ _ H) as (c0 & Ec).
  eapply (table_again copy_oi_t3 _ _ d a i c t t1 c0); auto.
  - now destruct (t3_copied t c0 Wt Ec) as (_ & _ & Ln & _).
  - unfold copy_oi_t3 in Ec. apply bind_inv in Ec as (cc & Ec & _). destruct (t3_pos t cc Wt Ec) as [P1 P2].
    destruct Pl as (Rv & _ & _ & En & Ew & _). apply t3_copy_again; rewrite ?En, ?Ew; auto. rewrite Rv. apply rev12_not1.
Qed.
Lemma flux_again d a i c t t1 : In d ins -> wf_flux t = true -> wf_flux t1 = true ->
  merge_data_table dup_oi_flux fr_target_id fr_set_target_id h1 d a i c t = Ok t1 ->
  merge_data_table dup_oi_flux fr_target_id fr_set_target_id h d1 a1 i1 c1 t1 = Ok t1.
Proof using W W1 I M Ka Ki Kc.
  intros Hd Wt Wt1 H.
  pose proof (placed_intro dup_oi_flux fr_target_id fr_set_target_id wf_flux (fun r => r) _ flux_copied h1 d a i c t t1 Wt H) as Pl.
  destruct (merge_data_table_copy _ _ _ _ _ _ _ _ _ _ H) as (c0 & Ec).
  eapply (table_again dup_oi_flux _ _ d a i c t t1 c0); auto.
  - now destruct (flux_copied t c0 Wt Ec) as (_ & _ & Ln & _).
  - destruct (flux_pos t c0 Wt Ec) as [P1 P2].
    destruct Pl as (_ & _ & _ & En & Ew & _). apply dup_oi_flux_ok; rewrite ?En, ?Ew; auto.
Qed.
Lemma vis_again d a i c t t1 : In d ins -> wf_vis t = true -> wf_vis t1 = true ->
  merge_data_table copy_oi_vis vr_target_id vr_set_target_id h1 d a i c t = Ok t1 ->
  merge_data_table copy_oi_vis vr_target_id vr_set_target_id h d1 a1 i1 c1 t1 = Ok t1.
Proof using W W1 I M Ka Ki Kc.
  intros Hd Wt Wt1 H.
  pose proof (placed_intro copy_oi_vis vr_target_id vr_set_target_id wf_vis rev12 _ vis_copied h1 d a i c t t1 Wt H) as Pl.
  destruct (merge_data_table_copy _ _ _ _ _ _ _ _ _ _ H) as (c0 & Ec).
  eapply (table_again copy_oi_vis _ _ d a i c t t1 c0); auto.
  - now destruct (vis_copied t c0 Wt Ec) as (_ & _ & Ln & _).
  - unfold copy_oi_vis in Ec. apply bind_inv in Ec as (cc & Ec & _). destruct (vis_pos t cc Wt Ec) as [P1 P2].
    destruct Pl as (Rv & _ & Ex & En & Ew & _ & _ & _ & F).
    apply vis_copy_again; rewrite ?En, ?Ew; auto; [rewrite Rv; apply rev12_not1|].
    rewrite Ex. clear -F. intros r Hr. induction F as [|x y l m (r1 & n & [S _] & _ & _ & ->) F IH]; [contradiction|].
    destruct Hr as [<-|Hr]; [|auto]. revert S. clear. unfold vis_dup_image, same_but_time_vis.
    destruct (vx_usecomplex (tb_x t)); [|reflexivity]. destruct r1, x; cbn. intros S. decompose [and] S. now subst.
Qed.
End Again.

(** ** The whole run *)

Lemma produced_from {T} (tabs : oi_fits -> list T) f ins ha hi hc l n :
  length ha = length ins -> length hi = length ins -> length hc = length ins ->
  for_inputs ins ha hi hc (fun d a i c s => foreach (tabs d) (step f d a i c) s) ([], 0) = Ok (l, n) ->
  n = Z.of_nat (length l) /\ forall t1, In t1 l -> exists d a i c t, In d ins /\ In t (tabs d) /\ f d a i c t = Ok t1.
Proof.
  intros La Li Lc H.
  assert (F : forall h : list (hash string), length h = length ins -> Forall2 (fun _ _ => True) ins h).
  { clear. induction ins as [|d ins IH]; intros [|x h] E; try discriminate; constructor; auto. }
  destruct (all_inputs tabs f (fun _ _ => True) (fun _ _ => True) (fun _ _ => True) ins ha hi hc [] 0 (l, n)
    (F _ La) (F _ Li) (F _ Lc) H) as (l' & E & G).
  injection E as -> ->. split; [cbn; lia|]. cbn [app]. intros t1 Ht. destruct (Forall2_in_r _ _ _ _ G Ht) as ([d t] & _ & K).
  destruct K as (K1 & K2 & a & i & c & _ & _ & _ & K3). exists d, a, i, c, t. auto.
Qed.

Definition set_header_of (h : oi_header) (o : oi_fits) : oi_fits :=
  mk_fits h (o_targets o) (o_numArray o) (o_numWavelength o) (o_numCorr o) (o_numInspol o) (o_numVis o)
    (o_numVis2 o) (o_numT3 o) (o_numFlux o) (o_arrayList o) (o_wavelengthList o) (o_corrList o)
    (o_inspolList o) (o_visList o) (o_vis2List o) (o_t3List o) (o_fluxList o)
    (o_arrayHash o) (o_wavelengthHash o) (o_corrHash o).

Definition header_from (ins : list oi_fits) (mjd : Z) : oi_header :=
  mk_header (merge_key ins h_origin true init_oi_fits) "[unset]"
       (strlcpy FLEN_VALUE (format_date (mjd2date mjd))) "OIFITS2"
       (merge_key ins h_telescop true init_oi_fits) (merge_key ins h_instrume true init_oi_fits)
       (merge_key ins h_observer true init_oi_fits) (merge_key ins h_insmode true init_oi_fits)
       (merge_key ins h_object true init_oi_fits) (merge_key ins h_referenc false init_oi_fits)
       (merge_key ins h_author false init_oi_fits) (merge_key ins h_prog_id false init_oi_fits)
       (merge_key ins h_procsoft false init_oi_fits) (merge_key ins h_obstech false init_oi_fits).

Lemma merge_build ins mjd rev ids ha hi hc o :
  files_min_mjd ins = Ok mjd ->
  foreach ins merge_target_table (2, [], hash_new) = Ok (rev, ot_targ (o_targets o), ids) ->
  o_targets o = mk_oi_target rev (Z.of_nat (List.length (ot_targ (o_targets o)))) (ot_targ (o_targets o)) false ->
  merge_tables ar_arrname ar_set_arrname "array" match_oi_array copy_oi_array
      (map o_arrayList ins) (mk_tables [] hash_new 0) = Ok (ha, array_tables o) ->
  merge_tables wv_insname wv_set_insname "ins" match_oi_wavelength copy_oi_wavelength
      (map o_wavelengthList ins) (mk_tables [] hash_new 0) = Ok (hi, wave_tables o) ->
  merge_tables co_corrname co_set_corrname "ins" (fun _ _ => Ok None) dup_oi_corr
      (map o_corrList ins) (mk_tables [] hash_new 0) = Ok (hc, corr_tables o) ->
  merge_all_oi_inspol ids ins ha hi ([], 0) = Ok (o_inspolList o, o_numInspol o) ->
  merge_all_oi_vis ids ins ha hi hc ([], 0) = Ok (o_visList o, o_numVis o) ->
  merge_all_oi_vis2 ids ins ha hi hc ([], 0) = Ok (o_vis2List o, o_numVis2 o) ->
  merge_all_oi_t3 ids ins ha hi hc ([], 0) = Ok (o_t3List o, o_numT3 o) ->
  merge_all_oi_flux ids ins ha hi hc ([], 0) = Ok (o_fluxList o, o_numFlux o) ->
  merge_oi_fits_list ins = Ok (set_header_of (header_from ins mjd) o).
Proof.
  intros H1 H2 Ht H3 H4 H5 H6 H7 H8 H9 H10.
  unfold merge_oi_fits_list, merge_oi_header, merge_oi_target, merge_all_oi_array,
    merge_all_oi_wavelength, merge_all_oi_corr.
  cbn [assert_ strlen h_origin o_header init_oi_fits empty_header String.length Z.of_nat Z.eqb bind].
  rewrite H1. cbn [bind]. rewrite H2. cbn [bind].
  cbn [o_arrayList o_arrayHash o_numArray set_targets set_header init_oi_fits].
  rewrite H3. cbn [bind o_wavelengthList o_wavelengthHash o_numWavelength set_arrays set_targets
    set_header init_oi_fits].
  rewrite H4. cbn [bind o_corrList o_corrHash o_numCorr set_wavelengths set_arrays set_targets
    set_header init_oi_fits].
  rewrite H5. cbn [bind o_inspolList o_numInspol o_visList o_numVis o_vis2List o_numVis2
    o_t3List o_numT3 o_fluxList o_numFlux set_corrs set_wavelengths set_arrays set_targets
    set_header init_oi_fits].
  rewrite H6. cbn [bind]. rewrite H7. cbn [bind]. rewrite H8. cbn [bind]. rewrite H9. cbn [bind].
  rewrite H10. cbn [bind]. unfold set_header_of. rewrite Ht. reflexivity.
Qed.

Section Whole.
Variables (ia ib : list oi_fits) (d1 out : oi_fits).
Hypothesis W : Forall (fun d => wf_fits d = true) (ia ++ ib).
Hypothesis Fit : Forall names_fit ia.
Hypothesis Dn : distinct_names d1.
Hypothesis H1 : merge_oi_fits_list ia = Ok d1.
Hypothesis H3 : merge_oi_fits_list (ia ++ ib) = Ok out.

Lemma steps_but_header mjd : files_min_mjd (d1 :: ib) = Ok mjd ->
  merge_oi_fits_list (d1 :: ib) = Ok (set_header_of (header_from (d1 :: ib) mjd) out).
Proof using W Fit Dn H1 H3.
  intros Ed. pose proof (wf_parts_intro _ W) as P. pose proof W as W'. apply Forall_app in W' as [Wa Wb].
  pose proof (wf_parts_intro _ Wa) as Pa. pose proof (merged_wf ia d1 Wa H1) as Wd.
  assert (Wd' : Forall (fun d => wf_fits d = true) [d1]) by auto. pose proof (wf_parts_intro _ Wd') as Pd.
  pose proof (merged_names_fit ia d1 Wa H1 Fit) as (Nf1 & Nf2 & Nf3). destruct Dn as (Dn1 & Dn2 & Dn3).
  destruct (merge_inv _ _ H1) as [R1]. destruct (merge_inv _ _ H3) as [R3].
  destruct (targets_in_steps ia ib d1 _ _ _ _ _ (wp_targets _ P) (mr_targets _ _ R3) (mr_targets _ _ R1)
    (mr_target_tab _ _ R1)) as [Tg Mono].
  destruct (targets_inv ia _ _ _ (wp_targets _ Pa) (mr_targets _ _ R1)) as [_ It].
  pose proof (mr_arrays _ _ R3) as A3. rewrite map_app in A3.
  destruct (tables_in_steps ar_arrname ar_set_arrname "array" match_oi_array copy_oi_array
    array_good same_stations (fun _ _ => eq_refl) array_good_rename same_stations_rename
    array_matching_sound array_copy_sound array_matching_copy array_copy_copy _ _ _ _ _ _ (wp_arrays _ Pa) A3 (mr_arrays _ _ R1) Dn1)
    as (xa & ba & Ea & La & Lba & Ta & Ka).
  pose proof (mr_waves _ _ R3) as I3. rewrite map_app in I3.
  destruct (tables_in_steps wv_insname wv_set_insname "ins" match_oi_wavelength copy_oi_wavelength
    wave_good same_wavebands (fun _ _ => eq_refl) wave_good_rename same_wavebands_rename
    wave_matching_sound wave_copy_sound wave_matching_copy wave_copy_copy _ _ _ _ _ _ (wp_waves _ Pa) I3 (mr_waves _ _ R1) Dn2)
    as (xi & bi & Ei & Li & Lbi & Ti & Ki).
  pose proof (mr_corrs _ _ R3) as C3. rewrite map_app in C3.
  destruct (tables_in_steps co_corrname co_set_corrname "ins" (fun _ _ => Ok None) dup_oi_corr
    corr_good merged_corr (fun _ _ => eq_refl) corr_good_rename merged_corr_rename
    corr_matching_sound corr_copy_sound (fun _ _ _ _ _ _ _ _ _ => eq_refl) corr_copy_copy _ _ _ _ _ _ (wp_corrs _ Pa) C3 (mr_corrs _ _ R1) Dn3)
    as (xc & bc & Ec & Lc & Lbc & Tc & Kc).
  cbn [tl_list] in Ka, Ki, Kc. rewrite map_length in La, Li, Lc.
  assert (Fa : forall n, replace_optional xa n = n).
  { intros n. apply (keeps_replace_optional (map ar_arrname (o_arrayList d1)) xa); [now apply keeps_map|now apply Forall_map]. }
  assert (Fi : forall n, replace_name xi n = n).
  { intros n. apply (keeps_replace (map wv_insname (o_wavelengthList d1)) xi); [now apply keeps_map|now apply Forall_map]. }
  assert (Fc : forall n, replace_optional xc n = n).
  { intros n. apply (keeps_replace_optional (map co_corrname (o_corrList d1)) xc); [now apply keeps_map|now apply Forall_map]. }
  pose proof (wf_targets_in [d1] Wd' d1 (or_introl eq_refl)) as W1.
  assert (RIm : forall d id n, replace_target_id d (mr_ids _ _ R1) id = Ok n -> replace_target_id d (mr_ids _ _ R3) id = Ok n)
    by (intros; eapply replace_id_mono; eauto).
  assert (Dm : forall X R (copy : dtab X R -> res (dtab X R)) id set_id d a i c t t',
    merge_data_table copy id set_id (mr_ids _ _ R1) d a i c t = Ok t' ->
    merge_data_table copy id set_id (mr_ids _ _ R3) d a i c t = Ok t').
  { intros X R copy id set_id d a i c t t' K. unfold merge_data_table in *. apply bind_inv in K as (t0 & E0 & K).
    rewrite E0. cbn [bind]. cbv zeta in *. apply bind_inv in K as (rec & Er & K).
    erewrite update_records_mono; [exact K| |exact Er]. intros r r' Hr. apply bind_inv in Hr as (n & En & Hr).
    rewrite (RIm _ _ _ En). exact Hr. }
  assert (Im : forall d a i (c : hash string) t t',
    merge_inspol_table (mr_ids _ _ R1) d a i t = Ok t' -> merge_inspol_table (mr_ids _ _ R3) d a i t = Ok t').
  { intros d a i _ t t' K. unfold merge_inspol_table in *. apply bind_inv in K as (t0 & E0 & K).
    rewrite E0. cbn [bind]. cbv zeta in *. apply bind_inv in K as (rec & Er & K).
    erewrite update_records_mono; [exact K| |exact Er]. intros r r' Hr. apply bind_inv in Hr as (n & En & Hr).
    rewrite (RIm _ _ _ En). exact Hr. }
  apply (merge_build _ mjd (mr_rev _ _ R3) (mr_ids _ _ R3) (xa :: ba) (xi :: bi) (xc :: bc)); auto.
  - exact (mr_target_tab _ _ R3).
  - pose proof (mr_inspol _ _ R1) as E1. pose proof (mr_inspol _ _ R3) as E3. rewrite Ea, Ei in E3.
    destruct (produced_from o_inspolList (fun d a i _ => merge_inspol_table (mr_ids _ _ R1) d a i) _ _ _ _ _ _ La Li Li E1) as [N Pr].
    refine (data_in_steps o_inspolList (fun d a i _ => merge_inspol_table (mr_ids _ _ R1) d a i)
      (fun d a i _ => merge_inspol_table (mr_ids _ _ R3) d a i) Im ia ib d1 _ ba _ bi _ bi xa xi xi _ _ La Li Li E1 N E3 _).
    intros t1 Ht. destruct (Pr t1 Ht) as (d & a & i & c & t & Hd & Hin & K).
    eapply (inspol_again ia d1 (mr_ids _ _ R1) (mr_ids _ _ R3) xa xi); eauto.
    + eapply (wp_inspol _ Pa); eauto.
    + eapply (wp_inspol _ Pd); eauto. now left.
  - pose proof (mr_vis _ _ R1) as E1. pose proof (mr_vis _ _ R3) as E3. rewrite Ea, Ei, Ec in E3.
    destruct (produced_from o_visList (merge_data_table copy_oi_vis vr_target_id vr_set_target_id (mr_ids _ _ R1)) _ _ _ _ _ _ La Li Lc E1) as [N Pr].
    refine (data_in_steps o_visList _ _ (Dm _ _ copy_oi_vis vr_target_id vr_set_target_id) ia ib d1 _ ba _ bi _ bc xa xi xc _ _ La Li Lc E1 N E3 _).
    intros t1 Ht. destruct (Pr t1 Ht) as (d & a & i & c & t & Hd & Hin & K).
    eapply (vis_again ia d1 (mr_ids _ _ R1) (mr_ids _ _ R3) xa xi xc); eauto.
    + eapply (wp_vis _ Pa); eauto.
    + eapply (wp_vis _ Pd); eauto. now left.
  - pose proof (mr_vis2 _ _ R1) as E1. pose proof (mr_vis2 _ _ R3) as E3. rewrite Ea, Ei, Ec in E3.
    destruct (produced_from o_vis2List (merge_data_table copy_oi_vis2 v2_target_id v2_set_target_id (mr_ids _ _ R1)) _ _ _ _ _ _ La Li Lc E1) as [N Pr].
    refine (data_in_steps o_vis2List _ _ (Dm _ _ copy_oi_vis2 v2_target_id v2_set_target_id) ia ib d1 _ ba _ bi _ bc xa xi xc _ _ La Li Lc E1 N E3 _).
    intros t1 Ht. destruct (Pr t1 Ht) as (d & a & i & c & t & Hd & Hin & K).
    eapply (vis2_again ia d1 (mr_ids _ _ R1) (mr_ids _ _ R3) xa xi xc); eauto.
    + eapply (wp_vis2 _ Pa); eauto.
    + eapply (wp_vis2 _ Pd); eauto. now left.
  - pose proof (mr_t3 _ _ R1) as E1. pose proof (mr_t3 _ _ R3) as E3. rewrite Ea, Ei, Ec in E3.
    destruct (produced_from o_t3List (merge_data_table copy_oi_t3 t3_target_id t3_set_target_id (mr_ids _ _ R1)) _ _ _ _ _ _ La Li Lc E1) as [N Pr].
    refine (data_in_steps o_t3List _ _ (Dm _ _ copy_oi_t3 t3_target_id t3_set_target_id) ia ib d1 _ ba _ bi _ bc xa xi xc _ _ La Li Lc E1 N E3 _).
    intros t1 Ht. destruct (Pr t1 Ht) as (d & a & i & c & t & Hd & Hin & K).
    eapply (t3_again ia d1 (mr_ids _ _ R1) (mr_ids _ _ R3) xa xi xc); eauto.
    + eapply (wp_t3 _ Pa); eauto.
    + eapply (wp_t3 _ Pd); eauto. now left.
  - pose proof (mr_flux _ _ R1) as E1. pose proof (mr_flux _ _ R3) as E3. rewrite Ea, Ei, Ec in E3.
    destruct (produced_from o_fluxList (merge_data_table dup_oi_flux fr_target_id fr_set_target_id (mr_ids _ _ R1)) _ _ _ _ _ _ La Li Lc E1) as [N Pr].
    refine (data_in_steps o_fluxList _ _ (Dm _ _ dup_oi_flux fr_target_id fr_set_target_id) ia ib d1 _ ba _ bi _ bc xa xi xc _ _ La Li Lc E1 N E3 _).
    intros t1 Ht. destruct (Pr t1 Ht) as (d & a & i & c & t & Hd & Hin & K).
    eapply (flux_again ia d1 (mr_ids _ _ R1) (mr_ids _ _ R3) xa xi xc); eauto.
    + eapply (wp_flux _ Pa); eauto.
    + eapply (wp_flux _ Pd); eauto. now left.
Qed.
End Whole.
