(** Refinement of apply_oi_filter. *)
From Verif Require Import Base BaseLemmas FloatModel Types FileModel FileSpec FileProofs FilterModel FilterSpec FilterLemmas FilterProofs FilterRecords FilterTables.
From Coq Require Import Lia.

(** ** Index of the output tables: the last table of each name *)

Lemma hash_fold_lookup {A} (nm : A -> string) l : forall h k,
  hash_lookup (hash_fold nm Some l h) k =
  match find_by nm (rev l) k with Some a => Some a | None => hash_lookup h k end.
Proof.
  assert (FA : forall l1 l2 k, find_by nm (l1 ++ l2) k =
            match find_by nm l1 k with Some a => Some a | None => find_by nm l2 k end).
  { induction l1 as [|a l1 IH]; intros l2 k; [reflexivity|]. cbn.
    destruct (str_eqb (nm a) k); [reflexivity|apply IH]. }
  induction l as [|a l IH]; intros h k; [reflexivity|].
  cbn [hash_fold fold_left]. fold (hash_fold nm Some l (hash_insert h (nm a) (Some a))).
  rewrite IH. cbn [rev]. rewrite FA. destruct (find_by nm (rev l) k); [reflexivity|].
  cbn [find_by]. destruct (str_eqb (nm a) k) eqn:E.
  - apply str_eqb_eq in E. subst k. apply hash_lookup_insert_same.
  - apply str_eqb_neq in E. apply hash_lookup_insert_other. congruence.
Qed.

Lemma filter_rev' {A} (p : A -> bool) l : filter p (rev l) = rev (filter p l).
Proof.
  induction l as [|a l IH]; [reflexivity|]. cbn [rev filter]. rewrite filter_app, IH. cbn [filter].
  destruct (p a); [reflexivity|now rewrite app_nil_r].
Qed.

Lemma find_by_filter {A} (nm : A -> string) (q : string -> bool) l k :
  find_by nm (filter (fun a => q (nm a)) l) k = if q k then find_by nm l k else None.
Proof.
  induction l as [|a l IH]; [now destruct (q k)|]. cbn [filter find_by].
  destruct (str_eqb (nm a) k) eqn:E.
  - apply str_eqb_eq in E. destruct (q (nm a)) eqn:Q.
    + cbn [find_by]. rewrite E, str_eqb_refl. rewrite <- E, Q. reflexivity.
    + rewrite IH, <- E, Q. reflexivity.
  - destruct (q (nm a)); cbn [find_by]; [rewrite E|]; exact IH.
Qed.

(** [h] is the index of table list [l] *)
Definition indexes {A} (nm : A -> string) (l : list A) (h : hash A) : Prop :=
  forall k, hash_lookup h k = find_by nm (rev l) k.

Lemma prune_all_ok {A} (nm : A -> string) names l n h :
  n = Z.of_nat (length l) ->
  exists h', prune_all nm names (l, n, h) =
      Ok (filter (fun a => listed names (nm a)) l,
          Z.of_nat (length (filter (fun a => listed names (nm a)) l)), h')
    /\ (indexes nm l h -> indexes nm (filter (fun a => listed names (nm a)) l) h').
Proof.
  intros Hn. unfold prune_all. cbn [fst].
  destruct (prune_loop_ok nm names (S (length l)) l n h ltac:(lia) Hn) as (h' & E & K1 & K2).
  exists h'. split; [exact E|]. intros HI k. rewrite <- filter_rev', find_by_filter.
  destruct (listed names k) eqn:L; [now rewrite K1|]. rewrite K2 by exact L.
  destruct (existsb (fun a => str_eqb (nm a) k) l) eqn:EX; [reflexivity|].
  rewrite HI. destruct (find_by nm (rev l) k) as [a|] eqn:F; [|reflexivity].
  apply find_by_Some in F as [Ha Hk]. exfalso.
  assert (existsb (fun a => str_eqb (nm a) k) l = true); [|congruence].
  apply existsb_exists. exists a. split; [now apply in_rev|]. subst k. apply str_eqb_refl.
Qed.

(** ** Names in use *)

Lemma listed_spec names k : listed names k = true <-> In k names.
Proof.
  unfold listed. rewrite existsb_exists. split.
  - intros (n & Hn & E). apply str_eqb_eq in E. now subst.
  - intros H. exists k. split; [exact H|apply str_eqb_refl].
Qed.

Lemma add_names_spec {X R} (nm : dtab X R -> string) se l names k :
  In k (add_names nm se l names) <->
  In k names \/ (exists t, In t l /\ nm t = k) /\ (se = true -> k <> ""%string).
Proof.
  revert names. induction l as [|t l IH]; intros names.
  - cbn. split; [auto|]. intros [H|[(t & [] & _) _]]. exact H.
  - cbn [add_names fold_left]. fold (add_names nm se l).
    match goal with |- In k (fold_left _ l ?m) <-> _ => change (In k (add_names nm se l m) <->
      In k names \/ (exists t0, In t0 (t :: l) /\ nm t0 = k) /\ (se = true -> k <> ""%string)) end.
    rewrite IH.
    assert (T : (exists t0, In t0 (t :: l) /\ nm t0 = k) <-> nm t = k \/ exists t0, In t0 l /\ nm t0 = k).
    { split.
      - intros (t0 & [->|H] & E); eauto.
      - intros [E|(t0 & H & E)]; [exists t|exists t0]; split; auto; [now left|now right]. }
    rewrite T.
    destruct (((if se then nonempty (nm t) else true) && negb (listed names (nm t)))) eqn:C.
    + apply andb_true_iff in C as [C1 _]. cbn [In]. split.
      * intros [[E|H]|H]; [right|now left|right; tauto]. split; [now left|]. intros ->.
        rewrite <- E. now apply nonempty_true.
      * intros [H|[[E|H] S]]; [left; now right|left; now left|right; auto].
    + split; [tauto|]. intros [H|[[E|H] S]]; [now left| |right; auto].
      apply andb_false_iff in C as [C|C].
      * destruct se; [|discriminate]. apply nonempty_false in C. exfalso. apply S; congruence.
      * apply negb_false_iff, listed_spec in C. left. now subst.
Qed.

Definition used {V V2 T F : Type} (nv : V -> string) (nv2 : V2 -> string) (nt : T -> string) (nf : F -> string)
  (vis : list V) (vis2 : list V2) (t3 : list T) (flux : list F) (k : string) : Prop :=
  (exists t, In t vis /\ nv t = k) \/ (exists t, In t vis2 /\ nv2 t = k)
  \/ (exists t, In t t3 /\ nt t = k) \/ (exists t, In t flux /\ nf t = k).

Lemma arrname_list_spec vis vis2 t3 flux k :
  listed (get_arrname_list vis vis2 t3 flux) k = true <->
  k <> ""%string /\ used tb_arrname tb_arrname tb_arrname tb_arrname vis vis2 t3 flux k.
Proof.
  rewrite listed_spec. unfold get_arrname_list. rewrite <- in_rev, !add_names_spec. unfold used. cbn [In]. tauto.
Qed.
Lemma corrname_list_spec vis vis2 t3 flux k :
  listed (get_corrname_list vis vis2 t3 flux) k = true <->
  k <> ""%string /\ used tb_corrname tb_corrname tb_corrname tb_corrname vis vis2 t3 flux k.
Proof.
  rewrite listed_spec. unfold get_corrname_list. rewrite <- in_rev, !add_names_spec. unfold used. cbn [In]. tauto.
Qed.
Lemma insname_list_spec vis vis2 t3 flux k :
  listed (get_insname_list vis vis2 t3 flux) k = true <->
  used tb_insname tb_insname tb_insname tb_insname vis vis2 t3 flux k.
Proof.
  rewrite listed_spec. unfold get_insname_list. rewrite <- in_rev, !add_names_spec. unfold used. cbn [In].
  intuition congruence.
Qed.

(** ** OI_TARGET *)

Definition target_out (f : filter_spec) (t : oi_target) : oi_target :=
  if 0 <=? f_target_id f then
    match rev (filter (fun x => tg_target_id x =? f_target_id f) (ot_targ t)) with
    | [] => mk_oi_target (ot_revision t) 0 [] false
    | x :: _ => mk_oi_target (ot_revision t) 1 [tg_set_target_id 1 x] false
    end
  else t.

Lemma filter_oi_target_ok f t : wf_targets t = true -> 0 < ot_ntarget t ->
  filter_oi_target t f (o_targets init_oi_fits) = Ok (target_out f t).
Proof.
  intros Hwf Hpos. unfold filter_oi_target, target_out.
  destruct (0 <=? f_target_id f).
  - cbn [o_targets init_oi_fits ot_revision ot_targ ot_usecategory].
    unfold wf_targets in Hwf. apply len_is_eq in Hwf.
    rewrite (for_foreach (fun x out => if tg_target_id x =? f_target_id f then _ else Ok out) (ot_targ t) (ot_ntarget t))
      by exact Hwf.
    match goal with |- foreach _ ?b _ = _ => set (body := b) end.
    assert (G : forall l out, (forall x, In x l -> In x (ot_targ t)) -> ot_revision out = ot_revision t ->
      ot_usecategory out = false ->
      foreach l body out = Ok match rev (filter (fun x => tg_target_id x =? f_target_id f) l) with
        | [] => out | x :: _ => mk_oi_target (ot_revision t) 1 [tg_set_target_id 1 x] false end).
    { induction l as [|x l IH]; intros out Hl H1 H2; [reflexivity|].
      cbn [foreach filter]. unfold body at 1. destruct (tg_target_id x =? f_target_id f); cbn [bind].
      - rewrite IH; [|intros; apply Hl; now right|exact H1|exact H2]. cbn [rev].
        destruct (rev (filter (fun x0 => tg_target_id x0 =? f_target_id f) l)); cbn [app].
        + now rewrite H1, H2.
        + reflexivity.
      - apply IH; auto. intros; apply Hl; now right. }
    rewrite G by auto. destruct (rev (filter _ (ot_targ t))); reflexivity.
  - unfold wf_targets in Hwf. rewrite memdup_ok by assumption. cbn [bind]. destruct t; reflexivity.
Qed.

(** ** The whole filter *)

(** The specification with its patterns compiled *)
Definition compiled (f : filter_spec) : filter_spec :=
  set_pttns (Some (f_arrname f)) (Some (f_insname f)) (Some (f_corrname f)) f.

Section Pow.
Variable pow_half : f64 -> f64.

Definition vis_list (d : oi_fits) (f : filter_spec) : list oi_vis :=
  if f_accept_vis f then map (dtab_new (vis_okb pow_half f) (vis_out pow_half f) d f)
    (filter (dtab_kept (vis_okb pow_half f) d f) (o_visList d)) else [].
Definition vis2_list (d : oi_fits) (f : filter_spec) : list oi_vis2 :=
  if f_accept_vis2 f then map (dtab_new (vis2_okb pow_half f) (vis2_out pow_half f) d f)
    (filter (dtab_kept (vis2_okb pow_half f) d f) (o_vis2List d)) else [].
Definition t3_list (d : oi_fits) (f : filter_spec) : list oi_t3 :=
  if f_accept_t3amp f || f_accept_t3phi f then map (dtab_new (t3_okb pow_half f) (t3_out pow_half f) d f)
    (filter (dtab_kept (t3_okb pow_half f) d f) (o_t3List d)) else [].
Definition flux_list (d : oi_fits) (f : filter_spec) : list oi_flux :=
  if f_accept_flux f then map (dtab_new (fun _ _ => flux_okb f) (fun _ => flux_out f) d f)
    (filter (dtab_kept (fun _ _ => flux_okb f) d f) (o_fluxList d)) else [].

Definition arrnames (d : oi_fits) (f : filter_spec) : list string :=
  get_arrname_list (vis_list d f) (vis2_list d f) (t3_list d f) (flux_list d f).
Definition insnames (d : oi_fits) (f : filter_spec) : list string :=
  get_insname_list (vis_list d f) (vis2_list d f) (t3_list d f) (flux_list d f).
Definition corrnames (d : oi_fits) (f : filter_spec) : list string :=
  get_corrname_list (vis_list d f) (vis2_list d f) (t3_list d f) (flux_list d f).

Definition array_list (d : oi_fits) (f : filter_spec) : list oi_array :=
  filter (fun a => listed (arrnames d f) (ar_arrname a)) (filter (fun a => accept_arrname f (ar_arrname a)) (o_arrayList d)).
Definition corr_list (d : oi_fits) (f : filter_spec) : list oi_corr :=
  filter (fun a => listed (corrnames d f) (co_corrname a)) (filter (fun a => accept_corrname f (co_corrname a)) (o_corrList d)).
Definition wave_list (d : oi_fits) (f : filter_spec) : list oi_wavelength :=
  filter (fun w => listed (insnames d f) (wv_insname w)) (map (wave_out f) (filter (wave_kept f) (o_wavelengthList d))).
Definition inspol_list (d : oi_fits) (f : filter_spec) : list oi_inspol :=
  filter (fun t => listed (arrnames d f) (is_arrname t)) (map (inspol_out d f) (filter (inspol_keptb d f) (o_inspolList d))).

Definition filter_image (d : oi_fits) (f : filter_spec) (arrh : hash oi_array) (wavh : hash oi_wavelength)
  (corh : hash oi_corr) : oi_fits :=
  mk_fits (o_header d) (target_out f (o_targets d))
    (Z.of_nat (length (array_list d f))) (Z.of_nat (length (wave_list d f)))
    (Z.of_nat (length (corr_list d f))) (Z.of_nat (length (inspol_list d f)))
    (Z.of_nat (length (vis_list d f))) (Z.of_nat (length (vis2_list d f)))
    (Z.of_nat (length (t3_list d f))) (Z.of_nat (length (flux_list d f)))
    (array_list d f) (wave_list d f) (corr_list d f) (inspol_list d f)
    (vis_list d f) (vis2_list d f) (t3_list d f) (flux_list d f) arrh wavh corh.

Lemma forallb_in {A} (p : A -> bool) l a : forallb p l = true -> In a l -> p a = true.
Proof. rewrite forallb_forall. auto. Qed.

Lemma wave_wf d w : consistent d -> In w (o_wavelengthList d) ->
  wf_wavelength w = true /\ 0 < wv_nwave w /\ fits_value (wv_insname w) = true.
Proof.
  intros C Hw. destruct (wf_fits_parts d (cs_wf d C)) as (_ & _ & H & _).
  split; [now apply (forallb_in _ _ _ H)|]. now apply (cs_waves d C).
Qed.

(** Facts about the OI_WAVELENGTH of a table *)
Lemma table_wave d f {X R} (t : dtab X R) w : consistent d -> table_ready d t -> uses_insname d (tb_insname t) ->
  wv_of d (tb_insname t) = Some w ->
  oi_fits_lookup_wavelength d (tb_insname t) = Some w /\ wave_fits w (use_of f w) (tb_nwave t)
  /\ tb_nwave t = Z.of_nat (length (use_of f w)).
Proof.
  intros C [_ HR] HU E. apply wv_of_instrument in E; [|apply (cs_unique d C)].
  assert (Hin := E). destruct E as [Hw En].
  destruct (wave_wf d w C Hw) as (Wf & Wpos & _). destruct (wf_wavelength_len w Wf) as (WL & _ & W0).
  rewrite (HR w Hin) in WL, W0, Wpos.
  split; [|split].
  - unfold oi_fits_lookup_wavelength. rewrite <- En. apply (cs_index d C); [exact Hw|]. now rewrite En.
  - unfold wave_fits, use_of. rewrite map_length. auto.
  - unfold use_of. rewrite map_length. lia.
Qed.

Lemma uses_vis d t : In t (o_visList d) -> uses_insname d (tb_insname t).
Proof. intros H. left. eauto. Qed.
Lemma uses_vis2 d t : In t (o_vis2List d) -> uses_insname d (tb_insname t).
Proof. intros H. right. left. eauto. Qed.
Lemma uses_t3 d t : In t (o_t3List d) -> uses_insname d (tb_insname t).
Proof. intros H. right. right. left. eauto. Qed.
Lemma uses_flux d t : In t (o_fluxList d) -> uses_insname d (tb_insname t).
Proof. intros H. right. right. right. eauto. Qed.

Lemma wf_dtab_records {X R} wfr (t : dtab X R) r : wf_dtab wfr t = true -> In r (tb_record t) ->
  wfr (tb_nwave t) r = true.
Proof. intros H Hr. apply andb_true_iff in H as [_ H]. now apply (forallb_in _ _ _ H). Qed.

Lemma okb_flagged a b c x y : a && b && c && (x || y) = true -> x || y = true.
Proof. destruct a, b, c; cbn; congruence. Qed.

Lemma filter_all_vis_ok d f : consistent d ->
  filter_all_oi_vis pow_half d f (use_hash d f) = Ok (vis_list d f, Z.of_nat (length (vis_list d f))).
Proof.
  intros C. unfold filter_all_oi_vis. apply filter_all_kind_ok; [apply (cs_unique d C)|].
  intros t w Ht E Hc.
  destruct (table_wave d f t w C (cs_vis d C t Ht) (uses_vis d t Ht) E) as (HL & HF & HN). rewrite HL.
  destruct (wf_fits_parts d (cs_wf d C)) as (_&_&_&_&_&H&_). pose proof (forallb_in _ _ _ H Ht) as Wf.
  apply filter_dtab_ok; [now apply (wf_dtab_len _ _ Wf)|apply (cs_vis d C t Ht)|exact HN| |].
  - intros r Hr. apply (vis_record_ok_ok _ _ _ (tb_x t)); [exact HF|]. now apply (wf_dtab_records _ _ _ Wf).
  - intros r Hr Hok. apply vis_record_filter; [exact HF|now apply (wf_dtab_records _ _ _ Wf)|exact Hc|].
    now apply okb_flagged in Hok.
Qed.
Lemma filter_all_vis2_ok d f : consistent d ->
  filter_all_oi_vis2 pow_half d f (use_hash d f) = Ok (vis2_list d f, Z.of_nat (length (vis2_list d f))).
Proof.
  intros C. unfold filter_all_oi_vis2. apply filter_all_kind_ok; [apply (cs_unique d C)|].
  intros t w Ht E Hc.
  destruct (table_wave d f t w C (cs_vis2 d C t Ht) (uses_vis2 d t Ht) E) as (HL & HF & HN). rewrite HL.
  destruct (wf_fits_parts d (cs_wf d C)) as (_&_&_&_&_&_&H&_). pose proof (forallb_in _ _ _ H Ht) as Wf.
  apply filter_dtab_ok; [now apply (wf_dtab_len _ _ Wf)|apply (cs_vis2 d C t Ht)|exact HN| |].
  - intros r Hr. apply vis2_record_ok_ok; [exact HF|]. now apply (wf_dtab_records _ _ _ Wf).
  - intros r Hr Hok. apply vis2_record_filter; [exact HF|now apply (wf_dtab_records _ _ _ Wf)|exact Hc|].
    now apply okb_flagged in Hok.
Qed.
Lemma filter_all_t3_ok d f : consistent d ->
  filter_all_oi_t3 pow_half d f (use_hash d f) = Ok (t3_list d f, Z.of_nat (length (t3_list d f))).
Proof.
  intros C. unfold filter_all_oi_t3. apply filter_all_kind_ok; [apply (cs_unique d C)|].
  intros t w Ht E Hc.
  destruct (table_wave d f t w C (cs_t3 d C t Ht) (uses_t3 d t Ht) E) as (HL & HF & HN). rewrite HL.
  destruct (wf_fits_parts d (cs_wf d C)) as (_&_&_&_&_&_&_&H&_). pose proof (forallb_in _ _ _ H Ht) as Wf.
  apply filter_dtab_ok; [now apply (wf_dtab_len _ _ Wf)|apply (cs_t3 d C t Ht)|exact HN| |].
  - intros r Hr. apply t3_record_ok_ok; [exact HF|]. now apply (wf_dtab_records _ _ _ Wf).
  - intros r Hr Hok. apply t3_record_filter; [exact HF|now apply (wf_dtab_records _ _ _ Wf)|exact Hc|].
    now apply okb_flagged in Hok.
Qed.
Lemma filter_all_flux_ok d f : consistent d ->
  filter_all_oi_flux d f (use_hash d f) = Ok (flux_list d f, Z.of_nat (length (flux_list d f))).
Proof.
  intros C. unfold filter_all_oi_flux. apply filter_all_kind_ok; [apply (cs_unique d C)|].
  intros t w Ht E Hc.
  destruct (table_wave d f t w C (cs_flux d C t Ht) (uses_flux d t Ht) E) as (_ & (HF1 & HF2 & _) & HN).
  destruct (wf_fits_parts d (cs_wf d C)) as (_&_&_&_&_&_&_&_&H&_). pose proof (forallb_in _ _ _ H Ht) as Wf.
  apply filter_dtab_ok; [now apply (wf_dtab_len _ _ Wf)|apply (cs_flux d C t Ht)|exact HN| |].
  - intros r Hr. reflexivity.
  - intros r Hr Hok. apply (flux_record_filter pow_half); [exact HF2|now apply (wf_dtab_records _ _ _ Wf)|exact Hc].
Qed.

Lemma apply_oi_filter_ok d f0 : consistent d -> fresh_filter f0 ->
  exists arrh wavh corh,
    apply_oi_filter pow_half d f0 = Ok (f0, filter_image d (compiled f0) arrh wavh corh)
    /\ indexes ar_arrname (array_list d (compiled f0)) arrh
    /\ indexes wv_insname (wave_list d (compiled f0)) wavh
    /\ indexes co_corrname (corr_list d (compiled f0)) corh.
Proof.
  intros C (F1 & F2 & F3). set (f := compiled f0).
  destruct (wf_fits_parts d (cs_wf d C)) as (W1 & W2 & W3 & W4 & W5 & _).
  assert (HI : forall {A} (nm : A -> string) l, indexes nm l (hash_fold nm Some l hash_new)).
  { intros A nm l k. rewrite hash_fold_lookup. now destruct (find_by nm (rev l) k). }
  destruct (prune_all_ok ar_arrname (arrnames d f) (filter (fun a => accept_arrname f (ar_arrname a)) (o_arrayList d))
    _ (hash_fold ar_arrname Some (filter (fun a => accept_arrname f (ar_arrname a)) (o_arrayList d)) hash_new) eq_refl)
    as (arrh & PA & IA).
  destruct (prune_all_ok is_arrname (arrnames d f) (map (inspol_out d f) (filter (inspol_keptb d f) (o_inspolList d)))
    _ hash_new eq_refl) as (iph & PI & _).
  destruct (prune_all_ok wv_insname (insnames d f) (map (wave_out f) (filter (wave_kept f) (o_wavelengthList d)))
    _ (hash_fold wv_insname Some (map (wave_out f) (filter (wave_kept f) (o_wavelengthList d))) hash_new) eq_refl)
    as (wavh & PW & IW).
  destruct (prune_all_ok co_corrname (corrnames d f) (filter (fun a => accept_corrname f (co_corrname a)) (o_corrList d))
    _ (hash_fold co_corrname Some (filter (fun a => accept_corrname f (co_corrname a)) (o_corrList d)) hash_new) eq_refl)
    as (corh & PC & IC).
  exists arrh, wavh, corh. split; [|split; [apply IA, HI|split; [apply IW, HI|apply IC, HI]]].
  unfold apply_oi_filter. rewrite F1, F2, F3. cbn [is_none assert_ bind]. cbv zeta. fold (compiled f0). fold f.
  rewrite filter_oi_target_ok by (exact W1 || apply (cs_targets d C)). cbn [bind].
  unfold filter_all_oi_array. rewrite filter_copied_ok.
  2:{ intros a Ha. apply dup_oi_array_ok; [now apply (forallb_in _ _ _ W2)|now apply (cs_arrays d C)]. }
  cbv zeta. cbn [bind].
  unfold filter_all_oi_corr. rewrite filter_copied_ok.
  2:{ intros a Ha. apply dup_oi_corr_ok; [now apply (forallb_in _ _ _ W4)|now apply (cs_corrs d C)]. }
  cbv zeta. cbn [bind].
  rewrite filter_all_oi_wavelength_ok by (intros w Hw; now apply (wave_wf d w C)). cbn [bind]. cbv zeta.
  fold (use_hash d f).
  rewrite filter_all_oi_inspol_ok.
  2:{ apply (cs_unique d C). }
  2:{ intros w Hw; now apply (wave_wf d w C). }
  2:{ intros t Ht. split; [now apply (forallb_in _ _ _ W5)|]. destruct (cs_inspol d C t Ht) as (P & name & H1 & H2).
      split; [exact P|]. exists name. split; assumption. }
  cbn [bind].
  rewrite filter_all_vis_ok, filter_all_vis2_ok, filter_all_t3_ok, filter_all_flux_ok by exact C. cbn [bind].
  fold (arrnames d f) (insnames d f) (corrnames d f).
  rewrite PA. cbn [bind fst snd]. rewrite PI. cbn [bind]. rewrite PW. cbn [bind]. rewrite PC. cbn [bind].
  fold (array_list d f) (inspol_list d f) (wave_list d f) (corr_list d f).
  do 2 f_equal. unfold f, compiled. destruct f0. cbn in F1, F2, F3. subst. reflexivity.
Qed.

End Pow.
