(** Filtering and merging commute. *)
From Verif Require Import Base BaseLemmas FloatModel Types FileModel FileSpec FileProofs FilterModel FilterSpec FilterLemmas
  FilterProofs FilterRecords FilterTables FilterApply FilterResults FilterMain
  MergeModel MergeSpec MergeProofs MergeNames MergeNamed MergeTables MergeTargets MergeHeader MergeData MergeWhole MergeFacts
  CommuteSpec CommuteData.
From Coq Require Import Lia.
Open Scope list_scope.
Open Scope Z_scope.

(** ** Two lists of tables traced to the same inputs *)

Lemma Forall2_app_l {A B} (P : A -> B -> Prop) l1 l2 m : Forall2 P (l1 ++ l2) m ->
  exists m1 m2, m = m1 ++ m2 /\ Forall2 P l1 m1 /\ Forall2 P l2 m2.
Proof. intros H. apply Forall2_app_inv_l in H as (m1 & m2 & H1 & H2 & E). eauto. Qed.

Lemma zip_one {T} (d d' : oi_fits) (P Q : oi_fits * T -> T -> Prop) (kept keptm : T -> bool) (new newm : T -> T)
  (S : T -> T -> Prop) l : forall L M,
  (forall t tm, In t l -> P (d, t) tm -> keptm tm = kept t) ->
  (forall t tm tf, In t l -> kept t = true -> P (d, t) tm -> Q (d', new t) tf -> S (newm tm) tf) ->
  Forall2 P (map (pair d) l) L -> Forall2 Q (map (pair d') (map new (filter kept l))) M ->
  Forall2 S (map newm (filter keptm L)) M.
Proof.
  induction l as [|t l IH]; intros L M K N F G.
  - inversion F; subst. inversion G; subst. constructor.
  - cbn [map] in F. inversion F as [|? tm ? L' Hp F']; subst. cbn [filter].
    rewrite (K t tm (or_introl eq_refl) Hp). cbn [filter] in G. destruct (kept t) eqn:E.
    + cbn [map] in G. inversion G as [|? tf ? M' Hq G']; subst. cbn [map]. constructor.
      * eapply N; eauto. now left.
      * eapply IH; eauto; intros; [eapply K|eapply N]; eauto; now right.
    + eapply IH; eauto; intros; [eapply K|eapply N]; eauto; now right.
Qed.

Lemma zip_tables {T} (ins ins' : list oi_fits) (R : oi_fits -> oi_fits -> Prop) (tabs : oi_fits -> list T)
  (P Q : oi_fits * T -> T -> Prop) (kept : oi_fits -> T -> bool) (keptm : T -> bool) (new : oi_fits -> T -> T)
  (newm : T -> T) (S : T -> T -> Prop) : forall L M,
  Forall2 R ins ins' ->
  (forall d d', In d ins -> R d d' -> tabs d' = map (new d) (filter (kept d) (tabs d))) ->
  (forall d t tm, In d ins -> In t (tabs d) -> P (d, t) tm -> keptm tm = kept d t) ->
  (forall d d' t tm tf, In d ins -> R d d' -> In t (tabs d) -> kept d t = true -> P (d, t) tm ->
     Q (d', new d t) tf -> S (newm tm) tf) ->
  Forall2 P (from_inputs tabs ins) L -> Forall2 Q (from_inputs tabs ins') M ->
  Forall2 S (map newm (filter keptm L)) M.
Proof.
  intros L M FR. revert L M. induction FR as [|d d' l l' r FR IH]; intros L M E K N F G.
  - inversion F; subst. inversion G; subst. constructor.
  - unfold from_inputs in F, G. cbn [flat_map] in F, G.
    apply Forall2_app_l in F as (L1 & L2 & -> & F1 & F2). apply Forall2_app_l in G as (M1 & M2 & -> & G1 & G2).
    rewrite filter_app, map_app. apply Forall2_app.
    + rewrite (E d d' (or_introl eq_refl) r) in G1.
      eapply zip_one; [| |exact F1|exact G1].
      * intros t tm Ht. apply (K d t tm); auto. now left.
      * intros t tm tf Ht Hk. apply (N d d' t tm tf); auto. now left.
    + apply IH; auto.
      * intros x x' Hx. apply E. now right.
      * intros x t tm Hx. apply K. now right.
      * intros x x' t tm tf Hx. apply N. now right.
Qed.

Lemma existsb_Forall2 {A B} (P : A -> B -> Prop) p q l m : (forall a b, P a b -> q b = p a) ->
  Forall2 P l m -> existsb q m = existsb p l.
Proof. intros K F. induction F as [|a b l m H F IH]; [reflexivity|]. cbn. now rewrite (K a b H), IH. Qed.

Section Both.
Variables (pow_half : f64 -> f64) (f0 f1 : filter_spec) (ins ins' : list oi_fits) (m fm mf : oi_fits).
Hypothesis C : Forall consistent ins.
Hypothesis Ne : ins <> [].
Hypothesis HF : fresh_filter f0.
Hypothesis BD : by_data f0.
Hypothesis Fit : Forall names_fit ins.
Hypothesis Dn : Forall distinct_names ins.
Hypothesis Cm : Forall complete ins.
Hypothesis Nm : Forall named ins.
Hypothesis Ew : exact wv_eff_wave ins.
Hypothesis Eb : exact wv_eff_band ins.
Hypothesis Hm : merge_oi_fits_list ins = Ok m.
Hypothesis Hfm : apply_oi_filter pow_half m f0 = Ok (f1, fm).
Hypothesis Hf : Forall2 (fun d d' => exists f', apply_oi_filter pow_half d f0 = Ok (f', d')) ins ins'.
Hypothesis Hmf : merge_oi_fits_list ins' = Ok mf.
Hypothesis Dm : distinct_names m.
Hypothesis Dmf : distinct_names mf.

Notation f := (compiled f0).

Lemma star_all n : glob "*" n = true.
Proof. apply glob_spec, glob_star. Qed.
Lemma accept_a n : accept_arrname f n = true.
Proof using BD. destruct BD as (E & _). unfold accept_arrname. cbn. rewrite E. apply star_all. Qed.
Lemma accept_i n : accept_insname f n = true.
Proof using BD. destruct BD as (_ & E & _). unfold accept_insname. cbn. rewrite E. apply star_all. Qed.
Lemma accept_c n : accept_corrname f n = true.
Proof using BD. destruct BD as (_ & _ & E & _). unfold accept_corrname. cbn. rewrite E. apply star_all. Qed.
Lemma no_target : f_target_id f < 0.
Proof using BD. destruct BD as (_ & _ & _ & E). exact E. Qed.

(** ** One input and its filtered version *)

Definition image (d d' : oi_fits) : Prop := consistent d /\ exists h1 h2 h3, d' = filter_image pow_half d f h1 h2 h3
  /\ indexes ar_arrname (array_list pow_half d f) h1
  /\ indexes wv_insname (wave_list pow_half d f) h2
  /\ indexes co_corrname (corr_list pow_half d f) h3.

Lemma images : Forall2 image ins ins'.
Proof using C HF Hf.
  clear -C HF Hf. induction Hf as [|d d' l l' (f' & E) F IH]; constructor.
  - inversion C; subst. split; [assumption|]. eapply apply_inv; eauto.
  - inversion C; subst. auto.
Qed.
Lemma image_targets d d' : image d d' -> o_targets d' = o_targets d.
Proof using BD.
  intros (_ & h1 & h2 & h3 & -> & _). cbn [o_targets filter_image]. unfold target_out.
  pose proof no_target. destruct (Z.leb_spec 0 (f_target_id f)); [lia|reflexivity].
Qed.
Lemma same_targets : all_targets ins' = all_targets ins.
Proof using C HF Hf BD.
  pose proof images as I. clear -I BD. induction I as [|d d' l l' H F IH]; [reflexivity|].
  unfold all_targets in *. cbn [flat_map]. now rewrite IH, (image_targets d d' H).
Qed.
Lemma in_image d' : In d' ins' -> exists d, In d ins /\ image d d'.
Proof using C HF Hf. intros H. destruct (Forall2_in_r _ _ _ d' images H) as (d & Hd & I). eauto. Qed.

Lemma images_consistent : Forall consistent ins'.
Proof using C HF Hf BD.
  clear -C HF Hf BD. induction Hf as [|d d' l l' (f' & E) F IH]; constructor.
  - inversion C; subst. eapply main_consistent; eauto. left. exact no_target.
  - inversion C; subst. auto.
Qed.
Lemma filter_names {A} (nm : A -> string) (p : A -> bool) l : NoDup (map nm l) -> NoDup (map nm (filter p l)).
Proof. apply NoDup_map_filter. Qed.
Lemma map_wave_out l : map wv_insname (map (wave_out f) l) = map wv_insname l.
Proof. rewrite map_map. reflexivity. Qed.
Lemma image_distinct d d' : image d d' -> distinct_names d -> distinct_names d'.
Proof using.
  intros (_ & h1 & h2 & h3 & -> & _) (N1 & N2 & N3). unfold distinct_names.
  cbn [o_arrayList o_wavelengthList o_corrList filter_image]. unfold array_list, wave_list, corr_list.
  split; [|split].
  - now do 2 apply NoDup_map_filter.
  - apply NoDup_map_filter. rewrite map_wave_out. now apply NoDup_map_filter.
  - now do 2 apply NoDup_map_filter.
Qed.
Lemma image_wave d d' w' : image d d' -> In w' (o_wavelengthList d') ->
  exists w, In w (o_wavelengthList d) /\ w' = wave_out f w.
Proof using.
  intros (_ & h1 & h2 & h3 & -> & _) Hw. cbn [o_wavelengthList filter_image] in Hw. unfold wave_list in Hw.
  apply filter_In in Hw as [Hw _]. apply in_map_iff in Hw as (w & <- & Hw). apply filter_In in Hw as [Hw _]. eauto.
Qed.
Lemma image_array d d' a : image d d' -> In a (o_arrayList d') -> In a (o_arrayList d).
Proof using.
  intros (_ & h1 & h2 & h3 & -> & _) Ha. cbn [o_arrayList filter_image] in Ha. unfold array_list in Ha.
  apply filter_In in Ha as [Ha _]. now apply filter_In in Ha as [Ha _].
Qed.
Lemma image_corr d d' a : image d d' -> In a (o_corrList d') -> In a (o_corrList d).
Proof using.
  intros (_ & h1 & h2 & h3 & -> & _) Ha. cbn [o_corrList filter_image] in Ha. unfold corr_list in Ha.
  apply filter_In in Ha as [Ha _]. now apply filter_In in Ha as [Ha _].
Qed.
Lemma image_fit d d' : image d d' -> names_fit d -> names_fit d'.
Proof using.
  intros I (N1 & N2 & N3). rewrite Forall_forall in N1, N2, N3.
  split; [|split]; apply Forall_forall; intros x Hx.
  - eapply N1, image_array; eauto.
  - destruct (image_wave _ _ _ I Hx) as (w & Hw & ->). now apply (N2 w).
  - eapply N3, image_corr; eauto.
Qed.
Lemma images_fit : Forall names_fit ins'.
Proof using C HF Hf Fit.
  apply Forall_forall. intros d' Hd. destruct (in_image d' Hd) as (d & Hd0 & I).
  rewrite Forall_forall in Fit. eapply image_fit; eauto.
Qed.

(** ** Wavelengths *)

Lemma in_sel {A} use (l : list A) x : In x (sel use l) -> In x l.
Proof.
  revert l. induction use as [|b use IH]; intros [|a l]; cbn [sel]; try contradiction.
  destruct b; cbn [In]; intros H; [destruct H as [->|H]|]; auto.
Qed.
Lemma exact_Forall2 (d d' : oi_fits) w w' (col : oi_wavelength -> list f32) l :
  exact col l -> In d l -> In w (o_wavelengthList d) -> In d' l -> In w' (o_wavelengthList d') ->
  Forall2 (fun x x' => close_wave x' x) (col w) (col w') -> col w' = col w.
Proof.
  intros E Hd Hw Hd' Hw' F.
  assert (K : forall x x', In x (col w) -> In x' (col w') -> close_wave x' x -> x' = x)
    by (intros x x' Hx Hx'; apply (E d' w' x' d w x); assumption).
  revert K F. generalize (col w) (col w'). intros l1 l2 K F. induction F as [|x x' l1 l2 H F IH]; [reflexivity|].
  rewrite (K x x'); [|now left|now left|exact H]. f_equal. apply IH. intros y y' Hy Hy'. apply K; now right.
Qed.
Lemma exact_image (col : oi_wavelength -> list f32) :
  (forall w, incl (col (wave_out f w)) (col w)) -> exact col ins -> exact col ins'.
Proof using C HF Hf.
  intros I E d1 w1 x1 d2 w2 x2 Hd1 Hw1 Hx1 Hd2 Hw2 Hx2.
  destruct (in_image d1 Hd1) as (e1 & He1 & I1). destruct (in_image d2 Hd2) as (e2 & He2 & I2).
  destruct (image_wave _ _ _ I1 Hw1) as (v1 & Hv1 & ->). destruct (image_wave _ _ _ I2 Hw2) as (v2 & Hv2 & ->).
  apply (E e1 v1 x1 e2 v2 x2); auto; now apply I.
Qed.

(** In a merged dataset: a column is the one of the input *)
Lemma merged_column (l : list oi_fits) (o : oi_fits) (col : oi_wavelength -> list f32) d w w' :
  Forall (fun d => wf_fits d = true) l -> merge_oi_fits_list l = Ok o -> exact col l ->
  (forall n x, col (wv_set_insname n x) = col x) -> (forall n x, col (wv_set_revision n x) = col x) ->
  In d l -> In w (o_wavelengthList d) -> In w' (o_wavelengthList o) ->
  Forall2 (fun x x' => close_wave x' x) (col w) (col w') -> col w' = col w.
Proof.
  intros W H E K1 K2 Hd Hw Hw' F. pose proof (waves_from_inputs l o W H) as G. rewrite Forall_forall in G.
  destruct (G w' Hw') as (d2 & w2 & Hd2 & Hw2 & E2). apply (f_equal col) in E2. rewrite K1, K2 in E2.
  rewrite E2. rewrite E2 in F. eapply (exact_Forall2 d d2 w w2 col l); eauto.
Qed.

(** ** What the names refer to *)

Let W : Forall (fun d => wf_fits d = true) ins := wf_all ins C.
Let W' : Forall (fun d => wf_fits d = true) ins' := wf_all ins' images_consistent.
Let Cmerged : consistent m := merged_consistent ins m C Ne Fit Cm Hm Dm.

Lemma image_m : image m fm.
Proof using All. split; [exact Cmerged|]. eapply apply_inv; eauto. Qed.
Lemma of_ins (Q : oi_fits -> Prop) d : Forall Q ins -> In d ins -> Q d.
Proof. intros F. rewrite Forall_forall in F. auto. Qed.

Lemma resolve_image d d' n : image d d' -> uses_insname d' n ->
  exists w, instrument d' n w /\ oi_fits_lookup_wavelength d' n = Some w.
Proof using HF.
  intros (Cd & I) U. destruct (apply_oi_filter_ok pow_half d f0 Cd HF) as (g1 & g2 & g3 & E & J1 & J2 & J3).
  destruct I as (h1 & h2 & h3 & -> & I1 & I2 & I3).
  destruct (main_resolve_ins pow_half d f0 f0 _ Cd HF E n) as (w & Hw & L); [exact U|].
  exists w. split; [exact Hw|]. unfold oi_fits_lookup_wavelength in *. cbn [o_wavelengthHash filter_image] in *.
  rewrite I2. now rewrite J2 in L.
Qed.

(** [w] and the OI_WAVELENGTH the new name refers to *)
Lemma channels_m d n n' w : In d ins -> instrument d n w -> wavelength_follows d m n n' ->
  exists w', instrument m n' w' /\ oi_fits_lookup_wavelength m n' = Some w' /\ wv_nwave w' = wv_nwave w
    /\ wv_eff_wave w' = wv_eff_wave w /\ wv_eff_band w' = wv_eff_band w.
Proof using C Hm Dm Ew Eb.
  intros Hd Hw F. destruct (merged_wave ins m C Hm Dm d w n n' Hd Hw F) as (w' & L & (S1 & S2 & S3) & Hin & Q).
  exists w'. split; [now apply Q|]. split; [exact L|]. split; [exact S1|]. destruct Hw as [Hw _]. split.
  - eapply (merged_column ins m wv_eff_wave d); eauto using wf_all.
  - eapply (merged_column ins m wv_eff_band d); eauto using wf_all.
Qed.
Lemma channels_mf d d' n n' w : In d ins -> In d' ins' -> image d d' -> instrument d n w -> uses_insname d' n ->
  wavelength_follows d' mf n n' ->
  exists w', oi_fits_lookup_wavelength mf n' = Some w' /\ wv_nwave w' = wv_nwave (wave_out f w)
    /\ wv_eff_wave w' = wv_eff_wave (wave_out f w) /\ wv_eff_band w' = wv_eff_band (wave_out f w).
Proof using C HF BD Hf Hmf Dmf Ew Eb.
  intros Hd Hd' I Hw U F. destruct (resolve_image d d' n I U) as (w1 & Hw1 & _).
  assert (E1 : w1 = wave_out f w).
  { destruct Hw1 as [H1 E1]. destruct (image_wave d d' w1 I H1) as (w2 & H2 & ->). f_equal.
    destruct Hw as [Hw En]. eapply (NoDup_map_inj wv_insname); [apply (cs_unique d (proj1 I))|exact H2|exact Hw|].
    cbn in E1. congruence. }
  subst w1.
  destruct (merged_wave ins' mf images_consistent Hmf Dmf d' _ n n' Hd' Hw1 F) as (w' & L & (S1 & S2 & S3) & Hin & Q).
  exists w'. split; [exact L|]. split; [exact S1|]. destruct Hw1 as [Hw1 _]. split.
  - eapply (merged_column ins' mf wv_eff_wave d'); eauto using wf_all, images_consistent.
    apply exact_image; [|exact Ew]. intros v x. cbn. apply in_sel.
  - eapply (merged_column ins' mf wv_eff_band d'); eauto using wf_all, images_consistent.
    apply exact_image; [|exact Eb]. intros v x. cbn. apply in_sel.
Qed.

Lemma same_channels_both d d' n nm nf : In d ins -> In d' ins' -> image d d' -> uses_insname d n -> uses_insname d' n ->
  uses_insname fm nm -> wavelength_follows d m n nm -> wavelength_follows d' mf n nf -> same_channels fm mf nm nf.
Proof using All.
  intros Hd Hd' I U U' Um F F'. destruct (of_ins complete d Cm Hd) as (K & _).
  destruct (in_map_name _ _ _ (K n U)) as (w & Hw & En).
  destruct (channels_m d n nm w Hd (conj Hw En) F) as (wm & Im & _ & N1 & E1 & B1).
  destruct (channels_mf d d' n nf w Hd Hd' I (conj Hw En) U' F') as (wf & Lf & N2 & E2 & B2).
  destruct (resolve_image m fm nm image_m Um) as (w1 & Hw1 & L1).
  assert (X : w1 = wave_out f wm).
  { destruct Hw1 as [H1 X1]. destruct (image_wave m fm w1 image_m H1) as (w2 & H2 & ->). f_equal.
    destruct Im as [Im Ei]. eapply (NoDup_map_inj wv_insname); [apply Dm|exact H2|exact Im|]. cbn in X1. congruence. }
  subst w1. exists (wave_out f wm), wf. split; [exact L1|]. split; [exact Lf|].
  rewrite N2, E2, B2. unfold wave_out, use_of. cbn [wv_nwave wv_eff_wave wv_eff_band]. rewrite E1, B1. auto.
Qed.

Lemma latest_in_m {A} (nm : A -> string) (l : list A) h n a :
  (forall k, hash_lookup h k = latest_named nm l k) -> hash_lookup h n = Some a -> In a l /\ nm a = n.
Proof. intros K E. rewrite K in E. now apply latest_in in E. Qed.

Lemma same_array_both d d' n nm nf : In d ins -> In d' ins' -> image d d' ->
  (n <> ""%string -> uses_arrname d n /\ uses_arrname d' n) ->
  (nm <> ""%string -> uses_arrname fm nm) -> array_follows d m n nm -> array_follows d' mf n nf ->
  same_array ins fm mf nm nf.
Proof using All.
  intros Hd Hd' I U Um F F'. destruct (string_dec n ""%string) as [->|Nn].
  { left. exact (conj (proj1 F eq_refl) (proj1 F' eq_refl)). }
  right. destruct (U Nn) as [U1 U2]. destruct (of_ins complete d Cm Hd) as (_ & K & _).
  destruct (in_map_name _ _ _ (K n U1)) as (a & Ha & En). destruct (of_ins _ d Dn Hd) as (Nd & _).
  pose proof (in_the_one _ _ _ Nd Ha) as T. rewrite En in T.
  destruct F as [_ F]. destruct (F Nn) as [G _]. destruct (G a T) as (am & Lm & Sm).
  assert (Xm : In am (o_arrayList m) /\ ar_arrname am = nm).
  { destruct (merge_facts ins m W Hm) as (ids & Fa). destruct (fa_arrays _ _ _ Fa) as (_ & _ & Hh).
    exact (latest_in_m _ _ _ _ _ Hh Lm). }
  destruct Xm as [Hm1 Hm2].
  assert (Nnm : nm <> ""%string) by (rewrite <- Hm2; apply (merged_named ins m C Hm Nm); exact Hm1).
  destruct (main_resolve_arr pow_half m f0 f1 fm Cmerged HF Hfm nm am (Um Nnm) Hm1 Hm2) as (a1 & L1 & H1 & X1).
  assert (E1 : a1 = am).
  { eapply (NoDup_map_inj ar_arrname); [apply Dm|eapply image_array; [exact image_m|exact H1]|exact Hm1|congruence]. }
  subst a1.
  assert (T' : the_one ar_arrname (o_arrayList d') n a).
  { destruct I as (Cd & h1 & h2 & h3 & Ed & I1 & I2 & I3).
    assert (I : image d d') by (split; [exact Cd|exists h1, h2, h3; auto]).
    destruct (apply_oi_filter_ok pow_half d f0 Cd HF) as (g1 & g2 & g3 & E & J1 & J2 & J3).
    assert (U3 : uses_arrname (filter_image pow_half d f g1 g2 g3) n) by (rewrite Ed in U2; exact U2).
    destruct (main_resolve_arr pow_half d f0 f0 _ Cd HF E n a U3 Ha En) as (a2 & _ & H2 & X2).
    assert (H3 : In a2 (o_arrayList d')) by (rewrite Ed; exact H2).
    assert (E2 : a2 = a).
    { eapply (NoDup_map_inj ar_arrname); [exact Nd|eapply image_array; [exact I|exact H3]|exact Ha|congruence]. }
    subst a2. rewrite <- En. apply in_the_one; [|exact H3]. apply (image_distinct d d' I). apply (of_ins _ d Dn Hd). }
  destruct F' as [_ F']. destruct (F' Nn) as [G' _]. destruct (G' a T') as (af & Lf & Sf).
  exists d, a, am, af. auto 8.
Qed.

Lemma same_corr_both d d' n nm nf : In d ins -> In d' ins' -> image d d' ->
  (n <> ""%string -> uses_corrname d n /\ uses_corrname d' n) ->
  (nm <> ""%string -> uses_corrname fm nm) -> corr_follows d m n nm -> corr_follows d' mf n nf ->
  same_corr fm mf nm nf.
Proof using All.
  intros Hd Hd' I U Um F F'. destruct (string_dec n ""%string) as [->|Nn].
  { left. exact (conj (proj1 F eq_refl) (proj1 F' eq_refl)). }
  right. destruct (U Nn) as [U1 U2]. destruct (of_ins complete d Cm Hd) as (_ & _ & K & _).
  destruct (in_map_name _ _ _ (K n U1)) as (a & Ha & En). destruct (of_ins _ d Dn Hd) as (_ & _ & Nd).
  pose proof (in_the_one _ _ _ Nd Ha) as T. rewrite En in T.
  destruct F as [_ F]. destruct (F Nn) as [G _]. destruct (G a T) as (am & Lm & Sm).
  assert (Xm : In am (o_corrList m) /\ co_corrname am = nm).
  { destruct (merge_facts ins m W Hm) as (ids & Fa). destruct (fa_corrs _ _ _ Fa) as (_ & _ & Hh).
    exact (latest_in_m _ _ _ _ _ Hh Lm). }
  destruct Xm as [Hm1 Hm2].
  assert (Nnm : nm <> ""%string) by (rewrite <- Hm2; apply (merged_named ins m C Hm Nm); exact Hm1).
  destruct (main_resolve_corr pow_half m f0 f1 fm Cmerged HF Hfm nm am (Um Nnm) Hm1 Hm2) as (a1 & L1 & H1 & X1).
  assert (E1 : a1 = am).
  { eapply (NoDup_map_inj co_corrname); [apply Dm|eapply image_corr; [exact image_m|exact H1]|exact Hm1|congruence]. }
  subst a1.
  assert (T' : the_one co_corrname (o_corrList d') n a).
  { destruct I as (Cd & h1 & h2 & h3 & Ed & I1 & I2 & I3).
    assert (I : image d d') by (split; [exact Cd|exists h1, h2, h3; auto]).
    destruct (apply_oi_filter_ok pow_half d f0 Cd HF) as (g1 & g2 & g3 & E & J1 & J2 & J3).
    assert (U3 : uses_corrname (filter_image pow_half d f g1 g2 g3) n) by (rewrite Ed in U2; exact U2).
    destruct (main_resolve_corr pow_half d f0 f0 _ Cd HF E n a U3 Ha En) as (a2 & _ & H2 & X2).
    assert (H3 : In a2 (o_corrList d')) by (rewrite Ed; exact H2).
    assert (E2 : a2 = a).
    { eapply (NoDup_map_inj co_corrname); [exact Nd|eapply image_corr; [exact I|exact H3]|exact Ha|congruence]. }
    subst a2. rewrite <- En. apply in_the_one; [|exact H3]. apply (image_distinct d d' I). apply (of_ins _ d Dn Hd). }
  destruct F' as [_ F']. destruct (F' Nn) as [G' _]. destruct (G' a T') as (af & Lf & Sf).
  exists am, af. split; [exact L1|]. split; [exact Lf|]. unfold merged_corr in Sm, Sf.
  transitivity (co_set_corrname "" a); [rewrite <- Sm; reflexivity|rewrite <- Sf; reflexivity].
Qed.

(** ** The tables of one kind *)

Lemma Forall2_with_in {A B} (P : A -> B -> Prop) l k : Forall2 P l k -> Forall2 (fun a b => P a b /\ In b k) l k.
Proof.
  intros F. assert (G : forall k', incl k k' -> Forall2 (fun a b => P a b /\ In b k') l k).
  { clear -F. induction F as [|a b l k p F IH]; intros k' I; constructor.
    - split; [exact p|]. apply I. now left.
    - apply IH. intros x Hx. apply I. now right. }
  apply G. intros x. auto.
Qed.
Lemma if_filter {A B} (b : bool) (g : A -> B) p l :
  (if b then map g (filter p l) else []) = map g (filter (fun t => b && p t) l).
Proof. destruct b; [reflexivity|]. cbn. induction l; auto. Qed.

Lemma same_replacement d d' idsm idsf rm rf n : image d d' ->
  target_inv (all_targets ins) rm idsm -> target_inv (all_targets ins') rf idsf ->
  replace_target_id d' idsf n = replace_target_id d idsm n.
Proof using C HF Hf BD.
  intros I [E1 L1] [E2 L2]. rewrite same_targets in E2. rewrite <- E1 in E2. subst rf.
  unfold replace_target_id, oi_fits_lookup_target. rewrite (image_targets d d' I).
  match goal with |- bind ?e _ = _ => destruct e as [[t|]| |]; cbn [bind]; try reflexivity end.
  now rewrite L1, L2.
Qed.

Section Kind.
Context {X R : Type}.
Variables (id : R -> Z) (set_id : Z -> R -> R) (rv : Z -> Z) (rel : X -> Z -> R -> R -> Prop) (mr : X -> Z -> R -> R)
  (okb : oi_wavelength -> list bool -> R -> bool) (g : oi_wavelength -> list bool -> R -> R)
  (tabs : oi_fits -> list (dtab X R)) (accept : bool) (idsm idsf : hash Z) (rm rf : list target).
Hypothesis St : steady f id set_id mr okb g.
Hypothesis Rel : forall x rev r r1, rel x rev r r1 -> r1 = mr x rev r.
Hypothesis Ui : forall d t, In t (tabs d) -> uses_insname d (tb_insname t).
Hypothesis Ua : forall d t, In t (tabs d) -> tb_arrname t <> ""%string -> uses_arrname d (tb_arrname t).
Hypothesis Uc : forall d t, In t (tabs d) -> tb_corrname t <> ""%string -> uses_corrname d (tb_corrname t).
Hypothesis Li : forall d d', image d d' ->
  tabs d' = if accept then map (dtab_new okb g d f) (filter (dtab_kept okb d f) (tabs d)) else [].
Hypothesis Fm : Forall2 (traced (placed id set_id rv rel idsm) tabs ins m) (from_inputs tabs ins) (tabs m).
Hypothesis Ff : Forall2 (traced (placed id set_id rv rel idsf) tabs ins' mf) (from_inputs tabs ins') (tabs mf).
Hypothesis Im : target_inv (all_targets ins) rm idsm.
Hypothesis If_ : target_inv (all_targets ins') rf idsf.

Lemma dtab_new_names d (t : dtab X R) : tb_insname (dtab_new okb g d f t) = tb_insname t
  /\ tb_arrname (dtab_new okb g d f t) = tb_arrname t /\ tb_corrname (dtab_new okb g d f t) = tb_corrname t.
Proof using. unfold dtab_new. destruct (wv_of d (tb_insname t)); auto. Qed.

(** The OI_WAVELENGTHs of a table and of what it is merged into *)
Lemma wave_pair d t tm : In t (tabs d) -> traced (placed id set_id rv rel idsm) tabs ins m (d, t) tm ->
  exists w w', wv_of d (tb_insname t) = Some w /\ wv_of m (tb_insname tm) = Some w' /\ wv_eff_wave w' = wv_eff_wave w.
Proof using All.
  intros Ht (Hd & _ & a & i & c & Ra & Ri & Rc & P). cbn [fst snd] in *.
  destruct P as (_ & _ & _ & _ & _ & _ & E & _).
  destruct (of_ins complete d Cm Hd) as (K & _). destruct (in_map_name _ _ _ (K _ (Ui d t Ht))) as (w & Hw & En).
  destruct (channels_m d (tb_insname t) (tb_insname tm) w Hd (conj Hw En)) as (w' & I' & _ & _ & Ev & _).
  { rewrite E. apply (wave_ref ins m W Hm Fit Dm d i Ri). }
  exists w, w'. split; [|split].
  - apply wv_of_instrument; [apply (cs_unique d), (of_ins consistent d C Hd)|]. split; assumption.
  - apply wv_of_instrument; [apply Dm|exact I'].
  - exact Ev.
Qed.

Lemma kept_same d t tm : In t (tabs d) -> traced (placed id set_id rv rel idsm) tabs ins m (d, t) tm ->
  dtab_kept okb m f tm = dtab_kept okb d f t.
Proof using All.
  intros Ht T. destruct (wave_pair d t tm Ht T) as (w & w' & E1 & E2 & Ev).
  unfold dtab_kept. rewrite !accept_a, !accept_i, !accept_c, E1, E2. cbn [andb].
  replace (use_of f w') with (use_of f w) by (unfold use_of; now rewrite Ev). f_equal.
  destruct T as (_ & _ & a & i & c & _ & _ & _ & P). cbn [fst snd] in *.
  destruct P as (_ & _ & _ & _ & _ & _ & _ & _ & P9).
  eapply existsb_Forall2; [|exact P9]. cbn. intros r r' (r1 & n & Hr & _ & _ & ->).
  rewrite (Rel _ _ _ _ Hr). destruct St as [S1 S2 S3 S4]. rewrite (proj1 (S1 w' w Ev _ _)). apply S2.
Qed.

Lemma new_same d d' t tm tf : image d d' -> In t (tabs d) ->
  traced (placed id set_id rv rel idsm) tabs ins m (d, t) tm ->
  traced (placed id set_id rv rel idsf) tabs ins' mf (d', dtab_new okb g d f t) tf ->
  same_but_names (dtab_new okb g m f tm) tf.
Proof using All.
  intros I Ht T T'. destruct (wave_pair d t tm Ht T) as (w & w' & E1 & E2 & Ev).
  destruct T as (_ & _ & a & i & c & _ & _ & _ & P). destruct T' as (_ & _ & a' & i' & c' & _ & _ & _ & P').
  cbn [fst snd] in *. unfold same_but_names, nameless. unfold dtab_new in *. rewrite E1 in P'. rewrite E2. clear E1 E2.
  replace (use_of f w') with (use_of f w) by (unfold use_of; now rewrite Ev).
  destruct P as (A1 & A2 & A3 & A4 & A5 & _ & _ & _ & A9). destruct P' as (B1 & B2 & B3 & B4 & B5 & _ & _ & _ & B9).
  unfold dtab_out in *. cbn [tb_revision tb_date_obs tb_x tb_numrec tb_nwave tb_record] in *.
  assert (Rec : map (g w' (use_of f w)) (filter (okb w' (use_of f w)) (tb_record tm)) = tb_record tf).
  { revert B9. generalize (tb_record tf). generalize (use_of f w). intros use. clear B1 B2 B3 B4 B5.
    destruct St as [S1 S2 S3 S4].
    induction A9 as [|r r' l l' (r1 & n & Hr & Hi & En & ->) F IH]; intros k B9.
    - inversion B9; subst. reflexivity.
    - rewrite (Rel _ _ _ _ Hr). cbn [filter map] in *.
      rewrite (proj1 (S1 w' w Ev _ _)), S2. destruct (okb w use r).
      + cbn [map] in *. inversion B9 as [|? k1 ? k2 (q1 & n' & Hq & _ & En' & ->) B9']; subst.
        rewrite (proj2 (S1 w' w Ev _ _)), S3. f_equal; [|now apply IH].
        rewrite (Rel _ _ _ _ Hq). rewrite S4 in En'.
        rewrite (same_replacement d d' idsm idsf rm rf _ I Im If_), En in En'. injection En' as <-. reflexivity.
      + now apply IH. }
  assert (Len : Z.of_nat (length (map (g w' (use_of f w)) (filter (okb w' (use_of f w)) (tb_record tm)))) = tb_numrec tf).
  { rewrite Rec, B4. f_equal. symmetry. exact (Forall2_length _ _ _ B9). }
  rewrite Len, Rec, A1, A2, A3. destruct tf. cbn in *. now rewrite B1, B2, B3, B5.
Qed.

Lemma kind_commutes : Forall2 (fun t t' => same_but_names t t' /\ same_references ins fm mf t t') (tabs fm) (tabs mf).
Proof using All.
  rewrite (Li m fm image_m). rewrite if_filter.
  eapply (zip_tables ins ins' (fun d d' => image d d')) with
    (kept := fun d t => accept && dtab_kept okb d f t) (new := fun d t => dtab_new okb g d f t);
    [apply images| | | |apply Forall2_with_in, Fm|exact Ff].
  - intros d d' Hd I. rewrite (Li d d' I). apply if_filter.
  - intros d t tm Hd Ht [T _]. cbn. now rewrite (kept_same d t tm Ht T).
  - intros d d' t tm tf Hd I Ht Hk [T Hin] T'. cbv beta in Hk. split; [eapply new_same; eauto|].
    pose proof (kept_same d t tm Ht T) as Km.
    assert (Nf : In (dtab_new okb g m f tm) (tabs fm)).
    { rewrite (Li m fm image_m), if_filter. apply in_map. apply filter_In. split; [exact Hin|]. now rewrite Km. }
    assert (Hd' : In d' ins') by apply T'.
    assert (Nd : In (dtab_new okb g d f t) (tabs d')) by apply T'.
    destruct (dtab_new_names d t) as (G1 & G2 & G3). destruct (dtab_new_names m tm) as (M1 & M2 & M3).
    destruct T as (_ & _ & a & i & c & Ra & Ri & Rc & P). destruct T' as (_ & _ & a' & i' & c' & Ra' & Ri' & Rc' & P').
    cbn [fst snd] in *.
    destruct P as (_ & _ & _ & _ & _ & A6 & A7 & A8 & _). destruct P' as (_ & _ & _ & _ & _ & B6 & B7 & B8 & _).
    rewrite G2 in B6. rewrite G1 in B7. rewrite G3 in B8.
    unfold same_references. rewrite M1, M2, M3. split; [|split].
    + apply (same_channels_both d d' (tb_insname t)); auto.
      * rewrite <- G1. now apply Ui.
      * rewrite <- M1. now apply Ui.
      * rewrite A7. apply (wave_ref ins m W Hm Fit Dm d i Ri).
      * rewrite B7. apply (wave_ref ins' mf W' Hmf images_fit Dmf d' i' Ri').
    + apply (same_array_both d d' (tb_arrname t)); auto.
      * intros Hn. split; [now apply Ua|]. rewrite <- G2. apply Ua; [exact Nd|congruence].
      * intros Hn. rewrite <- M2. apply Ua; [exact Nf|congruence].
      * rewrite A6. apply (array_ref ins m W Hm Fit Dm d a Ra).
      * rewrite B6. apply (array_ref ins' mf W' Hmf images_fit Dmf d' a' Ra').
    + apply (same_corr_both d d' (tb_corrname t)); auto.
      * intros Hn. split; [now apply Uc|]. rewrite <- G3. apply Uc; [exact Nd|congruence].
      * intros Hn. rewrite <- M3. apply Uc; [exact Nf|congruence].
      * rewrite A8. apply (corr_ref ins m W Hm Fit Dm d c Rc).
      * rewrite B8. apply (corr_ref ins' mf W' Hmf images_fit Dmf d' c' Rc').
Qed.
End Kind.

(** ** The datasets *)

Lemma commute_targets : o_targets fm = o_targets mf.
Proof using All.
  rewrite (image_targets m fm image_m). rewrite (targets_rows ins m W Hm), (targets_rows ins' mf W' Hmf), same_targets.
  f_equal. pose proof images as I. clear -I BD. unfold all_revisions. generalize 2.
  induction I as [|d d' l l' H F IH]; [reflexivity|]. intros k. cbn [fold_left].
  rewrite (image_targets d d' H). apply IH.
Qed.

Lemma commute_vis : same_tables ins fm mf o_visList.
Proof using All.
  destruct (merge_facts ins m W Hm) as (idsm & A). destruct (merge_facts ins' mf W' Hmf) as (idsf & B).
  eapply (kind_commutes vr_target_id vr_set_target_id rev12 vis_rel vr_merged (vis_okb pow_half f) (vis_out pow_half f)
    o_visList (f_accept_vis f)); [apply vis_steady, no_target|apply vr_merged_eq|apply uses_vis| | | |apply (fa_vis _ _ _ A)|apply (fa_vis _ _ _ B)|apply (fa_targets _ _ _ A)|apply (fa_targets _ _ _ B)].
  - intros d t Ht Hn. split; [exact Hn|]. eauto.
  - intros d t Ht Hn. split; [exact Hn|]. eauto.
  - intros d d' (_ & h1 & h2 & h3 & -> & _). reflexivity.
Qed.
Lemma commute_vis2 : same_tables ins fm mf o_vis2List.
Proof using All.
  destruct (merge_facts ins m W Hm) as (idsm & A). destruct (merge_facts ins' mf W' Hmf) as (idsf & B).
  eapply (kind_commutes v2_target_id v2_set_target_id rev12 _ v2_merged (vis2_okb pow_half f) (vis2_out pow_half f)
    o_vis2List (f_accept_vis2 f)); [apply vis2_steady, no_target|apply v2_merged_eq|apply uses_vis2| | | |apply (fa_vis2 _ _ _ A)|apply (fa_vis2 _ _ _ B)|apply (fa_targets _ _ _ A)|apply (fa_targets _ _ _ B)].
  - intros d t Ht Hn. split; [exact Hn|]. eauto.
  - intros d t Ht Hn. split; [exact Hn|]. eauto.
  - intros d d' (_ & h1 & h2 & h3 & -> & _). reflexivity.
Qed.
Lemma commute_t3 : same_tables ins fm mf o_t3List.
Proof using All.
  destruct (merge_facts ins m W Hm) as (idsm & A). destruct (merge_facts ins' mf W' Hmf) as (idsf & B).
  eapply (kind_commutes t3_target_id t3_set_target_id rev12 _ t3_merged (t3_okb pow_half f) (t3_out pow_half f)
    o_t3List (f_accept_t3amp f || f_accept_t3phi f)); [apply t3_steady, no_target|apply t3_merged_eq|apply uses_t3| | | |apply (fa_t3 _ _ _ A)|apply (fa_t3 _ _ _ B)|apply (fa_targets _ _ _ A)|apply (fa_targets _ _ _ B)].
  - intros d t Ht Hn. split; [exact Hn|]. eauto 6.
  - intros d t Ht Hn. split; [exact Hn|]. eauto 6.
  - intros d d' (_ & h1 & h2 & h3 & -> & _). reflexivity.
Qed.
Lemma commute_flux : same_tables ins fm mf o_fluxList.
Proof using All.
  destruct (merge_facts ins m W Hm) as (idsm & A). destruct (merge_facts ins' mf W' Hmf) as (idsf & B).
  eapply (kind_commutes fr_target_id fr_set_target_id (fun r => r) _ (fun _ _ r => r) (fun _ _ => flux_okb f) (fun _ => flux_out f)
    o_fluxList (f_accept_flux f)); [apply flux_steady, no_target| |apply uses_flux| | | |apply (fa_flux _ _ _ A)|apply (fa_flux _ _ _ B)|apply (fa_targets _ _ _ A)|apply (fa_targets _ _ _ B)].
  - intros x rev r r1 Hr. exact Hr.
  - intros d t Ht Hn. split; [exact Hn|]. eauto 6.
  - intros d t Ht Hn. split; [exact Hn|]. eauto 6.
  - intros d d' (_ & h1 & h2 & h3 & -> & _). reflexivity.
Qed.

Lemma image_header d d' : image d d' -> o_header d' = o_header d.
Proof using. intros (_ & h1 & h2 & h3 & -> & _). reflexivity. Qed.
Lemma same_headers : map o_header ins' = map o_header ins.
Proof using C HF Hf.
  pose proof images as I. clear -I. induction I as [|d d' l l' H F IH]; [reflexivity|].
  cbn [map]. now rewrite IH, (image_header d d' H).
Qed.
Lemma merge_key_headers l l' key req o : map o_header l' = map o_header l -> merge_key l' key req o = merge_key l key req o.
Proof.
  intros E. unfold merge_key. replace (map (fun d => key (o_header d)) l') with (map key (map o_header l')) by apply map_map.
  replace (map (fun d => key (o_header d)) l) with (map key (map o_header l)) by apply map_map. now rewrite E.
Qed.
Lemma min_mjd_headers l l' : map o_header l' = map o_header l -> files_min_mjd l' = files_min_mjd l.
Proof.
  unfold files_min_mjd. generalize 100000. revert l. induction l' as [|d' l' IH]; intros [|d l] k E; try discriminate; [reflexivity|].
  cbn [map] in E. injection E as E1 E2. cbn [foreach]. rewrite E1.
  match goal with |- bind ?e _ = _ => destruct e as [k'| |]; cbn [bind]; try reflexivity end. now apply IH.
Qed.
Lemma commute_header : o_header fm = o_header mf.
Proof using All.
  rewrite (image_header m fm image_m). destruct (merge_inv _ _ Hm) as [R]. destruct (merge_inv _ _ Hmf) as [R'].
  pose proof same_headers as E. rewrite (mr_header _ _ R), (mr_header _ _ R').
  assert (Ed : mr_mjd _ _ R' = mr_mjd _ _ R).
  { pose proof (mr_date _ _ R) as D. pose proof (mr_date _ _ R') as D'. rewrite (min_mjd_headers ins ins' E), D in D'.
    injection D' as D'. congruence. }
  rewrite Ed, !(merge_key_headers ins ins' _ _ _ E). reflexivity.
Qed.

Lemma commute_all : same_data ins fm mf.
Proof using All.
  split; [exact commute_header|]. split; [exact commute_targets|]. split; [exact commute_vis|].
  split; [exact commute_vis2|]. split; [exact commute_t3|exact commute_flux].
Qed.
End Both.
