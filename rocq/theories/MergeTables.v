(** OI_ARRAY, OI_WAVELENGTH and OI_CORR: matching and copying. *)
From Verif Require Import BaseLemmas FileModel FileSpec FileProofs MergeModel MergeSpec
  MergeProofs MergeNames MergeNamed.
From Coq Require Import Lia.
Open Scope Z_scope.

(** ** Loops *)

Lemma all_from_forallb {A} (p : A -> bool) (l pre : list A) ok :
  (forall i a, get (pre ++ l) i = Ok a -> Z.of_nat (length pre) <= i -> ok i = Ok (p a)) ->
  all_from (length l) (Z.of_nat (length pre)) ok = Ok (forallb p l).
Proof.
  revert pre. induction l as [|a l IH]; intros pre H; [reflexivity|].
  cbn [length all_from forallb]. rewrite (H _ a) by (apply get_middle || lia).
  cbn [bind]. destruct (p a); [|reflexivity]. cbn [andb].
  replace (Z.of_nat (length pre) + 1) with (Z.of_nat (length (pre ++ [a])))
    by (rewrite app_length; cbn; lia).
  apply IH. intros i b Hg Hi. rewrite <- app_assoc in Hg. apply H; [exact Hg|].
  rewrite app_length in Hi. cbn in Hi. lia.
Qed.
Lemma for_all_forallb {A} n (p : A -> bool) (l : list A) ok : n = Z.of_nat (length l) ->
  (forall i a, get l i = Ok a -> ok i = Ok (p a)) -> for_all n ok = Ok (forallb p l).
Proof.
  intros -> H. unfold for_all. destruct (Z.ltb_spec (Z.of_nat (length l)) 0); [lia|].
  rewrite Nat2Z.id. apply (all_from_forallb p l []). cbn. auto.
Qed.

Lemma bind_if {A B} (b : bool) (x y : res A) (f : A -> res B) :
  bind (if b then x else y) f = if b then bind x f else bind y f.
Proof. destruct b; reflexivity. Qed.

Lemma find_app_some {A} (p : A -> bool) l ext c : find p l = Some c -> find p (l ++ ext) = Some c.
Proof. induction l as [|a l IH]; cbn; [discriminate|]. destruct (p a); auto. Qed.
Lemma find_in {A} (p : A -> bool) l c : In c l -> p c = true -> exists c', find p l = Some c'.
Proof.
  intros Hin Hp. destruct (find p l) as [c'|] eqn:E; [eauto|].
  pose proof (find_none _ _ E _ Hin). congruence.
Qed.

(** ** Floating point *)

Lemma sub_self prec emax x : SFsub prec emax x x = S754_zero false \/
  (exists s, SFsub prec emax x x = S754_zero s) \/ SFsub prec emax x x = S754_nan.
Proof.
  destruct x as [s|s| |s m e]; cbn.
  - destruct s; cbn; eauto.
  - destruct s; cbn; auto.
  - auto.
  - left. unfold SFsub. set (k := Z.min e e). rewrite Z.sub_diag. reflexivity.
Qed.
Lemma apart_self x tol : flt f64_zero tol = true -> apart x x tol = false.
Proof.
  intros Ht. unfold apart, fgt, fabs, f64_sub.
  destruct (sub_self 53 1024 x) as [->|[(s & ->)| ->]]; cbn [SFabs].
  1,2: change (flt tol f64_zero = false); now apply FloatLemmas.flt_asym.
  destruct tol; reflexivity.
Qed.
Lemma close_self x : close x x.
Proof. apply (apart_self x c_1em10). vm_compute. reflexivity. Qed.
Lemma close_diameter_self x : close_diameter x x.
Proof.
  unfold close_diameter, f32_sub.
  destruct (sub_self 24 128 x) as [->|[(s & ->)| ->]]; vm_compute; reflexivity.
Qed.
Lemma close_wave_self x : close_wave x x.
Proof.
  unfold close_wave, f32_sub.
  destruct (sub_self 24 128 x) as [->|[(s & ->)| ->]]; vm_compute; reflexivity.
Qed.
Lemma apart_close x y : apart x y c_1em10 = false <-> close x y.
Proof. reflexivity. Qed.
Lemma apart_f_close x y : apart_f x y c_1em3f = false <-> close_diameter x y.
Proof. reflexivity. Qed.
Lemma far_close x y : far_f x y = false <-> close_wave x y.
Proof. reflexivity. Qed.
Global Opaque c_1em10 c_1em3f.

(** ** OI_ARRAY *)

Definition station_matchb (fov : bool) (c : oi_array) (e : element) : bool :=
  match find (fun x => el_sta_index x =? el_sta_index e) (ar_elem c) with
  | None => false
  | Some x => element_ok fov e x
  end.
Definition array_matchb (a c : oi_array) : bool :=
  negb (apart (ar_arrayx a) (ar_arrayx c) c_1em10)
  && negb (apart (ar_arrayy a) (ar_arrayy c) c_1em10)
  && negb (apart (ar_arrayz a) (ar_arrayz c) c_1em10)
  && forallb (station_matchb ((2 <=? ar_revision a) && (2 <=? ar_revision c)) c) (ar_elem a).

Lemma match_oi_array_ok a l : wf_array a = true -> Forall (fun c => wf_array c = true) l ->
  match_oi_array a l = Ok (find (array_matchb a) l).
Proof.
  intros Wa. induction l as [|c l IH]; intros Wl; [reflexivity|]. inversion Wl; subst.
  cbn [match_oi_array find]. unfold array_matchb at 1. rewrite (IH H2).
  destruct (apart (ar_arrayx a) _ _); [reflexivity|].
  destruct (apart (ar_arrayy a) _ _); [reflexivity|].
  destruct (apart (ar_arrayz a) _ _); [reflexivity|]. cbn [negb andb].
  rewrite (for_all_forallb _ (station_matchb ((2 <=? ar_revision a) && (2 <=? ar_revision c)) c)
             (ar_elem a)).
  - cbn [bind]. destruct (forallb _ _); reflexivity.
  - now apply len_is_eq.
  - intros i e ->. cbn [bind]. unfold lookup_element. rewrite search_ok by assumption.
    cbn [bind]. unfold station_matchb. now destruct (find _ (ar_elem c)).
Qed.

Lemma element_ok_spec fov e x : element_ok fov e x = true ->
  close3 (el_staxyz e) (el_staxyz x) /\ close_diameter (el_diameter e) (el_diameter x)
  /\ (fov = true -> close (el_fov e) (el_fov x) /\ el_fovtype x = el_fovtype e).
Proof.
  unfold element_ok, close3. destruct (el_staxyz e) as [[x1 y1] z1], (el_staxyz x) as [[x2 y2] z2].
  cbn [fst snd].
  destruct (apart x1 x2 _) eqn:E1; [discriminate|].
  destruct (apart y1 y2 _) eqn:E2; [discriminate|].
  destruct (apart z1 z2 _) eqn:E3; [discriminate|].
  destruct (apart_f _ _ _) eqn:E4; [discriminate|].
  intros H. split; [auto|]. split; [auto|]. intros ->.
  destruct (apart (el_fov e) _ _) eqn:E5; [discriminate|]. apply str_eqb_eq in H. auto.
Qed.
Lemma element_ok_self fov e : element_ok fov e e = true.
Proof.
  unfold element_ok. destruct (el_staxyz e) as [[x1 y1] z1].
  rewrite !(proj2 (apart_close _ _)) by apply close_self.
  rewrite (proj2 (apart_f_close _ _)) by apply close_diameter_self.
  rewrite str_eqb_refl. destruct fov; reflexivity.
Qed.

Lemma first_match_find {A} (p : A -> bool) (P : A -> Prop) l a : (forall x, p x = true <-> P x) ->
  first_match P l a <-> find p l = Some a.
Proof.
  intros HP. split.
  - intros (b & r & -> & Pa & Hb). induction b as [|x b IH]; cbn.
    + rewrite (proj2 (HP a) Pa). reflexivity.
    + destruct (p x) eqn:E; [exfalso; apply (Hb x); [now left|now apply HP]|].
      apply IH. intros; apply Hb; now right.
  - intros H. pose proof (find_lookup_result p P l HP) as R. rewrite H in R. exact R.
Qed.

Lemma array_matchb_same a c : array_matchb a c = true -> same_stations a c.
Proof.
  unfold array_matchb, same_stations. rewrite !andb_true_iff, !negb_true_iff.
  intros [[[X Y] Z] F]. split; [auto|]. split; [auto|]. split; [auto|].
  intros s e Hf. rewrite (first_match_find (fun e => el_sta_index e =? s)) in Hf
    by (intros; apply Z.eqb_eq).
  apply find_some in Hf as [Hin Hs]. apply Z.eqb_eq in Hs. subst s.
  rewrite forallb_forall in F. specialize (F e Hin). unfold station_matchb in F.
  destruct (find _ (ar_elem c)) as [x|] eqn:E; [|discriminate].
  exists x. split.
  - apply (first_match_find (fun x => el_sta_index x =? el_sta_index e)); auto.
    intros; apply Z.eqb_eq.
  - apply element_ok_spec in F as (F1 & F2 & F3). split; [auto|]. split; [auto|].
    intros R1 R2. apply F3. apply andb_true_iff. split; apply Z.leb_le; lia.
Qed.

Definition array_good (a : oi_array) : Prop := wf_array a = true.

Lemma same_stations_rename a n c : same_stations a c -> same_stations a (ar_set_arrname n c).
Proof. intros H. exact H. Qed.
Lemma array_good_rename n c : array_good c -> array_good (ar_set_arrname n c).
Proof. intros H. exact H. Qed.

Lemma upgrade_array_elem c : ar_elem (upgrade_oi_array c) = ar_elem c
  /\ ar_nelement (upgrade_oi_array c) = ar_nelement c /\ ar_arrname (upgrade_oi_array c) = ar_arrname c
  /\ ar_arrayx (upgrade_oi_array c) = ar_arrayx c /\ ar_arrayy (upgrade_oi_array c) = ar_arrayy c
  /\ ar_arrayz (upgrade_oi_array c) = ar_arrayz c.
Proof. unfold upgrade_oi_array. destruct (ar_revision c =? 1); repeat split. Qed.

Lemma copy_array_inv a c : wf_array a = true -> copy_oi_array a = Ok c ->
  0 < ar_nelement a /\ c = upgrade_oi_array a.
Proof.
  intros W H. unfold copy_oi_array in H. inv_bind H. injection H as <-.
  assert (P : 0 < ar_nelement a).
  { unfold dup_oi_array in E. inv_bind E. now apply memdup_inv in E0. }
  rewrite dup_oi_array_ok in E by auto. injection E as <-. auto.
Qed.
Lemma array_copy_sound a c : array_good a -> copy_oi_array a = Ok c ->
  array_good c /\ ar_arrname c = ar_arrname a /\ same_stations a c.
Proof.
  intros W H. apply copy_array_inv in H as [_ ->]; [|exact W].
  destruct (upgrade_array_elem a) as (E1 & E2 & E3 & E4 & E5 & E6).
  unfold array_good, wf_array. rewrite E1, E2. split; [exact W|]. split; [exact E3|].
  unfold same_stations. rewrite E1, E4, E5, E6.
  repeat (split; [apply close_self|]). intros s e He. exists e. split; [exact He|].
  split; [|split; [apply close_diameter_self|]].
  - unfold close3. repeat split; apply close_self.
  - intros _ _. split; [apply close_self|reflexivity].
Qed.
Lemma array_matching_sound a l c : array_good a -> Forall array_good l ->
  match_oi_array a l = Ok (Some c) -> In c l /\ same_stations a c.
Proof.
  intros Ga Gl H. rewrite match_oi_array_ok in H by auto. injection H as H.
  apply find_some in H as [Hin Hm]. split; [exact Hin|]. now apply array_matchb_same.
Qed.
Lemma array_matching_total a l : array_good a -> Forall array_good l ->
  exists m, match_oi_array a l = Ok m.
Proof. intros. rewrite match_oi_array_ok by auto. eauto. Qed.
Lemma array_matching_more a l c ext : match_oi_array a l = Ok (Some c) ->
  match_oi_array a (l ++ ext) = Ok (Some c).
Proof.
  induction l as [|x l IH]; cbn [match_oi_array app]; [discriminate|].
  destruct (apart (ar_arrayx a) _ _); auto. destruct (apart (ar_arrayy a) _ _); auto.
  destruct (apart (ar_arrayz a) _ _); auto.
  destruct (for_all _ _) as [b| |]; cbn [bind]; try discriminate. destruct b; auto.
Qed.

Lemma station_self fov c e : NoDup (map el_sta_index (ar_elem c)) -> In e (ar_elem c) ->
  station_matchb fov c e = true.
Proof.
  intros Hd Hin. unfold station_matchb.
  destruct (find _ (ar_elem c)) as [x|] eqn:E.
  - apply find_some in E as [Hx E]. apply Z.eqb_eq in E.
    assert (x = e); [|subst; apply element_ok_self].
    clear -Hd Hin Hx E. induction (ar_elem c) as [|y l IH]; [contradiction|].
    cbn in Hd. inversion Hd as [|? ? Hn Hd']; subst. destruct Hin as [->|Hin], Hx as [->|Hx]; auto.
    + exfalso. apply Hn. rewrite <- E. now apply in_map.
    + exfalso. apply Hn. rewrite E. now apply in_map.
  - pose proof (find_none _ _ E _ Hin) as F. cbn in F. rewrite Z.eqb_refl in F. discriminate.
Qed.
Lemma array_matching_self a l c0 c : array_good a -> distinct_stations a -> Forall array_good l ->
  copy_oi_array a = Ok c0 -> (c = c0 \/ exists n, c = ar_set_arrname n c0) -> In c l ->
  exists c', match_oi_array a l = Ok (Some c').
Proof.
  intros Ga Hd Gl Hc Hn Hin. apply copy_array_inv in Hc as [_ ->]; [|exact Ga].
  rewrite match_oi_array_ok by auto.
  destruct (upgrade_array_elem a) as (E1 & E2 & E3 & E4 & E5 & E6).
  destruct (find_in (array_matchb a) l c Hin) as (c' & Hf).
  - assert (K : ar_elem c = ar_elem a /\ ar_arrayx c = ar_arrayx a /\ ar_arrayy c = ar_arrayy a
                /\ ar_arrayz c = ar_arrayz a).
    { destruct Hn as [->|(n & ->)]; cbn; auto. }
    destruct K as (K1 & K2 & K3 & K4). unfold array_matchb.
    rewrite K2, K3, K4, !(proj2 (apart_close _ _)) by apply close_self. cbn [negb andb].
    apply forallb_forall. intros e He. apply station_self; rewrite K1; auto.
  - exists c'. now rewrite Hf.
Qed.

(** ** OI_WAVELENGTH *)

Definition wave_matchb (w c : oi_wavelength) : bool :=
  (wv_nwave c =? wv_nwave w)
  && forallb (fun p => negb (far_f (fst (fst p)) (snd (fst p)))
                       && negb (far_f (fst (snd p)) (snd (snd p))))
       (combine (combine (wv_eff_wave c) (wv_eff_wave w)) (combine (wv_eff_band c) (wv_eff_band w))).

Lemma nth_error_combine {A B} (l : list A) (m : list B) n a b :
  nth_error (combine l m) n = Some (a, b) -> nth_error l n = Some a /\ nth_error m n = Some b.
Proof.
  revert m n. induction l as [|x l IH]; intros [|y m] [|n]; cbn; try discriminate; auto.
  intros [= -> ->]. auto.
Qed.
Lemma get_combine {A B} (l : list A) (m : list B) i a b :
  get (combine l m) i = Ok (a, b) -> get l i = Ok a /\ get m i = Ok b.
Proof.
  intros H. apply get_inv in H as [Hi H]. apply nth_error_combine in H as [H1 H2].
  split; now apply get_at.
Qed.

Lemma match_oi_wavelength_ok w l : wf_wavelength w = true ->
  Forall (fun c => wf_wavelength c = true) l ->
  match_oi_wavelength w l = Ok (find (wave_matchb w) l).
Proof.
  intros Ww. induction l as [|c l IH]; intros Wl; [reflexivity|]. inversion Wl as [|? ? Wc Wr]; subst.
  cbn [match_oi_wavelength find]. unfold wave_matchb at 1. rewrite (IH Wr).
  destruct (Z.eqb_spec (wv_nwave c) (wv_nwave w)) as [En|En]; [|reflexivity]. cbn [andb].
  unfold wf_wavelength in Ww, Wc. apply andb_true_iff in Ww as [W1 W2], Wc as [C1 C2].
  apply len_is_eq in W1, W2, C1, C2.
  rewrite (for_all_forallb _ (fun p => negb (far_f (fst (fst p)) (snd (fst p)))
                       && negb (far_f (fst (snd p)) (snd (snd p))))
    (combine (combine (wv_eff_wave c) (wv_eff_wave w)) (combine (wv_eff_band c) (wv_eff_band w)))).
  - cbn [bind]. destruct (forallb _ _); reflexivity.
  - rewrite !combine_length. lia.
  - intros i [[cw ww] [cb wb]] H. apply get_combine in H as [H1 H2].
    apply get_combine in H1 as [-> ->], H2 as [-> ->]. cbn [bind fst snd].
    destruct (far_f cw ww); reflexivity.
Qed.

Lemma forallb_combine2 {A B} (p : A -> B -> bool) l m : length l = length m ->
  forallb (fun q => p (fst q) (snd q)) (combine l m) = true <-> Forall2 (fun a b => p a b = true) l m.
Proof.
  revert m. induction l as [|a l IH]; intros [|b m] H; try discriminate; cbn.
  - split; auto.
  - rewrite andb_true_iff, IH by (cbn in H; lia). split.
    + intros []. constructor; auto.
    + inversion 1; subst. auto.
Qed.

Definition wave_good (w : oi_wavelength) : Prop := wf_wavelength w = true.

Lemma Forall2_flip' {A B} (P : A -> B -> Prop) l m : Forall2 P l m -> Forall2 (fun b a => P a b) m l.
Proof. induction 1; constructor; auto. Qed.
Lemma Forall2_impl' {A B} (P Q : A -> B -> Prop) l m : (forall a b, P a b -> Q a b) ->
  Forall2 P l m -> Forall2 Q l m.
Proof. intros H F. induction F; constructor; auto. Qed.
Lemma Forall2_diag {A} (P : A -> A -> Prop) l : (forall a, P a a) -> Forall2 P l l.
Proof. intros H. induction l; constructor; auto. Qed.

Lemma combine_Forall2 {A B C D} (p : A -> B -> bool) (q : C -> D -> bool) la lb lc ld :
  length la = length lb -> length lc = length ld -> length la = length lc ->
  forallb (fun x => p (fst (fst x)) (snd (fst x)) && q (fst (snd x)) (snd (snd x)))
    (combine (combine la lb) (combine lc ld)) = true ->
  Forall2 (fun a b => p a b = true) la lb /\ Forall2 (fun c d => q c d = true) lc ld.
Proof.
  revert lb lc ld. induction la as [|a la IH]; intros [|b lb] [|c lc] [|d ld] H1 H2 H3 H;
    try discriminate; [auto|]. cbn in H1, H2, H3, H. rewrite !andb_true_iff in H.
  destruct H as [[Hp Hq] H]. destruct (IH lb lc ld) as [F1 F2]; try lia; auto.
Qed.

Lemma wave_matchb_same w c : wave_good w -> wave_good c -> wave_matchb w c = true ->
  same_wavebands w c.
Proof.
  unfold wave_good, wf_wavelength, wave_matchb, same_wavebands.
  rewrite !andb_true_iff. intros [W1 W2] [C1 C2] [E H]. apply Z.eqb_eq in E.
  apply len_is_eq in W1, W2, C1, C2.
  apply (combine_Forall2 (fun x y => negb (far_f x y)) (fun x y => negb (far_f x y))) in H as [F1 F2];
    try lia.
  split; [exact E|]. split; apply Forall2_flip'; eapply Forall2_impl'; try eassumption;
    intros x y Hxy; apply negb_true_iff in Hxy; exact Hxy.
Qed.

Lemma upgrade_wave_fields c : wv_nwave (upgrade_oi_wavelength c) = wv_nwave c
  /\ wv_eff_wave (upgrade_oi_wavelength c) = wv_eff_wave c
  /\ wv_eff_band (upgrade_oi_wavelength c) = wv_eff_band c
  /\ wv_insname (upgrade_oi_wavelength c) = wv_insname c.
Proof. unfold upgrade_oi_wavelength. destruct (wv_revision c =? 1); repeat split. Qed.
Lemma copy_wave_inv w c : wf_wavelength w = true -> copy_oi_wavelength w = Ok c ->
  0 < wv_nwave w /\ c = upgrade_oi_wavelength w.
Proof.
  intros W H. unfold copy_oi_wavelength in H. inv_bind H. injection H as <-.
  assert (P : 0 < wv_nwave w).
  { unfold dup_oi_wavelength in E. inv_bind E. now apply memdup_inv in E0. }
  rewrite dup_oi_wavelength_ok in E by auto. injection E as <-. auto.
Qed.
Lemma same_wavebands_rename a n c : same_wavebands a c -> same_wavebands a (wv_set_insname n c).
Proof. intros H. exact H. Qed.
Lemma wave_good_rename n c : wave_good c -> wave_good (wv_set_insname n c).
Proof. intros H. exact H. Qed.
Lemma wave_copy_sound a c : wave_good a -> copy_oi_wavelength a = Ok c ->
  wave_good c /\ wv_insname c = wv_insname a /\ same_wavebands a c.
Proof.
  intros W H. apply copy_wave_inv in H as [_ ->]; [|exact W].
  destruct (upgrade_wave_fields a) as (E1 & E2 & E3 & E4).
  unfold wave_good, wf_wavelength, same_wavebands. rewrite E1, E2, E3.
  split; [exact W|]. split; [exact E4|]. split; [reflexivity|].
  split; apply Forall2_diag; intros; apply close_wave_self.
Qed.
Lemma wave_matching_sound a l c : wave_good a -> Forall wave_good l ->
  match_oi_wavelength a l = Ok (Some c) -> In c l /\ same_wavebands a c.
Proof.
  intros Ga Gl H. rewrite match_oi_wavelength_ok in H by auto. injection H as H.
  apply find_some in H as [Hin Hm]. split; [exact Hin|].
  rewrite Forall_forall in Gl. apply wave_matchb_same; auto.
Qed.
Lemma wave_matching_total a l : wave_good a -> Forall wave_good l ->
  exists m, match_oi_wavelength a l = Ok m.
Proof. intros. rewrite match_oi_wavelength_ok by auto. eauto. Qed.
Lemma wave_matching_more a l c ext : match_oi_wavelength a l = Ok (Some c) ->
  match_oi_wavelength a (l ++ ext) = Ok (Some c).
Proof.
  induction l as [|x l IH]; cbn [match_oi_wavelength app]; [discriminate|].
  destruct (wv_nwave x =? wv_nwave a); auto.
  destruct (for_all _ _) as [b| |]; cbn [bind]; try discriminate. destruct b; auto.
Qed.
Lemma wave_matching_self a l c0 c : wave_good a -> True -> Forall wave_good l ->
  copy_oi_wavelength a = Ok c0 -> (c = c0 \/ exists n, c = wv_set_insname n c0) -> In c l ->
  exists c', match_oi_wavelength a l = Ok (Some c').
Proof.
  intros Ga _ Gl Hc Hn Hin. apply copy_wave_inv in Hc as [_ ->]; [|exact Ga].
  rewrite match_oi_wavelength_ok by auto.
  destruct (upgrade_wave_fields a) as (E1 & E2 & E3 & E4).
  destruct (find_in (wave_matchb a) l c Hin) as (c' & Hf).
  - assert (K : wv_nwave c = wv_nwave a /\ wv_eff_wave c = wv_eff_wave a
                /\ wv_eff_band c = wv_eff_band a).
    { destruct Hn as [->|(n & ->)]; cbn; auto. }
    destruct K as (K1 & K2 & K3). unfold wave_matchb. rewrite K1, K2, K3, Z.eqb_refl. cbn [andb].
    apply forallb_forall. intros [[x y] [z t]] Hp. cbn [fst snd].
    assert (D : forall (l : list f32) p, In p (combine l l) -> fst p = snd p).
    { clear. induction l as [|x l IH]; cbn; [contradiction|]. intros p [<-|H]; auto. }
    pose proof (in_combine_l _ _ _ _ Hp) as H1. pose proof (in_combine_r _ _ _ _ Hp) as H2.
    apply D in H1, H2. cbn in H1, H2. subst y t.
    rewrite !(proj2 (far_close _ _)) by apply close_wave_self. reflexivity.
  - exists c'. now rewrite Hf.
Qed.

(** ** OI_CORR *)

Definition corr_good (c : oi_corr) : Prop := wf_corr c = true.
Lemma copy_corr_inv a c : wf_corr a = true -> dup_oi_corr a = Ok c -> 0 < co_ncorr a /\ c = a.
Proof.
  intros W H. assert (P : 0 < co_ncorr a).
  { unfold dup_oi_corr in H. inv_bind H. now apply memdup_inv in E. }
  rewrite dup_oi_corr_ok in H by auto. injection H as <-. auto.
Qed.
Lemma merged_corr_rename a n c : merged_corr a c -> merged_corr a (co_set_corrname n c).
Proof. intros H. exact H. Qed.
Lemma corr_good_rename n c : corr_good c -> corr_good (co_set_corrname n c).
Proof. intros H. exact H. Qed.
Lemma corr_copy_sound a c : corr_good a -> dup_oi_corr a = Ok c ->
  corr_good c /\ co_corrname c = co_corrname a /\ merged_corr a c.
Proof.
  intros W H. apply copy_corr_inv in H as [_ ->]; [|exact W]. split; [exact W|].
  split; [reflexivity|]. destruct a; reflexivity.
Qed.
Lemma corr_matching_sound (a : oi_corr) l c : corr_good a -> Forall corr_good l ->
  (Ok None : res (option oi_corr)) = Ok (Some c) -> In c l /\ merged_corr a c.
Proof. discriminate. Qed.
