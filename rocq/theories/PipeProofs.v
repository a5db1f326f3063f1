(** Filtering commutes with storing a dataset in a file and reading it back. *)
From Coq Require Import Lia.
From Verif Require Import Base BaseLemmas FloatModel Types FileModel FileSpec FileProofs FilterModel FilterSpec FilterLemmas
  FilterProofs FilterRecords FilterTables FilterApply FilterMain FitsModel IOSpec WriteProofs RoundTrip IOClaims
  WriteVis TwiceSpec TwiceProofs.
Open Scope list_scope.
Open Scope Z_scope.

Lemma filter_of_map {A B} (p : B -> bool) (q : A -> bool) (s : A -> B) l : (forall a, p (s a) = q a) ->
  filter p (map s l) = map s (filter q l).
Proof.
  intros H. induction l as [|a l IH]; [reflexivity|]. cbn [map filter]. rewrite H. destruct (q a); [|exact IH].
  cbn [map]. now rewrite IH.
Qed.
Lemma existsb_of_map {A B} (p : B -> bool) (q : A -> bool) (s : A -> B) l : (forall a, p (s a) = q a) ->
  existsb p (map s l) = existsb q l.
Proof. intros H. induction l as [|a l IH]; [reflexivity|]. cbn [map existsb]. now rewrite H, IH. Qed.
Lemma find_by_map {A} (nm : A -> string) (s : A -> A) l k : (forall a, nm (s a) = nm a) ->
  find_by nm (map s l) k = option_map s (find_by nm l k).
Proof.
  intros H. induction l as [|a l IH]; [reflexivity|]. cbn [map find_by]. rewrite H. destruct (str_eqb (nm a) k); [reflexivity|exact IH].
Qed.
Lemma add_names_map {X R} (nm : dtab X R -> string) e (s : dtab X R -> dtab X R) l : (forall t, nm (s t) = nm t) ->
  forall names, add_names nm e (map s l) names = add_names nm e l names.
Proof.
  intros H. unfold add_names. induction l as [|t l IH]; intros names; [reflexivity|]. cbn [map fold_left]. rewrite H. apply IH.
Qed.

(** ** The tables of one kind *)

Section Kind.
Context {X R : Type}.
Variables (okb : oi_wavelength -> list bool -> R -> bool) (g : oi_wavelength -> list bool -> R -> R).
Variables (rev : Z) (sx : X -> X) (sr : dtab X R -> R -> R).
Let stored (t : dtab X R) : dtab X R := stored_dtab rev (sx (tb_x t)) (sr t) t.
Hypothesis Hok : forall t w u r, okb (stored_wavelength w) u (sr t r) = okb w u r.
Hypothesis Hg : forall t w u r, g (stored_wavelength w) u (sr t r) = sr t (g w u r).
Hypothesis Hsr : forall t t' r, tb_arrname t' = tb_arrname t -> tb_corrname t' = tb_corrname t -> tb_x t' = tb_x t ->
  sr t' r = sr t r.
Variables (o o' : oi_fits) (f : filter_spec).
Hypothesis HW : forall n, wv_of o' n = option_map stored_wavelength (wv_of o n).

Lemma kind_kept t : dtab_kept okb o' f (stored t) = dtab_kept okb o f t.
Proof.
  unfold dtab_kept, stored, stored_dtab. cbn [tb_insname tb_arrname tb_corrname tb_record]. rewrite HW.
  destruct (wv_of o (tb_insname t)) as [w|]; [|reflexivity]. cbn [option_map].
  change (use_of f (stored_wavelength w)) with (use_of f w).
  now rewrite (existsb_of_map _ (okb w (use_of f w))) by apply Hok.
Qed.
Lemma kind_new t : dtab_new okb g o' f (stored t) = stored (dtab_new okb g o f t).
Proof.
  unfold dtab_new. change (tb_insname (stored t)) with (tb_insname t). rewrite HW.
  destruct (wv_of o (tb_insname t)) as [w|]; [|reflexivity]. cbn [option_map].
  change (use_of f (stored_wavelength w)) with (use_of f w).
  unfold dtab_out, stored, stored_dtab.
  cbn [tb_revision tb_date_obs tb_arrname tb_insname tb_corrname tb_x tb_numrec tb_nwave tb_record].
  rewrite (filter_of_map _ (okb w (use_of f w))) by apply Hok. rewrite !map_length, !map_map.
  f_equal. apply map_ext. intros r. rewrite Hg. symmetry. now apply Hsr.
Qed.
Lemma kind_list l : map (dtab_new okb g o' f) (filter (dtab_kept okb o' f) (map stored l))
  = map stored (map (dtab_new okb g o f) (filter (dtab_kept okb o f) l)).
Proof.
  rewrite (filter_of_map _ (dtab_kept okb o f)) by apply kind_kept. rewrite !map_map. apply map_ext. apply kind_new.
Qed.
End Kind.

(** ** The whole dataset *)

Section Stored.
Variables (E : cfitsio) (pow_half : f64 -> f64) (o o' : oi_fits).
Hypothesis T : tables_of E o' o.
Lemma stored_waves n : wv_of o' n = option_map stored_wavelength (wv_of o n).
Proof.
  destruct T as (_ & _ & _ & T4 & _). unfold wv_of. rewrite T4. now apply find_by_map.
Qed.
Variable f : filter_spec.

Lemma vis_stored : vis_list pow_half o' f = map (stored_vis E) (vis_list pow_half o f).
Proof.
  destruct T as (_ & _ & _ & _ & _ & _ & T7 & _). unfold vis_list. rewrite T7. destruct (f_accept_vis f); [|reflexivity].
  apply (kind_list _ _ 2 stored_vis_extra (stored_vis_record E)); try reflexivity.
  - intros t t' r _ Hc Hx. unfold stored_vis_record. now rewrite Hc, Hx.
  - exact stored_waves.
Qed.
Lemma vis2_stored : vis2_list pow_half o' f = map (stored_vis2 E) (vis2_list pow_half o f).
Proof.
  destruct T as (_ & _ & _ & _ & _ & _ & _ & T8 & _). unfold vis2_list. rewrite T8. destruct (f_accept_vis2 f); [|reflexivity].
  apply (kind_list _ _ 2 (fun _ => tt) (stored_vis2_record E)); try reflexivity.
  - intros t t' r _ Hc Hx. unfold stored_vis2_record. now rewrite Hc.
  - exact stored_waves.
Qed.
Lemma t3_stored : t3_list pow_half o' f = map (stored_t3 E) (t3_list pow_half o f).
Proof.
  destruct T as (_ & _ & _ & _ & _ & _ & _ & _ & T9 & _). unfold t3_list. rewrite T9.
  destruct (f_accept_t3amp f || f_accept_t3phi f); [|reflexivity].
  apply (kind_list _ _ 2 (fun _ => tt) (stored_t3_record E)); try reflexivity.
  - intros t t' r _ Hc Hx. unfold stored_t3_record. now rewrite Hc.
  - exact stored_waves.
Qed.
Lemma flux_stored : flux_list o' f = map (stored_flux E) (flux_list o f).
Proof.
  destruct T as (_ & _ & _ & _ & _ & _ & _ & _ & _ & T10 & _). unfold flux_list. rewrite T10. destruct (f_accept_flux f); [|reflexivity].
  apply (kind_list _ _ 1 (stored_flux_extra E) (stored_flux_record E)); try reflexivity.
  - intros t t' r Ha Hc Hx. unfold stored_flux_record. now rewrite Hc, Ha.
  - exact stored_waves.
Qed.
Lemma arrnames_stored : arrnames pow_half o' f = arrnames pow_half o f.
Proof.
  unfold arrnames, get_arrname_list. rewrite vis_stored, vis2_stored, t3_stored, flux_stored.
  f_equal.
  rewrite (add_names_map tb_arrname true (stored_flux E)) by reflexivity.
  rewrite (add_names_map tb_arrname true (stored_t3 E)) by reflexivity.
  rewrite (add_names_map tb_arrname true (stored_vis2 E)) by reflexivity.
  now rewrite (add_names_map tb_arrname true (stored_vis E)) by reflexivity.
Qed.
Lemma insnames_stored : insnames pow_half o' f = insnames pow_half o f.
Proof.
  unfold insnames, get_insname_list. rewrite vis_stored, vis2_stored, t3_stored, flux_stored.
  f_equal.
  rewrite (add_names_map tb_insname false (stored_flux E)) by reflexivity.
  rewrite (add_names_map tb_insname false (stored_t3 E)) by reflexivity.
  rewrite (add_names_map tb_insname false (stored_vis2 E)) by reflexivity.
  now rewrite (add_names_map tb_insname false (stored_vis E)) by reflexivity.
Qed.
Lemma corrnames_stored : corrnames pow_half o' f = corrnames pow_half o f.
Proof.
  unfold corrnames, get_corrname_list. rewrite vis_stored, vis2_stored, t3_stored, flux_stored.
  f_equal.
  rewrite (add_names_map tb_corrname true (stored_flux E)) by reflexivity.
  rewrite (add_names_map tb_corrname true (stored_t3 E)) by reflexivity.
  rewrite (add_names_map tb_corrname true (stored_vis2 E)) by reflexivity.
  now rewrite (add_names_map tb_corrname true (stored_vis E)) by reflexivity.
Qed.
Lemma arrays_stored : array_list pow_half o' f = map (stored_array E) (array_list pow_half o f).
Proof.
  destruct T as (_ & _ & T3 & _). unfold array_list. rewrite T3, arrnames_stored.
  rewrite (filter_of_map _ (fun a => accept_arrname f (ar_arrname a))) by reflexivity.
  now rewrite (filter_of_map _ (fun a => listed (arrnames pow_half o f) (ar_arrname a))) by reflexivity.
Qed.
Lemma corrs_stored : corr_list pow_half o' f = map stored_corr (corr_list pow_half o f).
Proof.
  destruct T as (_ & _ & _ & _ & T5 & _). unfold corr_list. rewrite T5, corrnames_stored.
  rewrite (filter_of_map _ (fun a => accept_corrname f (co_corrname a))) by reflexivity.
  now rewrite (filter_of_map _ (fun a => listed (corrnames pow_half o f) (co_corrname a))) by reflexivity.
Qed.
Lemma waves_stored : wave_list pow_half o' f = map stored_wavelength (wave_list pow_half o f).
Proof.
  destruct T as (_ & _ & _ & T4 & _). unfold wave_list. rewrite T4, insnames_stored.
  rewrite (filter_of_map (wave_kept f) (wave_kept f) stored_wavelength) by reflexivity. rewrite map_map.
  replace (map (fun x => wave_out f (stored_wavelength x)) (filter (wave_kept f) (o_wavelengthList o)))
    with (map stored_wavelength (map (wave_out f) (filter (wave_kept f) (o_wavelengthList o)))) by (rewrite map_map; reflexivity).
  now rewrite (filter_of_map _ (fun w => listed (insnames pow_half o f) (wv_insname w)) stored_wavelength) by reflexivity.
Qed.
Lemma inspols_stored : o_inspolList o = [] -> inspol_list pow_half o' f = [] /\ inspol_list pow_half o f = [].
Proof.
  destruct T as (_ & _ & _ & _ & _ & T6 & _). intros H. unfold inspol_list. rewrite T6, H. split; reflexivity.
Qed.
Lemma targets_stored : target_hdu E (target_out f (o_targets o')) = target_hdu E (target_out f (o_targets o)).
Proof.
  destruct T as (_ & T2 & _). rewrite T2. unfold target_out. destruct (0 <=? f_target_id f); [|apply target_same].
  unfold stored_target. cbn [ot_targ].
  rewrite (filter_of_map _ (fun x => tg_target_id x =? f_target_id f)) by reflexivity. rewrite <- map_rev.
  destruct (rev (filter (fun x => tg_target_id x =? f_target_id f) (ot_targ (o_targets o)))) as [|x l]; reflexivity.
Qed.
End Stored.

Lemma stored_filtered E pow_half o o' f f1 f2 p p' : settled E -> tables_of E o' o -> o_inspolList o = [] ->
  consistent o -> consistent o' -> fresh_filter f ->
  apply_oi_filter pow_half o f = Ok (f1, p) -> apply_oi_filter pow_half o' f = Ok (f2, p') ->
  storable_fits E p = true -> file_hdus E p' = file_hdus E p.
Proof.
  intros HE T I C C' F A A' S.
  destruct (apply_inv pow_half o f f1 p C F A) as (_ & h1 & h2 & h3 & -> & _).
  destruct (apply_inv pow_half o' f f2 p' C' F A') as (_ & k1 & k2 & k3 & -> & _).
  revert S. generalize (compiled f). clear A A' F C C'. intros g S. unfold storable_fits, filter_image in S.
  cbn [o_header o_targets o_arrayList o_wavelengthList o_corrList o_inspolList o_visList o_vis2List o_t3List o_fluxList] in S.
  repeat match goal with H : (_ && _)%bool = true |- _ => apply andb_prop in H; destruct H end.
  destruct (inspols_stored E pow_half o o' T g I) as (I1 & I2).
  unfold file_hdus, filter_image.
  cbn [o_header o_targets o_arrayList o_wavelengthList o_corrList o_inspolList o_visList o_vis2List o_t3List o_fluxList].
  rewrite I1, I2, (vis_stored E _ _ _ T), (vis2_stored E _ _ _ T), (t3_stored E _ _ _ T), (flux_stored E _ _ T),
    (arrays_stored E _ _ _ T), (corrs_stored E _ _ _ T), (waves_stored E _ _ _ T), (targets_stored E _ _ T).
  replace (header_hdu E (o_header o')) with (header_hdu E (o_header o)) by (destruct T as (T1 & _); rewrite T1; reflexivity).
  f_equal. f_equal.
  rewrite (numbered_ext _ _ (storable_array E)) by (assumption || now apply array_same).
  rewrite (numbered_ext _ _ storable_wavelength) by (assumption || intros; apply wavelength_same).
  rewrite (numbered_ext _ _ storable_corr) by (assumption || intros; apply corr_same).
  rewrite (numbered_ext (A:=oi_vis) _ _ storable_vis) by (assumption || intros; apply vis_same).
  rewrite (numbered_ext (A:=oi_vis2) _ _ storable_vis2) by (assumption || intros; apply vis2_same).
  rewrite (numbered_ext (A:=oi_t3) _ _ storable_t3) by (assumption || intros; apply t3_same).
  rewrite (numbered_ext (A:=oi_flux) _ _ (storable_flux E)) by (assumption || now apply flux_same).
  reflexivity.
Qed.
