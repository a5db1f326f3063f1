(** Statements about apply_oi_filter, and concrete cases. *)
From Verif Require Import Base BaseLemmas FloatModel Types FileModel FileSpec FileProofs FilterModel FilterSpec FilterLemmas FilterProofs FilterRecords FilterTables FilterApply FilterFacts FilterResults FilterOutput FilterFix FilterWhole Sample.
From Coq Require Import Lia.
Local Open Scope string_scope.
Local Open Scope Z_scope.

Section Main.
Variables (pow_half : f64 -> f64) (d : oi_fits) (f f' : filter_spec) (d' : oi_fits).
Hypothesis C : consistent d.
Hypothesis HF : fresh_filter f.
Hypothesis E : apply_oi_filter pow_half d f = Ok (f', d').

Lemma apply_inv : f' = f /\ exists h1 h2 h3, d' = filter_image pow_half d (compiled f) h1 h2 h3
  /\ indexes ar_arrname (array_list pow_half d (compiled f)) h1
  /\ indexes wv_insname (wave_list pow_half d (compiled f)) h2
  /\ indexes co_corrname (corr_list pow_half d (compiled f)) h3.
Proof.
  destruct (apply_oi_filter_ok pow_half d f C HF) as (h1 & h2 & h3 & E1 & I). rewrite E1 in E.
  injection E as <- <-. split; [reflexivity|]. exists h1, h2, h3. split; [reflexivity|exact I].
Qed.

Lemma main_waves : kept (fun w => glob_match (f_insname f) (wv_insname w) /\ (exists j, chan_accepted f w j)
    /\ uses_insname d' (wv_insname w)) (wave_filtered f) (o_wavelengthList d) (o_wavelengthList d').
Proof. destruct apply_inv as (_ & h1 & h2 & h3 & -> & _). apply (waves_kept pow_half d (compiled f)); [exact C|apply pats_ok]. Qed.

Lemma main_resolve_ins n : uses_insname d' n ->
  exists w, instrument d' n w /\ oi_fits_lookup_wavelength d' n = Some w.
Proof.
  destruct apply_inv as (_ & h1 & h2 & h3 & -> & I1 & I2 & I3). intros H.
  apply (uses_insname_accepted pow_half d (compiled f)); auto. apply pats_ok.
Qed.
Lemma main_resolve_arr n a : uses_arrname d' n -> In a (o_arrayList d) -> ar_arrname a = n ->
  exists a', oi_fits_lookup_array d' n = Some a' /\ In a' (o_arrayList d') /\ ar_arrname a' = n.
Proof.
  destruct apply_inv as (_ & h1 & h2 & h3 & -> & I1 & I2 & I3). intros H Ha En.
  apply (arr_resolves pow_half d (compiled f) h1 h2 h3 (pats_ok f) I1 a); auto.
  apply (uses_arrname_accepted pow_half d (compiled f) h1 h2 h3); auto; apply pats_ok.
Qed.
Lemma main_resolve_corr n a : uses_corrname d' n -> In a (o_corrList d) -> co_corrname a = n ->
  exists a', oi_fits_lookup_corr d' n = Some a' /\ In a' (o_corrList d') /\ co_corrname a' = n.
Proof.
  destruct apply_inv as (_ & h1 & h2 & h3 & -> & I1 & I2 & I3). intros H Ha En.
  apply (corr_resolves pow_half d (compiled f) h1 h2 h3 (pats_ok f) I3 a); auto.
  apply (uses_corrname_accepted pow_half d (compiled f) h1 h2 h3); auto; apply pats_ok.
Qed.

Lemma main_vis : filtered_tables (kind_vis pow_half) f d (vis_kept_rec pow_half f) (o_visList d) (o_visList d').
Proof. destruct apply_inv as (_ & h1 & h2 & h3 & -> & _). apply (vis_filtered pow_half d (compiled f)); [exact C|apply pats_ok]. Qed.
Lemma main_vis2 : filtered_tables (kind_vis2 pow_half) f d (vis2_kept_rec pow_half f) (o_vis2List d) (o_vis2List d').
Proof. destruct apply_inv as (_ & h1 & h2 & h3 & -> & _). apply (vis2_filtered pow_half d (compiled f)); [exact C|apply pats_ok]. Qed.
Lemma main_t3 : filtered_tables (kind_t3 pow_half) f d (t3_kept_rec pow_half f) (o_t3List d) (o_t3List d').
Proof. destruct apply_inv as (_ & h1 & h2 & h3 & -> & _). apply (t3_filtered pow_half d (compiled f)); [exact C|apply pats_ok]. Qed.
Lemma main_flux : filtered_tables kind_flux f d (flux_kept_rec f) (o_fluxList d) (o_fluxList d').
Proof. destruct apply_inv as (_ & h1 & h2 & h3 & -> & _). apply (flux_filtered pow_half d (compiled f)); [exact C|apply pats_ok]. Qed.
Lemma main_inspol : kept (inspol_accepted f d d') (inspol_filtered f d) (o_inspolList d) (o_inspolList d').
Proof. destruct apply_inv as (_ & h1 & h2 & h3 & -> & _). apply (inspols_kept pow_half d (compiled f)); [exact C|apply pats_ok]. Qed.
Lemma main_arrays : kept (fun a => glob_match (f_arrname f) (ar_arrname a) /\ uses_arrname d' (ar_arrname a)) eq
  (o_arrayList d) (o_arrayList d').
Proof. destruct apply_inv as (_ & h1 & h2 & h3 & -> & _). apply (arrays_kept pow_half d (compiled f)); apply pats_ok. Qed.
Lemma main_corrs : kept (fun a => glob_match (f_corrname f) (co_corrname a) /\ uses_corrname d' (co_corrname a)) eq
  (o_corrList d) (o_corrList d').
Proof. destruct apply_inv as (_ & h1 & h2 & h3 & -> & _). apply (corrs_kept pow_half d (compiled f)); apply pats_ok. Qed.
Lemma main_header : o_header d' = o_header d.
Proof. destruct apply_inv as (_ & h1 & h2 & h3 & -> & _). reflexivity. Qed.
Lemma main_targets : o_targets d' = target_out (compiled f) (o_targets d).
Proof. destruct apply_inv as (_ & h1 & h2 & h3 & -> & _). reflexivity. Qed.
Lemma main_consistent :
  f_target_id f < 0 \/ (exists x, In x (ot_targ (o_targets d)) /\ tg_target_id x = f_target_id f) ->
  consistent d'.
Proof.
  destruct apply_inv as (_ & h1 & h2 & h3 & -> & I1 & I2 & I3). intros H.
  apply output_consistent; auto. apply pats_ok.
Qed.
Lemma main_counters :
  o_numArray d' = Z.of_nat (length (o_arrayList d')) /\ o_numWavelength d' = Z.of_nat (length (o_wavelengthList d'))
  /\ o_numCorr d' = Z.of_nat (length (o_corrList d')) /\ o_numInspol d' = Z.of_nat (length (o_inspolList d'))
  /\ o_numVis d' = Z.of_nat (length (o_visList d')) /\ o_numVis2 d' = Z.of_nat (length (o_vis2List d'))
  /\ o_numT3 d' = Z.of_nat (length (o_t3List d')) /\ o_numFlux d' = Z.of_nat (length (o_fluxList d')).
Proof. destruct apply_inv as (_ & h1 & h2 & h3 & -> & _). repeat split. Qed.

(** The number of channels of every data table matches its OI_WAVELENGTH *)
Lemma main_nwave {X R} (sel_ : oi_fits -> list (dtab X R)) t :
  (forall t, In t (sel_ d') -> table_ready d' t /\ uses_insname d' (tb_insname t)) -> In t (sel_ d') ->
  exists w, instrument d' (tb_insname t) w /\ wv_nwave w = tb_nwave t.
Proof.
  intros H Ht. destruct (H t Ht) as [[_ H1] H2]. destruct (main_resolve_ins _ H2) as (w & Hw & _). exists w. auto.
Qed.
Lemma main_ready :
  (forall t, In t (o_visList d') -> table_ready d' t) /\ (forall t, In t (o_vis2List d') -> table_ready d' t)
  /\ (forall t, In t (o_t3List d') -> table_ready d' t) /\ (forall t, In t (o_fluxList d') -> table_ready d' t).
Proof.
  destruct apply_inv as (_ & h1 & h2 & h3 & -> & I1 & I2 & I3). split; [|split; [|split]]; intros t Ht.
  - now apply (vis_ready pow_half d (compiled f) h1 h2 h3 C).
  - now apply (vis2_ready pow_half d (compiled f) h1 h2 h3 C).
  - now apply (t3_ready pow_half d (compiled f) h1 h2 h3 C).
  - now apply (flux_ready pow_half d (compiled f) h1 h2 h3 C).
Qed.
End Main.

(** Weakening [filtered_tables] *)
Lemma filtered_impl {X R} (k : kind R) f d (Q Q' : dtab X R -> oi_wavelength -> R -> R -> Prop) l l' :
  (forall t w r r', record_accepted k f w r -> Q t w r r' -> Q' t w r r') ->
  filtered_tables k f d Q l l' -> filtered_tables k f d Q' l l'.
Proof.
  intros H. apply kept_impl; [tauto|]. intros t t' Ht HA (K & w & Hw & HR & HN). split; [exact K|].
  exists w. split; [exact Hw|]. split; [|exact HN]. revert HR. apply kept_impl; [tauto|]. intros r r' _. apply H.
Qed.

(** Every record of a filtered list comes from an accepted one *)
Lemma filtered_records {X R} (k : kind R) f d (Q : dtab X R -> oi_wavelength -> R -> R -> Prop) l l' t' r' :
  filtered_tables k f d Q l l' -> In t' l' -> In r' (tb_record t') ->
  exists t w r, In t l /\ In r (tb_record t) /\ record_accepted k f w r /\ Q t w r r'.
Proof.
  intros H Ht Hr. destruct (kept_true _ _ _ _ H t' Ht) as (t & H1 & _ & _ & w & _ & K & _).
  destruct (kept_true _ _ _ _ K r' Hr) as (r & H3 & H4 & H5). exists t, w, r. auto.
Qed.

Lemma accepted_id f id : 0 <= f_target_id f -> target_accepted f id -> id = f_target_id f.
Proof. intros H [G|G]; [lia|exact G]. Qed.
Lemma new_id_one f id id' : 0 <= f_target_id f -> new_id f id id' -> id' = 1.
Proof. intros H [_ G]. now apply G. Qed.
Lemma new_id_same f id id' : f_target_id f < 0 -> new_id f id id' -> id' = id.
Proof. intros H [G _]. now apply G. Qed.

(** A target chosen by id *)
Lemma target_out_single f t x : 0 <= f_target_id f ->
  In x (ot_targ t) -> tg_target_id x = f_target_id f ->
  (forall y, In y (ot_targ t) -> tg_target_id y = f_target_id f -> y = x) ->
  ot_revision (target_out f t) = ot_revision t /\ ot_ntarget (target_out f t) = 1
  /\ ot_targ (target_out f t) = [tg_set_target_id 1 x] /\ ot_usecategory (target_out f t) = false.
Proof.
  intros HT Hx Ex HU. unfold target_out. destruct (Z.leb_spec 0 (f_target_id f)); [|lia].
  destruct (rev (filter (fun x0 => tg_target_id x0 =? f_target_id f) (ot_targ t))) as [|y ys] eqn:R.
  - apply (f_equal (@rev _)) in R. rewrite rev_involutive in R. cbn in R. exfalso.
    assert (In x []) by (rewrite <- R; apply filter_In; split; [exact Hx|now apply Z.eqb_eq]). contradiction.
  - assert (Hy : In y (filter (fun x0 => tg_target_id x0 =? f_target_id f) (ot_targ t))).
    { apply in_rev. rewrite R. now left. }
    apply filter_In in Hy as [Hy Ey]. apply Z.eqb_eq in Ey. rewrite (HU y Hy Ey). repeat split.
Qed.
Lemma target_out_absent f t : 0 <= f_target_id f ->
  (forall y, In y (ot_targ t) -> tg_target_id y <> f_target_id f) ->
  ot_ntarget (target_out f t) = 0 /\ ot_targ (target_out f t) = [].
Proof.
  intros HT HN. unfold target_out. destruct (Z.leb_spec 0 (f_target_id f)); [|lia].
  destruct (rev (filter (fun x0 => tg_target_id x0 =? f_target_id f) (ot_targ t))) as [|y ys] eqn:R; [auto|].
  assert (Hy : In y (filter (fun x0 => tg_target_id x0 =? f_target_id f) (ot_targ t))).
  { apply in_rev. rewrite R. now left. }
  apply filter_In in Hy as [Hy Ey]. apply Z.eqb_eq in Ey. exfalso. now apply (HN y).
Qed.

(** ** Concrete cases *)

Definition sqrt64 : f64 -> f64 := SFsqrt 53 1024.

Lemma s_fits_consistent : consistent s_fits.
Proof.
  split.
  - reflexivity.
  - reflexivity.
  - intros a [<-|[<-|[]]]; reflexivity.
  - intros c [<-|[]]; reflexivity.
  - intros w [<-|[<-|[]]]; split; reflexivity.
  - repeat constructor; cbn; intuition discriminate.
  - intros w [<-|[<-|[]]] _; reflexivity.
  - intros t [<-|[]]; split; [reflexivity|]. intros w [[<-|[<-|[]]] E]; [reflexivity|discriminate].
  - intros t [<-|[]]; split; [reflexivity|]. intros w [[<-|[<-|[]]] E]; [discriminate|reflexivity].
  - intros t [<-|[]]; split; [reflexivity|]. intros w [[<-|[<-|[]]] E]; [reflexivity|discriminate].
  - intros t [<-|[]]; split; [reflexivity|]. intros w [[<-|[<-|[]]] E]; [reflexivity|discriminate].
  - intros t [<-|[]]; split; [reflexivity|]. exists "GRAVITY"%string. split.
    + intros r [<-|[]]. reflexivity.
    + intros w [[<-|[<-|[]]] E]; [reflexivity|discriminate].
Qed.

(** Select target 4, wavelengths 2.05 to 2.5 microns, arrays V*, unflagged data *)
Definition s_filter : filter_spec :=
  mk_filter "V*" "*" "*" 4 (f64_of_Z 0) (f64_of_Z 10000000)
    (fl32 205 100000000) (fl32 250 100000000) (f64_of_Z 0) (f64_of_Z 10000)
    (f64_of_Z 0) (f64_of_Z 100000000000) (fl32 (-5) 1) (fl32 40 1)
    true true true true true false None None None.

Definition set_inspols (l : list oi_inspol) (d : oi_fits) : oi_fits :=
  mk_fits (o_header d) (o_targets d) (o_numArray d) (o_numWavelength d) (o_numCorr d)
    (Z.of_nat (length l)) (o_numVis d) (o_numVis2 d) (o_numT3 d) (o_numFlux d) (o_arrayList d)
    (o_wavelengthList d) (o_corrList d) l (o_visList d) (o_vis2List d) (o_t3List d) (o_fluxList d)
    (o_arrayHash d) (o_wavelengthHash d) (o_corrHash d).

(** Two instruments of two channels each; an OI_INSPOL with a record for each *)
Definition s_wave3 : oi_wavelength :=
  mk_wavelength 2 "GRAVITY" 2 [fl32 16 10000000; fl32 22 10000000] [fl32 1 100000000; fl32 1 100000000].
Definition s_two : oi_fits :=
  mk_fits s_header s_targets 2 2 0 0 0 1 0 0 [s_array1; s_array2] [s_wave3; s_wave2] []
    [] [] [s_vis2] [] [] [("CHARA", Some s_array2)] [("PIONIER", Some s_wave2)] [].
Definition s_two_inspol : oi_inspol :=
  let j := [(fl32 1 1, fl32 0 1); (fl32 1 2, fl32 1 4)] in
  mk_inspol 1 "2019-12-31" 2 "CHARA" "NORTH" "M" 2 2
    [mk_inspol_record 4 "GRAVITY" (fl 58848 1) (fl 58849 1) j j j j 1;
     mk_inspol_record 4 "PIONIER" (fl 58848 1) (fl 58849 1) j j j j 1].
Definition s_short_filter : filter_spec :=
  mk_filter "*" "*" "*" (-1) (f64_of_Z 0) (f64_of_Z 10000000)
    (fl32 0 1) (fl32 2 1000000) (f64_of_Z 0) (f64_of_Z 10000)
    (f64_of_Z 0) (f64_of_Z 100000000000) (fl32 (-5) 1) (fl32 100 1)
    true true true true true true None None None.

Lemma s_two_consistent : consistent s_two.
Proof.
  split.
  - reflexivity.
  - reflexivity.
  - intros a [<-|[<-|[]]]; reflexivity.
  - intros c [].
  - intros w [<-|[<-|[]]]; split; reflexivity.
  - repeat constructor; cbn; intuition discriminate.
  - intros w [<-|[<-|[]]] H; [|reflexivity].
    destruct H as [(t & [] & _)|[(t & [<-|[]] & H)|[(t & [] & _)|(t & [] & _)]]]. discriminate.
  - intros t [].
  - intros t [<-|[]]; split; [reflexivity|]. intros w [[<-|[<-|[]]] E]; [discriminate|reflexivity].
  - intros t [].
  - intros t [].
  - intros t [].
Qed.

Lemma inspol_counterexample : exists d t f,
  consistent d /\ wf_inspol t = true /\ 0 < is_numrec t
  /\ (forall r, In r (is_record t) -> exists w, instrument d (ip_insname r) w /\ wv_nwave w = is_nwave t)
  /\ fresh_filter f
  /\ apply_oi_filter sqrt64 (set_inspols [t] d) f = UB.
Proof.
  exists s_two, s_two_inspol, s_short_filter. split; [exact s_two_consistent|]. split; [reflexivity|].
  split; [reflexivity|]. split.
  - intros r [<-|[<-|[]]]; [exists s_wave3|exists s_wave2]; (split; [split; [cbn; auto|reflexivity]|reflexivity]).
  - split; [repeat split|]. vm_compute. reflexivity.
Qed.

(** An OI_INSPOL for an instrument none of whose data survive *)
Definition s_lone_inspol : oi_inspol :=
  let j := [(fl32 1 1, fl32 0 1); (fl32 1 2, fl32 1 4)] in
  mk_inspol 1 "2019-12-31" 2 "CHARA" "NORTH" "M" 1 2
    [mk_inspol_record 4 "GRAVITY" (fl 58848 1) (fl 58849 1) j j j j 1].
Definition s_lone : oi_fits := set_inspols [s_lone_inspol] s_two.
Lemma s_lone_consistent : consistent s_lone.
Proof.
  destruct s_two_consistent as [H1 H2 H3 H4 H5 H6 H7 H8 H9 H10 H11 H12].
  split; try assumption; try reflexivity.
  intros t [<-|[]]; split; [reflexivity|]. exists "GRAVITY"%string. split.
  - intros r [<-|[]]. reflexivity.
  - intros w [[<-|[<-|[]]] E]; [reflexivity|discriminate].
Qed.

Definition out_of (r : res (filter_spec * oi_fits)) : oi_fits :=
  match r with Ok (_, d) => d | _ => init_oi_fits end.
Definition s_lone1 : oi_fits := Eval vm_compute in out_of (apply_oi_filter sqrt64 s_lone init_oi_filter).
Definition s_lone2 : oi_fits := Eval vm_compute in out_of (apply_oi_filter sqrt64 s_lone1 init_oi_filter).

Lemma lone_counterexample : exists d f d1 d2 t r,
  consistent d /\ fresh_filter f /\ f_target_id f < 0
  /\ apply_oi_filter sqrt64 d f = Ok (f, d1) /\ apply_oi_filter sqrt64 d1 f = Ok (f, d2)
  /\ In t (o_inspolList d1) /\ In r (is_record t)
  /\ (exists w, instrument d (ip_insname r) w) /\ (forall w, ~ instrument d1 (ip_insname r) w)
  /\ o_inspolList d2 = [].
Proof.
  exists s_lone, init_oi_filter, s_lone1, s_lone2, (hd s_lone_inspol (o_inspolList s_lone1)),
    (hd (mk_inspol_record 0 "" f64_zero f64_zero [] [] [] [] 0)
       (is_record (hd s_lone_inspol (o_inspolList s_lone1)))).
  split; [exact s_lone_consistent|]. split; [repeat split|]. split; [reflexivity|].
  split; [vm_compute; reflexivity|]. split; [vm_compute; reflexivity|].
  split; [now left|]. split; [now left|].
  split; [exists s_wave3; split; [now left|reflexivity]|].
  split; [|reflexivity].
  intros w [Hin H]. cbn in Hin, H. destruct Hin as [<-|Hin]; [discriminate H|contradiction].
Qed.

Definition s_fits1 : oi_fits := Eval vm_compute in out_of (apply_oi_filter sqrt64 s_fits s_filter).
Lemma s_fits1_ok : apply_oi_filter sqrt64 s_fits s_filter = Ok (s_filter, s_fits1).
Proof. vm_compute. reflexivity. Qed.

Lemma category_counterexample : exists d f d',
  consistent d /\ fresh_filter f /\ apply_oi_filter sqrt64 d f = Ok (f, d')
  /\ ot_usecategory (o_targets d) = true /\ ot_usecategory (o_targets d') = false
  /\ map tg_category (ot_targ (o_targets d')) = ["SCI"].
Proof.
  exists s_fits, s_filter, s_fits1. split; [exact s_fits_consistent|]. split; [repeat split|].
  split; [exact s_fits1_ok|]. repeat split.
Qed.

(** ** A dataset within the default ranges *)

Local Opaque fl fl32 f64_of_Z to_f32 f64_ratio f64_div f64_mul f64_add sqrt64.
Lemma inside_dec lo hi x : SFltb x lo || SFltb hi x = false -> ~ beyond lo hi x.
Proof. intros H [G|G]; rewrite G in H; [|rewrite orb_true_r in H]; discriminate. Qed.
Ltac inside := lazymatch goal with
  | |- ~ beyond _ _ _ => apply inside_dec; vm_compute; reflexivity
  | |- ~ uvrad_beyond _ _ _ => unfold uvrad_beyond; apply inside_dec; vm_compute; reflexivity
  end.
Lemma some_eq {A} (a b : A) : Some a = Some b -> b = a.
Proof. congruence. Qed.
Ltac each_in H := cbn in H; repeat destruct H as [<-|H]; try contradiction.
Ltac each_channel j Hx := do 4 (try (destruct j as [|j])); cbn in Hx; lazymatch type of Hx with None = Some _ => discriminate Hx | Some _ = Some _ => apply some_eq in Hx; subst end.

Lemma snr_inside f value err j a e : nth_error value j = Some a -> nth_error err j = Some e ->
  ~ beyond (f_snr_lo f) (f_snr_hi f) (to_f32 (f64_div a e)) -> ~ snr_beyond f value err j.
Proof. intros H1 H2 H (a' & e' & H3 & H4 & G). congruence. Qed.
Lemma phase_snr_inside f err j e : nth_error err j = Some e ->
  ~ beyond (f_snr_lo f) (f_snr_hi f) (to_f32 (f64_div c_rad2deg e)) -> ~ phase_snr_beyond f err j.
Proof. intros H2 H (e' & H4 & G). congruence. Qed.
Lemma not_or (P Q : Prop) : ~ P -> ~ Q -> ~ (P \/ Q).
Proof. tauto. Qed.
Ltac snr_ok := lazymatch goal with
  | |- ~ snr_beyond _ _ _ _ => eapply snr_inside; [reflexivity|reflexivity|inside]
  | |- ~ phase_snr_beyond _ _ _ => eapply phase_snr_inside; [reflexivity|inside]
  end.

Lemma s_fits_within : within sqrt64 init_oi_filter s_fits.
Proof.
  split.
  - intros w x Hw Hx. each_in Hw; each_in Hx; inside.
  - intros t Ht. each_in Ht. exists s_wave1. split; [split; [now left|reflexivity]|].
    intros r Hr. each_in Hr; (split; [inside|]; split; [intros b Hb; each_in Hb; inside|]);
      intros j x Hx; each_channel j Hx; cbn [k_bad kind_vis]; (apply not_or; [inside|apply not_or; snr_ok]).
  - intros t Ht. each_in Ht. exists s_wave2. split; [split; [right; now left|reflexivity]|].
    intros r Hr. each_in Hr; (split; [inside|]; split; [intros b Hb; each_in Hb; inside|]);
      intros j x Hx; each_channel j Hx; cbn [k_bad kind_vis2]; (apply not_or; [inside|snr_ok]).
  - intros t Ht. each_in Ht. exists s_wave1. split; [split; [now left|reflexivity]|].
    intros r Hr. each_in Hr; (split; [inside|]; split; [intros b Hb; each_in Hb; inside|]);
      intros j x Hx; each_channel j Hx; cbn [k_bad kind_t3]; 
      (apply not_or; [intros (b & Hb & G); revert b Hb G; intros b Hb; each_in Hb; lazymatch goal with |- ?P -> False => change (~ P) end; inside
        |apply not_or; intros [_ G]; revert G; lazymatch goal with |- ?P -> False => change (~ P) end; snr_ok]).
  - intros t Ht. each_in Ht. split.
    + exists s_wave1. split; [split; [now left|reflexivity]|].
      intros r Hr. each_in Hr; (split; [inside|]; split; [intros b Hb; each_in Hb|]). intros j x _ [].
    + intros r j Hr. each_in Hr. intros (a & e & Ha & He & G). revert G. lazymatch goal with |- ?P -> False => change (~ P) end.
      do 3 (destruct j as [|j]; [cbn in Ha, He; apply some_eq in Ha, He; subst; inside|]).
      cbn in Ha. now destruct j.
  - intros t r Ht Hr. each_in Ht. each_in Hr. split; [intros G; vm_compute in G; discriminate G|].
    split; [intros G; vm_compute in G; discriminate G|]. exists s_wave1. split; [now left|reflexivity].
Qed.
