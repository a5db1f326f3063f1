(** Filtering and merging: concrete cases and counterexamples. *)
From Verif Require Import Base BaseLemmas FloatModel Types FileModel FileSpec FileProofs FilterModel FilterSpec
  FilterMain MergeModel MergeSpec MergeMain CommuteSpec CommuteMain Sample.
From Coq Require Import Lia.
Open Scope string_scope.
Open Scope list_scope.
Open Scope Z_scope.

Ltac ins_of H := repeat (destruct H as [<-|H]; [|]); try contradiction.
Ltac uses H := destruct H as [(t & Ht & <-)|[(t & Ht & <-)|[(t & Ht & <-)|(t & Ht & <-)]]]; cbn in Ht;
  ins_of Ht; cbn; tauto.

Lemma m_fits_consistent : consistent m_fits.
Proof.
  split.
  - reflexivity.
  - reflexivity.
  - intros a [<-|[]]; reflexivity.
  - intros c [<-|[]]; reflexivity.
  - intros w [<-|[]]; split; reflexivity.
  - repeat constructor; cbn; intuition discriminate.
  - intros w [<-|[]] _; reflexivity.
  - intros t [].
  - intros t [<-|[]]; split; [reflexivity|]. intros w [[<-|[]] E]; reflexivity.
  - intros t [].
  - intros t [].
  - intros t [].
Qed.
Lemma s_suitable : suitable s_fits.
Proof.
  split; [exact s_fits_consistent|]. split; [exact (Forall_inv m_fit)|]. split; [|split].
  - split; [|split]; cbn; repeat constructor; cbn; intuition congruence.
  - split; [|split; [|split]].
    + intros n H. uses H.
    + intros n [_ H]. uses H.
    + intros n [Hn H]. destruct H as [(t & Ht & <-)|[(t & Ht & <-)|[(t & Ht & <-)|(t & Ht & <-)]]]; cbn in Ht;
        ins_of Ht; cbn in *; tauto.
    + intros t r [<-|[]] [<-|[]]. cbn. auto.
  - split; [intros a [<-|[<-|[]]]|intros a [<-|[]]]; discriminate.
Qed.
Lemma m_suitable : suitable m_fits.
Proof.
  split; [exact m_fits_consistent|]. split; [exact (Forall_inv (Forall_inv_tail m_fit))|]. split; [|split].
  - split; [|split]; cbn; repeat constructor; cbn; intuition congruence.
  - split; [|split; [|split]].
    + intros n H. uses H.
    + intros n [_ H]. uses H.
    + intros n [Hn H]. uses H.
    + intros t r [].
  - split; [intros a [<-|[]]|intros a [<-|[]]]; discriminate.
Qed.
Lemma m_ins_suitable : Forall suitable m_ins.
Proof. all_of; [exact s_suitable|exact m_suitable]. Qed.

(** All pairs of values *)
Definition f32_eqb (x y : f32) : bool :=
  match x, y with
  | S754_zero a, S754_zero b => Bool.eqb a b
  | S754_infinity a, S754_infinity b => Bool.eqb a b
  | S754_nan, S754_nan => true
  | S754_finite a m e, S754_finite b n k => Bool.eqb a b && Pos.eqb m n && Z.eqb e k
  | _, _ => false
  end.
Lemma f32_eqb_eq x y : f32_eqb x y = true -> x = y.
Proof.
  destruct x as [a|a| |a m e], y as [b|b| |b n k]; cbn; try discriminate; intros H.
  - now apply Bool.eqb_prop in H as ->.
  - now apply Bool.eqb_prop in H as ->.
  - reflexivity.
  - apply andb_true_iff in H as [H H3]. apply andb_true_iff in H as [H1 H2].
    apply Bool.eqb_prop in H1 as ->. apply Pos.eqb_eq in H2 as ->. now apply Z.eqb_eq in H3 as ->.
Qed.
Definition exactb (col : oi_wavelength -> list f32) (ins : list oi_fits) : bool :=
  let vals := flat_map (fun d => flat_map col (o_wavelengthList d)) ins in
  forallb (fun x => forallb (fun y => SFleb c_1em10 (SFabs (to_f64 (f32_sub x y))) || f32_eqb x y) vals) vals.
Lemma exactb_ok col ins : exactb col ins = true -> exact col ins.
Proof.
  intros H d w x d' w' x' Hd Hw Hx Hd' Hw' Hx' Cl. unfold exactb in H. cbv zeta in H. rewrite forallb_forall in H.
  assert (K : forall d w x, In d ins -> In w (o_wavelengthList d) -> In x (col w) ->
    In x (flat_map (fun d => flat_map col (o_wavelengthList d)) ins)).
  { intros d0 w0 x0 A B E. apply in_flat_map. exists d0. split; [exact A|]. apply in_flat_map. eauto. }
  specialize (H x (K d w x Hd Hw Hx)). rewrite forallb_forall in H. specialize (H x' (K d' w' x' Hd' Hw' Hx')).
  unfold close_wave in Cl. rewrite Cl in H. now apply f32_eqb_eq.
Qed.
Lemma m_exact : exact wv_eff_wave m_ins /\ exact wv_eff_band m_ins.
Proof. split; apply exactb_ok; vm_compute; reflexivity. Qed.

(** Wavelengths 2.05 to 3.05 microns *)
Definition c_filter : filter_spec :=
  mk_filter "*" "*" "*" (-1) (f64_of_Z 0) (f64_of_Z 10000000)
    (fl32 205 100000000) (fl32 305 100000000) (f64_of_Z 0) (f64_of_Z 10000)
    (f64_of_Z 0) (f64_of_Z 100000000000) (fl32 (-5) 1) (fl32 100 1)
    true true true true true true None None None.
Lemma c_fresh : fresh_filter c_filter.
Proof. repeat split. Qed.
Lemma c_by_data : by_data c_filter.
Proof. repeat split. Qed.

Definition refs {X R} (l : list (dtab X R)) := map (fun t => (tb_arrname t, tb_insname t, tb_corrname t)) l.
(** Merging first and merging last *)
Definition first_then (ins : list oi_fits) (f : filter_spec) : res oi_fits :=
  m <- merge_oi_fits_list ins ;; r <- apply_oi_filter sqrt64 m f ;; Ok (snd r).
Fixpoint filter_each (ins : list oi_fits) (f : filter_spec) : res (list oi_fits) :=
  match ins with
  | [] => Ok []
  | d :: l => r <- apply_oi_filter sqrt64 d f ;; l' <- filter_each l f ;; Ok (snd r :: l')
  end.
Definition each_then (ins : list oi_fits) (f : filter_spec) : res oi_fits :=
  l <- filter_each ins f ;; merge_oi_fits_list l.
Lemma first_then_inv ins f o : first_then ins f = Ok o -> merged_then_filtered sqrt64 ins f o.
Proof.
  intros H. unfold first_then in H. apply bind_inv in H as (m & E & H). apply bind_inv in H as ([f' x] & E2 & H).
  injection H as <-. exists m, f'. auto.
Qed.
Lemma filter_each_inv ins f l : filter_each ins f = Ok l ->
  Forall2 (fun d d' => exists f', apply_oi_filter sqrt64 d f = Ok (f', d')) ins l.
Proof.
  revert l. induction ins as [|d ins IH]; intros l H; cbn [filter_each] in H.
  - injection H as <-. constructor.
  - apply bind_inv in H as ([f' x] & E & H). apply bind_inv in H as (l' & E2 & H). injection H as <-.
    constructor; [cbn [snd]; eauto|auto].
Qed.
Lemma each_then_inv ins f o : each_then ins f = Ok o -> filtered_then_merged sqrt64 ins f o.
Proof.
  intros H. unfold each_then in H. apply bind_inv in H as (l & E & H). exists l. split; [now apply filter_each_inv|exact H].
Qed.

Definition facts_of (o : oi_fits) := (refs (o_visList o), refs (o_vis2List o), names_of o).
Lemma c_results : exists fm mf, first_then m_ins c_filter = Ok fm /\ each_then m_ins c_filter = Ok mf
  /\ facts_of fm = ([("VLTI", "GRAVITY", "CORR1")], [("VLTI_003", "GRAVITY_003", "CORR1_002")],
       (["VLTI"; "VLTI_003"], ["GRAVITY"; "GRAVITY_003"], ["CORR1"; "CORR1_002"]))
  /\ facts_of mf = ([("VLTI", "GRAVITY", "CORR1")], [("VLTI_002", "GRAVITY_002", "CORR1_002")],
       (["VLTI"; "VLTI_002"], ["GRAVITY"; "GRAVITY_002"], ["CORR1"; "CORR1_002"])).
Proof.
  destruct (result_some facts_of (first_then m_ins c_filter)
    ([("VLTI", "GRAVITY", "CORR1")], [("VLTI_003", "GRAVITY_003", "CORR1_002")],
       (["VLTI"; "VLTI_003"], ["GRAVITY"; "GRAVITY_003"], ["CORR1"; "CORR1_002"]))) as (fm & E1 & F1); [vm_compute; reflexivity|].
  destruct (result_some facts_of (each_then m_ins c_filter)
    ([("VLTI", "GRAVITY", "CORR1")], [("VLTI_002", "GRAVITY_002", "CORR1_002")],
       (["VLTI"; "VLTI_002"], ["GRAVITY"; "GRAVITY_002"], ["CORR1"; "CORR1_002"]))) as (mf & E2 & F2); [vm_compute; reflexivity|].
  eauto 6.
Qed.

(** ** Counterexamples *)

(** Names: the results need not be equal *)
Lemma equal_counterexample : exists ins f fm mf, Forall suitable ins /\ ins <> [] /\ fresh_filter f /\ by_data f
  /\ exact wv_eff_wave ins /\ exact wv_eff_band ins /\ mergeable ins /\ plain_names ins
  /\ merged_then_filtered sqrt64 ins f fm /\ filtered_then_merged sqrt64 ins f mf /\ fm <> mf.
Proof.
  destruct c_results as (fm & mf & E1 & E2 & F1 & F2). exists m_ins, c_filter, fm, mf.
  split; [exact m_ins_suitable|]. split; [discriminate|]. split; [exact c_fresh|]. split; [exact c_by_data|].
  split; [apply m_exact|]. split; [apply m_exact|]. split; [exact m_mergeable|]. split; [exact m_plain|].
  split; [now apply first_then_inv|]. split; [now apply each_then_inv|]. intros ->. rewrite F2 in F1. discriminate.
Qed.

Lemma vis2_lengths ins o o' : same_data ins o o' -> length (o_vis2List o) = length (o_vis2List o').
Proof. intros (_ & _ & _ & H & _). induction H as [|x y l l' _ _ IH]; cbn; congruence. Qed.

(** Wavelengths that differ by 5e-11 m *)
Definition near (k : Z) : oi_wavelength :=
  mk_wavelength 2 "A" 2 [fl32 k 100000000000; fl32 25 10000000] [fl32 1 100000000; fl32 1 100000000].
Definition e_ins : list oi_fits :=
  [waves_only s_header s_targets [near 200000] [on_ins "A"];
   waves_only s_header s_targets [near 200005] [on_ins "A"]].
Definition e_filter : filter_spec :=
  mk_filter "*" "*" "*" (-1) (f64_of_Z 0) (f64_of_Z 10000000)
    (fl32 1 1000000) (fl32 200003 100000000000) (f64_of_Z 0) (f64_of_Z 10000)
    (f64_of_Z 0) (f64_of_Z 100000000000) (fl32 (-5) 1) (fl32 100 1)
    true true true true true true None None None.
Definition n_filter : filter_spec :=
  mk_filter "*" "GRAVITY" "*" (-1) (f64_of_Z 0) (f64_of_Z 10000000)
    (fl32 205 100000000) (fl32 305 100000000) (f64_of_Z 0) (f64_of_Z 10000)
    (f64_of_Z 0) (f64_of_Z 100000000000) (fl32 (-5) 1) (fl32 100 1)
    true true true true true true None None None.
Definition t_filter (i : Z) : filter_spec :=
  mk_filter "*" "*" "*" i (f64_of_Z 0) (f64_of_Z 10000000)
    (fl32 1 10000000) (fl32 305 100000000) (f64_of_Z 0) (f64_of_Z 10000)
    (f64_of_Z 0) (f64_of_Z 100000000000) (fl32 (-5) 1) (fl32 100 1)
    true true true true true true None None None.

(** All but exactness of the wavelengths *)
Lemma near_consistent k : consistent (waves_only s_header s_targets [near k] [on_ins "A"]).
Proof.
  split; try (intros ? XX; exfalso; exact XX); try reflexivity.
  - intros w [<-|[]]; split; reflexivity.
  - repeat constructor; cbn; intuition discriminate.
  - intros w [<-|[]] _; reflexivity.
  - intros t [<-|[]]; split; [reflexivity|]. intros w [[<-|[]] E]; reflexivity.
Qed.
Lemma near_suitable k : suitable (waves_only s_header s_targets [near k] [on_ins "A"]).
Proof.
  split; [apply near_consistent|]. split; [|split; [|split]].
  - split; [|split]; cbn; all_of; reflexivity.
  - split; [|split]; cbn; repeat constructor; cbn; intuition congruence.
  - split; [|split; [|split]].
    + intros n H. uses H.
    + intros n [Hn H]. destruct H as [(t & Ht & <-)|[(t & Ht & <-)|[(t & Ht & <-)|(t & Ht & <-)]]]; cbn in Ht;
        ins_of Ht; cbn in *; tauto.
    + intros n [Hn H]. destruct H as [(t & Ht & <-)|[(t & Ht & <-)|[(t & Ht & <-)|(t & Ht & <-)]]]; cbn in Ht;
        ins_of Ht; cbn in *; tauto.
    + intros t r [].
  - split; intros a [].
Qed.
Lemma plain_of ins : (forall d, In d ins ->
    (forall a, In a (o_arrayList d) -> three_digits (ar_arrname a) = false)
    /\ (forall w, In w (o_wavelengthList d) -> three_digits (wv_insname w) = false)
    /\ (forall c, In c (o_corrList d) -> three_digits (co_corrname c) = false)) ->
  Z.of_nat (List.length (flat_map o_arrayList ins)) < 10000 ->
  Z.of_nat (List.length (flat_map o_wavelengthList ins)) < 10000 ->
  Z.of_nat (List.length (flat_map o_corrList ins)) < 10000 -> plain_names ins.
Proof.
  intros T L1 L2 L3.
  assert (K : forall lit n, three_digits n = false -> ~ looks_generated lit n).
  { intros lit n E G. apply looks_three_digits in G. congruence. }
  split; [|split; [|split; [|now repeat split]]]; intros d x Hd Hx; apply K; now apply (T d Hd).
Qed.
Lemma exact_counterexample : exists ins f fm mf, Forall suitable ins /\ ins <> [] /\ fresh_filter f /\ by_data f
  /\ exact wv_eff_band ins /\ mergeable ins /\ plain_names ins
  /\ merged_then_filtered sqrt64 ins f fm /\ filtered_then_merged sqrt64 ins f mf
  /\ (length (o_vis2List mf) < length (o_vis2List fm))%nat.
Proof.
  destruct (result_some (fun o => length (o_vis2List o)) (first_then e_ins e_filter) 2%nat) as (fm & E1 & F1);
    [vm_compute; reflexivity|].
  destruct (result_some (fun o => length (o_vis2List o)) (each_then e_ins e_filter) 1%nat) as (mf & E2 & F2);
    [vm_compute; reflexivity|].
  exists e_ins, e_filter, fm, mf. split; [all_of; apply near_suitable|]. split; [discriminate|].
  split; [repeat split|]. split; [repeat split|]. split; [apply exactb_ok; vm_compute; reflexivity|].
  split.
  { split; [|vm_compute; lia]. all_of; (split; [vm_compute; reflexivity|]).
    all: (split; [repeat split; cbn; all_of; vm_compute; auto|]); (split; [repeat split; cbn; all_of; cbn; all_of; cbn; auto|]).
    all: exists (Some (2019, 12, 31)); (split; [lia|]); (split; [reflexivity|]); exists ""; reflexivity. }
  split.
  { apply plain_of; try (vm_compute; reflexivity). intros d [<-|[<-|[]]]; (split; [intros a []|]); (split; [|intros c []]);
      intros w [<-|[]]; reflexivity. }
  split; [now apply first_then_inv|]. split; [now apply each_then_inv|]. rewrite F1, F2. lia.
Qed.

(** OI_INSPOL *)
Definition i_bare : oi_fits :=
  mk_fits s_header s_targets 2 2 1 1 0 0 0 0 [s_array1; s_array2] [s_wave1; s_wave2] [s_corr] [s_inspol] [] [] [] []
    [("CHARA", Some s_array2); ("VLTI", Some s_array1)] [("PIONIER", Some s_wave2); ("GRAVITY", Some s_wave1)]
    [("CORR1", Some s_corr)].
Definition i_ins : list oi_fits := [i_bare; set_inspols [] s_fits].
Lemma i_suitable : Forall suitable i_ins.
Proof.
  all_of.
  - split.
    + destruct s_fits_consistent as [H1 H2 H3 H4 H5 H6 H7 H8 H9 H10 H11 H12].
      split; try assumption; try reflexivity; try (intros ? XX; exfalso; exact XX).
      intros w Hw _. destruct Hw as [<-|[<-|[]]]; reflexivity.
    + split; [exact (Forall_inv m_fit)|]. split; [|split].
      * split; [|split]; cbn; repeat constructor; cbn; intuition congruence.
      * split; [|split; [|split]].
        -- intros n H. uses H.
        -- intros n [_ H]. uses H.
        -- intros n [_ H]. uses H.
        -- intros t r [<-|[]] [<-|[]]. cbn. auto.
      * split; [intros a [<-|[<-|[]]]|intros a [<-|[]]]; discriminate.
  - destruct s_suitable as (S1 & S2 & S3 & (S4 & S5 & S6 & _) & S7).
    split.
    + destruct S1 as [H1 H2 H3 H4 H5 H6 H7 H8 H9 H10 H11 H12].
      split; try assumption; try reflexivity; try (intros ? XX; exfalso; exact XX).
    + split; [exact S2|]. split; [exact S3|]. split; [|exact S7]. split; [exact S4|]. split; [exact S5|].
      split; [exact S6|]. intros t r [].
Qed.
Lemma i_inspol_counterexample : exists ins f fm mf, Forall suitable ins /\ ins <> [] /\ fresh_filter f /\ by_data f
  /\ exact wv_eff_wave ins /\ exact wv_eff_band ins /\ mergeable ins /\ plain_names ins
  /\ merged_then_filtered sqrt64 ins f fm /\ filtered_then_merged sqrt64 ins f mf
  /\ (length (o_inspolList mf) < length (o_inspolList fm))%nat.
Proof.
  destruct (result_some (fun o => length (o_inspolList o)) (first_then i_ins c_filter) 1%nat) as (fm & E1 & F1);
    [vm_compute; reflexivity|].
  destruct (result_some (fun o => length (o_inspolList o)) (each_then i_ins c_filter) 0%nat) as (mf & E2 & F2);
    [vm_compute; reflexivity|].
  exists i_ins, c_filter, fm, mf. split; [exact i_suitable|]. split; [discriminate|].
  split; [exact c_fresh|]. split; [exact c_by_data|].
  split; [apply exactb_ok; vm_compute; reflexivity|]. split; [apply exactb_ok; vm_compute; reflexivity|].
  split.
  { split; [|vm_compute; lia]. all_of; (split; [vm_compute; reflexivity|]).
    all: (split; [repeat split; cbn; all_of; vm_compute; auto|]); (split; [repeat split; cbn; all_of; cbn; all_of; cbn; auto|]).
    all: exists (Some (2019, 12, 31)); (split; [lia|]); (split; [reflexivity|]); exists ""; reflexivity. }
  split.
  { apply plain_of; try (vm_compute; reflexivity). intros d [<-|[<-|[]]]; (split; [|split]); intros x Hx; cbn in Hx;
      repeat (destruct Hx as [<-|Hx]; [reflexivity|]); contradiction. }
  split; [now apply first_then_inv|]. split; [now apply each_then_inv|]. rewrite F1, F2. lia.
Qed.

(** A filter by INSNAME, and one by TARGET_ID *)
Lemma by_name_counterexample : exists ins f fm mf, Forall suitable ins /\ ins <> [] /\ fresh_filter f
  /\ f_arrname f = "*" /\ f_corrname f = "*" /\ f_target_id f < 0
  /\ exact wv_eff_wave ins /\ exact wv_eff_band ins /\ mergeable ins /\ plain_names ins
  /\ merged_then_filtered sqrt64 ins f fm /\ filtered_then_merged sqrt64 ins f mf
  /\ (length (o_vis2List fm) < length (o_vis2List mf))%nat.
Proof.
  destruct (result_some (fun o => length (o_vis2List o)) (first_then m_ins n_filter) 0%nat) as (fm & E1 & F1);
    [vm_compute; reflexivity|].
  destruct (result_some (fun o => length (o_vis2List o)) (each_then m_ins n_filter) 1%nat) as (mf & E2 & F2);
    [vm_compute; reflexivity|].
  exists m_ins, n_filter, fm, mf. split; [exact m_ins_suitable|]. split; [discriminate|].
  split; [repeat split|]. split; [reflexivity|]. split; [reflexivity|]. split; [reflexivity|].
  split; [apply m_exact|]. split; [apply m_exact|]. split; [exact m_mergeable|]. split; [exact m_plain|].
  split; [now apply first_then_inv|]. split; [now apply each_then_inv|]. rewrite F1, F2. lia.
Qed.
Lemma by_target_counterexample : exists ins f fm mf, Forall suitable ins /\ ins <> [] /\ fresh_filter f
  /\ f_arrname f = "*" /\ f_insname f = "*" /\ f_corrname f = "*"
  /\ exact wv_eff_wave ins /\ exact wv_eff_band ins /\ mergeable ins /\ plain_names ins
  /\ merged_then_filtered sqrt64 ins f fm /\ filtered_then_merged sqrt64 ins f mf
  /\ (length (o_vis2List fm) < length (o_vis2List mf))%nat.
Proof.
  destruct (result_some (fun o => length (o_vis2List o)) (first_then m_ins (t_filter 9)) 0%nat) as (fm & E1 & F1);
    [vm_compute; reflexivity|].
  destruct (result_some (fun o => length (o_vis2List o)) (each_then m_ins (t_filter 9)) 1%nat) as (mf & E2 & F2);
    [vm_compute; reflexivity|].
  exists m_ins, (t_filter 9), fm, mf. split; [exact m_ins_suitable|]. split; [discriminate|].
  split; [repeat split|]. split; [reflexivity|]. split; [reflexivity|]. split; [reflexivity|].
  split; [apply m_exact|]. split; [apply m_exact|]. split; [exact m_mergeable|]. split; [exact m_plain|].
  split; [now apply first_then_inv|]. split; [now apply each_then_inv|]. rewrite F1, F2. lia.
Qed.
