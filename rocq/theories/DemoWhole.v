(** When demo_read succeeds, and what it prints. *)
From Coq Require Import Lia.
From Verif Require Import BaseLemmas FileProofs ReadFile IOProofs DemoSpec DemoProofs.
Open Scope list_scope.
Open Scope Z_scope.

Section Demo.
Variable E : cfitsio.

Lemma tables_collect {A} name (r : hdu -> rd (option A)) l ts : (forall h, agrees (r h)) ->
  tables_in E (read_next E name r) name l ts <-> collect false r (filter (named E name) l) = Ok (ts, 0).
Proof.
  intros Ha. split.
  - intros (-> & H). destruct (collect_strict_progress E name r l H) as (ts & Hc).
    pose proof Hc as Hc'. apply collect_strict in Hc' as [-> _]; [exact Hc|exact Ha].
  - intros H. now apply collect_strict in H.
Qed.

(** ** One loop *)

Section Phase.
Context {A : Type}.
Variables (name : string) (r : hdu -> rd (option A)) (refs : A -> wstate -> res wstate) (hdus : list hdu) (ok : A -> Prop).
Hypothesis Hfine : forall h, fine (r h).
Hypothesis Hagree : forall h, agrees (r h).
Hypothesis Hrefs : forall a, step_is hdus (refs a) (ok a).

Lemma cut k : 0 <= k <= Z.of_nat (List.length hdus) ->
  hdus = firstn (Z.to_nat k) hdus ++ skipn (Z.to_nat k) hdus
  /\ Z.of_nat (List.length (firstn (Z.to_nat k) hdus)) = k
  /\ (List.length (skipn (Z.to_nat k) hdus) <= List.length hdus)%nat.
Proof.
  intros Hk. split; [symmetry; apply firstn_skipn|]. rewrite firstn_length, skipn_length. split; lia.
Qed.
Lemma run_ends say k c l f f2 : 0 <= k <= Z.of_nat (List.length hdus) ->
  demo_run (read_next E name r) say refs (mk_file hdus k, mk_file hdus c, 0) = Ok (l, (f, f2, END_OF_FILE)) ->
  f_hdus f = hdus /\ f_hdus f2 = hdus
  /\ tables_in E (read_next E name r) name (skipn (Z.to_nat k) hdus) (map fst l)
  /\ Forall ok (map fst l) /\ Forall (fun p => say (fst p) = Ok (snd p)) l.
Proof.
  intros Hk H. destruct (cut k Hk) as (H1 & H2 & H3). unfold demo_run in H. cbn [fst f_hdus] in H.
  rewrite <- H2 in H at 1. apply (loop_ends E name r say refs hdus ok Hfine Hagree Hrefs) with (rest := skipn (Z.to_nat k) hdus) in H.
  - destruct H as (G1 & G2 & G3 & G4). rewrite <- tables_collect in G3 by exact Hagree. auto.
  - exact H1.
  - lia.
Qed.
Lemma run_goes say k c l : 0 <= k <= Z.of_nat (List.length hdus) ->
  tables_in E (read_next E name r) name (skipn (Z.to_nat k) hdus) (map fst l) ->
  Forall ok (map fst l) -> Forall (fun p => say (fst p) = Ok (snd p)) l ->
  exists c1 c2, demo_run (read_next E name r) say refs (mk_file hdus k, mk_file hdus c, 0)
                = Ok (l, (mk_file hdus c1, mk_file hdus c2, END_OF_FILE)).
Proof.
  intros Hk Ht Hok Hs. destruct (cut k Hk) as (H1 & H2 & H3). rewrite tables_collect in Ht by exact Hagree.
  destruct (loop_goes E name r say refs hdus ok Hfine Hagree Hrefs (S (S (List.length hdus)))
              (firstn (Z.to_nat k) hdus) (skipn (Z.to_nat k) hdus) c l H1 ltac:(lia) Ht Hok Hs) as (c1 & c2 & H).
  exists c1, c2. unfold demo_run. cbn [fst f_hdus]. rewrite <- H2 at 1. exact H.
Qed.
End Phase.

(** ** Lines *)

Lemma said {A} (g : A -> string) l : Forall (fun p => Ok (g (fst p)) = Ok (snd p)) l -> map snd l = map g (map fst l).
Proof. induction 1 as [|p l H _ IH]; [reflexivity|]. cbn [map]. injection H as ->. now rewrite IH. Qed.
Lemma saying {A} (g : A -> string) ts : Forall (fun p => Ok (g (fst p)) = Ok (snd p)) (map (fun a => (a, g a)) ts).
Proof. induction ts; constructor; auto. Qed.
Lemma pairs_fst {A B} (g : A -> B) ts : map fst (map (fun a => (a, g a)) ts) = ts.
Proof. rewrite map_map. apply map_id. Qed.
Lemma pairs_snd {A B} (g : A -> B) ts : map snd (map (fun a => (a, g a)) ts) = map g ts.
Proof. now rewrite map_map. Qed.

Lemma last_shown (l : list (oi_vis * string)) : l <> [] ->
  option_map (fun p => tb_corrname (fst p)) (last_of l) = Some (last_corrname (map fst l)).
Proof.
  intros H. destruct (exists_last H) as (l' & p & ->). unfold last_of, last_corrname.
  rewrite rev_app_distr. cbn [rev app option_map]. rewrite !map_app. cbn [map]. now rewrite last_last.
Qed.

(** ** The first two calls *)

Lemma header_stays p l o s : read_oi_header E (mk_file (p :: l) 1, 0) = Ok (o, s) -> fst s = mk_file (p :: l) 1.
Proof.
  unfold read_oi_header, guard_io, fits_movabs_hdu, movabs. cbn [snd Z.eqb negb f_hdus List.length].
  destruct (Z.ltb_spec (Z.of_nat (Datatypes.S (List.length l))) 1); [lia|].
  cbn [Z.ltb Z.compare Pos.compare Pos.compare_cont orb]. rewrite bind_Ok. unfold at_chdu. cbn.
  intros H0. apply bind_inv in H0 as ((a, st) & Hr & H0). injection H0 as <- <-. reflexivity.
Qed.
Lemma movnam_range name l : forall i k, movnam E l i name = Some k -> i <= k < i + Z.of_nat (List.length l).
Proof.
  induction l as [|h l IH]; intros i k; cbn [movnam List.length]; [discriminate|].
  destruct (_ && _); [intros [= <-]; lia|]. intros H. apply IH in H. lia.
Qed.
Lemma target_at p l o f : read_oi_target E (mk_file (p :: l) 1, 0) = Ok (o, (f, 0)) ->
  exists tg k, o = Some tg /\ f = mk_file (p :: l) k /\ 0 <= k <= Z.of_nat (List.length (p :: l)).
Proof.
  unfold read_oi_target, guard_io, fits_movnam_hdu. cbn [snd Z.eqb negb f_hdus].
  destruct (movnam E (p :: l) 1 "OI_TARGET") as [k|] eqn:Hm.
  - apply movnam_range in Hm. unfold at_chdu, chdu. cbn [fst snd f_cur f_hdus].
    destruct (Z.ltb_spec k 1); [lia|]. destruct (nth_error (p :: l) (Z.to_nat (k - 1))) as [h|] eqn:Hn.
    + intros H0. apply bind_inv in H0 as ((a, st) & Hr & H0). injection H0 as -> <- ->.
      pose proof (agrees_target E h 0 o 0 Hr) as Ha. destruct o as [tg|].
      * exists tg, k. split; [reflexivity|]. split; [reflexivity|]. lia.
      * destruct Ha as [Ha _]. now specialize (Ha eq_refl).
    + apply nth_error_None in Hn. lia.
  - unfold at_chdu. cbn [fst snd]. destruct (chdu _).
    + intros H0. apply bind_inv in H0 as ((a, st) & Hr & H0). injection H0 as -> <- ->.
      unfold read_oi_target_chdu in Hr. rewrite unless_set in Hr by discriminate. discriminate.
    + discriminate.
Qed.

(** ** A whole run *)

Lemma start_at p l c f2 : demo_start (mk_file (p :: l) c, f2, 0) = Ok (mk_file (p :: l) 1, f2, 0).
Proof.
  unfold demo_start, fits_movabs_hdu, movabs. cbn [Z.eqb negb f_hdus List.length].
  destruct (Z.ltb_spec (Z.of_nat (Datatypes.S (List.length l))) 1); [lia|]. reflexivity.
Qed.
Lemma after_zero out s k lines : demo_after out s k = Ok (lines, 0) ->
  exists f f2, s = (f, f2, END_OF_FILE) /\ k (f, f2, 0) = Ok (lines, 0).
Proof.
  destruct s as ((f, f2), st). cbn [demo_after]. destruct (Z.eqb_spec st END_OF_FILE) as [->|Hn]; [eauto|discriminate].
Qed.


Theorem demo_iff p l lines :
  demo_tables E (p :: l) = Ok (lines, 0) <->
  exists k vis vis2 t3 flux inspol,
    demo_reads E (p :: l) k vis vis2 t3 flux inspol /\ (vis2 = [] \/ vis <> [])
    /\ forall name, (("Reading FITS file " ++ name ++ "...")%string :: lines) = printed name vis vis2 t3 flux inspol.
Proof.
  set (hdus := p :: l). split.
  - intros H. unfold demo_tables in H.
    apply bind_inv in H as ((oh, s0) & Hhd & H). apply bind_inv in H as ((ot, (f1, st1)) & Htg & H).
    cbn [fst snd] in H. destruct (Z.eqb_spec st1 0) as [->|Hn]; [|discriminate]. cbn [negb] in H.
    pose proof (header_stays p l oh s0 Hhd) as Hs0.
    destruct (header_io_inv E p l 1 oh s0 Hhd) as (_ & Hh0).
    destruct s0 as (f0, st0). cbn [fst snd] in Hs0, Hh0. subst f0.
    destruct (target_io_inv E _ st0 ot (f1, 0) Htg eq_refl) as (_ & Hst0). subst st0.
    destruct (target_at p l ot f1 Htg) as (tg & k & Hot & Hf1 & Hk). subst ot f1.
    apply bind_inv in H as ((vis, s1) & R1 & H). cbv zeta in H. apply after_zero in H as (f & f2 & -> & H).
    apply (run_ends "OI_VIS" _ _ hdus (data_named E hdus) (fine_vis E) (agrees_vis E) (data_step E p l) _ _ _ _ _ _ Hk) in R1
      as (F1 & F2 & T1 & N1 & S1). apply (said (A:=oi_vis)) in S1.
    replace f with (mk_file hdus (f_cur f)) in H by (destruct f; cbn in *; now subst).
    replace f2 with (mk_file hdus (f_cur f2)) in H by (destruct f2; cbn in *; now subst).
    unfold hdus in H at 1. rewrite start_at, bind_Ok in H. fold hdus in H.
    assert (Hone : 0 <= 1 <= Z.of_nat (List.length hdus)) by (unfold hdus; cbn [List.length]; lia).
    apply bind_inv in H as ((vis2, s2) & R2 & H). cbv zeta in H. apply after_zero in H as (g & g2 & -> & H).
    apply (run_ends "OI_VIS2" _ _ hdus (data_named E hdus) (fine_vis2 E) (agrees_vis2 E) (data_step E p l) _ _ _ _ _ _ Hone) in R2
      as (G1 & G2 & T2 & N2 & S2).
    replace g with (mk_file hdus (f_cur g)) in H by (destruct g; cbn in *; now subst).
    replace g2 with (mk_file hdus (f_cur g2)) in H by (destruct g2; cbn in *; now subst).
    unfold hdus in H at 1. rewrite start_at, bind_Ok in H. fold hdus in H.
    apply bind_inv in H as ((t3, s3) & R3 & H). cbv zeta in H. apply after_zero in H as (h & h2 & -> & H).
    apply (run_ends "OI_T3" _ _ hdus (data_named E hdus) (fine_t3 E) (agrees_t3 E) (data_step E p l) _ _ _ _ _ _ Hone) in R3
      as (H1 & H2 & T3 & N3 & S3). apply (said (A:=oi_t3)) in S3.
    replace h with (mk_file hdus (f_cur h)) in H by (destruct h; cbn in *; now subst).
    replace h2 with (mk_file hdus (f_cur h2)) in H by (destruct h2; cbn in *; now subst).
    unfold hdus in H at 1. rewrite start_at, bind_Ok in H. fold hdus in H.
    apply bind_inv in H as ((flux, s4) & R4 & H). cbv zeta in H. apply after_zero in H as (i & i2 & -> & H).
    apply (run_ends "OI_FLUX" _ _ hdus (data_named E hdus) (fine_flux E) (agrees_flux E) (data_step E p l) _ _ _ _ _ _ Hone) in R4
      as (I1 & I2 & T4 & N4 & S4). apply (said (A:=oi_flux)) in S4.
    replace i with (mk_file hdus (f_cur i)) in H by (destruct i; cbn in *; now subst).
    replace i2 with (mk_file hdus (f_cur i2)) in H by (destruct i2; cbn in *; now subst).
    unfold hdus in H at 1. rewrite start_at, bind_Ok in H. fold hdus in H.
    apply bind_inv in H as ((inspol, s5) & R5 & H). cbv zeta in H. apply after_zero in H as (j & j2 & -> & H).
    apply (run_ends "OI_INSPOL" _ _ hdus (inspol_named E hdus) (fine_inspol E) (agrees_inspol E) (inspol_step E p l) _ _ _ _ _ _ Hone) in R5
      as (J1 & J2 & T5 & N5 & S5). apply said in S5.
    injection H as <-.
    exists k, (map fst vis), (map fst vis2), (map fst t3), (map fst flux), (map fst inspol). split; [|split].
    + split; auto.
      * destruct oh as [hd|]; [|destruct Hh0 as [Hh0 _]; now specialize (Hh0 eq_refl)]. now exists hd, (mk_file (p :: l) 1).
      * now exists tg.
    + destruct vis2 as [|v vis2]; [now left|]. right. intros He. apply map_eq_nil in He. subst vis.
      inversion S2 as [|? ? Hx]. cbn in Hx. discriminate.
    + intros name. unfold printed. rewrite S1, S3, S4, S5, <- !app_assoc. do 3 f_equal.
      destruct vis2 as [|v vis2]; [reflexivity|].
      assert (Hv : vis <> []) by (intros ->; inversion S2 as [|? ? Hx]; cbn in Hx; discriminate).
      rewrite (last_shown vis Hv) in S2. cbn [vis2_line] in S2. f_equal.
      exact (said (fun t : oi_vis2 => names_line "OI_VIS2     " (tb_arrname t) (tb_insname t) (last_corrname (map fst vis))) _ S2).
  - intros (k & vis & vis2 & t3 & flux & inspol & [Hhd (tg & Htg) T1 T2 T3 T4 T5 (N1 & N2 & N3 & N4 & N5)] & Hv & Hl).
    specialize (Hl EmptyString). unfold printed in Hl. injection Hl as Hl.
    destruct Hhd as (hd & f0 & Hhd). pose proof (header_stays p l _ _ Hhd) as Hs0. cbn [fst] in Hs0. subst f0.
    unfold demo_tables. fold hdus. rewrite Hhd, bind_Ok. fold hdus. rewrite Htg, bind_Ok. cbn [fst snd Z.eqb negb].
    destruct (target_at p l _ _ Htg) as (tg' & k' & _ & [= <-] & Hk).
    destruct (run_goes (A:=oi_vis) "OI_VIS" _ _ hdus (data_named E hdus) (fine_vis E) (agrees_vis E) (data_step E p l)
                (fun t : oi_vis => Ok (data_line "OI_VIS      " t)) k 1 (map (fun t : oi_vis => (t, data_line "OI_VIS      " t)) vis) Hk)
      as (c1 & c2 & R1); [now rewrite pairs_fst|now rewrite pairs_fst|apply saying|].
    change (demo_run (read_next_oi_vis E) ?s ?r ?x) with (demo_run (read_next E "OI_VIS" (read_oi_vis_chdu E)) s r x).
    rewrite R1, bind_Ok. cbv zeta. rewrite pairs_snd. cbn [demo_after Z.eqb END_OF_FILE Pos.eqb].
    unfold hdus at 1. rewrite start_at, bind_Ok. fold hdus.
    assert (Hone : 0 <= 1 <= Z.of_nat (List.length hdus)) by (unfold hdus; cbn [List.length]; lia).
    set (say2 := vis2_line _). set (line2 := fun t : oi_vis2 => names_line "OI_VIS2     " (tb_arrname t) (tb_insname t) (last_corrname vis)).
    assert (Hsay : Forall (fun q => say2 (fst q) = Ok (snd q)) (map (fun t => (t, line2 t)) vis2)).
    { destruct Hv as [->|Hv]; [constructor|]. unfold say2. rewrite last_shown by (destruct vis; [congruence|discriminate]).
      rewrite pairs_fst. exact (saying line2 vis2). }
    destruct (run_goes (A:=oi_vis2) "OI_VIS2" _ _ hdus (data_named E hdus) (fine_vis2 E) (agrees_vis2 E) (data_step E p l)
                say2 1 c2 (map (fun t => (t, line2 t)) vis2) Hone)
      as (d1 & d2 & R2); [now rewrite pairs_fst|now rewrite pairs_fst|exact Hsay|].
    change (demo_run (read_next_oi_vis2 E) ?s ?r ?x) with (demo_run (read_next E "OI_VIS2" (read_oi_vis2_chdu E)) s r x).
    rewrite R2, bind_Ok. cbv zeta. rewrite pairs_snd. cbn [demo_after Z.eqb END_OF_FILE Pos.eqb].
    unfold hdus at 1. rewrite start_at, bind_Ok. fold hdus.
    destruct (run_goes (A:=oi_t3) "OI_T3" _ _ hdus (data_named E hdus) (fine_t3 E) (agrees_t3 E) (data_step E p l)
                (fun t : oi_t3 => Ok (data_line "OI_T3       " t)) 1 d2 (map (fun t : oi_t3 => (t, data_line "OI_T3       " t)) t3) Hone)
      as (e1 & e2 & R3); [now rewrite pairs_fst|now rewrite pairs_fst|apply saying|].
    change (demo_run (read_next_oi_t3 E) ?s ?r ?x) with (demo_run (read_next E "OI_T3" (read_oi_t3_chdu E)) s r x).
    rewrite R3, bind_Ok. cbv zeta. rewrite pairs_snd. cbn [demo_after Z.eqb END_OF_FILE Pos.eqb].
    unfold hdus at 1. rewrite start_at, bind_Ok. fold hdus.
    destruct (run_goes (A:=oi_flux) "OI_FLUX" _ _ hdus (data_named E hdus) (fine_flux E) (agrees_flux E) (data_step E p l)
                (fun t : oi_flux => Ok (data_line "OI_FLUX     " t)) 1 e2 (map (fun t : oi_flux => (t, data_line "OI_FLUX     " t)) flux) Hone)
      as (g1 & g2 & R4); [now rewrite pairs_fst|now rewrite pairs_fst|apply saying|].
    change (demo_run (read_next_oi_flux E) ?s ?r ?x) with (demo_run (read_next E "OI_FLUX" (read_oi_flux_chdu E)) s r x).
    rewrite R4, bind_Ok. cbv zeta. rewrite pairs_snd. cbn [demo_after Z.eqb END_OF_FILE Pos.eqb].
    unfold hdus at 1. rewrite start_at, bind_Ok. fold hdus.
    destruct (run_goes (A:=oi_inspol) "OI_INSPOL" _ _ hdus (inspol_named E hdus) (fine_inspol E) (agrees_inspol E) (inspol_step E p l)
                (fun t => Ok (inspol_line t)) 1 g2 (map (fun t => (t, inspol_line t)) inspol) Hone)
      as (i1 & i2 & R5); [now rewrite pairs_fst|now rewrite pairs_fst|apply saying|].
    change (demo_run (read_next_oi_inspol E) ?s ?r ?x) with (demo_run (read_next E "OI_INSPOL" (read_oi_inspol_chdu E)) s r x).
    rewrite R5, bind_Ok. cbv zeta. rewrite pairs_snd. cbn [demo_after Z.eqb END_OF_FILE Pos.eqb].
    rewrite Hl, <- !app_assoc. reflexivity.
Qed.
End Demo.
