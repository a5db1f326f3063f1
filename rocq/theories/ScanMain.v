(** Concrete cases for demo_write. *)
From Coq Require Import Lia.
From Verif Require Import BaseLemmas FileProofs FileModel IOSpec IOMain DemoSpec ScanSpec ScanWords ScanData ScanFile ScanWhole.
Open Scope string_scope.
Open Scope list_scope.
Open Scope Z_scope.

(** ** A C library that reads whole numbers *)

Definition n0 : numbers :=
  mk_numbers (fun s => option_map (fun r => (to_f32 (f64_of_Z (fst r)), snd r)) (scan_int s))
    (fun s => option_map (fun r => (f64_of_Z (fst r), snd r)) (scan_int s)).
Definition whole (x : spec_float) : Z := match floor_Z x with Some z => z | None => 0 end.
Definition spelt (t : token) : string :=
  match t with
  | W w => w
  | I z => fmt_d z
  | F x | D x => fmt_d (whole x)
  | Im x => (fmt_d (whole x) ++ "i")%string
  end.
Definition same (x y : spec_float) : bool :=
  match x, y with
  | S754_zero a, S754_zero b => Bool.eqb a b
  | S754_infinity a, S754_infinity b => Bool.eqb a b
  | S754_nan, S754_nan => true
  | S754_finite a m e, S754_finite b n f => Bool.eqb a b && Pos.eqb m n && (e =? f)
  | _, _ => false
  end.
Lemma same_eq x y : same x y = true -> x = y.
Proof.
  destruct x as [a|a| |a m e], y as [b|b| |b n f]; cbn; try discriminate; intros H; try reflexivity.
  - now apply Bool.eqb_prop in H as ->.
  - now apply Bool.eqb_prop in H as ->.
  - apply andb_true_iff in H as [H H3]. apply andb_true_iff in H as [H1 H2].
    apply Bool.eqb_prop in H1 as ->. apply Pos.eqb_eq in H2 as ->. now apply Z.eqb_eq in H3 as ->.
Qed.
Definition speakable (t : token) : bool :=
  match t with
  | W w => nonempty w && all_chars (fun c => negb (is_space c)) w
  | I _ => true
  | F x | Im x => same x (to_f32 (f64_of_Z (whole x)))
  | D x => same x (f64_of_Z (whole x))
  end.
Lemma word_chars w : all_chars (fun c => negb (is_space c)) w = true -> every (fun c => ~ white c) w.
Proof.
  induction w as [|c w IH]; cbn [all_chars every]; [auto|]. intros H. apply andb_true_iff in H as [H1 H2].
  split; [|auto]. intros Hc. apply space_blank in Hc. rewrite Hc in H1. discriminate.
Qed.
Lemma spelt_stands t : speakable t = true -> stands n0 t (spelt t).
Proof.
  destruct t as [w|z|x|x|x]; cbn [speakable spelt]; intros H; (split; [|]).
  - apply andb_true_iff in H as [H1 H2]. split; [now destruct w|now apply word_chars].
  - reflexivity.
  - apply fmt_d_word.
  - reflexivity.
  - apply fmt_d_word.
  - intros rest He. cbn [n0 nm_float]. rewrite scan_int_ok by exact He. cbn [option_map fst snd]. apply same_eq in H. now rewrite <- H.
  - apply fmt_d_word.
  - intros rest He. cbn [n0 nm_double]. rewrite scan_int_ok by exact He. cbn [option_map fst snd]. apply same_eq in H. now rewrite <- H.
  - destruct (fmt_d_word (whole x)) as [H1 H2]. split; [now destruct (fmt_d (whole x))|].
    clear H H1. induction (fmt_d (whole x)) as [|c s IH]; cbn [append every]; [split; [unfold white; cbn; lia|exact Logic.I]|].
    destruct H2. split; [assumption|auto].
  - exists (fmt_d (whole x)). split; [reflexivity|]. split; [apply fmt_d_word|]. intros rest He. cbn [n0 nm_float].
    rewrite scan_int_stops by reflexivity. cbn [option_map fst snd]. apply same_eq in H. now rewrite <- H.
Qed.
(** the words on lines of their own *)
Fixpoint written_out (ws : list string) : string :=
  match ws with [] => EmptyString | w :: l => (w ++ String "010" EmptyString ++ written_out l)%string end.
Lemma written_spaced ws : Forall word ws -> spaced ws (written_out ws).
Proof.
  induction 1 as [|w l Hw Hl IH]; [constructor|]. cbn [written_out]. constructor; [exact Hw| |exact IH].
  split; [discriminate|]. split; [unfold white; cbn; auto|exact Logic.I].
Qed.
Definition text_for (m : demo) : string := written_out (map spelt (demo_tokens m)).
Lemma text_for_ok m : forallb speakable (demo_tokens m) = true -> text_of n0 m (text_for m).
Proof.
  intros H. exists (map spelt (demo_tokens m)).
  assert (Hf : Forall2 (stands n0) (demo_tokens m) (map spelt (demo_tokens m))).
  { induction (demo_tokens m) as [|t l IH]; cbn [map forallb] in *; [constructor|]. apply andb_true_iff in H as [H1 H2].
    constructor; [now apply spelt_stands|auto]. }
  split; [exact Hf|]. apply written_spaced. clear H. induction Hf as [|t w l ws Ht _ IH]; constructor; [apply Ht|exact IH].
Qed.

(** ** A dataset *)

Definition z64 (z : Z) : f64 := f64_of_Z z.
Definition z32 (z : Z) : f32 := to_f32 (f64_of_Z z).
Definition k_element (name : string) (i : Z) : element :=
  mk_element name ("S" ++ name) i (z32 2) (z64 (10 * i), z64 (-5), z64 0) (z64 3) "FWHM".
Definition k_target (i : Z) (name category : string) : target :=
  mk_target i name (z64 10) (z64 (-20)) (z32 2000) (z64 0) (z64 0) (z64 7) "LSR" "OPTICAL"
    (z64 1) (z64 2) (z64 3) (z64 4) (z32 5) (z32 6) "A0V" category.
Definition k_cplx (a b : Z) : list cplx := [(z32 a, z32 b); (z32 b, z32 (- a))].
Definition k_vis (x : vis_extra) : oi_vis :=
  mk_dtab 2 "2026-11-16" "VLTI" "GRAVITY" "CORR1" x 1 2
    [mk_vis_record 4 (z64 0) (z64 58848) (z64 10) [z64 1; z64 2] [z64 3; z64 4] 1 [z64 5; z64 6] [z64 7; z64 8] 3
       None None None 77 None None 77 (z64 30) (z64 40) (1, 2) [false; false]].
Definition k_flux (x : flux_extra) : oi_flux :=
  mk_dtab 1 "2026-11-16" "" "GRAVITY" "CORR1" x 1 2
    [mk_flux_record 9 (z64 58848) (z64 10) [z64 1; z64 2] [z64 3; z64 4] 9 (-1) [false; false]].
Definition k_demo (tid : Z) (fovtype : string) (x : vis_extra) (y : flux_extra) : demo :=
  mk_demo
    (mk_array 2 "VLTI" "GEOCENTRIC" (z64 1) (z64 2) (z64 3) 2
       [k_element "A0" 1; mk_element "B1" "SB1" 2 (z32 8) (z64 20, z64 30, z64 40) (z64 5) fovtype])
    (mk_oi_target 2 2 [k_target tid "alpha" ""; k_target 9 "beta" "SCI"] true)
    (mk_wavelength 2 "GRAVITY" 2 [z32 2000; z32 2100] [z32 100; z32 110])
    (mk_corr 1 "CORR1" 10 1 [1] [3] [z64 1])
    (mk_inspol 1 "2026-11-16" 1 "VLTI" "NORTH" "M" 1 2
       [mk_inspol_record 4 "GRAVITY" (z64 58848) (z64 58849) (k_cplx 1 2) (k_cplx 3 4) (k_cplx 0 5) (k_cplx 6 0) 1])
    (k_vis x)
    (mk_dtab 2 "2026-11-15" "VLTI" "GRAVITY" "CORR1" tt 1 2
       [mk_vis2_record 9 (z64 0) (z64 58848) (z64 10) [z64 1; z64 2] [z64 3; z64 4] 5 (z64 60) (z64 80) (1, 2) [false; false]])
    (mk_dtab 2 "2026-11-16" "VLTI" "GRAVITY" "CORR1" tt 1 2
       [mk_t3_record 4 (z64 0) (z64 58848) (z64 10) [z64 1; z64 2] [z64 3; z64 4] 7 [z64 5; z64 6] [z64 7; z64 8] 8
          (z64 1) (z64 2) (z64 3) (z64 4) (1, 2, 1) [false; false]])
    (k_flux y).
Definition k_extra : vis_extra := mk_vis_extra "absolute" "differential" (-1) 2 false false "" "".
Definition k_sky : flux_extra := mk_flux_extra (z64 1) "RADIUS" "C" "Jy".
Definition k_one : demo := k_demo 4 "FWHM" k_extra k_sky.

Ltac now_plain := repeat split; repeat constructor; try (unfold within, int, strlen; cbn; lia); try reflexivity; try discriminate.
Lemma k_plain : plain 77 k_one.
Proof.
  split.
  - split; now_plain. intros [|[|i]] e H; cbn in H; [injection H as <-; reflexivity|injection H as <-; reflexivity|]. now destruct i.
  - split; [reflexivity|now_plain|now_plain|]. split; [|reflexivity]. intros _. apply Exists_cons_tl, Exists_cons_hd. discriminate.
  - split; now_plain.
  - split; now_plain.
  - split; now_plain.
  - split; [now_plain|now_plain|now_plain|intros _; left; discriminate|intros _; left; discriminate|now_plain|now_plain].
  - split; now_plain.
  - split; now_plain.
  - split; now_plain.
Qed.
Lemma k_text : text_of n0 k_one (text_for k_one).
Proof. apply text_for_ok. vm_compute. reflexivity. Qed.
Lemma k_storable : storable_demo e0 k_one = true.
Proof. vm_compute. reflexivity. Qed.
Lemma k_refers : all_refer k_one.
Proof. unfold all_refer, refers. repeat split; try (now right); now left. Qed.

(** ** Texts that are not understood *)

(** AMPORDER without AMPTYP or PHITYP *)
Definition k_amporder : demo := k_demo 4 "FWHM" (mk_vis_extra "" "" 3 (-1) false false "" "") k_sky.
(** PHIORDER with AMPTYP alone *)
Definition k_phiorder : demo := k_demo 4 "FWHM" (mk_vis_extra "absolute" "" (-1) 2 false false "" "") k_sky.
Theorem orders_undefined : exists m1 m2,
  storable_demo e0 m1 = true /\ vx_amporder (tb_x (dm_vis m1)) = 3
  /\ text_of n0 m1 (text_for m1) /\ scan_all n0 77 (text_for m1) = UB
  /\ storable_demo e0 m2 = true /\ vx_phiorder (tb_x (dm_vis m2)) = 2
  /\ text_of n0 m2 (text_for m2) /\ scan_all n0 77 (text_for m2) = UB.
Proof.
  exists k_amporder, k_phiorder. split; [vm_compute; reflexivity|]. split; [reflexivity|].
  split; [apply text_for_ok; vm_compute; reflexivity|]. split; [vm_compute; reflexivity|].
  split; [vm_compute; reflexivity|]. split; [reflexivity|].
  split; [apply text_for_ok; vm_compute; reflexivity|]. vm_compute. reflexivity.
Qed.
(** a FOVTYPE of more than 6 characters in OI_ARRAY *)
Definition k_fovtype : demo := k_demo 4 "DIAMETER" k_extra k_sky.
Theorem fovtype_undefined : exists m,
  text_of n0 m (text_for m) /\ map (fun e => strlen (el_fovtype e)) (ar_elem (dm_array m)) = [4; 8]
  /\ scan_all n0 77 (text_for m) = UB.
Proof.
  exists k_fovtype. split; [apply text_for_ok; vm_compute; reflexivity|]. split; [reflexivity|]. vm_compute. reflexivity.
Qed.

(** ** Outcomes *)

(** a TARGET_ID that is no 16-bit integer *)
Definition k_far : demo := k_demo 40000 "FWHM" k_extra k_sky.
Lemma k_far_scans : scan_all n0 77 (text_for k_far) = Ok (k_far, EmptyString).
Proof. vm_compute. reflexivity. Qed.
Lemma k_far_fails : writable_demo e0 k_far = false /\ wv_nwave (dm_wave k_far) <= 9999.
Proof. split; [vm_compute; reflexivity|discriminate]. Qed.
Lemma k_one_scans : scan_all n0 77 (text_for k_one) = Ok (k_one, EmptyString).
Proof. apply scan_text; [exact k_plain|exact k_text]. Qed.
Lemma k_one_writes : writable_demo e0 k_one = true /\ wv_nwave (dm_wave k_one) <= 9999.
Proof. split; [vm_compute; reflexivity|discriminate]. Qed.
Definition k_texts : list (string * string) := [("far.txt", text_for k_far); ("one.txt", text_for k_one)].
