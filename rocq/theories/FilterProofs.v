(** Refinement of the filter to pure list functions. *)
From Verif Require Import Base BaseLemmas FloatModel Types FileModel FileSpec FileProofs FilterModel FilterSpec FilterLemmas.
From Coq Require Import Lia.

(** ** Glob patterns *)

Lemma glob_sound p : forall s, glob p s = true -> glob_match p s.
Proof.
  induction p as [|c p IH]; intros s H.
  - destruct s; [constructor|discriminate].
  - cbn [glob] in H. destruct (Ascii.eqb c "*") eqn:Ec.
    + apply Ascii.eqb_eq in Ec. subst c.
      assert (G : exists a b, s = (a ++ b)%string /\ glob_match p b).
      { induction s as [|d s IHs].
        - apply orb_true_iff in H as [H|H]; [|discriminate]. exists ""%string, ""%string. auto.
        - apply orb_true_iff in H as [H|H].
          + exists ""%string, (String d s). auto.
          + destruct (IHs H) as (a & b & -> & Hb). exists (String d a), b. auto. }
      destruct G as (a & b & -> & Hb). now constructor.
    + destruct s as [|d s]; [discriminate|]. apply andb_true_iff in H as [Hc H].
      apply orb_true_iff in Hc as [Hc|Hc]; apply Ascii.eqb_eq in Hc; subst c.
      * constructor. auto.
      * destruct (Ascii.eqb d "?") eqn:Ed.
        -- apply Ascii.eqb_eq in Ed. subst d. constructor. auto.
        -- apply Ascii.eqb_neq in Ec, Ed. constructor; auto.
Qed.

Lemma glob_complete p s : glob_match p s -> glob p s = true.
Proof.
  intros H. induction H as [|p s t H IH|p c s H IH|p c s Hs Hq H IH].
  - reflexivity.
  - cbn [glob]. rewrite Ascii.eqb_refl. induction s as [|d s IHs].
    + cbn [append]. destruct t; rewrite IH; reflexivity.
    + cbn [append]. rewrite IHs. apply orb_true_r.
  - cbn [glob]. cbn. exact IH.
  - cbn [glob]. apply Ascii.eqb_neq in Hs, Hq. rewrite Hs, Hq, Ascii.eqb_refl, IH. reflexivity.
Qed.

Lemma glob_spec p s : glob p s = true <-> glob_match p s.
Proof. split; [apply glob_sound|apply glob_complete]. Qed.

Lemma glob_star s : glob_match "*" s.
Proof.
  replace s with (s ++ "")%string; [repeat constructor|].
  induction s as [|c s IH]; cbn [append]; congruence.
Qed.

Lemma outside_spec lo hi x : outside lo hi x = true <-> beyond lo hi x.
Proof. unfold outside, beyond, flt, fgt. apply orb_true_iff. Qed.
Lemma outside_false lo hi x : outside lo hi x = false <-> ~ beyond lo hi x.
Proof. rewrite <- outside_spec. destruct (outside lo hi x); intuition congruence. Qed.

(** ** OI_WAVELENGTH *)

Definition in_rangeb (f : filter_spec) (x : f32) : bool := negb (outside (f_wave_lo f) (f_wave_hi f) x).
Definition use_of (f : filter_spec) (w : oi_wavelength) : list bool := map (in_rangeb f) (wv_eff_wave w).
Definition wave_out (f : filter_spec) (w : oi_wavelength) : oi_wavelength :=
  mk_wavelength (wv_revision w) (wv_insname w) (Z.of_nat (cnt (use_of f w)))
    (sel (use_of f w) (wv_eff_wave w)) (sel (use_of f w) (wv_eff_band w)).

Lemma wf_wavelength_len w : wf_wavelength w = true ->
  length (wv_eff_wave w) = Z.to_nat (wv_nwave w) /\ length (wv_eff_band w) = Z.to_nat (wv_nwave w)
  /\ 0 <= wv_nwave w.
Proof.
  intros H. apply andb_true_iff in H as [H1 H2]. apply len_is_eq in H1, H2. lia.
Qed.

Lemma some_nth {A} (l : list A) i : (i < length l)%nat -> exists a, nth_error l i = Some a.
Proof.
  intros H. destruct (nth_error l i) eqn:E; [eauto|].
  apply nth_error_None in E. lia.
Qed.

(** write_sel for a block that may be larger than the selection *)
Lemma write_sel_le {A} i use (col : list A) a cap : length use = length col -> (cnt use <= cap)%nat ->
  nth_error use i = Some true -> nth_error col i = Some a ->
  write (fill cap (selu i use col)) (Z.of_nat (cntu i use)) a = Ok (fill cap (selu (1 + i) use col)).
Proof.
  intros HL Hc Hu Ha. rewrite (selu_step i use col true a HL Hu Ha).
  apply write_fill; rewrite selu_length by exact HL; [reflexivity|].
  pose proof (cntu_lt i use Hu). lia.
Qed.

Lemma cnt_le use : (cnt use <= length use)%nat.
Proof. unfold cnt. induction use as [|[] us IH]; cbn [filter length]; lia. Qed.

Lemma shrunk_contents {A} use (col : list A) n : length use = length col -> Z.to_nat n = length use -> 0 <= n ->
  contents (if Z.of_nat (cnt use) <? n then shrink (Z.of_nat (cnt use)) (fill (Z.to_nat n) (sel use col))
            else fill (Z.to_nat n) (sel use col)) = Ok (sel use col).
Proof.
  intros HL Hn H0. pose proof (sel_length use col HL) as SL.
  pose proof (cnt_le use).
  destruct (Z.ltb_spec (Z.of_nat (cnt use)) n).
  - rewrite <- SL. rewrite shrink_fill by lia. apply contents_map.
  - apply contents_fill. lia.
Qed.

Lemma filter_oi_wavelength_ok f w : wf_wavelength w = true -> 0 < wv_nwave w ->
  fits_value (wv_insname w) = true ->
  filter_oi_wavelength w (f_wave_lo f) (f_wave_hi f) (fill (Z.to_nat (wv_nwave w)) []) =
  Ok (wave_out f w, use_of f w).
Proof.
  intros Hwf Hpos Hname. destruct (wf_wavelength_len w Hwf) as (HL1 & HL2 & H0).
  unfold filter_oi_wavelength. rewrite !alloc_ok by exact Hpos. cbn [bind].
  set (use := use_of f w). set (n := Z.to_nat (wv_nwave w)).
  assert (HU : length use = n) by (unfold use, use_of; rewrite map_length; exact HL1).
  set (traj := fun i => (Z.of_nat (cntu i use), fill n (selu i use (wv_eff_wave w)),
                         fill n (selu i use (wv_eff_band w)), fill n (firstn i use))).
  pose proof (cnt_le use) as Hcnt.
  rewrite (for_det _ traj (wv_nwave w) _ (traj n)).
  - cbn [bind]. unfold traj. rewrite cntu_all by lia. rewrite !selu_all by lia.
    rewrite firstn_all2 by lia.
    unfold n. rewrite !shrunk_contents by lia. cbn [bind].
    rewrite contents_fill by exact HU. cbn [bind].
    rewrite strlcpy_fits by exact Hname. reflexivity.
  - reflexivity.
  - reflexivity.
  - intros k Hk. fold n in Hk. unfold traj.
    destruct (some_nth (wv_eff_wave w) k) as [x Hx]; [lia|].
    destruct (some_nth (wv_eff_band w) k) as [b Hb]; [lia|].
    assert (Hu : nth_error use k = Some (in_rangeb f x)).
    { unfold use, use_of. rewrite nth_error_map, Hx. reflexivity. }
    rewrite (get_nth_error _ _ _ Hx). cbn [bind].
    assert (Hfl : length (firstn k use) = k) by (rewrite firstn_length; lia).
    assert (HW : forall u, nth_error use k = Some u ->
      write (fill n (firstn k use)) (Z.of_nat k) u = Ok (fill n (firstn (1 + k) use))).
    { intros u Hu'. rewrite (firstn_step _ _ _ Hu'). apply write_fill; lia. }
    unfold in_rangeb in Hu. destruct (outside (f_wave_lo f) (f_wave_hi f) x); cbn [negb] in Hu.
    + rewrite (HW _ Hu). cbn [bind].
      rewrite (cntu_step _ _ _ Hu), Nat.add_0_r.
      rewrite (selu_skip k use _ x) by (auto; lia). rewrite (selu_skip k use _ b) by (auto; lia).
      reflexivity.
    + rewrite (HW _ Hu). cbn [bind].
      rewrite (write_sel_le k use _ x) by (auto; lia). cbn [bind].
      rewrite (get_nth_error _ _ _ Hb). cbn [bind].
      rewrite (write_sel_le k use _ b) by (auto; lia). cbn [bind].
      rewrite (cntu_step _ _ _ Hu).
      replace (Z.of_nat (cntu k use) + 1) with (Z.of_nat (cntu k use + 1)) by lia. reflexivity.
Qed.

(** ** Hash tables built by a traversal *)

Definition hash_fold {A V} (key : A -> string) (val : A -> option V) (l : list A) (h : hash V) : hash V :=
  fold_left (fun h a => hash_insert h (key a) (val a)) l h.

Lemma hash_fold_app {A V} (key : A -> string) (val : A -> option V) l m h :
  hash_fold key val (l ++ m) h = hash_fold key val m (hash_fold key val l h).
Proof. apply fold_left_app. Qed.

Lemma hash_fold_out {A V} (key : A -> string) (val : A -> option V) l h k :
  ~ In k (map key l) -> hash_lookup (hash_fold key val l h) k = hash_lookup h k.
Proof.
  revert h. induction l as [|a l IH]; intros h H; [reflexivity|].
  cbn [hash_fold fold_left]. fold (hash_fold key val l (hash_insert h (key a) (val a))).
  rewrite IH by (intros G; apply H; now right).
  apply hash_lookup_insert_other. intros ->. apply H. now left.
Qed.

Lemma hash_fold_in {A V} (key : A -> string) (val : A -> option V) l h a :
  NoDup (map key l) -> In a l -> hash_lookup (hash_fold key val l h) (key a) = val a.
Proof.
  revert h. induction l as [|b l IH]; intros h HN HI; [contradiction|].
  cbn [map] in HN. apply NoDup_cons_iff in HN as [Hn HN].
  cbn [hash_fold fold_left]. fold (hash_fold key val l (hash_insert h (key b) (val b))).
  destruct HI as [->|HI]; [|now apply IH].
  rewrite hash_fold_out by exact Hn. apply hash_lookup_insert_same.
Qed.

Lemma hash_fold_inv {A V} (key : A -> string) (val : A -> option V) l h k v :
  hash_lookup (hash_fold key val l h) k = Some v ->
  hash_lookup h k = Some v \/ exists a, In a l /\ key a = k /\ val a = Some v.
Proof.
  revert h. induction l as [|b l IH]; intros h H; [now left|].
  cbn [hash_fold fold_left] in H. fold (hash_fold key val l (hash_insert h (key b) (val b))) in H.
  destruct (IH _ H) as [G|(a & Ha & Hk & Hv)].
  - destruct (string_dec k (key b)) as [->|Hne].
    + rewrite hash_lookup_insert_same in G. right. exists b. split; [now left|]. auto.
    + rewrite hash_lookup_insert_other in G by exact Hne. now left.
  - right. exists a. split; [now right|]. auto.
Qed.

(** filter_copied when every copy succeeds *)
Lemma filter_copied_ok {A} (nm : A -> string) (acc : string -> bool) (dup : A -> res A) l :
  (forall a, In a l -> dup a = Ok a) ->
  filter_copied nm acc dup l =
  let out := filter (fun a => acc (nm a)) l in
  Ok (out, Z.of_nat (length out), hash_fold nm Some out hash_new).
Proof.
  intros H. unfold filter_copied.
  assert (G : forall out n h, foreach l (fun a '(out, n, h) =>
      if acc (nm a) then a' <- dup a ;; Ok (out ++ [a'], n + 1, hash_insert h (nm a') (Some a'))
      else Ok (out, n, h)) (out, n, h)
    = Ok (out ++ filter (fun a => acc (nm a)) l, n + Z.of_nat (length (filter (fun a => acc (nm a)) l)),
          hash_fold nm Some (filter (fun a => acc (nm a)) l) h)).
  { induction l as [|a l IH]; intros out n h; cbn [foreach filter].
    - cbn. rewrite app_nil_r, Z.add_0_r. reflexivity.
    - destruct (acc (nm a)).
      + rewrite H by now left. cbn [bind]. rewrite IH by (intros; apply H; now right).
        rewrite <- app_assoc. cbn [app length hash_fold fold_left]. do 3 f_equal. lia.
      + cbn [bind]. apply IH. intros; apply H; now right. }
  rewrite G. cbn. reflexivity.
Qed.

Definition wave_kept (f : filter_spec) (w : oi_wavelength) : bool :=
  accept_insname f (wv_insname w) && (0 <? cnt (use_of f w))%nat.
Definition use_entry (f : filter_spec) (w : oi_wavelength) : option (list bool) :=
  if (0 <? cnt (use_of f w))%nat then Some (use_of f w) else None.

Lemma ltb_of_nat n : (0 <? Z.of_nat n) = (0 <? n)%nat.
Proof. destruct n; reflexivity. Qed.

Lemma filter_all_oi_wavelength_ok o f :
  (forall w, In w (o_wavelengthList o) -> wf_wavelength w = true /\ 0 < wv_nwave w /\ fits_value (wv_insname w) = true) ->
  let out := map (wave_out f) (filter (wave_kept f) (o_wavelengthList o)) in
  filter_all_oi_wavelength o f =
  Ok (out, Z.of_nat (length out), hash_fold wv_insname Some out hash_new,
      hash_fold wv_insname (use_entry f) (filter (fun w => accept_insname f (wv_insname w)) (o_wavelengthList o)) hash_new).
Proof.
  intros H. cbn zeta. unfold filter_all_oi_wavelength.
  set (body := fun _ => _).
  assert (G : forall l out n h uh, (forall w, In w l -> wf_wavelength w = true /\ 0 < wv_nwave w /\ fits_value (wv_insname w) = true) ->
    foreach l body (out, n, h, uh)
    = Ok (out ++ map (wave_out f) (filter (wave_kept f) l),
          n + Z.of_nat (length (map (wave_out f) (filter (wave_kept f) l))),
          hash_fold wv_insname Some (map (wave_out f) (filter (wave_kept f) l)) h,
          hash_fold wv_insname (use_entry f) (filter (fun w => accept_insname f (wv_insname w)) l) uh)).
  { clear H. induction l as [|w l IH]; intros out n h uh H; cbn [foreach filter].
    - cbn. rewrite app_nil_r, Z.add_0_r. reflexivity.
    - destruct (H w (or_introl eq_refl)) as (W1 & W2 & W3).
      unfold body at 1.
      assert (EK : wave_kept f w = accept_insname f (wv_insname w) && (0 <? cnt (use_of f w))%nat) by reflexivity.
      destruct (accept_insname f (wv_insname w)); cbn [andb] in EK; rewrite EK.
      + rewrite alloc_ok by exact W2. cbn [bind].
        rewrite filter_oi_wavelength_ok by assumption. cbn [bind].
        cbn [wv_nwave wave_out]. rewrite ltb_of_nat.
        destruct (0 <? cnt (use_of f w))%nat eqn:E; cbn [bind]; rewrite IH by (intros; apply H; now right).
        * rewrite <- app_assoc. cbn [app map length hash_fold fold_left].
          replace (use_entry f w) with (Some (use_of f w)) by (unfold use_entry; now rewrite E).
          do 4 f_equal. lia.
        * cbn [hash_fold fold_left].
          replace (use_entry f w) with (@None (list bool)) by (unfold use_entry; now rewrite E).
          reflexivity.
      + cbn [bind]. apply IH. intros; apply H; now right. }
  rewrite G by exact H. reflexivity.
Qed.

(** ** Pruning *)

Lemma remove_first_spec {A} (drop : A -> bool) l :
  match remove_first drop l with
  | None => filter (fun a => negb (drop a)) l = l
  | Some (a, l') => drop a = true /\ In a l /\ length l = S (length l')
      /\ filter (fun a => negb (drop a)) l' = filter (fun a => negb (drop a)) l
      /\ (forall b, In b l -> b = a \/ In b l') /\ (forall b, In b l' -> In b l)
  end.
Proof.
  induction l as [|a l IH]; [reflexivity|]. cbn [remove_first].
  destruct (drop a) eqn:E.
  - split; [exact E|]. split; [now left|]. split; [reflexivity|]. cbn [filter]. rewrite E. cbn.
    split; [reflexivity|]. split; intros b Hb; [destruct Hb as [->|Hb]; auto|now right].
  - destruct (remove_first drop l) as [[x l']|].
    + destruct IH as (H1 & H2 & H3 & H4 & H5 & H6).
      split; [exact H1|]. split; [now right|]. split; [cbn; lia|].
      split; [cbn [filter]; rewrite H4; reflexivity|].
      split.
      * intros b [->|Hb]; [right; now left|]. destruct (H5 b Hb); [now left|right; now right].
      * intros b [->|Hb]; [now left|right; auto].
    + cbn [filter]. rewrite E. cbn [negb]. congruence.
Qed.

Lemma prune_loop_ok {A} (nm : A -> string) names fuel : forall l n h, (length l < fuel)%nat ->
  n = Z.of_nat (length l) ->
  exists h', prune_loop fuel nm names (l, n, h) =
      Ok (filter (fun a => listed names (nm a)) l,
          Z.of_nat (length (filter (fun a => listed names (nm a)) l)), h')
    /\ (forall k, listed names k = true -> hash_lookup h' k = hash_lookup h k)
    /\ (forall k, listed names k = false ->
          hash_lookup h' k = if existsb (fun a => str_eqb (nm a) k) l then None else hash_lookup h k).
Proof.
  induction fuel as [|fuel IH]; intros l n h Hf Hn; [lia|].
  cbn [prune_loop prune].
  pose proof (remove_first_spec (fun a => negb (listed names (nm a))) l) as R.
  assert (FE : forall l, filter (fun a => negb (negb (listed names (nm a)))) l
                       = filter (fun a => listed names (nm a)) l).
  { intros l0. apply filter_ext. intros a. apply negb_involutive. }
  destruct (remove_first (fun a => negb (listed names (nm a))) l) as [[x l']|].
  - destruct R as (H1 & H2 & H3 & H4 & H5 & H6). rewrite !FE in H4.
    destruct (IH l' (n - 1) (hash_remove h (nm x))) as (h' & E & K1 & K2); [lia|lia|].
    exists h'. rewrite E, H4. split; [reflexivity|].
    apply negb_true_iff in H1. split.
    + intros k Hk. rewrite K1 by exact Hk. apply hash_lookup_remove_other. congruence.
    + intros k Hk. rewrite K2 by exact Hk.
      destruct (existsb (fun a => str_eqb (nm a) k) l') eqn:E1.
      * apply existsb_exists in E1 as (b & Hb & Hbk).
        destruct (existsb (fun a => str_eqb (nm a) k) l) eqn:E2; [reflexivity|].
        exfalso. assert (existsb (fun a => str_eqb (nm a) k) l = true); [|congruence].
        apply existsb_exists. eauto.
      * destruct (string_dec k (nm x)) as [->|Hne].
        -- rewrite hash_lookup_remove_same.
           replace (existsb (fun a => str_eqb (nm a) (nm x)) l) with true; [reflexivity|].
           symmetry. apply existsb_exists. exists x. split; [exact H2|apply str_eqb_refl].
        -- rewrite hash_lookup_remove_other by exact Hne.
           destruct (existsb (fun a => str_eqb (nm a) k) l) eqn:E2; [|reflexivity].
           exfalso. apply existsb_exists in E2 as (b & Hb & Hbk).
           destruct (H5 b Hb) as [->|Hb'].
           ++ apply str_eqb_eq in Hbk. congruence.
           ++ assert (existsb (fun a => str_eqb (nm a) k) l' = true); [|congruence].
              apply existsb_exists. eauto.
  - rewrite FE in R. exists h. split; [|split].
    + rewrite R, Hn. reflexivity.
    + reflexivity.
    + intros k Hk. destruct (existsb (fun a => str_eqb (nm a) k) l) eqn:E; [|reflexivity].
      exfalso. apply existsb_exists in E as (b & Hb & Hbk). apply str_eqb_eq in Hbk.
      rewrite <- R in Hb. apply filter_In in Hb as [_ Hb]. congruence.
Qed.
