(** Merging in steps: the header, and the whole result. *)
From Verif Require Import BaseLemmas DateModel DateSpec DateProofs FileModel FileSpec FileProofs MergeModel MergeSpec
  MergeProofs MergeHeader MergeWhole MergeFacts MergeStepsSpec MergeSteps MergeStepsWhole.
From Coq Require Import Lia.
Open Scope Z_scope.

(** ** Keywords *)

Lemma all_empty (vals : list string) : (forall x, In x vals -> x = ""%string) \/ exists x, In x vals /\ x <> ""%string.
Proof.
  induction vals as [|v l IH]; [left; intros x []|]. destruct (string_dec v "") as [->|N].
  - destruct IH as [IH|(x & Hx & N)]; [left; intros x [<-|Hx]; auto|right; exists x; split; [now right|exact N]].
  - right. exists v. split; [now left|exact N].
Qed.
Lemma all_like (vals : list string) x : (forall y, In y vals -> y = ""%string \/ y = x)
  \/ exists y, In y vals /\ y <> ""%string /\ y <> x.
Proof.
  induction vals as [|v l IH]; [left; intros y []|].
  destruct IH as [IH|(y & Hy & N)]; [|right; exists y; split; [now right|exact N]].
  destruct (string_dec v "") as [E|N]; [left; intros y [<-|Hy]; auto|].
  destruct (string_dec v x) as [E|N']; [left; intros y [<-|Hy]; auto|].
  right. exists v. split; [now left|auto].
Qed.

Lemma keyword_steps absent va vb v1 v2 v3 :
  merged_keyword absent va v1 -> merged_keyword absent (va ++ vb) v3 -> merged_keyword absent (v1 :: vb) v2 ->
  absent = ""%string \/ (exists x, In x va /\ x <> ""%string) \/ (forall y, In y vb -> y = ""%string) ->
  v2 = v3.
Proof.
  intros (A1 & B1 & C1) (A3 & B3 & C3) (A2 & B2 & C2) Hc.
  destruct (all_empty va) as [Ea|(x & Hx & Nx)].
  - specialize (A1 Ea). subst v1. destruct (all_empty vb) as [Eb|(y & Hy & Ny)].
    + rewrite A3 by (intros z Hz; apply in_app_iff in Hz as [Hz|Hz]; auto).
      destruct (string_dec absent "") as [E|N].
      * subst absent. apply A2. intros z [<-|Hz]; auto.
      * apply B2; [now left|exact N|]. intros z [<-|Hz]; auto.
    + assert (E : absent = ""%string).
      { destruct Hc as [E|[(z & Hz & N)|K]]; [exact E|now rewrite (Ea z Hz) in N|now rewrite (K y Hy) in Ny]. }
      subst absent. destruct (all_like vb y) as [L|(z & Hz & N1 & N2)].
      * rewrite (B3 y), (B2 y); auto; [now right|intros z [<-|Hz]; auto|apply in_app_iff; auto|].
        intros z Hz. apply in_app_iff in Hz as [Hz|Hz]; auto.
      * rewrite (C3 y z), (C2 y z); auto; try (now right); apply in_app_iff; auto.
  - destruct (all_like va x) as [L|(z & Hz & N1 & N2)].
    + specialize (B1 x Hx Nx L). subst v1. destruct (all_like vb x) as [L'|(z & Hz & N1 & N2)].
      * rewrite (B3 x), (B2 x); auto; [now left|intros z [<-|Hz]; auto|apply in_app_iff; auto|].
        intros z Hz. apply in_app_iff in Hz as [Hz|Hz]; auto.
      * rewrite (C3 x z), (C2 x z); auto; try (now right); try (now left); apply in_app_iff; auto.
    + assert (E : v1 = "MULTIPLE"%string) by (apply (C1 x z); auto). subst v1.
      rewrite (C3 x z) by (auto; apply in_app_iff; auto).
      destruct (all_like vb "MULTIPLE") as [L'|(w & Hw & M1 & M2)].
      * apply B2; [now left|discriminate|]. intros y [<-|Hy]; auto.
      * apply (C2 "MULTIPLE"%string w); auto; [now left|now right|discriminate].
Qed.

(** A keyword that only the later inputs have *)
Lemma keyword_unknown va vb v1 v2 v3 x :
  merged_keyword "UNKNOWN" va v1 -> merged_keyword "UNKNOWN" (va ++ vb) v3 -> merged_keyword "UNKNOWN" (v1 :: vb) v2 ->
  (forall y, In y va -> y = ""%string) -> In x vb -> x <> ""%string -> x <> "UNKNOWN"%string ->
  (forall y, In y vb -> y = ""%string \/ y = x) -> v3 = x /\ v2 = "MULTIPLE"%string.
Proof.
  intros (A1 & _) (_ & B3 & _) (_ & _ & C2) Ea Hx N1 N2 L. rewrite (A1 Ea) in C2. split.
  - apply B3; auto; [apply in_app_iff; auto|]. intros y Hy. apply in_app_iff in Hy as [Hy|Hy]; auto.
  - apply (C2 "UNKNOWN"%string x); auto; [now left|now right|discriminate].
Qed.

Lemma keyword_fits absent vals v : merged_keyword absent vals v -> fits_value absent = true ->
  Forall (fun x => fits_value x = true) vals -> fits_value v = true.
Proof.
  intros (A & B & C) Fa F. rewrite Forall_forall in F. destruct (all_empty vals) as [E|(x & Hx & N)]; [now rewrite A|].
  destruct (all_like vals x) as [L|(z & Hz & N1 & N2)]; [rewrite (B x); auto|]. rewrite (C x z); auto.
Qed.

Lemma header_fits_keys d : header_fits d <-> forall key, In key (required_keys ++ optional_keys) -> fits_value (key (o_header d)) = true.
Proof.
  unfold header_fits. rewrite Forall_forall. split.
  - intros H key Hk. apply H. cbn in Hk |- *. intuition (subst; auto).
  - intros H s Hs. cbn in Hs. intuition (subst; apply H; cbn; auto 12).
Qed.
Lemma keys_fit ins key : Forall header_fits ins -> In key (required_keys ++ optional_keys) ->
  Forall (fun x => fits_value x = true) (map (fun d => key (o_header d)) ins).
Proof. intros F Hk. apply Forall_map. eapply Forall_impl; [|exact F]. cbv beta. intros d Hd. now apply header_fits_keys. Qed.

Lemma header_keys ins h : header_merged ins h ->
  (forall key, In key required_keys -> merged_keyword "UNKNOWN" (map (fun d => key (o_header d)) ins) (key h))
  /\ (forall key, In key optional_keys -> merged_keyword "" (map (fun d => key (o_header d)) ins) (key h)).
Proof.
  intros (_ & H1 & H2 & H3 & H4 & H5 & H6 & H7 & H8 & H9 & H10 & H11). split.
  - intros key K. cbn in K. intuition (subst; assumption).
  - intros key K. cbn in K. intuition (subst; assumption).
Qed.
Lemma merged_header_fits ins out : Forall header_fits ins -> merge_oi_fits_list ins = Ok out -> header_fits out.
Proof.
  intros F H. destruct (header_keys _ _ (header_ok ins out F H)) as [Q O].
  apply header_fits_keys. intros key Hk. pose proof (keys_fit ins key F Hk) as K. apply in_app_iff in Hk as [Hk|Hk].
  - exact (keyword_fits _ _ _ (Q key Hk) eq_refl K).
  - exact (keyword_fits _ _ _ (O key Hk) eq_refl K).
Qed.

Lemma vals_none key ins : (forall d, In d ins -> ~ has_key key d) ->
  forall y, In y (map (fun d => key (o_header d)) ins) -> y = ""%string.
Proof.
  intros H y Hy. apply in_map_iff in Hy as (d & <- & Hd). destruct (string_dec (key (o_header d)) "") as [E|N]; [exact E|].
  elim (H d Hd). exact N.
Qed.

Lemma header_in_steps ia ib d1 out2 out3 : Forall header_fits (ia ++ ib) ->
  merge_oi_fits_list ia = Ok d1 -> merge_oi_fits_list (ia ++ ib) = Ok out3 -> merge_oi_fits_list (d1 :: ib) = Ok out2 ->
  (forall key, In key optional_keys -> key (o_header out2) = key (o_header out3))
  /\ (forall key, In key required_keys ->
        (exists d, In d ia /\ has_key key d) \/ (forall d, In d ib -> ~ has_key key d) ->
        key (o_header out2) = key (o_header out3))
  /\ h_date (o_header out2) = h_date (o_header out3)
  /\ h_content (o_header out2) = h_content (o_header out3).
Proof.
  intros F H1 H3 H2. pose proof F as F'. apply Forall_app in F' as [Fa Fb].
  pose proof (merged_header_fits ia d1 Fa H1) as F1.
  assert (F2 : Forall header_fits (d1 :: ib)) by (constructor; assumption).
  destruct (header_keys _ _ (header_ok _ _ Fa H1)) as [Q1 O1].
  destruct (header_keys _ _ (header_ok _ _ F H3)) as [Q3 O3].
  destruct (header_keys _ _ (header_ok _ _ F2 H2)) as [Q2 O2].
  split; [|split].
  - intros key Hk. specialize (O1 key Hk). specialize (O2 key Hk). specialize (O3 key Hk).
    rewrite map_app in O3. exact (keyword_steps _ _ _ _ _ _ O1 O3 O2 (or_introl eq_refl)).
  - intros key Hk Hc. specialize (Q1 key Hk). specialize (Q2 key Hk). specialize (Q3 key Hk).
    rewrite map_app in Q3. refine (keyword_steps _ _ _ _ _ _ Q1 Q3 Q2 (or_intror _)).
    destruct Hc as [(d & Hd & N)|Hc].
    + left. exists (key (o_header d)). split; [now apply (in_map (fun d => key (o_header d)))|exact N].
    + right. now apply vals_none.
  - apply merge_inv in H2 as [R2]. apply merge_inv in H3 as [R3]. rewrite (mr_header _ _ R2), (mr_header _ _ R3). split; reflexivity.
Qed.

Lemma header_unknown ia ib d1 out2 out3 key x : Forall header_fits (ia ++ ib) ->
  merge_oi_fits_list ia = Ok d1 -> merge_oi_fits_list (ia ++ ib) = Ok out3 -> merge_oi_fits_list (d1 :: ib) = Ok out2 ->
  In key required_keys -> (forall d, In d ia -> ~ has_key key d) ->
  (exists d, In d ib /\ has_key key d) -> (forall d, In d ib -> has_key key d -> key (o_header d) = x) ->
  x <> "UNKNOWN"%string ->
  key (o_header out3) = x /\ key (o_header out2) = "MULTIPLE"%string.
Proof.
  intros F H1 H3 H2 Hk Ea (d & Hd & N) L Nx. pose proof F as F'. apply Forall_app in F' as [Fa Fb].
  assert (F2 : Forall header_fits (d1 :: ib)) by (constructor; [exact (merged_header_fits ia d1 Fa H1)|assumption]).
  pose proof (proj1 (header_keys _ _ (header_ok _ _ Fa H1)) key Hk) as Q1.
  pose proof (proj1 (header_keys _ _ (header_ok _ _ F H3)) key Hk) as Q3.
  pose proof (proj1 (header_keys _ _ (header_ok _ _ F2 H2)) key Hk) as Q2.
  rewrite map_app in Q3. pose proof (L d Hd N) as Ex.
  eapply (keyword_unknown _ _ _ _ _ x Q1 Q3 Q2); auto.
  - now apply vals_none.
  - rewrite <- Ex. now apply (in_map (fun d => key (o_header d))).
  - rewrite <- Ex. exact N.
  - intros y Hy. apply in_map_iff in Hy as (d' & <- & Hd'). destruct (string_dec (key (o_header d')) ""); auto.
Qed.

(** ** Dates *)

Definition date_body (d : oi_fits) (minMjd : Z) : res Z :=
  match scan_date (h_date_obs (o_header d)) with
  | None => Ok minMjd
  | Some (y, m, dd) => mjd <- date2mjd y m dd ;; Ok (if mjd <? minMjd then mjd else minMjd)
  end.

Lemma date_in_steps ia ib d1 m3 : Forall dated ia -> some_dated ia ->
  merge_oi_fits_list ia = Ok d1 -> files_min_mjd (ia ++ ib) = Ok m3 -> files_min_mjd (d1 :: ib) = Ok m3.
Proof.
  intros D (d0 & e0 & Hd0 & He0) H E3.
  assert (X : exists dates, Forall2 observed_on ia dates /\ In (Some e0) dates).
  { clear -D Hd0 He0. induction D as [|d l [ymd Hd] D IH]; [contradiction|]. destruct Hd0 as [->|Hd0].
    - assert (Y : exists dates, Forall2 observed_on l dates).
      { clear -D. induction D as [|d l [ymd Hd] D [dates IH]]; eauto. }
      destruct Y as (dates & Y). exists (Some e0 :: dates). split; [constructor; assumption|now left].
    - destruct (IH Hd0) as (dates & Y & Hin). exists (ymd :: dates). split; [constructor; assumption|now right]. }
  destruct X as (dates & F & He).
  destruct (merge_inv _ _ H) as [R]. destruct (files_min_spec ia dates F) as (mjds & Fm & E).
  pose proof (mr_date _ _ R) as Ed. unfold files_min_mjd in Ed. rewrite E in Ed.
  injection Ed as Ed. destruct (fold_min mjds 100000) as (_ & Hle & Hin). rewrite Ed in *.
  assert (M : In (Some (mr_mjd _ _ R)) mjds).
  { destruct Hin as [Hin|Hin]; [|exact Hin]. exfalso.
    destruct (Forall2_in_l _ _ _ _ Fm He) as ([n|] & Hn & Hp).
    - specialize (Hle n Hn). destruct e0 as [[? ?] ?]. cbn in Hp. lia.
    - destruct e0 as [[? ?] ?]. contradiction. }
  destruct (Forall2_in_r _ _ _ _ Fm M) as ([[[y m] d]|] & Hd & Hp); [|contradiction].
  cbn in Hp. destruct Hp as (Dj & Hr & Em & Di).
  assert (Ho : h_date_obs (o_header d1) = iso_date y m d).
  { rewrite (mr_header _ _ R). cbn [h_date_obs]. pose proof (format_date_iso _ Hr) as Ef. rewrite Em in Ef |- *. exact Ef. }
  destruct (Forall2_in_r _ _ _ _ F Hd) as (d' & _ & Hy & Hv & _). destruct (valid_md y m d Hv) as [Hm Hdd].
  unfold files_min_mjd in *. change (foreach (ia ++ ib) date_body 100000 = Ok m3) in E3.
  change (foreach (d1 :: ib) date_body 100000 = Ok m3).
  rewrite foreach_app in E3. pose proof (mr_date _ _ R) as E1. change (foreach ia date_body 100000 = Ok (mr_mjd _ _ R)) in E1.
  rewrite E1 in E3. cbn [bind] in E3. cbn [foreach]. unfold date_body at 1.
  replace (h_date_obs (o_header d1)) with (iso_date y m d ++ "")%string by (rewrite Ho; apply append_nil_r).
  rewrite scan_iso by lia. rewrite Dj. cbn [bind]. destruct (Z.ltb_spec (mr_mjd _ _ R) 100000) as [_|K]; [exact E3|lia].
Qed.

Lemma undated_aborts ia ib d1 : Forall (fun d => observed_on d None) ia -> merge_oi_fits_list ia = Ok d1 ->
  merge_oi_fits_list (d1 :: ib) = Abort.
Proof.
  intros F H. pose proof (date_obs_none ia d1 F H) as E. unfold merge_oi_fits_list, merge_oi_header.
  cbn [assert_ strlen h_origin o_header init_oi_fits empty_header String.length Z.of_nat Z.eqb bind].
  unfold files_min_mjd. cbn [foreach]. rewrite E. reflexivity.
Qed.

(** ** The result *)

Lemma same_contents_header h o : same_contents (set_header_of h o) o.
Proof. unfold same_contents. cbn. repeat (split; [reflexivity|]). reflexivity. Qed.

Theorem merge_in_steps ia ib d1 out3 : Forall (fun d => wf_fits d = true) (ia ++ ib) -> Forall names_fit ia ->
  Forall dated ia -> some_dated ia -> merge_oi_fits_list ia = Ok d1 -> distinct_names d1 ->
  merge_oi_fits_list (ia ++ ib) = Ok out3 ->
  exists out2, merge_oi_fits_list (d1 :: ib) = Ok out2 /\ same_contents out2 out3
    /\ h_date_obs (o_header out2) = h_date_obs (o_header out3).
Proof.
  intros W Fit D S H1 Dn H3. destruct (merge_inv _ _ H3) as [R].
  pose proof (date_in_steps ia ib d1 _ D S H1 (mr_date _ _ R)) as Ed.
  eexists. split; [exact (steps_but_header ia ib d1 out3 W Fit Dn H1 H3 _ Ed)|].
  split; [apply same_contents_header|]. rewrite (mr_header _ _ R). reflexivity.
Qed.

Lemma header_ext h h' : (forall key, In key (required_keys ++ optional_keys ++ [h_date; h_date_obs; h_content]) -> key h = key h') -> h = h'.
Proof.
  intros H. pose proof (H h_origin) as K1. pose proof (H h_date) as K2. pose proof (H h_date_obs) as K3. pose proof (H h_content) as K4.
  pose proof (H h_telescop) as K5. pose proof (H h_instrume) as K6. pose proof (H h_observer) as K7. pose proof (H h_insmode) as K8.
  pose proof (H h_object) as K9. pose proof (H h_referenc) as K10. pose proof (H h_author) as K11. pose proof (H h_prog_id) as K12.
  pose proof (H h_procsoft) as K13. pose proof (H h_obstech) as K14. clear H. cbn [In app required_keys optional_keys] in *.
  destruct h, h'. cbn in *. rewrite K1, K2, K3, K4, K5, K6, K7, K8, K9, K10, K11, K12, K13, K14 by tauto. reflexivity.
Qed.

(** Merging the output alone gives the output. *)
Theorem merge_again ia d1 : Forall (fun d => wf_fits d = true) ia -> Forall names_fit ia -> Forall header_fits ia ->
  Forall dated ia -> some_dated ia -> merge_oi_fits_list ia = Ok d1 -> distinct_names d1 ->
  merge_oi_fits_list [d1] = Ok d1.
Proof.
  intros W Fit Hf D S H1 Dn. pose proof W as W'. rewrite <- (app_nil_r ia) in W'. pose proof H1 as H3. rewrite <- (app_nil_r ia) in H3.
  destruct (merge_in_steps ia [] d1 d1 W' Fit D S H1 Dn H3) as (out2 & E & C & Ed). rewrite E. f_equal.
  pose proof Hf as Hf'. rewrite <- (app_nil_r ia) in Hf'.
  destruct (header_in_steps ia [] d1 out2 d1 Hf' H1 H3 E) as (O & Q & E1 & E2).
  assert (Eh : o_header out2 = o_header d1).
  { apply header_ext. intros key Hk. apply in_app_iff in Hk as [Hk|Hk]; [apply Q; auto; right; intros ? []|].
    apply in_app_iff in Hk as [Hk|Hk]; [auto|]. cbn in Hk. intuition (subst; assumption). }
  clear -C Eh. unfold same_contents in C. destruct out2, d1. cbn in *. decompose [and] C. subst. reflexivity.
Qed.

Lemma mergeable_first ia ib : mergeable (ia ++ ib) -> mergeable ia.
Proof.
  intros [M L]. split; [apply Forall_app in M; tauto|]. eapply Nat.le_lt_trans; [|exact L].
  apply NoDup_incl_length; [apply NoDup_nodup|]. intros n Hn. apply nodup_In in Hn. apply nodup_In.
  unfold all_targets in *. rewrite flat_map_app, map_app. apply in_app_iff. now left.
Qed.

(** When the inputs can be merged, both ways succeed. *)
Theorem mergeable_in_steps ia ib : mergeable (ia ++ ib) -> Forall names_fit ia -> plain_names ia -> some_dated ia ->
  exists d1 out2 out3, merge_oi_fits_list ia = Ok d1 /\ merge_oi_fits_list (d1 :: ib) = Ok out2
    /\ merge_oi_fits_list (ia ++ ib) = Ok out3 /\ same_contents out2 out3
    /\ h_date_obs (o_header out2) = h_date_obs (o_header out3).
Proof.
  intros M Fit Pn S. pose proof (mergeable_first ia ib M) as Ma.
  destruct (merge_defined _ M) as (out3 & E3). destruct (merge_defined _ Ma) as (d1 & E1).
  assert (W : Forall (fun d => wf_fits d = true) (ia ++ ib)) by (destruct M as [M _]; eapply Forall_impl; [|exact M]; cbv beta; tauto).
  assert (Wa : Forall (fun d => wf_fits d = true) ia) by (apply Forall_app in W; tauto).
  assert (D : Forall dated ia) by (destruct Ma as [Ma _]; eapply Forall_impl; [|exact Ma]; cbv beta; tauto).
  destruct (merge_in_steps ia ib d1 out3 W Fit D S E1 (merged_distinct ia d1 Wa E1 Fit Pn) E3) as (out2 & E2 & C & H).
  exists d1, out2, out3. auto.
Qed.
