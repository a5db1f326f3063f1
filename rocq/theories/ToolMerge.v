(** Merging keeps datasets fit to be written. *)
From Verif Require Import BaseLemmas FileModel FileSpec FileProofs MergeModel MergeSpec
  MergeProofs MergeNames MergeNamed MergeTables MergeTargets MergeHeader MergeData MergeWhole MergeFacts
  FitsModel IOSpec ToolFilter.
From Coq Require Import Lia.
Open Scope Z_scope.

(** ** Strings *)
Lemma all_chars_app p a b : all_chars p (a ++ b) = (all_chars p a && all_chars p b)%bool.
Proof. induction a; cbn; [reflexivity|]. now rewrite IHa, andb_assoc. Qed.
Lemma card_length_app a b : card_length (a ++ b) = card_length a + card_length b.
Proof. induction a; cbn [append card_length]; [reflexivity|]. rewrite IHa. lia. Qed.
Lemma no_trailing_app a b : b <> ""%string -> no_trailing_blank (a ++ b) = no_trailing_blank b.
Proof.
  intros Hb. induction a as [|c a IH]; [reflexivity|]. cbn [append]. rewrite <- IH.
  destruct (a ++ b)%string eqn:E; [|reflexivity]. destruct a; [contradiction|discriminate].
Qed.
Lemma card_length_strlen s : strlen s <= card_length s.
Proof.
  unfold strlen. induction s; cbn [String.length card_length]; [lia|].
  destruct (Ascii.eqb a "'"); lia.
Qed.
Lemma card_fits s : card_text s = true -> fits_value s = true.
Proof.
  unfold card_text, fits_value. intros H. ands. apply Z.leb_le in H0. pose proof (card_length_strlen s).
  apply Z.ltb_lt. unfold FLEN_VALUE. lia.
Qed.

(** digits on a card *)
Lemma is_digit_code c : is_digit c = true ->
  (let n := Z.of_nat (nat_of_ascii c) in (32 <=? n) && (n <=? 126))%bool = true
  /\ Ascii.eqb c "'" = false /\ Ascii.eqb c " " = false.
Proof. destruct c as [[] [] [] [] [] [] [] []]; vm_compute; intros; try discriminate; auto. Qed.
Lemma digits_card s : Forall (fun c => is_digit c = true) (chars s) ->
  all_chars (fun c => let n := Z.of_nat (nat_of_ascii c) in (32 <=? n) && (n <=? 126)) s = true
  /\ no_trailing_blank s = true /\ card_length s = strlen s.
Proof.
  induction s as [|c s IH]; intros H; [auto|]. cbn [chars list_ascii_of_string] in H.
  inversion H as [|? ? Hc Hs]; subst. destruct (is_digit_code c Hc) as (C1 & C2 & C3).
  destruct (IH Hs) as (A & B & D). split; [|split].
  - apply andb_true_intro. split; [exact C1|exact A].
  - destruct s; [cbn; now rewrite C3|exact B].
  - cbn [card_length]. rewrite C2, D. unfold strlen. cbn [String.length]. lia.
Qed.

(** a generated name *)
Lemma new_name_card literal n k : 0 <= k < 9999 -> card_text n = true -> card_length n <= 63 ->
  card_text (new_name literal n k) = true.
Proof.
  intros Hk C L. pose proof (card_length_strlen n) as S.
  pose proof (fmt_0wd_length (k + 1) ltac:(lia)) as L4.
  pose proof (fmt_0wd_digits 3 (k + 1) ltac:(lia)) as D.
  unfold new_name. replace (strlen n <? FLEN_VALUE - 5) with true by (symmetry; apply Z.ltb_lt; unfold FLEN_VALUE; lia).
  assert (F : fits_value (n ++ "_" ++ fmt_0wd 3 (k + 1)) = true).
  { unfold fits_value, strlen in *; rewrite !length_app; cbn [String.length]; apply Z.ltb_lt; unfold FLEN_VALUE in *; lia. }
  rewrite (strlcpy_fits _ F), (strlcpy_fits _ F).
  destruct (digits_card _ D) as (D1 & D2 & D3). unfold card_text in *. ands. bands.
  - rewrite all_chars_app. apply andb_true_intro. split; [assumption|exact D1].
  - rewrite no_trailing_app by discriminate. cbn [append no_trailing_blank].
    destruct (fmt_0wd 3 (k + 1)); [reflexivity|exact D2].
  - apply Z.leb_le. rewrite card_length_app. cbn [append]. 
    replace (card_length (String "_" (fmt_0wd 3 (k + 1)))) with (1 + card_length (fmt_0wd 3 (k + 1))) by reflexivity.
    rewrite D3. unfold strlen. lia.
Qed.

(** ** Names of the output *)
Section Named.
Context {A : Type}.
Variables (name : A -> string) (set_name : string -> A -> A) (literal : string).
Variables (matching : A -> list A -> res (option A)) (copy : A -> res A).
Variables (good : A -> Prop) (same : A -> A -> Prop).
Hypothesis name_set : forall n c, name (set_name n c) = n.
Hypothesis good_set : forall n c, good c -> good (set_name n c).
Hypothesis same_set : forall a n c, same a c -> same a (set_name n c).
Hypothesis matching_sound : forall a l c, good a -> Forall good l ->
  matching a l = Ok (Some c) -> In c l /\ same a c.
Hypothesis copy_sound : forall a c, good a -> copy a = Ok c -> good c /\ name c = name a /\ same a c.

Lemma merge_tables_names (P : string -> Prop) lists hs out : Forall (Forall good) lists ->
  Forall (Forall (fun a => P (name a) /\ forall k, 0 <= k < 9999 -> P (new_name literal (name a) k))) lists ->
  Z.of_nat (length (concat lists)) < 10000 ->
  merge_tables name set_name literal matching copy lists (mk_tables [] hash_new 0) = Ok (hs, out) ->
  Forall (fun c => P (name c)) (tl_list out).
Proof using All.
  intros G HQ HL H. unfold merge_tables in H. cbn [tl_list assert_ bind] in H.
  pose (I := fun n (t : tables A) => tables_inv name good t /\ tl_num t <= Z.of_nat n
     /\ (tl_num t < 10000 -> Forall (fun c => P (name c)) (tl_list t))).
  apply (foreach_invariant (fun pre (s : list (hash string) * tables A) => I (length (concat pre)) (snd s))) in H.
  - destruct H as (_ & B & F). cbn [snd] in *. apply F. lia.
  - cbn [snd]. split; [repeat split; constructor|]. cbn. split; [lia|constructor].
  - intros pre l [hs1 o1] [hs2 o2] J Hin Hb. cbn [snd] in *.
    apply bind_inv in Hb as ([h o] & Ef & Hb). injection Hb as <- <-.
    rewrite Forall_forall in G, HQ. specialize (G l Hin). specialize (HQ l Hin).
    rewrite concat_app, app_length. cbn [concat]. rewrite app_nil_r.
    apply (foreach_invariant (fun pre' (s : hash string * tables A) =>
      I (length (concat pre) + length pre')%nat (snd s))) in Ef; [exact Ef| |].
    + cbn [snd length]. now rewrite Nat.add_0_r.
    + intros pre' a [h1 t1] [h2 t2] (J1 & J2 & J3) Ha Hb. cbn [snd] in *.
      rewrite Forall_forall in G, HQ. destruct (HQ a Ha) as [Q1 Q2].
      destruct (merge_table_inv name set_name literal matching copy good same name_set good_set same_set
        matching_sound copy_sound a h1 t1 h2 t2 (G a Ha) J1 Hb) as (c & _ & _ & _ & J' & Hcase).
      rewrite app_length. cbn [length].
      destruct Hcase as [[-> _]|(_ & c0 & Ec & El & En & Hc)].
      { split; [exact J1|]. split; [lia|exact J3]. }
      split; [exact J'|]. split; [lia|]. intros Hlt. rewrite El. apply Forall_app.
      split; [apply J3; lia|]. constructor; [|constructor].
      destruct (copy_sound a c0 (G a Ha) Ec) as (_ & Nc & _).
      destruct Hc as [[-> _]| ->]; [now rewrite Nc|]. rewrite name_set. apply Q2.
      destruct J1 as (Jn & _). lia.
Qed.
End Named.

(** Names on a card, with room for the suffix of a generated name *)
Definition roomy (n : string) : Prop := card_length n <= 63.
Definition roomy_names (ins : list oi_fits) : Prop :=
  (forall d a, In d ins -> In a (o_arrayList d) -> roomy (ar_arrname a))
  /\ (forall d w, In d ins -> In w (o_wavelengthList d) -> roomy (wv_insname w))
  /\ (forall d c, In d ins -> In c (o_corrList d) -> roomy (co_corrname c))
  /\ Z.of_nat (List.length (flat_map o_arrayList ins)) < 10000
  /\ Z.of_nat (List.length (flat_map o_wavelengthList ins)) < 10000
  /\ Z.of_nat (List.length (flat_map o_corrList ins)) < 10000.

(** ** The merged dataset *)
Lemma map_concat {A} (f : oi_fits -> list A) ins : concat (map f ins) = flat_map f ins.
Proof. symmetry. apply flat_map_concat_map. Qed.

Lemma storable_parts_of E d : storable_fits E d = true -> storable_header (o_header d) = true /\ storable_target (o_targets d) = true
  /\ forallb (storable_array E) (o_arrayList d) = true /\ forallb storable_wavelength (o_wavelengthList d) = true
  /\ forallb storable_corr (o_corrList d) = true /\ forallb storable_inspol (o_inspolList d) = true
  /\ forallb storable_vis (o_visList d) = true /\ forallb storable_vis2 (o_vis2List d) = true
  /\ forallb storable_t3 (o_t3List d) = true /\ forallb (storable_flux E) (o_fluxList d) = true.
Proof. intros S. unfold storable_fits in S. ands. tauto. Qed.

Lemma digit_code z : card_text (String (digit z) "") = true /\ Ascii.eqb (digit z) "'" = false
  /\ Ascii.eqb (digit z) " " = false.
Proof.
  unfold digit. assert (B : 0 <= z mod 10 < 10) by (apply Z.mod_pos_bound; lia).
  assert (K : z mod 10 = 0 \/ z mod 10 = 1 \/ z mod 10 = 2 \/ z mod 10 = 3 \/ z mod 10 = 4 \/ z mod 10 = 5
     \/ z mod 10 = 6 \/ z mod 10 = 7 \/ z mod 10 = 8 \/ z mod 10 = 9) by lia.
  decompose [or] K; match goal with H : z mod 10 = _ |- _ => rewrite H end; vm_compute; auto.
Qed.
Lemma iso_date_card y m d : card_text (iso_date y m d) = true.
Proof.
  unfold iso_date.
  assert (D : forall z, exists c, digit z = c /\ card_text (String c "") = true /\ Ascii.eqb c "'" = false /\ Ascii.eqb c " " = false)
    by (intros z; exists (digit z); split; [reflexivity|apply digit_code]).
  destruct (D (y / 1000)) as (c1 & -> & P1 & Q1 & R1). destruct (D (y / 100)) as (c2 & -> & P2 & Q2 & R2).
  destruct (D (y / 10)) as (c3 & -> & P3 & Q3 & R3). destruct (D y) as (c4 & -> & P4 & Q4 & R4).
  destruct (D (m / 10)) as (c5 & -> & P5 & Q5 & R5). destruct (D m) as (c6 & -> & P6 & Q6 & R6).
  destruct (D (d / 10)) as (c7 & -> & P7 & Q7 & R7). destruct (D d) as (c8 & -> & P8 & Q8 & R8).
  unfold card_text in *. cbn [all_chars no_trailing_blank card_length] in *.
  rewrite Q1, Q2, Q3, Q4, Q5, Q6, Q7, R8 in *. rewrite Q8. ands.
  repeat match goal with H : ?b = true |- _ => rewrite H; clear H end. reflexivity.
Qed.

Lemma keyword_card absent vals v : card_text absent = true -> (forall x, In x vals -> card_text x = true) ->
  merged_keyword absent vals v -> card_text v = true.
Proof.
  intros Ha Hv (M1 & M2 & M3).
  destruct (Forall_Exists_dec (fun x => x = ""%string) (fun x => string_dec x "") vals) as [F|Ex].
  - rewrite M1; [exact Ha|]. now apply Forall_forall.
  - apply Exists_exists in Ex as (x & Hx & Nx).
    assert (D : forall y, {y = ""%string \/ y = x} + {~ (y = ""%string \/ y = x)}).
    { intros y. destruct (string_dec y ""); [left; auto|]. destruct (string_dec y x); [left; auto|right; tauto]. }
    destruct (Forall_Exists_dec _ D vals) as [F|Ey].
    + rewrite (M2 x Hx Nx); [auto|]. now apply Forall_forall.
    + apply Exists_exists in Ey as (y & Hy & Ny). rewrite (M3 x y); auto.
Qed.

Section Merged.
Variables (E : cfitsio) (ins : list oi_fits) (out : oi_fits).
Hypothesis NE : ins <> [].
Hypothesis ST : Forall (fun d => storable_fits E d = true) ins.
Hypothesis M : mergeable ins.
Hypothesis Room : roomy_names ins.
Hypothesis H : merge_oi_fits_list ins = Ok out.

Lemma W : Forall (fun d => wf_fits d = true) ins.
Proof. destruct M as [F _]. eapply Forall_impl; [|exact F]. cbn. tauto. Qed.

Lemma stored d : In d ins -> storable_fits E d = true.
Proof. rewrite Forall_forall in ST. apply ST. Qed.

Lemma named_room {A} (f : oi_fits -> list A) (name : A -> string) literal :
  (forall d a, In d ins -> In a (f d) -> card_text (name a) = true) ->
  (forall d a, In d ins -> In a (f d) -> roomy (name a)) ->
  Forall (Forall (fun a => card_text (name a) = true
    /\ forall k, 0 <= k < 9999 -> card_text (new_name literal (name a) k) = true)) (map f ins).
Proof.
  intros H1 H2. apply Forall_forall. intros l Hl. apply in_map_iff in Hl as (d & <- & Hd).
  apply Forall_forall. intros a Ha. split; [eauto|]. intros k Hk. apply new_name_card; eauto. now apply (H2 d).
Qed.

Lemma arrays_card : Forall (fun a => card_text (ar_arrname a) = true) (o_arrayList out).
Proof.
  pose proof (wf_parts_intro ins W) as P. destruct (merge_inv _ _ H) as [R].
  destruct Room as (R1 & _ & _ & L & _).
  refine (merge_tables_names ar_arrname ar_set_arrname "array" match_oi_array copy_oi_array
    array_good same_stations (fun _ _ => eq_refl) array_good_rename same_stations_rename
    array_matching_sound array_copy_sound (fun s => card_text s = true) _ _ _ (wp_arrays _ P) _ _ (mr_arrays _ _ R)).
  - apply named_room; [|exact R1]. intros d a Hd Ha. apply stored, storable_parts_of in Hd as (_ & _ & S & _).
    rewrite forallb_forall in S. specialize (S a Ha). unfold storable_array in S. now ands.
  - now rewrite map_concat.
Qed.
Lemma waves_card : Forall (fun a => card_text (wv_insname a) = true) (o_wavelengthList out).
Proof.
  pose proof (wf_parts_intro ins W) as P. destruct (merge_inv _ _ H) as [R].
  destruct Room as (_ & R1 & _ & _ & L & _).
  refine (merge_tables_names wv_insname wv_set_insname "ins" match_oi_wavelength copy_oi_wavelength
    wave_good same_wavebands (fun _ _ => eq_refl) wave_good_rename same_wavebands_rename
    wave_matching_sound wave_copy_sound (fun s => card_text s = true) _ _ _ (wp_waves _ P) _ _ (mr_waves _ _ R)).
  - apply named_room; [|exact R1]. intros d a Hd Ha. apply stored, storable_parts_of in Hd as (_ & _ & _ & S & _).
    rewrite forallb_forall in S. specialize (S a Ha). unfold storable_wavelength in S. now ands.
  - now rewrite map_concat.
Qed.
Lemma corrs_card : Forall (fun a => card_text (co_corrname a) = true) (o_corrList out).
Proof.
  pose proof (wf_parts_intro ins W) as P. destruct (merge_inv _ _ H) as [R].
  destruct Room as (_ & _ & R1 & _ & _ & L).
  refine (merge_tables_names co_corrname co_set_corrname "ins" (fun _ _ => Ok None) dup_oi_corr
    corr_good merged_corr (fun _ _ => eq_refl) corr_good_rename merged_corr_rename
    corr_matching_sound corr_copy_sound (fun s => card_text s = true) _ _ _ (wp_corrs _ P) _ _ (mr_corrs _ _ R)).
  - apply named_room; [|exact R1]. intros d a Hd Ha. apply stored, storable_parts_of in Hd as (_ & _ & _ & _ & S & _).
    rewrite forallb_forall in S. specialize (S a Ha). unfold storable_corr in S. now ands.
  - now rewrite map_concat.
Qed.

(** a name replaced by the name of a table of the output *)
Lemma renamed_card {A} (name : A -> string) same l h outl old :
  renames name same l h outl -> Forall (fun a => card_text (name a) = true) outl ->
  card_text old = true -> card_text (replace_name h old) = true.
Proof.
  intros [R1 R2] F Ho. unfold replace_name.
  destruct (in_dec string_dec old (map name l)) as [Hin|Hn]; [|now rewrite R1].
  assert (X : exists p1 a p2, l = p1 ++ a :: p2 /\ name a = old /\ ~ In (name a) (map name p2)).
  { clear -Hin. induction l as [|b l IH]; [contradiction|]. cbn in Hin.
    destruct (in_dec string_dec old (map name l)) as [Hi|Hn].
    - destruct (IH Hi) as (p1 & a & p2 & -> & Ea & N). exists (b :: p1), a, p2. auto.
    - destruct Hin as [Eb|]; [|contradiction]. exists [], b, l. split; [reflexivity|]. split; [exact Eb|]. now rewrite Eb. }
  destruct X as (p1 & a & p2 & El & Ea & N). destruct (R2 p1 a p2 El N) as (c & Hc & _ & L). rewrite Ea in L. rewrite L.
  rewrite Forall_forall in F. specialize (F c Hc). rewrite strlcpy_fits; [exact F|]. now apply card_fits.
Qed.
Lemma renamed_optional {A} (name : A -> string) same l h outl old :
  renames name same l h outl -> Forall (fun a => card_text (name a) = true) outl ->
  card_text old = true -> card_text (replace_optional h old) = true.
Proof. intros. unfold replace_optional. destruct (0 <? strlen old); [eapply renamed_card; eauto|auto]. Qed.

Lemma short_ids : forall t, In t (ot_targ (o_targets out)) -> short (tg_target_id t) = true.
Proof.
  intros t Ht. destruct (targets_facts ins out W H) as (T1 & T2 & T3 & _).
  apply (in_map tg_target_id) in Ht. rewrite T1 in Ht. apply in_map_iff in Ht as (i & <- & Hi).
  apply in_seq in Hi. destruct M as [_ L].
  assert (length (ot_targ (o_targets out)) <= length (nodup string_dec (map tg_target (all_targets ins))))%nat.
  { rewrite <- (map_length tg_target). apply NoDup_incl_length; [exact T2|].
    intros n Hn. apply nodup_In. now apply T3. }
  unfold short. apply andb_true_intro. split; apply Z.leb_le; lia.
Qed.

Lemma short_replaced d ids id n : In d ins -> target_inv (all_targets ins) (ot_targ (o_targets out)) ids ->
  replace_target_id d ids id = Ok n -> short n = true.
Proof.
  intros Hd [_ L] R. apply replace_id_inv in R as (t & _ & Hn); [|apply (wf_target_of ins W d Hd)].
  rewrite L in Hn. apply target_of_some in Hn as (t' & Hin & _ & <-). now apply short_ids.
Qed.

Lemma traced_forallb {T} place (tabs : oi_fits -> list T) (p : T -> bool) l' :
  Forall2 (traced place tabs ins out) (from_inputs tabs ins) l' ->
  (forall d t t' a i c, In d ins -> In t (tabs d) -> In t' l' ->
     renames_a out d a -> renames_i out d i -> renames_c out d c -> place d a i c t t' ->
     p t = true -> p t' = true) ->
  (forall d t, In d ins -> In t (tabs d) -> p t = true) -> forallb p l' = true.
Proof.
  intros F K Hp. apply forallb_forall. intros t' Ht'.
  assert (X : exists dt, traced place tabs ins out dt t').
  { clear -F Ht'. induction F; [contradiction|]. destruct Ht' as [<-|Ht']; eauto. }
  destruct X as ([d t] & Hd & Ht & a & i & c & Ra & Ri & Rc & P). cbn [fst snd] in *.
  eapply K; eauto.
Qed.

Lemma Forall2_forallb {A B} (Q : A -> B -> Prop) (p : A -> bool) (q : B -> bool) l m :
  Forall2 Q l m -> (forall a b, Q a b -> p a = true -> q b = true) -> forallb p l = true -> forallb q m = true.
Proof. intros F K. induction F; cbn [forallb]; [auto|]. intros X. ands. apply andb_true_intro. eauto. Qed.

Lemma replaced_dtab {X R} (id : R -> Z) set_id rv rel ids d a i c (t t' : dtab X R) :
  renames_a out d a -> renames_i out d i -> renames_c out d c ->
  placed id set_id rv rel ids d a i c t t' -> storable_dtab t = true ->
  storable_dtab t' = true /\ (is_empty (tb_corrname t) = true -> is_empty (tb_corrname t') = true)
  /\ (is_empty (tb_arrname t) = true -> is_empty (tb_arrname t') = true).
Proof.
  intros Ra Ri Rc (P1 & P2 & P3 & P4 & P5 & P6 & P7 & P8 & _) S. split.
  - unfold storable_dtab in *. rewrite P2, P4, P5, P6, P7, P8. cbn [forallb] in *. ands. bands; auto.
    + eapply renamed_optional; [exact Ra|exact arrays_card|assumption].
    + eapply renamed_card; [exact Ri|exact waves_card|assumption].
    + eapply renamed_optional; [exact Rc|exact corrs_card|assumption].
  - rewrite P6, P8. unfold replace_optional, is_empty, nonempty, strlen. split.
    + destruct (tb_corrname t); [auto|discriminate].
    + destruct (tb_arrname t); [auto|discriminate].
Qed.

Lemma wf_out : wf_fits out = true.
Proof. exact (merged_wf ins out W H). Qed.

Lemma wf_out_parts : forallb wf_array (o_arrayList out) = true /\ forallb wf_wavelength (o_wavelengthList out) = true
  /\ forallb wf_corr (o_corrList out) = true /\ wf_targets (o_targets out) = true
  /\ forallb wf_inspol (o_inspolList out) = true
  /\ forallb wf_vis (o_visList out) = true /\ forallb wf_vis2 (o_vis2List out) = true
  /\ forallb wf_t3 (o_t3List out) = true /\ forallb wf_flux (o_fluxList out) = true.
Proof. pose proof wf_out as S. unfold wf_fits in S. ands. tauto. Qed.

Lemma indices_kept (c c' : string) l : (is_empty c = true -> is_empty c' = true) ->
  indices c l = true -> indices c' l = true.
Proof.
  unfold indices. intros K X. apply orb_true_intro. apply orb_prop in X as [X|X]; auto.
Qed.

Lemma out_vis : forallb storable_vis (o_visList out) = true.
Proof.
  destruct (merge_facts ins out W H) as (ids & F). destruct wf_out_parts as (_ & _ & _ & _ & _ & Wf & _).
  rewrite forallb_forall in Wf.
  apply (traced_forallb _ _ storable_vis _ (fa_vis _ _ _ F)).
  - intros d t t' a i c Hd Ht Ht' Ra Ri Rc P S. unfold storable_vis in *. ands.
    destruct (replaced_dtab _ _ _ _ _ _ _ _ _ _ _ Ra Ri Rc P) as (D1 & D2 & _); [assumption|].
    destruct P as (_ & _ & P3 & _ & _ & _ & _ & _ & P9). rewrite P3. bands; auto.
    eapply Forall2_forallb; [exact P9| |eassumption].
    intros r r' (r1 & n & [Rel _] & _ & En & ->) Sr.
    pose proof (short_replaced d ids _ _ Hd (fa_targets _ _ _ F) En) as Sn.
    destruct Rel as (_ & _ & _ & _ & _ & C1 & _ & _ & C2 & _ & _ & _ & C3 & _ & _ & C4 & _ & _ & C5 & _).
    assert (I : vr_corrindx_visamp r1 = vr_corrindx_visamp r /\ vr_corrindx_visphi r1 = vr_corrindx_visphi r
      /\ vr_corrindx_rvis r1 = vr_corrindx_rvis r /\ vr_corrindx_ivis r1 = vr_corrindx_ivis r /\ vr_sta_index r1 = vr_sta_index r).
    { rewrite C1, C2, C3, C4, C5. unfold vis_dup_image. destruct (vx_usecomplex (tb_x t)); cbn; auto. }
    destruct I as (I1 & I2 & I3 & I4 & I5). unfold storable_vis_record in *.
    cbn [vr_set_target_id vr_target_id vr_sta_index vr_corrindx_visamp vr_corrindx_visphi vr_corrindx_rvis vr_corrindx_ivis].
    rewrite P3, I1, I2, I3, I4, I5. ands. bands; auto.
    + eapply indices_kept; eauto.
    + apply orb_true_intro. match goal with X : (_ || _)%bool = true |- _ => apply orb_prop in X as [X|X] end; [now left|right].
      eapply indices_kept; eauto.
  - intros d t Hd Ht. apply stored, storable_parts_of in Hd as (_ & _ & _ & _ & _ & _ & S & _).
    rewrite forallb_forall in S. auto.
Qed.
Lemma out_vis2 : forallb storable_vis2 (o_vis2List out) = true.
Proof.
  destruct (merge_facts ins out W H) as (ids & F). destruct wf_out_parts as (_ & _ & _ & _ & _ & _ & Wf & _).
  rewrite forallb_forall in Wf.
  apply (traced_forallb _ _ storable_vis2 _ (fa_vis2 _ _ _ F)).
  - intros d t t' a i c Hd Ht Ht' Ra Ri Rc P S. unfold storable_vis2 in *. ands.
    destruct (replaced_dtab _ _ _ _ _ _ _ _ _ _ _ Ra Ri Rc P) as (D1 & D2 & _); [assumption|].
    destruct P as (_ & _ & P3 & _ & _ & _ & _ & _ & P9). bands; auto.
    eapply Forall2_forallb; [exact P9| |eassumption].
    intros r r' (r1 & n & [Rel _] & _ & En & ->) Sr.
    pose proof (short_replaced d ids _ _ Hd (fa_targets _ _ _ F) En) as Sn.
    destruct Rel as (_ & _ & _ & _ & _ & C1 & _ & _ & C5 & _).
    unfold storable_vis2_record in *. cbn [v2_set_target_id v2_target_id v2_sta_index v2_corrindx_vis2data].
    rewrite C1, C5. ands. bands; auto. eapply indices_kept; eauto.
  - intros d t Hd Ht. apply stored, storable_parts_of in Hd as (_ & _ & _ & _ & _ & _ & _ & S & _).
    rewrite forallb_forall in S. auto.
Qed.
Lemma out_t3 : forallb storable_t3 (o_t3List out) = true.
Proof.
  destruct (merge_facts ins out W H) as (ids & F). destruct wf_out_parts as (_ & _ & _ & _ & _ & _ & _ & Wf & _).
  rewrite forallb_forall in Wf.
  apply (traced_forallb _ _ storable_t3 _ (fa_t3 _ _ _ F)).
  - intros d t t' a i c Hd Ht Ht' Ra Ri Rc P S. unfold storable_t3 in *. ands.
    destruct (replaced_dtab _ _ _ _ _ _ _ _ _ _ _ Ra Ri Rc P) as (D1 & D2 & _); [assumption|].
    destruct P as (_ & _ & P3 & _ & _ & _ & _ & _ & P9). bands; auto.
    eapply Forall2_forallb; [exact P9| |eassumption].
    intros r r' (r1 & n & [Rel _] & _ & En & ->) Sr.
    pose proof (short_replaced d ids _ _ Hd (fa_targets _ _ _ F) En) as Sn.
    destruct Rel as (_ & _ & _ & _ & _ & C1 & _ & _ & C2 & _ & _ & _ & _ & C5 & _).
    unfold storable_t3_record in *. cbn [t3_set_target_id t3_target_id t3_sta_index t3_corrindx_t3amp t3_corrindx_t3phi].
    rewrite C1, C2, C5. ands. bands; auto. eapply indices_kept; eauto.
  - intros d t Hd Ht. apply stored, storable_parts_of in Hd as (_ & _ & _ & _ & _ & _ & _ & _ & S & _).
    rewrite forallb_forall in S. auto.
Qed.
Lemma out_flux : forallb (storable_flux E) (o_fluxList out) = true.
Proof.
  destruct (merge_facts ins out W H) as (ids & F). destruct wf_out_parts as (_ & _ & _ & _ & _ & _ & _ & _ & Wf).
  rewrite forallb_forall in Wf.
  apply (traced_forallb _ _ (storable_flux E) _ (fa_flux _ _ _ F)).
  - intros d t t' a i c Hd Ht Ht' Ra Ri Rc P S. unfold storable_flux in *. ands.
    destruct (replaced_dtab _ _ _ _ _ _ _ _ _ _ _ Ra Ri Rc P) as (D1 & D2 & D3); [assumption|].
    destruct P as (_ & _ & P3 & _ & _ & _ & _ & _ & P9). rewrite P3. bands; auto.
    eapply Forall2_forallb; [exact P9| |eassumption].
    intros r r' (r1 & n & -> & _ & En & ->) Sr.
    pose proof (short_replaced d ids _ _ Hd (fa_targets _ _ _ F) En) as Sn.
    unfold storable_flux_record in *. cbn [fr_set_target_id fr_target_id fr_sta_index fr_corrindx_fluxdata].
    ands. bands; auto.
    + apply orb_true_intro. match goal with X : (_ || _)%bool = true |- _ => apply orb_prop in X as [X|X] end; auto.
    + eapply indices_kept; eauto.
  - intros d t Hd Ht. apply stored, storable_parts_of in Hd as (_ & _ & _ & _ & _ & _ & _ & _ & _ & S).
    rewrite forallb_forall in S. auto.
Qed.

Lemma replaced_cell d i old : renames_i out d i -> cell_text 70 old = true -> cell_text 70 (replace_name i old) = true.
Proof.
  intros [R1 R2] Ho. unfold replace_name. destruct (hash_lookup i old) as [n|] eqn:L; [|exact Ho].
  assert (C : card_text (strlcpy FLEN_VALUE n) = true).
  { pose proof waves_card as F.
    destruct (in_dec string_dec old (map wv_insname (o_wavelengthList d))) as [Hin|Hn]; [|rewrite R1 in L by exact Hn; discriminate].
    assert (X : exists p1 a p2, o_wavelengthList d = p1 ++ a :: p2 /\ wv_insname a = old /\ ~ In (wv_insname a) (map wv_insname p2)).
    { clear -Hin. induction (o_wavelengthList d) as [|b l IH]; [contradiction|]. cbn in Hin.
      destruct (in_dec string_dec old (map wv_insname l)) as [Hi|Hn].
      - destruct (IH Hi) as (p1 & a & p2 & -> & Ea & N). exists (b :: p1), a, p2. auto.
      - destruct Hin as [Eb|]; [|contradiction]. exists [], b, l. split; [reflexivity|]. split; [exact Eb|]. now rewrite Eb. }
    destruct X as (p1 & a & p2 & El & Ea & N). destruct (R2 p1 a p2 El N) as (c & Hc & _ & Lc). rewrite Ea, L in Lc.
    injection Lc as ->. rewrite Forall_forall in F. specialize (F c Hc). rewrite strlcpy_fits; [exact F|now apply card_fits]. }
  generalize dependent (strlcpy FLEN_VALUE n). intros s C. unfold card_text, cell_text in *. ands.
  pose proof (card_length_strlen s). match goal with X : (_ <=? 68) = true |- _ => apply Z.leb_le in X end.
  bands; [apply Z.leb_le; lia|assumption].
Qed.

Lemma out_inspol : forallb storable_inspol (o_inspolList out) = true.
Proof.
  destruct (merge_facts ins out W H) as (ids & F). destruct wf_out_parts as (_ & _ & _ & _ & Wf & _).
  rewrite forallb_forall in Wf.
  apply (traced_forallb _ _ storable_inspol _ (fa_inspol _ _ _ F)).
  - intros d t t' a i c Hd Ht Ht' Ra Ri Rc (P1 & P2 & P3 & P4 & P5 & P6 & P7 & P8 & P9) S.
    unfold storable_inspol in *. rewrite P2, P4, P5, P6, P7, P8. cbn [forallb] in *. ands. bands; auto.
    + eapply renamed_optional; [exact Ra|exact arrays_card|assumption].
    + eapply Forall2_forallb; [exact P9| |eassumption].
      intros r r' (n & En & ->) Sr.
      pose proof (short_replaced d ids _ _ Hd (fa_targets _ _ _ F) En) as Sn.
      unfold storable_inspol_record in *. cbn [ip_set_insname ip_set_target_id ip_target_id ip_insname ip_sta_index].
      ands. bands; auto. eapply replaced_cell; eauto.
  - intros d t Hd Ht. apply stored, storable_parts_of in Hd as (_ & _ & _ & _ & _ & S & _).
    rewrite forallb_forall in S. auto.
Qed.

Lemma out_arrays : forallb (storable_array E) (o_arrayList out) = true.
Proof.
  destruct wf_out_parts as (Wf & _). rewrite forallb_forall in *. intros a' Ha'.
  pose proof arrays_card as C. rewrite Forall_forall in C. specialize (C a' Ha').
  pose proof (arrays_from_inputs ins out W H) as F. rewrite Forall_forall in F.
  destruct (F a' Ha') as (d & a & Hd & Ha & Eq). apply stored, storable_parts_of in Hd as (_ & _ & S & _).
  rewrite forallb_forall in S. specialize (S a Ha). specialize (Wf a' Ha').
  destruct a as [r n fr x y z k e], a' as [r' n' fr' x' y' z' k' e'].
  unfold storable_array in *. cbn in Eq, S, C |- *. injection Eq as -> -> -> -> -> -> ->.
  ands. bands; auto.
Qed.
Lemma out_waves : forallb storable_wavelength (o_wavelengthList out) = true.
Proof.
  destruct wf_out_parts as (_ & Wf & _). rewrite forallb_forall in *. intros a' Ha'.
  pose proof waves_card as C. rewrite Forall_forall in C. specialize (C a' Ha').
  pose proof (waves_from_inputs ins out W H) as F. rewrite Forall_forall in F.
  destruct (F a' Ha') as (d & a & Hd & Ha & Eq). apply stored, storable_parts_of in Hd as (_ & _ & _ & S & _).
  rewrite forallb_forall in S. specialize (S a Ha). specialize (Wf a' Ha').
  assert (N : wv_nwave a' = wv_nwave a) by (apply (f_equal wv_nwave) in Eq; exact Eq).
  unfold storable_wavelength in *. rewrite N. ands. bands; auto.
Qed.
Lemma out_corrs : forallb storable_corr (o_corrList out) = true.
Proof.
  destruct wf_out_parts as (_ & _ & Wf & _). rewrite forallb_forall in *. intros a' Ha'.
  pose proof corrs_card as C. rewrite Forall_forall in C. specialize (C a' Ha').
  pose proof (kept_corr ins out W H) as F. destruct (Forall2_in_r _ _ _ _ F Ha') as (a & Ha & Eq).
  apply in_flat_map in Ha as (d & Hd & Ha). apply stored, storable_parts_of in Hd as (_ & _ & _ & _ & S & _).
  rewrite forallb_forall in S. specialize (S a Ha). specialize (Wf a' Ha').
  assert (N1 : co_ncorr a' = co_ncorr a) by (apply (f_equal co_ncorr) in Eq; exact Eq).
  assert (N2 : co_iindx a' = co_iindx a) by (apply (f_equal co_iindx) in Eq; exact Eq).
  assert (N3 : co_jindx a' = co_jindx a) by (apply (f_equal co_jindx) in Eq; exact Eq).
  unfold storable_corr in *. rewrite N1, N2, N3. ands. bands; auto.
Qed.

Lemma out_targets : storable_target (o_targets out) = true.
Proof.
  destruct wf_out_parts as (_ & _ & _ & Wf & _).
  destruct (targets_facts ins out W H) as (T1 & T2 & T3 & T4).
  destruct (merge_facts ins out W H) as (ids & F). unfold storable_target.
  assert (L : 1 <= ot_ntarget (o_targets out)).
  { rewrite (fa_rev _ _ _ F). cbn [ot_ntarget].
    destruct ins as [|d l] eqn:Ei; [contradiction|]. rewrite <- Ei in *.
    assert (Hd : In d ins) by (rewrite Ei; now left).
    destruct (storable_parts_of E d (stored d Hd)) as (_ & S & _). unfold storable_target in S. ands.
    apply Z.leb_le in H2. unfold wf_targets in H0. apply len_is_eq in H0.
    destruct (ot_targ (o_targets d)) as [|x ts] eqn:Et; [cbn in H0; lia|].
    assert (In (tg_target x) (map tg_target (ot_targ (o_targets out)))).
    { apply T3. apply in_map. apply in_flat_map. exists d. split; [exact Hd|]. rewrite Et. now left. }
    destruct (ot_targ (o_targets out)); [contradiction|]. cbn [length]. lia. }
  bands; [exact Wf|now apply Z.leb_le|]. rewrite (fa_rev _ _ _ F). cbn [ot_usecategory ot_targ].
  apply forallb_forall. intros t' Ht'. destruct (T4 t' Ht') as (t & Hm & Eq).
  assert (Hin : In t (all_targets ins)).
  { destruct Hm as (p1 & p2 & -> & _). apply in_or_app. right. now left. }
  apply in_flat_map in Hin as (d & Hd & Ht). destruct (storable_parts_of E d (stored d Hd)) as (_ & S & _).
  unfold storable_target in S. ands. rewrite forallb_forall in H1. specialize (H1 t Ht).
  pose proof (short_ids t' Ht') as Sh. rewrite Eq in *. unfold storable_target1 in *.
  cbn [tg_set_target_id tg_target_id tg_target tg_veltyp tg_veldef tg_spectyp] in *. ands. bands; auto.
Qed.

Lemma out_header : storable_header (o_header out) = true.
Proof.
  assert (C : forall d, In d ins -> forallb card_text
    [h_origin (o_header d); h_telescop (o_header d); h_instrume (o_header d); h_observer (o_header d); h_insmode (o_header d);
     h_object (o_header d); h_referenc (o_header d); h_author (o_header d); h_prog_id (o_header d); h_procsoft (o_header d);
     h_obstech (o_header d)] = true).
  { intros d Hd. destruct (storable_parts_of E d (stored d Hd)) as (S & _). unfold storable_header in S.
    cbn [forallb] in *. ands. bands; auto. }
  assert (HF : Forall header_fits ins).
  { apply Forall_forall. intros d Hd. specialize (C d Hd). unfold header_fits. rewrite forallb_forall in C.
    apply Forall_forall. intros s Hs. apply card_fits. auto. }
  pose proof (header_ok ins out HF H) as X. unfold header_merged in X. cbv zeta in X.
  assert (K : forall key, (forall d, In d ins -> card_text (key (o_header d)) = true) ->
    forall x, In x (map (fun d => key (o_header d)) ins) -> card_text x = true).
  { intros key Hk x Hx. apply in_map_iff in Hx as (d & <- & Hd). auto. }
  assert (D : card_text (h_date_obs (o_header out)) = true).
  { assert (Ds : exists dates, Forall2 observed_on ins dates).
    { destruct M as [F _]. clear -F. induction F as [|d l (_ & _ & _ & ymd & Hd) F (ds & IH)]; [exists []; constructor|].
      exists (ymd :: ds). now constructor. }
    destruct Ds as (dates & F).
    destruct (Forall_Exists_dec (fun x => x = None) (fun x => ltac:(destruct x; [right|left]; congruence)) dates) as [Fn|Ex].
    - rewrite (date_obs_none ins out); [reflexivity| |exact H].
      clear -F Fn. induction F; [constructor|]. inversion Fn; subst. constructor; auto.
    - apply Exists_exists in Ex as ([e0|] & He & N); [|contradiction].
      destruct (date_obs_earliest ins dates out e0 F He H) as (y & m & dd & -> & _). apply iso_date_card. }
  destruct X as (_ & _ & X1 & X2 & X3 & X4 & X5 & X6 & X7 & X8 & X9 & X10 & X11).
  unfold storable_header. cbn [forallb]. bands; auto.
  all: match goal with X : merged_keyword _ _ ?v |- card_text ?v = true =>
         apply (keyword_card _ _ _) with (3 := X); [reflexivity|] end.
  all: match goal with |- forall x, In x (map (fun d => ?k (o_header d)) ins) -> _ => apply (K k) end.
  all: intros d Hd; specialize (C d Hd); cbn [forallb] in C; ands; assumption.
Qed.

Lemma merged_storable : storable_fits E out = true.
Proof.
  unfold storable_fits. rewrite out_header, out_targets, out_arrays, out_waves, out_corrs, out_inspol, out_vis, out_vis2, out_t3, out_flux.
  reflexivity.
Qed.
End Merged.
