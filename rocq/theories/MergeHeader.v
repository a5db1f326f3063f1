(** The merged primary header. *)
From Verif Require Import BaseLemmas FileModel FileSpec FileProofs DateSpec DateProofs MergeModel
  MergeSpec MergeProofs.
From Coq Require Import Lia.
Open Scope Z_scope.

(** ** Keywords *)

Lemma loop_after x vals : fits_value x = true -> Forall (fun v => fits_value v = true) vals ->
  x <> ""%string ->
  (merge_key_loop vals x 1 = (x, 1) /\ forall v, In v vals -> v = ""%string \/ v = x)
  \/ (snd (merge_key_loop vals x 1) = 2 /\ exists v, In v vals /\ v <> ""%string /\ v <> x).
Proof.
  intros Fx F Hx. induction vals as [|v vals IH]; cbn [merge_key_loop].
  - left. split; [reflexivity|]. intros ? [].
  - inversion F as [|? ? Fv Fr]; subst. specialize (IH Fr).
    destruct (0 <? strlen v) eqn:E0; [|cbn [andb]].
    + cbn [andb]. destruct (str_eqb v x) eqn:E1; cbn [negb].
      * apply str_eqb_eq in E1. subst v. destruct IH as [[E H]|[E (w & Hw & H)]].
        -- left. split; [exact E|]. intros w [<-|Hw]; auto.
        -- right. split; [exact E|]. exists w. split; [now right|exact H].
      * right. cbn. split; [reflexivity|]. exists v. split; [now left|]. split.
        -- intros ->. discriminate.
        -- intros ->. now rewrite str_eqb_refl in E1.
    + destruct v as [|c v]; [|cbn in E0; unfold strlen in E0; cbn in E0; lia].
      destruct IH as [[E H]|[E (w & Hw & H)]].
      * left. split; [exact E|]. intros w [<-|Hw]; auto.
      * right. split; [exact E|]. exists w. split; [now right|exact H].
Qed.

Lemma loop_start vals : Forall (fun v => fits_value v = true) vals ->
  (merge_key_loop vals "" 0 = (""%string, 0) /\ forall v, In v vals -> v = ""%string)
  \/ (exists x, In x vals /\ x <> ""%string /\
      ((merge_key_loop vals "" 0 = (x, 1) /\ forall v, In v vals -> v = ""%string \/ v = x)
       \/ (snd (merge_key_loop vals "" 0) = 2 /\ exists v, In v vals /\ v <> ""%string /\ v <> x))).
Proof.
  induction vals as [|v vals IH]; intros F; cbn [merge_key_loop].
  - left. split; [reflexivity|]. intros ? [].
  - inversion F as [|? ? Fv Fr]; subst. specialize (IH Fr).
    destruct v as [|c v].
    + change (0 <? strlen "") with false. cbn [andb].
      destruct IH as [[E H]|(x & Hx & Nx & IH)].
      * left. split; [exact E|]. intros w [<-|Hw]; auto.
      * right. exists x. split; [now right|]. split; [exact Nx|].
        destruct IH as [[E H]|[E (w & Hw & H)]].
        -- left. split; [exact E|]. intros w [<-|Hw]; auto.
        -- right. split; [exact E|]. exists w. split; [now right|exact H].
    + right. exists (String c v). split; [now left|]. split; [discriminate|].
      replace (0 <? strlen (String c v)) with true by (unfold strlen; cbn [String.length]; lia).
      change (str_eqb (String c v) "") with false. cbn [negb andb].
      change (1 <? 0 + 1) with false. cbv iota.
      rewrite strlcpy_fits by exact Fv. change (0 + 1) with 1.
      destruct (loop_after (String c v) vals Fv Fr) as [[E H]|[E (w & Hw & H)]]; [discriminate| |].
      * left. split; [exact E|]. intros w [<-|Hw]; auto.
      * right. split; [exact E|]. exists w. split; [now right|exact H].
Qed.

Lemma merge_key_spec ins (key : oi_header -> string) (required : bool) o :
  key (o_header o) = ""%string ->
  Forall (fun d => fits_value (key (o_header d)) = true) ins ->
  merged_keyword (if required then "UNKNOWN"%string else ""%string)
    (map (fun d => key (o_header d)) ins) (merge_key ins key required o).
Proof.
  intros Ho F. unfold merge_key. rewrite Ho.
  assert (F' : Forall (fun v => fits_value v = true) (map (fun d => key (o_header d)) ins)).
  { apply Forall_forall. intros v Hv. apply in_map_iff in Hv as (d & <- & Hd).
    rewrite Forall_forall in F. now apply F. }
  generalize dependent (map (fun d => key (o_header d)) ins). intros vals F'.
  destruct (loop_start vals F') as [[E H]|(x & Hx & Nx & [[E H]|[E (w & Hw & Nw & Dw)]])].
  - rewrite E. cbn [Z.eqb andb Z.ltb Z.compare]. split; [|split].
    + intros _. destruct required; reflexivity.
    + intros x Hx Nx _. now apply H in Hx.
    + intros x y Hx _ Nx _ _. now apply H in Hx.
  - rewrite E. cbn [Z.eqb andb Z.ltb Z.compare Pos.compare Pos.compare_cont]. split; [|split].
    + intros K. now apply K in Hx.
    + intros y Hy Ny _. destruct (H y Hy); congruence.
    + intros y z Hy Hz Ny Nz D. destruct (H y Hy), (H z Hz); congruence.
  - destruct (merge_key_loop vals "" 0) as [cur n]. cbn [snd] in E. subst n.
    cbn [Z.eqb andb Z.ltb Z.compare Pos.compare Pos.compare_cont]. split; [|split].
    + intros K. now apply K in Hx.
    + intros y Hy Ny K. destruct (K x Hx), (K w Hw); congruence.
    + reflexivity.
Qed.

Lemma header_ok ins out : Forall header_fits ins -> merge_oi_fits_list ins = Ok out ->
  header_merged ins (o_header out).
Proof.
  intros F H. apply merge_inv in H as [R]. rewrite (mr_header _ _ R).
  assert (K : forall key, In key [h_origin; h_telescop; h_instrume; h_observer; h_insmode; h_object;
      h_referenc; h_author; h_prog_id; h_procsoft; h_obstech] ->
    Forall (fun d => fits_value (key (o_header d)) = true) ins).
  { intros key Hk. apply Forall_forall. intros d Hd. rewrite Forall_forall in F.
    specialize (F d Hd). unfold header_fits in F. rewrite Forall_forall in F.
    apply F. cbn in Hk |- *. intuition (subst; auto 15). }
  unfold header_merged. cbn [h_origin h_date h_date_obs h_content h_telescop h_instrume h_observer
    h_insmode h_object h_referenc h_author h_prog_id h_procsoft h_obstech].
  split; [reflexivity|]. split; [reflexivity|].
  Ltac one K := first [apply (merge_key_spec _ _ true); [reflexivity|apply K; cbn; auto 15]
    | apply (merge_key_spec _ _ false); [reflexivity|apply K; cbn; auto 15]].
  split; [one K|]. split; [one K|]. split; [one K|]. split; [one K|]. split; [one K|].
  split; [one K|]. split; [one K|]. split; [one K|]. split; [one K|]. split; [one K|]. one K.
Qed.

(** ** Dates *)

Lemma digit_ok n : 0 <= n -> digit_value (digit n) = Some (n mod 10)
  /\ is_space (digit n) = false /\ Ascii.eqb (digit n) "-" = false /\ Ascii.eqb (digit n) "+" = false.
Proof.
  intros Hn. unfold digit.
  assert (C : exists k, (k < 10)%nat /\ n mod 10 = Z.of_nat k).
  { exists (Z.to_nat (n mod 10)). pose proof (Z.mod_pos_bound n 10). lia. }
  destruct C as (k & Hk & ->). rewrite Nat2Z.id.
  do 10 (destruct k as [|k]; [vm_compute; repeat split|]). lia.
Qed.
Lemma scan_ld_4 y rest : 0 <= y < 10000 ->
  scan_ld 4 (String (digit (y / 1000)) (String (digit (y / 100)) (String (digit (y / 10))
    (String (digit y) rest)))) = Some (y, rest).
Proof.
  intros Hy.
  destruct (digit_ok (y / 1000)) as (A1 & B1 & C1 & D1); [apply Z.div_pos; lia|].
  destruct (digit_ok (y / 100)) as (A2 & _); [apply Z.div_pos; lia|].
  destruct (digit_ok (y / 10)) as (A3 & _); [apply Z.div_pos; lia|].
  destruct (digit_ok y) as (A4 & _); [lia|].
  unfold scan_ld. cbn [skip_space]. rewrite B1, C1, D1. cbn [scan_digits].
  rewrite A1, A2, A3, A4. f_equal. f_equal. lia.
Qed.
Lemma scan_ld_2 m rest : 0 <= m < 100 ->
  scan_ld 2 (String (digit (m / 10)) (String (digit m) rest)) = Some (m, rest).
Proof.
  intros Hy.
  destruct (digit_ok (m / 10)) as (A1 & B1 & C1 & D1); [apply Z.div_pos; lia|].
  destruct (digit_ok m) as (A2 & _); [lia|].
  unfold scan_ld. cbn [skip_space]. rewrite B1, C1, D1. cbn [scan_digits].
  rewrite A1, A2. f_equal. f_equal. lia.
Qed.
Lemma scan_iso y m d rest : 0 <= y < 10000 -> 0 <= m < 100 -> 0 <= d < 100 ->
  scan_date (iso_date y m d ++ rest) = Some (y, m, d).
Proof.
  intros Hy Hm Hd. unfold scan_date, iso_date. cbn [String.append].
  rewrite scan_ld_4 by exact Hy. cbn [scan_char Ascii.eqb Bool.eqb].
  rewrite scan_ld_2 by exact Hm. cbn [scan_char Ascii.eqb Bool.eqb].
  rewrite scan_ld_2 by exact Hd. reflexivity.
Qed.

Lemma date2mjd_range y m d mjd : 1901 <= y <= 2099 -> valid_date y m d = true ->
  date2mjd y m d = Ok mjd -> 0 <= mjd < 100000.
Proof.
  intros Hy Hv H. unfold date2mjd in H. apply bind_inv in H as (u & _ & H).
  apply (f_equal (fun r => match r with Ok a => a | _ => 0 end)) in H. cbv beta iota in H. subst mjd.
  assert (1 <= m <= 12 /\ 1 <= d <= 31).
  { unfold valid_date, month_length in Hv. destruct (m =? 2); [destruct (leap y); lia|].
    destruct (_ || (m =? 11)); lia. }
  assert (A : 0 <= Z.quot (m + 9) 12 <= 1).
  { rewrite Z.quot_div_nonneg by lia. Z.to_euclidean_division_equations; lia. }
  assert (B : 0 <= Z.quot (275 * m) 9 <= 367).
  { rewrite Z.quot_div_nonneg by lia. Z.to_euclidean_division_equations; lia. }
  generalize dependent (Z.quot (m + 9) 12). intros q A. generalize dependent (Z.quot (275 * m) 9).
  intros r B. rewrite Z.quot_div_nonneg by lia. Z.to_euclidean_division_equations; lia.
Qed.
Lemma valid_md y m d : valid_date y m d = true -> 1 <= m <= 12 /\ 1 <= d <= 31.
Proof.
  intros Hv. unfold valid_date, month_length in Hv.
  destruct (m =? 2); [destruct (leap y); lia|]. destruct (_ || (m =? 11)); lia.
Qed.

(** MJD of a dated input *)
Definition mjd_of (ymd : option (Z * Z * Z)) (mjd : option Z) : Prop :=
  match ymd, mjd with
  | Some (y, m, d), Some n =>
      date2mjd y m d = Ok n /\ 0 <= n < 100000 /\ mjd2date n = (y, m, d)
      /\ is_date_of_mjd n (y, m, d)
  | None, None => True
  | _, _ => False
  end.
Lemma observed_mjd d ymd : observed_on d ymd -> exists mjd, mjd_of ymd mjd
  /\ forall m, match scan_date (h_date_obs (o_header d)) with
     | None => Ok m
     | Some (y, mo, dd) => mjd <- date2mjd y mo dd ;; Ok (if mjd <? m then mjd else m)
     end = Ok (match mjd with None => m | Some n => if n <? m then n else m end).
Proof.
  destruct ymd as [[[y m] dd]|]; cbn [observed_on].
  - intros (Hy & Hv & rest & ->). destruct (valid_md y m dd Hv) as [Hm Hd].
    destruct (date2mjd_inv y m dd Hy Hv) as (n & E & Hf & Em).
    exists (Some n). split.
    + split; [exact E|]. split; [now apply (date2mjd_range y m dd)|]. split; [exact Em|].
      rewrite <- Em. now apply mjd2date_correct.
    + intros m'. rewrite scan_iso by lia. rewrite E. reflexivity.
  - intros ->. exists None. split; [exact I|]. reflexivity.
Qed.

Lemma files_min_spec ins dates : Forall2 observed_on ins dates ->
  exists mjds, Forall2 mjd_of dates mjds /\ forall m,
  foreach ins (fun d minMjd =>
    match scan_date (h_date_obs (o_header d)) with
    | None => Ok minMjd
    | Some (y, m, dd) =>
        mjd <- date2mjd y m dd ;; Ok (if mjd <? minMjd then mjd else minMjd)
    end) m = Ok (fold_left (fun m o => match o with None => m | Some n => if n <? m then n else m end)
                   mjds m).
Proof.
  induction 1 as [|d ymd ins dates H F IH].
  - exists []. split; [constructor|]. reflexivity.
  - destruct IH as (mjds & Fm & E). destruct (observed_mjd d ymd H) as (mjd & Hm & Em).
    exists (mjd :: mjds). split; [constructor; auto|]. intros m. cbn [foreach fold_left].
    rewrite Em. cbn [bind]. apply E.
Qed.
Lemma fold_min mjds m : let r := fold_left (fun m o => match o with None => m
                     | Some n => if n <? m then n else m end) mjds m in
  r <= m /\ (forall n, In (Some n) mjds -> r <= n) /\ (r = m \/ In (Some r) mjds).
Proof.
  revert m. induction mjds as [|[n|] l IH]; intros m; cbn [fold_left].
  - cbn. split; [lia|]. split; [contradiction|auto].
  - specialize (IH (if n <? m then n else m)). cbv zeta in *.
    set (r := fold_left _ l _) in *. destruct IH as (I1 & I2 & I3).
    destruct (Z.ltb_spec n m); (split; [lia|]; split).
    + intros k [[= <-]|Hk]; auto.
    + right. destruct I3 as [->|I3]; [now left|now right].
    + intros k [[= <-]|Hk]; [lia|auto].
    + destruct I3 as [->|I3]; [now left|right; now right].
  - specialize (IH m). cbv zeta in *. set (r := fold_left _ l _) in *.
    destruct IH as (I1 & I2 & I3). split; [exact I1|]. split.
    + intros k [[=]|Hk]; auto.
    + destruct I3; [now left|right; now right].
Qed.

Lemma Forall2_in_l {A B} (P : A -> B -> Prop) l m a : Forall2 P l m -> In a l ->
  exists b, In b m /\ P a b.
Proof.
  induction 1 as [|x y l m H F IH]; [contradiction|]. intros [->|Hin].
  - exists y. split; [now left|exact H].
  - destruct (IH Hin) as (b & Hb & Hp). exists b. split; [now right|exact Hp].
Qed.
Lemma Forall2_in_r {A B} (P : A -> B -> Prop) l m b : Forall2 P l m -> In b m ->
  exists a, In a l /\ P a b.
Proof.
  induction 1 as [|x y l m H F IH]; [contradiction|]. intros [->|Hin].
  - exists x. split; [now left|exact H].
  - destruct (IH Hin) as (a & Ha & Hp). exists a. split; [now right|exact Hp].
Qed.

Lemma date_obs_earliest ins dates out e0 : Forall2 observed_on ins dates -> In (Some e0) dates ->
  merge_oi_fits_list ins = Ok out ->
  exists y m d, h_date_obs (o_header out) = iso_date y m d /\ In (Some (y, m, d)) dates
    /\ forall e, In (Some e) dates -> not_later (y, m, d) e.
Proof.
  intros F He H. apply merge_inv in H as [R].
  destruct (files_min_spec ins dates F) as (mjds & Fm & E).
  pose proof (mr_date _ _ R) as Ed. unfold files_min_mjd in Ed. rewrite E in Ed.
  injection Ed as Ed. destruct (fold_min mjds 100000) as (_ & Hle & Hin). rewrite Ed in *.
  assert (M : In (Some (mr_mjd _ _ R)) mjds).
  { destruct Hin as [Hin|Hin]; [|exact Hin]. exfalso.
    destruct (Forall2_in_l _ _ _ _ Fm He) as ([n|] & Hn & Hp).
    - specialize (Hle n Hn). destruct e0 as [[? ?] ?]. cbn in Hp. lia.
    - destruct e0 as [[? ?] ?]. contradiction. }
  destruct (Forall2_in_r _ _ _ _ Fm M) as ([[[y m] d]|] & Hd & Hp); [|contradiction].
  cbn in Hp. destruct Hp as (_ & Hr & Em & Di).
  exists y, m, d. split; [|split; [exact Hd|]].
  - rewrite (mr_header _ _ R). cbn [h_date_obs].
    pose proof (format_date_iso _ Hr) as Ef. rewrite Em in Ef |- *. exact Ef.
  - intros e He'. destruct (Forall2_in_l _ _ _ _ Fm He') as ([n|] & Hn & Hp).
    + destruct e as [[y' m'] d']. cbn in Hp. exists (mr_mjd _ _ R), n.
      split; [exact Di|]. split; [apply Hp|]. now apply Hle.
    + destruct e as [[? ?] ?]. contradiction.
Qed.
Lemma date_obs_none ins out : Forall (fun d => observed_on d None) ins ->
  merge_oi_fits_list ins = Ok out -> h_date_obs (o_header out) = "2132-09-01"%string.
Proof.
  intros F H. apply merge_inv in H as [R].
  pose proof (mr_date _ _ R) as Ed. unfold files_min_mjd in Ed.
  assert (E : files_min_mjd ins = Ok 100000).
  { unfold files_min_mjd. clear R Ed. induction F as [|d l Hd F IH]; [reflexivity|]. cbn [foreach].
    cbn in Hd. rewrite Hd. exact IH. }
  fold (files_min_mjd ins) in Ed. rewrite E in Ed. injection Ed as Ed.
  rewrite (mr_header _ _ R), <- Ed. vm_compute. reflexivity.
Qed.

Lemma date_progress ins : Forall dated ins -> exists mjd, files_min_mjd ins = Ok mjd.
Proof.
  intros F. assert (D : exists dates, Forall2 observed_on ins dates).
  { induction F as [|d l [ymd Hd] F [dates IH]]; eauto. }
  destruct D as (dates & D). destruct (files_min_spec ins dates D) as (mjds & _ & E).
  unfold files_min_mjd. rewrite E. eauto.
Qed.
