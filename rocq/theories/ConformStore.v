(** The file written from a dataset conforms exactly when the dataset is ready for that. *)
From Verif Require Import Base BaseLemmas FloatModel FloatLemmas Types FileModel FileSpec FilterSpec CheckModel CheckSpec CheckRules
  CheckWhole ToolModel ToolSpec ToolProofs ToolPrograms IOSpec IOClaims ConformSpec ConformFilter ConformMerge.
From Coq Require Import Lia.
Open Scope list_scope.
Open Scope Z_scope.

Lemma map_nonempty {A B} (f : A -> B) l : map f l <> [] <-> l <> [].
Proof. destruct l; cbn; split; congruence. Qed.
Lemma Forall_map_iff {A B} (P : B -> Prop) (Q : A -> Prop) (f : A -> B) l : (forall a, P (f a) <-> Q a) ->
  Forall P (map f l) <-> Forall Q l.
Proof. intros H. rewrite Forall_map. split; apply Forall_impl; intros a; apply H. Qed.
Lemma in_map_forall {A B} (f : A -> B) l (P : B -> Prop) : (forall b, In b (map f l) -> P b) <-> (forall a, In a l -> P (f a)).
Proof.
  split; intros H.
  - intros a Ha. apply H, in_map, Ha.
  - intros b Hb. apply in_map_iff in Hb as (a & <- & Ha). auto.
Qed.
(** two lists of tables with records, one made from the other *)
Lemma rows_iff {A B R S} (f : A -> B) (g : A -> R -> S) (ra : A -> list R) (rb : B -> list S) l
    (P : A -> R -> Prop) (Q : B -> S -> Prop) :
  (forall a, rb (f a) = map (g a) (ra a)) -> (forall a r, Q (f a) (g a r) <-> P a r) ->
  (forall t r, In t (map f l) -> In r (rb t) -> Q t r) <-> (forall t r, In t l -> In r (ra t) -> P t r).
Proof.
  intros Hm HP. split; intros H.
  - intros a r Ha Hr. apply HP. apply H; [now apply in_map|]. rewrite Hm. now apply in_map.
  - intros b s Hb Hs. apply in_map_iff in Hb as (a & <- & Ha). rewrite Hm in Hs.
    apply in_map_iff in Hs as (r & <- & Hr). apply HP. auto.
Qed.
Lemma first_map {A} (f : A -> A) (p : A -> Prop) l a : (forall a, p (f a) <-> p a) ->
  first_match p l a -> first_match p (map f l) (f a).
Proof.
  intros Hp (l1 & l2 & -> & Ha & Hb). exists (map f l1), (map f l2). rewrite map_app. cbn [map].
  split; [reflexivity|]. split; [now apply Hp|]. intros b Hi. apply in_map_iff in Hi as (x & <- & Hx).
  rewrite Hp. now apply Hb.
Qed.
Lemma first_unmap {A} (f : A -> A) (p : A -> Prop) l b : (forall a, p (f a) <-> p a) ->
  first_match p (map f l) b -> exists a, b = f a /\ first_match p l a.
Proof.
  intros Hp (l1 & l2 & E & Ha & Hb). apply map_eq_app in E as (k1 & k2 & -> & <- & E).
  destruct k2 as [|a k2]; [discriminate|]. injection E as <- <-. exists a. split; [reflexivity|].
  exists k1, k2. split; [reflexivity|]. split; [now apply Hp|]. intros x Hx. rewrite <- Hp. apply Hb. now apply in_map.
Qed.

Lemma and_iff (A B C D : Prop) : (A <-> B) -> (C <-> D) -> (A /\ C <-> B /\ D).
Proof. tauto. Qed.

Section Store.
Variable E : cfitsio.

(** the dataset read from the file written from [o] *)
Definition stored (o o' : oi_fits) : Prop :=
  has_tables o' (stored_header E (o_header o)) (stored_target E (o_targets o))
    (map (stored_array E) (o_arrayList o)) (map stored_wavelength (o_wavelengthList o))
    (map stored_corr (o_corrList o)) (map (stored_inspol E) (o_inspolList o))
    (map (stored_vis E) (o_visList o)) (map (stored_vis2 E) (o_vis2List o))
    (map (stored_t3 E) (o_t3List o)) (map (stored_flux E) (o_fluxList o)).

Variables (o o' : oi_fits).
Hypothesis H : stored o o'.
Let Hh : o_header o' = stored_header E (o_header o). Proof. apply H. Qed.
Let Ht : o_targets o' = stored_target E (o_targets o). Proof. apply H. Qed.
Let Ha : o_arrayList o' = map (stored_array E) (o_arrayList o). Proof. apply H. Qed.
Let Hw : o_wavelengthList o' = map stored_wavelength (o_wavelengthList o). Proof. apply H. Qed.
Let Hc : o_corrList o' = map stored_corr (o_corrList o). Proof. apply H. Qed.
Let Hi : o_inspolList o' = map (stored_inspol E) (o_inspolList o). Proof. apply H. Qed.
Let Hv : o_visList o' = map (stored_vis E) (o_visList o). Proof. apply H. Qed.
Let Hv2 : o_vis2List o' = map (stored_vis2 E) (o_vis2List o). Proof. apply H. Qed.
Let Ht3 : o_t3List o' = map (stored_t3 E) (o_t3List o). Proof. apply H. Qed.
Let Hf : o_fluxList o' = map (stored_flux E) (o_fluxList o). Proof. apply H. Qed.
Let H2 : h_content (o_header o') = "OIFITS2"%string. Proof. now rewrite Hh. Qed.

Lemma store_tables : tables_present o' <->
  o_arrayList o <> [] /\ o_wavelengthList o <> [] /\ (has_fringes o \/ o_fluxList o <> []).
Proof.
  unfold tables_present, has_fringes. rewrite H2, Ha, Hw, Hv, Hv2, Ht3, Hf, !map_nonempty. tauto.
Qed.
Lemma store_revisions : revisions_ok o'.
Proof.
  unfold revisions_ok. rewrite H2, Ht, Ha, Hw, Hv, Hv2, Ht3, Hf, Hc, Hi, !Forall_map.
  assert (A : forall {T} (P : T -> Prop) (l : list T), (forall a, P a) -> Forall P l)
    by (intros T P l HP; apply Forall_forall; auto).
  repeat match goal with
    | |- _ /\ _ => split
    | |- Forall _ _ => apply A; intros a; cbn
    | |- _ -> _ => intros ?
    | |- _ => try reflexivity; try tauto
    end.
Qed.
Lemma store_header : cf_today E <> ""%string -> (header_rule o' <-> Forall (fun v => v <> ""%string)
    [h_origin (o_header o); h_date_obs (o_header o); h_telescop (o_header o); h_instrume (o_header o);
     h_observer (o_header o); h_insmode (o_header o); h_object (o_header o)]).
Proof.
  intros T. unfold header_rule. rewrite Hh. cbn [stored_header h_content h_origin h_date h_date_obs h_telescop
    h_instrume h_observer h_insmode h_object]. rewrite !Forall_cons_iff. split; [intros X; specialize (X eq_refl); tauto|].
  intros X _. tauto.
Qed.
Lemma store_keywords : keyword_rule o' <->
  Forall (fun a => In (ar_frame a) ["GEOCENTRIC"; "SKY"]%string) (o_arrayList o)
  /\ Forall (fun t =>
      In (vx_amptyp (tb_x t)) [""; "absolute"; "differential"; "correlated flux"]%string
      /\ In (vx_phityp (tb_x t)) [""; "absolute"; "differential"]%string) (o_visList o)
  /\ Forall (fun t => In (fx_calstat (tb_x t)) ["C"; "U"]%char
               /\ In (fx_fovtype (tb_x t)) [""; "FWHM"; "RADIUS"]%string) (o_fluxList o).
Proof. unfold keyword_rule. rewrite H2, Ha, Hv, Hf, !Forall_map. unfold stored_vis, stored_flux, stored_dtab.
  cbn [stored_array ar_frame tb_x stored_vis_extra vx_amptyp vx_phityp stored_flux_extra fx_calstat fx_fovtype]. tauto. Qed.
Lemma store_refmap : refmap_rule o' <-> refmap_rule o.
Proof. unfold refmap_rule. rewrite Hv, in_map_forall. reflexivity. Qed.
Lemma store_unique : unique_rule o' <-> unique_rule o.
Proof. unfold unique_rule. rewrite Ht. cbn [stored_target ot_targ]. rewrite map_map. reflexivity. Qed.
Lemma store_targets : targets_present o' <-> targets_present o.
Proof.
  unfold targets_present. rewrite Ht. cbn [stored_target ot_targ]. rewrite map_map. cbn [stored_target1 tg_target_id].
  rewrite Hv, Hv2, Ht3, Hf.
  rewrite (rows_iff (stored_vis E) (stored_vis_record E) (fun t => tb_record t) (fun t => tb_record t) (o_visList o)
    (fun _ r => In (vr_target_id r) (map tg_target_id (ot_targ (o_targets o))))
    (fun _ r => In (vr_target_id r) (map tg_target_id (ot_targ (o_targets o))))) by reflexivity.
  rewrite (rows_iff (stored_vis2 E) (stored_vis2_record E) (fun t => tb_record t) (fun t => tb_record t) (o_vis2List o)
    (fun _ r => In (v2_target_id r) (map tg_target_id (ot_targ (o_targets o))))
    (fun _ r => In (v2_target_id r) (map tg_target_id (ot_targ (o_targets o))))) by reflexivity.
  rewrite (rows_iff (stored_t3 E) (stored_t3_record E) (fun t => tb_record t) (fun t => tb_record t) (o_t3List o)
    (fun _ r => In (t3_target_id r) (map tg_target_id (ot_targ (o_targets o))))
    (fun _ r => In (t3_target_id r) (map tg_target_id (ot_targ (o_targets o))))) by reflexivity.
  rewrite (rows_iff (stored_flux E) (stored_flux_record E) (fun t => tb_record t) (fun t => tb_record t) (o_fluxList o)
    (fun _ r => In (fr_target_id r) (map tg_target_id (ot_targ (o_targets o))))
    (fun _ r => In (fr_target_id r) (map tg_target_id (ot_targ (o_targets o))))) by reflexivity.
  reflexivity.
Qed.
Lemma store_arrname : arrname_rule o' <->
  Forall (fun t => is_arrname t <> ""%string) (o_inspolList o)
  /\ Forall (fun t => tb_arrname t <> ""%string) (o_visList o)
  /\ Forall (fun t => tb_arrname t <> ""%string) (o_vis2List o)
  /\ Forall (fun t => tb_arrname t <> ""%string) (o_t3List o)
  /\ Forall (fun t => fx_calstat (tb_x t) = "U"%char -> tb_arrname t <> ""%string) (o_fluxList o).
Proof.
  unfold arrname_rule. rewrite H2, Hi, Hv, Hv2, Ht3, Hf, !Forall_map. split; [intros X; exact (X eq_refl)|intros X _; exact X].
Qed.
Lemma store_inspol : inspol_named o' <-> Forall (fun t => is_arrname t <> ""%string) (o_inspolList o).
Proof. unfold inspol_named. rewrite Hi, Forall_map. reflexivity. Qed.
Lemma store_station name sta : station_exists o' name sta <-> station_exists o name sta.
Proof.
  unfold station_exists. rewrite Ha. split.
  - intros (a & F & I). apply (first_unmap (stored_array E)) in F as (b & -> & F); [|reflexivity]. eauto.
  - intros (a & F & I). exists (stored_array E a). split; [|exact I]. apply first_map; [reflexivity|exact F].
Qed.
Lemma rows_named {A B R S} (f : A -> B) (g : A -> R -> S) (ra : A -> list R) (rb : B -> list S) (na : A -> string)
    (nb : B -> string) l (P : A -> R -> Prop) (Q : B -> S -> Prop) :
  (forall a, rb (f a) = map (g a) (ra a)) -> (forall a, nb (f a) = na a) ->
  (forall a r, na a <> ""%string -> (Q (f a) (g a r) <-> P a r)) ->
  (forall t r, In t (map f l) -> nb t <> ""%string -> In r (rb t) -> Q t r)
  <-> (forall t r, In t l -> na t <> ""%string -> In r (ra t) -> P t r).
Proof.
  intros Hm Hn HP. split; intros X.
  - intros a r Ia Na Ir. apply (HP _ _ Na). apply X; [now apply in_map|now rewrite Hn|]. rewrite Hm. now apply in_map.
  - intros b s Ib Nb Is. apply in_map_iff in Ib as (a & <- & Ia). rewrite Hm in Is.
    apply in_map_iff in Is as (r & <- & Ir). rewrite Hn in Nb. apply (HP _ _ Nb). auto.
Qed.
Lemma store_elements : elements_present o' <-> elements_present o.
Proof.
  unfold elements_present. rewrite Hi, Hv, Hv2, Ht3, Hf.
  apply and_iff; [|apply and_iff; [|apply and_iff; [|apply and_iff]]].
  - apply (rows_named (stored_inspol E) (fun t => stored_inspol_record E (is_nwave t)) is_record is_record is_arrname is_arrname);
      [reflexivity|reflexivity|]. intros. apply store_station.
  - apply (rows_named (stored_vis E) (stored_vis_record E) (fun t => tb_record t) (fun t => tb_record t)
      (fun t => tb_arrname t) (fun t => tb_arrname t)); [reflexivity|reflexivity|]. intros. cbn. now rewrite !store_station.
  - apply (rows_named (stored_vis2 E) (stored_vis2_record E) (fun t => tb_record t) (fun t => tb_record t)
      (fun t => tb_arrname t) (fun t => tb_arrname t)); [reflexivity|reflexivity|]. intros. cbn. now rewrite !store_station.
  - apply (rows_named (stored_t3 E) (stored_t3_record E) (fun t => tb_record t) (fun t => tb_record t)
      (fun t => tb_arrname t) (fun t => tb_arrname t)); [reflexivity|reflexivity|]. intros. cbn. now rewrite !store_station.
  - apply (rows_named (stored_flux E) (stored_flux_record E) (fun t => tb_record t) (fun t => tb_record t)
      (fun t => tb_arrname t) (fun t => tb_arrname t)); [reflexivity|reflexivity|]. intros a r Na.
    cbn [stored_flux stored_dtab tb_arrname stored_flux_record fr_sta_index].
    replace (nonempty (tb_arrname a)) with true by (destruct (tb_arrname a); [contradiction|reflexivity]).
    now rewrite !store_station.
Qed.
Lemma store_corr : corr_rule o' <-> corr_rule o.
Proof.
  unfold corr_rule. rewrite Hc, map_map. cbn [stored_corr co_corrname]. rewrite Hv, Hv2, Ht3, Hf, !Forall_map. reflexivity.
Qed.
Lemma store_flagging : flagging_rule o' <-> flagging_rule o.
Proof.
  unfold flagging_rule. rewrite Hv, Hv2, Ht3. apply and_iff; [|apply and_iff].
  - apply (rows_iff (stored_vis E) (stored_vis_record E) (fun t => tb_record t) (fun t => tb_record t)); reflexivity.
  - apply (rows_iff (stored_vis2 E) (stored_vis2_record E) (fun t => tb_record t) (fun t => tb_record t)); reflexivity.
  - apply (rows_iff (stored_t3 E) (stored_t3_record E) (fun t => tb_record t) (fun t => tb_record t)); reflexivity.
Qed.
Lemma store_t3amp : t3amp_rule o' <-> t3amp_rule o.
Proof.
  unfold t3amp_rule. rewrite Ht3. split; intros X.
  - intros t r j a e It Ir. apply (X (stored_t3 E t) (stored_t3_record E t r) j a e); [now apply in_map|].
    cbn. now apply in_map.
  - intros t r j a e It Ir. apply in_map_iff in It as (u & <- & Iu). cbn in Ir. apply in_map_iff in Ir as (s & <- & Is).
    exact (X u s j a e Iu Is).
Qed.
Lemma store_order : order_rule o' <-> order_rule o.
Proof.
  unfold order_rule. rewrite Hw. split; intros X.
  - intros w j a b Iw. apply (X (stored_wavelength w) j a b). now apply in_map.
  - intros w j a b Iw. apply in_map_iff in Iw as (u & <- & Iu). exact (X u j a b Iu).
Qed.
Lemma store_time : time_rule o'.
Proof.
  intros _. rewrite Hv, Hv2, Ht3. split; [|split]; intros t r It Ir;
    apply in_map_iff in It as (u & <- & _); apply in_map_iff in Ir as (s & <- & _); reflexivity.
Qed.
Lemma store_flux : flux_rule o' <-> Forall (fun t =>
  (fx_calstat (tb_x t) = "C"%char -> tb_arrname t = ""%string)
  /\ (fx_calstat (tb_x t) = "U"%char -> tb_arrname t <> ""%string /\ all_stations t /\ fx_fovtype (tb_x t) = ""%string))
  (o_fluxList o).
Proof.
  unfold flux_rule. rewrite Hf, in_map_forall, Forall_forall.
  assert (S : forall t, In t (o_fluxList o) -> tb_arrname t = ""%string -> no_stations (stored_flux E t)).
  { intros t _ N. unfold no_stations, stored_flux, stored_dtab. cbn [tb_record]. rewrite Forall_map. apply Forall_forall.
    intros r _. unfold stored_flux_record. rewrite N. reflexivity. }
  assert (U : forall t, tb_arrname t <> ""%string -> (all_stations (stored_flux E t) <-> all_stations t)).
  { intros t N. unfold all_stations, stored_flux, stored_dtab. cbn [tb_record]. rewrite Forall_map.
    unfold stored_flux_record. cbn [fr_sta_index].
    replace (nonempty (tb_arrname t)) with true by (destruct (tb_arrname t); [contradiction|reflexivity]). reflexivity. }
  split; intros X t It; destruct (X t It) as (X1 & X2); (split; [intros C; specialize (X1 C)|intros C; specialize (X2 C)]).
  - apply X1.
  - destruct X2 as (N & A & F). split; [exact N|]. split; [now apply U|exact F].
  - split; [exact X1|now apply S].
  - destruct X2 as (N & A & F). split; [exact N|]. split; [now apply U|exact F].
Qed.

Lemma store_conforms : cf_today E <> ""%string -> (conforms o' <-> store_ready o).
Proof.
  intros T. split.
  - intros [c_tables c_revisions c_header c_keywords c_refmap c_unique c_targets c_arrname c_elements c_inspol c_corr c_flagging c_t3amp c_order c_time c_flux]. apply store_tables in c_tables as (? & ? & ?). apply store_header in c_header; [|exact T].
    apply store_keywords in c_keywords as (? & ? & K). apply store_refmap in c_refmap. apply store_unique in c_unique.
    apply store_targets in c_targets. apply store_arrname in c_arrname as (? & ? & ? & ? & ?).
    apply store_elements in c_elements. apply store_corr in c_corr. apply store_flagging in c_flagging.
    apply store_t3amp in c_t3amp. apply store_order in c_order. apply store_flux in c_flux.
    constructor; try assumption. rewrite Forall_forall in K, c_flux |- *. intros t It.
    destruct (K t It) as ([C|[C|[]]] & F); symmetry in C; destruct (c_flux t It) as (X1 & X2).
    + left. auto.
    + right. destruct (X2 C) as (? & ? & ?). auto.
  - intros [s_arrays s_waves s_data s_header s_frame s_types s_refmap s_unique s_targets s_inspol s_vis s_vis2 s_t3 s_elements s_corr s_flagging s_t3amp s_order s_flux]. rewrite Forall_forall in s_flux.
    constructor.
    + now apply store_tables.
    + apply store_revisions.
    + now apply store_header.
    + apply store_keywords. split; [assumption|]. split; [assumption|]. apply Forall_forall. intros t It.
      destruct (s_flux t It) as [(C & _ & F)|(C & _ & _ & F)]; rewrite C, F || rewrite C; cbn; tauto.
    + now apply store_refmap.
    + now apply store_unique.
    + now apply store_targets.
    + apply store_arrname. repeat (split; [assumption|]). apply Forall_forall. intros t It U.
      destruct (s_flux t It) as [(C & _)|(C & N & _)]; [congruence|exact N].
    + now apply store_elements.
    + now apply store_inspol.
    + now apply store_corr.
    + now apply store_flagging.
    + now apply store_t3amp.
    + now apply store_order.
    + apply store_time.
    + apply store_flux. apply Forall_forall. intros t It.
      destruct (s_flux t It) as [(C & N & F)|(C & N & A & F)]; split; intros; try congruence; auto.
Qed.
End Store.
