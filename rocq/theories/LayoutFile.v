(** The layout of the primary header and of the whole file. *)
From Coq Require Import Lia Permutation.
From Verif Require Import BaseLemmas FileProofs WriteModel FitsRows WriteTables WriteKeys LayoutSpec
  LayoutProofs LayoutTables.
Open Scope list_scope.
Open Scope Z_scope.

Section File.
Variable E : cfitsio.
Definition plain (K : list (string * keyval)) (h : hdu) : Prop :=
  hd_type h = IMAGE_HDU /\ hd_cols h = [] /\ Forall2 (key_is E) K (hd_keys h).
Lemma plain_str K k v : acts (write_key_str k v) (plain K) (plain (K ++ [(k, Text v)])).
Proof.
  apply acts_op. intros h h' [= <-] (H1 & H2 & H3). unfold plain, add_key, with_keys. cbn [hd_type hd_cols hd_keys].
  do 2 (split; [assumption|]). apply Forall2_app; [exact H3|]. constructor; [now split|constructor].
Qed.
Lemma plain_when K b k v : acts (when b (write_key_str k v)) (plain K) (plain (K ++ kif b (k, Text v))).
Proof. destruct b; [apply plain_str|]. cbn [when kif]. rewrite app_nil_r. apply acts_skip. Qed.
Lemma plain_date K : ~ In "DATE"%string (map fst K) -> acts (fits_write_date E) (plain K) (plain (K ++ [("DATE"%string, Today)])).
Proof.
  intros Hn. apply acts_op. intros h h' [= <-] (H1 & H2 & H3). unfold update_key. rewrite find_none.
  2:{ rewrite (key_names E K _ H3). exact Hn. }
  unfold plain, add_key, with_keys. cbn [hd_type hd_cols hd_keys].
  do 2 (split; [assumption|]). apply Forall2_app; [exact H3|]. constructor; [now split|constructor].
Qed.
Lemma plain_end x K :
  distinct (map fst K ++ ["CHECKSUM"%string; "DATASUM"%string]) = true ->
  (forall h, keywords E K h -> hd_type h = IMAGE_HDU -> hd_cols h = [] -> primary E x h) ->
  acts (fits_write_chksum E) (plain K) (primary E x).
Proof.
  intros Hd Hx. apply acts_op. intros h h' Hh (H1 & H2 & H3).
  assert (Hs : h' = sums E h). { unfold sums. destruct (cf_sums E h). now injection Hh as <-. }
  subst h'. destruct (sums_rest E h) as (R1 & R2 & R3).
  apply distinct_NoDup in Hd. rewrite <- (key_names _ _ _ H3) in Hd.
  apply Hx; [|congruence|congruence]. unfold keywords. rewrite (sums_keys E h Hd), map_app.
  split; [|exact Hd]. do 3 eexists. split; [reflexivity|]. exact H3.
Qed.
Lemma header_layout x f' : write_oi_header E x (mk_file [] 0, 0) = Ok (f', 0) ->
  exists p, f_hdus f' = [p] /\ primary E x p.
Proof.
  intros H. unfold write_oi_header, guarded in H. cbn [snd Z.eqb negb] in H.
  unfold seq_ at 1 in H. cbn [fst f_hdus] in H. cbv beta iota in H. unfold fits_create_img at 1 in H.
  cbn [Z.eqb negb] in H. rewrite bind_Ok in H.
  change (append_hdu null_primary (mk_file [] 0)) with (at_last [] null_primary) in H.
  match type of H with ?a _ = _ => assert (Ha : acts a (plain []) (primary E x)) end.
  { rewrite !given_nonempty. eapply acts_seq; [apply plain_str|].
    eapply acts_seq; [apply plain_date; cbn; intuition discriminate|].
    repeat (eapply acts_seq; [first [apply plain_str|apply plain_when]|]).
    apply plain_end.
    - cbn [kif]. destruct (given (h_referenc x)), (given (h_author x)), (given (h_prog_id x)),
        (given (h_procsoft x)), (given (h_obstech x)); reflexivity.
    - intros h Hk H1 H2. split; [exact H1|]. split; [exact H2|]. rewrite <- !app_assoc in Hk. exact Hk. }
  apply Ha in H as (p & -> & H). exists p. split; [reflexivity|]. apply H; [reflexivity|].
  split; [reflexivity|]. split; [reflexivity|constructor].
Qed.

Lemma list_layout {A} (w : A -> Z -> wstate -> res wstate) Q :
  (forall a ev, appends_one (w a ev) (Q a ev)) ->
  forall l extver f st f', write_list w extver l (f, st) = Ok (f', 0) -> f_hdus f <> [] ->
  st = 0 /\ exists hs, f_hdus f' = f_hdus f ++ hs /\ List.length hs = List.length l
    /\ forall i a h, nth_error l i = Some a -> nth_error hs i = Some h -> Q a (extver + Z.of_nat i) h.
Proof.
  intros Hw. induction l as [|a l IH]; intros extver f st f' H Hne.
  - injection H as <- <-. split; [reflexivity|]. exists []. rewrite app_nil_r. do 2 (split; [reflexivity|]).
    intros [|i] a h Hn; discriminate.
  - cbn [write_list] in H. apply seq_inv in H as (f1 & st1 & H1 & H2).
    assert (Hst : st1 = 0).
    { refine (list_status w (fun ev h => exists a, Q a ev h) _ _ _ _ _ _ H2).
      intros b ev g s g' s' Hg Hs. destruct (Hw b ev g s g' s' Hg Hs) as (? & h & ? & ?). eauto 6. }
    destruct (Hw _ _ _ _ _ _ H1 Hst) as [-> (h & Hf & Hh)]. split; [reflexivity|].
    unfold with_primary in Hf. destruct (f_hdus f) as [|h0 fs] eqn:Hfs; [congruence|]. rewrite ?Hfs in Hf.
    destruct (IH _ _ _ _ H2) as (_ & hs & Hf' & Hl & Hi).
    { rewrite Hf. discriminate. }
    exists (h :: hs). rewrite Hf', Hf. split; [now rewrite <- app_assoc|]. split; [cbn; now rewrite Hl|].
    intros [|i] b h' Hb Hn.
    + injection Hn as <-. injection Hb as <-. now rewrite Z.add_0_r.
    + replace (extver + Z.of_nat (Datatypes.S i)) with (extver + 1 + Z.of_nat i) by lia. eapply Hi; eassumption.
Qed.
Lemma kind_layout {A} (w : A -> Z -> wstate -> res wstate) Q l f st f' :
  (forall a ev, appends_one (w a ev) (Q a ev)) ->
  write_list w 1 l (f, st) = Ok (f', 0) -> f_hdus f <> [] ->
  st = 0 /\ f_hdus f' <> [] /\ exists hs, f_hdus f' = f_hdus f ++ hs /\ tables Q l hs.
Proof.
  intros Hw H Hne. destruct (list_layout _ _ Hw _ _ _ _ _ H Hne) as (-> & hs & Hf & Hl & Hi).
  split; [reflexivity|]. split. { rewrite Hf. destruct (f_hdus f); [congruence|discriminate]. }
  exists hs. split; [exact Hf|]. split; [exact Hl|]. intros i a h Ha Hn. rewrite Z.add_comm. eapply Hi; eassumption.
Qed.
Lemma tables_layout o f' : write_tables E o (mk_file [] 0, 0) = Ok (f', 0) -> file_of E o (f_hdus f').
Proof.
  intros H. unfold write_tables in H.
  apply seq_inv in H as (f0 & s0 & H0 & H). apply seq_inv in H as (f1 & s1 & H1 & H).
  apply seq_inv in H as (f2 & s2 & H2 & H). apply seq_inv in H as (f3 & s3 & H3 & H).
  apply seq_inv in H as (f4 & s4 & H4 & H). apply seq_inv in H as (f5 & s5 & H5 & H).
  apply seq_inv in H as (f6 & s6 & H6 & H). apply seq_inv in H as (f7 & s7 & H7 & H).
  apply seq_inv in H as (f8 & s8 & H8 & H9).
  pose proof (list_status _ _ (flux_keys E) _ _ _ _ _ H9) as ->.
  pose proof (list_status _ _ (t3_keys E) _ _ _ _ _ H8) as ->.
  pose proof (list_status _ _ (vis2_keys E) _ _ _ _ _ H7) as ->.
  pose proof (list_status _ _ (vis_keys E) _ _ _ _ _ H6) as ->.
  pose proof (list_status _ _ (inspol_keys E) _ _ _ _ _ H5) as ->.
  pose proof (list_status _ _ (corr_keys E) _ _ _ _ _ H4) as ->.
  pose proof (list_status _ _ (wavelength_keys E) _ _ _ _ _ H3) as ->.
  pose proof (list_status _ _ (array_keys E) _ _ _ _ _ H2) as ->.
  destruct (target_layout E _ _ _ _ _ H1 eq_refl) as (-> & t & F1 & T).
  apply header_layout in H0 as (p & F0 & P).
  unfold with_primary in F1. rewrite F0 in F1. rewrite F0 in F1. cbn [app] in F1.
  assert (N1 : f_hdus f1 <> []) by (rewrite F1; discriminate).
  destruct (kind_layout _ _ _ _ _ _ (array_layout E) H2 N1) as (_ & N2 & arrays & F2 & K2).
  destruct (kind_layout _ _ _ _ _ _ (wavelength_layout E) H3 N2) as (_ & N3 & waves & F3 & K3).
  destruct (kind_layout _ _ _ _ _ _ (corr_layout E) H4 N3) as (_ & N4 & corrs & F4 & K4).
  destruct (kind_layout _ _ _ _ _ _ (inspol_layout E) H5 N4) as (_ & N5 & inspols & F5 & K5).
  destruct (kind_layout _ _ _ _ _ _ (vis_layout E) H6 N5) as (_ & N6 & vis & F6 & K6).
  destruct (kind_layout _ _ _ _ _ _ (vis2_layout E) H7 N6) as (_ & N7 & vis2 & F7 & K7).
  destruct (kind_layout _ _ _ _ _ _ (t3_layout E) H8 N7) as (_ & N8 & t3 & F8 & K8).
  destruct (kind_layout _ _ _ _ _ _ (flux_layout E) H9 N8) as (_ & N9 & flux & F9 & K9).
  exists p, t, arrays, waves, corrs, inspols, vis, vis2, t3, flux.
  split. { rewrite F9, F8, F7, F6, F5, F4, F3, F2, F1. cbn [app]. now rewrite <- !app_assoc. }
  repeat (split; [assumption|]). assumption.
Qed.
Lemma file_layout name o d st d' : write_oi_fits E name o d st = Ok (d', 0) ->
  exists hdus, d' = (name, hdus) :: d /\ file_of E o hdus.
Proof.
  unfold write_oi_fits. destruct (Z.eqb_spec st 0) as [->|Hn]; cbn [negb]; [|intros [= <- ->]; congruence].
  destruct (find_file name d) as [hs|] eqn:Hf; [discriminate|]. intros H.
  apply bind_inv in H as ((f, s) & H & He). cbn [fst snd] in He. injection He as <- ->.
  apply tables_layout in H. eauto.
Qed.
End File.
