(** Every HDU of a written file is as fits_write_chksum left it. *)
From Coq Require Import Lia.
From Verif Require Import BaseLemmas FitsRows WriteTables WriteKeys LayoutFile ChksumSpec.
Open Scope string_scope.
Open Scope list_scope.
Open Scope Z_scope.

Section Write.
Variable E : cfitsio.
Lemma signed_sums h : signed E (sums E h).
Proof.
  exists h, (mk_file [sums E h] 1). split; [|reflexivity].
  exact (runs_chksum E h (mk_file [] 0)).
Qed.
Lemma acts_signed P : acts (fits_write_chksum E) P (signed E).
Proof.
  apply acts_op. intros h h' Hh _.
  assert (Hs : h' = sums E h). { unfold sums. destruct (cf_sums E h). now injection Hh as <-. }
  subst h'. apply signed_sums.
Qed.
Lemma appends_signed nwave cols name time body :
  (time = true -> forall l, make_tform nwave cols = Ok l ->
     time_zero (mk_hdu BINARY_TBL [("EXTNAME"%string, KStr name)]
       (map make_column (map (fun '(name, u, f) => (name, f, u)) l)) 0)) ->
  acts body (state name None None time) (signed E) ->
  appends_one (guarded (create_table nwave cols name ;> body)) (signed E).
Proof.
  intros Ht Hb f st f' st' H Hs. subst st'. unfold guarded in H. cbn [snd] in H.
  destruct (Z.eqb_spec st 0) as [->|Hn]; cbn [negb] in H; [|injection H as <- ->; congruence].
  split; [reflexivity|]. unfold seq_ in H. apply bind_inv in H as ((f1, st1) & H1 & H2).
  unfold create_table in H1. apply bind_inv in H1 as (l & Hl & H1). unfold fits_create_tbl in H1.
  cbn [Z.eqb negb] in H1. injection H1 as <- <-. fold (with_primary f) in H2.
  unfold append_hdu in H2. apply Hb in H2 as (h' & -> & H2). destruct (H2 eq_refl) as [_ HQ].
  exists h'. split; [reflexivity|]. apply HQ. unfold state. cbn [hd_type hd_keys]. repeat split.
  intros E1. now apply Ht.
Qed.
Ltac sign := first [apply acts_signed|eapply acts_seq; [act|sign]].
Lemma array_signed a ev : appends_one (write_oi_array E a ev) (signed E).
Proof.
  apply appends_signed with (time := false); [discriminate|].
  assert (Hc : forall e, Forall (ok_cell false) (array_cells e)).
  { intros e. unfold array_cells. destruct (el_staxyz e) as ((x, y), z). cells. }
  do 7 (eapply acts_seq; [act|]). eapply acts_seq; [now apply acts_rows|apply acts_signed].
Qed.
Lemma target_signed t : appends_one (write_oi_target E t) (signed E).
Proof. apply appends_signed with (time := false); [discriminate|sign]. Qed.
Lemma wavelength_signed t ev : appends_one (write_oi_wavelength E t ev) (signed E).
Proof. apply appends_signed with (time := false); [discriminate|sign]. Qed.
Lemma corr_signed t ev : appends_one (write_oi_corr E t ev) (signed E).
Proof. apply appends_signed with (time := false); [discriminate|sign]. Qed.
Lemma inspol_signed t ev : appends_one (write_oi_inspol E t ev) (signed E).
Proof. apply appends_signed with (time := false); [discriminate|sign]. Qed.
Lemma vis_signed t ev : appends_one (write_oi_vis E t ev) (signed E).
Proof.
  apply appends_signed with (time := true); [intros _; now apply time_cols|]. unfold write_oi_vis_opt. sign.
Qed.
Lemma vis2_signed t ev : appends_one (write_oi_vis2 E t ev) (signed E).
Proof. apply appends_signed with (time := true); [intros _; now apply time_cols|sign]. Qed.
Lemma t3_signed t ev : appends_one (write_oi_t3 E t ev) (signed E).
Proof. apply appends_signed with (time := true); [intros _; now apply time_cols|sign]. Qed.
Lemma flux_signed t ev : appends_one (write_oi_flux E t ev) (signed E).
Proof. apply appends_signed with (time := false); [discriminate|sign]. Qed.
Lemma header_signed hd f' : write_oi_header E hd (mk_file [] 0, 0) = Ok (f', 0) ->
  exists p, f_hdus f' = [p] /\ signed E p.
Proof.
  intros H. unfold write_oi_header, guarded in H. cbn [snd Z.eqb negb] in H.
  unfold seq_ at 1 in H. cbn [fst f_hdus] in H. cbv beta iota in H. unfold fits_create_img at 1 in H.
  cbn [Z.eqb negb] in H. rewrite bind_Ok in H.
  change (append_hdu null_primary (mk_file [] 0)) with (at_last [] null_primary) in H.
  match type of H with ?a _ = _ => assert (Ha : acts a (content false) (signed E)) end.
  { repeat (eapply acts_seq;
      [first [apply content_here|apply content_date|apply content_other; reflexivity
             |apply acts_when; apply content_other; reflexivity]|]). apply acts_signed. }
  apply Ha in H as (p & -> & H). exists p. split; [reflexivity|]. now apply H.
Qed.

Definition all_signed (l : list hdu) : Prop := Forall (signed E) l.
Lemma list_signed {A} (w : A -> Z -> wstate -> res wstate) :
  (forall a ev, appends_one (w a ev) (signed E)) ->
  forall l ev f st f', write_list w ev l (f, st) = Ok (f', 0) -> f_hdus f <> [] -> all_signed (f_hdus f) ->
  f_hdus f' <> [] /\ all_signed (f_hdus f').
Proof.
  intros Hw. induction l as [|a l IH]; intros ev f st f' H Hne Hs.
  - injection H as <- _. auto.
  - cbn [write_list] in H. apply seq_inv in H as (f1 & st1 & H1 & H2).
    assert (Hst : st1 = 0) by (refine (list_status w (fun _ => signed E) _ _ _ _ _ _ H2); auto).
    destruct (Hw _ _ _ _ _ _ H1 Hst) as [_ (h & Hf & Hh)].
    unfold with_primary in Hf. destruct (f_hdus f) as [|h0 fs] eqn:Hfs; [congruence|]. rewrite ?Hfs in Hf.
    apply (IH _ _ _ _ H2); rewrite Hf; [discriminate|].
    apply Forall_app. split; [exact Hs|]. now constructor.
Qed.
Lemma tables_signed o f' : write_tables E o (mk_file [] 0, 0) = Ok (f', 0) -> all_signed (f_hdus f').
Proof.
  intros H. unfold write_tables in H.
  apply seq_inv in H as (f0 & s0 & H0 & H). apply seq_inv in H as (f1 & s1 & H1 & H).
  apply seq_inv in H as (f2 & s2 & H2 & H). apply seq_inv in H as (f3 & s3 & H3 & H).
  apply seq_inv in H as (f4 & s4 & H4 & H). apply seq_inv in H as (f5 & s5 & H5 & H).
  apply seq_inv in H as (f6 & s6 & H6 & H). apply seq_inv in H as (f7 & s7 & H7 & H).
  apply seq_inv in H as (f8 & s8 & H8 & H9).
  pose proof (list_status _ (fun _ => signed E) flux_signed _ _ _ _ _ H9) as ->.
  pose proof (list_status _ (fun _ => signed E) t3_signed _ _ _ _ _ H8) as ->.
  pose proof (list_status _ (fun _ => signed E) vis2_signed _ _ _ _ _ H7) as ->.
  pose proof (list_status _ (fun _ => signed E) vis_signed _ _ _ _ _ H6) as ->.
  pose proof (list_status _ (fun _ => signed E) inspol_signed _ _ _ _ _ H5) as ->.
  pose proof (list_status _ (fun _ => signed E) corr_signed _ _ _ _ _ H4) as ->.
  pose proof (list_status _ (fun _ => signed E) wavelength_signed _ _ _ _ _ H3) as ->.
  pose proof (list_status _ (fun _ => signed E) array_signed _ _ _ _ _ H2) as ->.
  destruct (target_signed _ _ _ _ _ H1 eq_refl) as (-> & t & F1 & T).
  apply header_signed in H0 as (p & F0 & P).
  unfold with_primary in F1. rewrite F0 in F1. rewrite F0 in F1. cbn [app] in F1.
  assert (N1 : f_hdus f1 <> []) by (rewrite F1; discriminate).
  assert (S1 : all_signed (f_hdus f1)) by (rewrite F1; repeat constructor; assumption).
  destruct (list_signed _ array_signed _ _ _ _ _ H2 N1 S1) as [N2 S2].
  destruct (list_signed _ wavelength_signed _ _ _ _ _ H3 N2 S2) as [N3 S3].
  destruct (list_signed _ corr_signed _ _ _ _ _ H4 N3 S3) as [N4 S4].
  destruct (list_signed _ inspol_signed _ _ _ _ _ H5 N4 S4) as [N5 S5].
  destruct (list_signed _ vis_signed _ _ _ _ _ H6 N5 S5) as [N6 S6].
  destruct (list_signed _ vis2_signed _ _ _ _ _ H7 N6 S6) as [N7 S7].
  destruct (list_signed _ t3_signed _ _ _ _ _ H8 N7 S7) as [N8 S8].
  exact (proj2 (list_signed _ flux_signed _ _ _ _ _ H9 N8 S8)).
Qed.
Lemma file_signed name o d st d' : write_oi_fits E name o d st = Ok (d', 0) ->
  exists hdus, d' = (name, hdus) :: d /\ all_signed hdus.
Proof.
  unfold write_oi_fits. destruct (Z.eqb_spec st 0) as [->|Hn]; cbn [negb]; [|intros [= <- ->]; congruence].
  destruct (find_file name d) as [hs|] eqn:Hf; [discriminate|]. intros H.
  apply bind_inv in H as ((f, s) & H & He). cbn [fst snd] in He. injection He as <- ->.
  apply tables_signed in H. eauto.
Qed.
End Write.
