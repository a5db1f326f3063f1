(** Whatever is in a file, a dataset read from it is well-formed and has no empty table. *)
From Coq Require Import Lia.
From Verif Require Import BaseLemmas ReadModel IOClaims ReadFile IOMain MergeSpec.
Open Scope list_scope.
Open Scope Z_scope.

Definition ensures {A} (m : rd A) (Q : A -> Prop) : Prop :=
  forall st a st', m st = Ok (a, st') -> Q a.
Definition opt_all {A} (Q : A -> Prop) (o : option A) : Prop := match o with Some a => Q a | None => True end.
Definition len {A} (n : Z) (l : list A) : Prop := List.length l = Z.to_nat n.

Lemma en_ret {A} (a : A) (Q : A -> Prop) : Q a -> ensures (rret a) Q.
Proof. intros H st b st' [= <- <-]. exact H. Qed.
Lemma en_bind {A B} (x : rd A) (P : A -> Prop) (k : A -> rd B) Q :
  ensures x P -> (forall a, P a -> ensures (k a) Q) -> ensures (rbind x k) Q.
Proof.
  intros Hx Hk st b st' He. unfold rbind in He. apply bind_inv in He as ((a, st1) & H1 & H2).
  cbn [fst snd] in H2. eapply Hk; eauto.
Qed.
Lemma en_any {A} (x : rd A) : ensures x (fun _ => True).
Proof. intros st a st' _. exact I. Qed.
Lemma en_skip {A B} (x : rd A) (k : A -> rd B) Q : (forall a, ensures (k a) Q) -> ensures (rbind x k) Q.
Proof. intros H. eapply en_bind; [apply en_any|]. auto. Qed.
Lemma en_lift {A} (x : res A) (Q : A -> Prop) : (forall a, x = Ok a -> Q a) -> ensures (lift x) Q.
Proof. intros H st a st' He. unfold lift in He. apply bind_inv in He as (b & Hb & He). injection He as <- <-. auto. Qed.
Lemma en_unless {A} (k : rd (option A)) Q : ensures k (opt_all Q) -> ensures (unless_error k) (opt_all Q).
Proof.
  intros H. apply en_skip. intros st. destruct (negb (st =? 0)); [now apply en_ret|exact H].
Qed.
Lemma en_finish {A} (a : A) (Q : A -> Prop) : Q a -> ensures (finish a) (opt_all Q).
Proof. intros H. apply en_unless, en_ret. exact H. Qed.
Lemma en_call {A} (r : A + Z) (Q : A -> Prop) : (forall a, r = inl a -> Q a) -> ensures (call r) (opt_all Q).
Proof.
  intros H st a st' He. unfold call in He. destruct (negb (st =? 0)); [now injection He as <- <-|].
  destruct r; injection He as <- <-; cbn; auto.
Qed.

Lemma convert_all_length {A} (conv : value -> A + Z) l r :
  convert_all conv l = inl r -> List.length r = List.length l.
Proof.
  revert r. induction l as [|v l IH]; cbn [convert_all]; intros r H; [now injection H as <-|].
  destruct (conv v); [|discriminate]. destruct (convert_all conv l); [|discriminate].
  injection H as <-. cbn [List.length]. now rewrite (IH _ eq_refl).
Qed.
Lemma en_read_col {A} (conv : value -> A + Z) h k irow n :
  ensures (read_col conv h k irow n) (opt_all (len n)).
Proof.
  apply en_call. intros r H. destruct k; [|discriminate]. destruct (nth_col _ _); [|discriminate].
  cbv zeta in H.
  match type of H with (if ?b then _ else _) = _ => destruct b eqn:Hb; [discriminate|] end.
  apply convert_all_length in H.
  apply orb_false_iff in Hb as [Hb Hl]. apply orb_false_iff in Hb as [_ Hn].
  rewrite firstn_length, skipn_length in H. unfold len. lia.
Qed.

Section Wf.
Variable E : cfitsio.
Lemma en_celln {A} (conv : value -> A + Z) h name irow n : ensures (celln conv h name irow n) (opt_all (len n)).
Proof. apply en_skip. intros k. apply en_read_col. Qed.
Lemma slot_len {A} (j : A) n o : opt_all (len n) o -> len n (slot (repeat j (Z.to_nat n)) o).
Proof. destruct o; cbn; [auto|]. intros _. apply repeat_length. Qed.
Lemma en_dbls h name irow n : ensures (dbls_at E h name irow n) (len n).
Proof. eapply en_bind; [apply en_celln|]. intros v Hv. apply en_ret. now apply slot_len. Qed.
Lemma en_flts h name irow n : ensures (flts_at E h name irow n) (len n).
Proof. eapply en_bind; [apply en_celln|]. intros v Hv. apply en_ret. now apply slot_len. Qed.
Lemma en_ints h name irow n : ensures (ints_at E h name irow n) (len n).
Proof. eapply en_bind; [apply en_celln|]. intros v Hv. apply en_ret. now apply slot_len. Qed.
Lemma en_bools h name irow n : ensures (bools_at E h name irow n) (len n).
Proof. eapply en_bind; [apply en_celln|]. intros v Hv. apply en_ret. now apply slot_len. Qed.
Lemma en_cplxs h name irow n : ensures (cplxs_at E h name irow n) (len n).
Proof. eapply en_bind; [apply en_dbls|]. intros v Hv. apply en_ret. unfold len. now rewrite map_length. Qed.

Lemma en_rows {A B} (f : Z -> A -> rd B) (P : A -> Prop) (Q : B -> Prop) l : forall i,
  (forall irow a, P a -> ensures (f irow a) Q) -> Forall P l ->
  ensures (rows_from i l f) (fun r => List.length r = List.length l /\ Forall Q r).
Proof.
  induction l as [|a l IH]; intros i Hf HP; cbn [rows_from].
  - apply en_ret. auto.
  - inversion_clear HP. eapply en_bind; [apply Hf; assumption|]. intros b Hb.
    eapply en_bind; [apply IH; assumption|]. intros r (Hl & Hr). apply en_ret.
    cbn [List.length]. auto.
Qed.
Lemma en_new_rows {B} n (f : Z -> rd B) (Q : B -> Prop) :
  (forall irow, ensures (f irow) Q) -> ensures (new_rows n f) (fun r => len n r /\ Forall Q r).
Proof.
  intros H st a st' He.
  destruct (en_rows (fun irow _ => f irow) (fun _ => True) Q (repeat tt (Z.to_nat n)) 1
              (fun irow _ _ => H irow) ltac:(apply Forall_forall; auto) _ _ _ He) as (Hl & Hq).
  rewrite repeat_length in Hl. auto.
Qed.
Lemma chk_pos n u : chkmalloc n = Ok u -> 0 < n.
Proof. unfold chkmalloc. intros H. destruct (Z.ltb_spec 0 n); [assumption|discriminate]. Qed.
Lemma alloc_pos n w u : alloc_records n w = Ok u -> 0 < n /\ 0 < w.
Proof. unfold alloc_records. intros H. apply bind_inv in H as (v & H1 & H2). split; eapply chk_pos; eauto. Qed.

Lemma len_is_of {A} n (l : list A) : 0 < n -> len n l -> len_is n l = true.
Proof. unfold len, len_is. intros Hn H. apply Z.eqb_eq. lia. Qed.
End Wf.

Ltac en_step := first
  [ apply en_unless
  | apply en_bind with (P := fun _ => True); [apply en_any|intros ? _] ].
Ltac lens := repeat (apply andb_true_intro; split); try (apply len_is_of; assumption).
Ltac en_cols := repeat first
  [ eapply en_bind; [first [apply en_dbls|apply en_flts|apply en_ints|apply en_bools|apply en_cplxs]|intros ? ?]
  | apply en_skip; intros ? ].

Section Tables.
Variable E : cfitsio.
Definition good_array (a : oi_array) := wf_array a = true /\ 0 < ar_nelement a.
Definition good_wave (w : oi_wavelength) := wf_wavelength w = true /\ 0 < wv_nwave w.
Definition good_corr (c : oi_corr) := wf_corr c = true /\ 0 < co_ncorr c.
Definition good_inspol (t : oi_inspol) := wf_inspol t = true /\ 0 < is_numrec t /\ 0 < is_nwave t.
Definition good_target (t : oi_target) := wf_targets t = true /\ 0 < ot_ntarget t.
Definition good_dtab {X R} (wfr : X -> Z -> R -> bool) (t : dtab X R) :=
  wf_dtab (wfr (tb_x t)) t = true /\ 0 < tb_numrec t /\ 0 < tb_nwave t.

Lemma en_array h n : ensures (read_oi_array_chdu E h n) (opt_all good_array).
Proof.
  unfold read_oi_array_chdu. do 9 en_step. cbv zeta.
  apply en_unless. eapply en_bind; [apply en_lift; intros u Hu; exact (chk_pos _ _ Hu)|]. intros ? Hp; cbv beta in Hp.
  eapply en_bind; [apply en_new_rows with (Q := fun _ => True); intros; apply en_any|].
  intros r (Hl & _). apply en_finish. split; [|exact Hp]. now apply len_is_of.
Qed.
Lemma en_wave h n : ensures (read_oi_wavelength_chdu E h n) (opt_all good_wave).
Proof.
  unfold read_oi_wavelength_chdu. do 5 en_step. cbv zeta.
  apply en_unless. eapply en_bind; [apply en_lift; intros u Hu; exact (chk_pos _ _ Hu)|]. intros ? Hp; cbv beta in Hp.
  eapply en_bind; [apply en_flts|]. intros w Hw. eapply en_bind; [apply en_flts|]. intros b Hb.
  apply en_finish. split; [|exact Hp]. unfold wf_wavelength. cbn [wv_nwave wv_eff_wave wv_eff_band]. lens.
Qed.
Lemma en_corr h n : ensures (read_oi_corr_chdu E h n) (opt_all good_corr).
Proof.
  unfold read_oi_corr_chdu. do 6 en_step. cbv zeta.
  apply en_unless. eapply en_bind; [apply en_lift; intros u Hu; exact (chk_pos _ _ Hu)|]. intros ? Hp; cbv beta in Hp.
  eapply en_bind; [apply en_ints|]. intros ? ?. eapply en_bind; [apply en_ints|]. intros ? ?.
  eapply en_bind; [apply en_dbls|]. intros ? ?.
  apply en_finish. split; [|exact Hp]. unfold wf_corr. cbn [co_ncorr co_iindx co_jindx co_corr]. lens.
Qed.
Lemma forallb_of {A} (f : A -> bool) l : Forall (fun a => f a = true) l -> forallb f l = true.
Proof. intros H. apply forallb_forall. now apply Forall_forall. Qed.

Lemma en_inspol_record h n irow : 0 < n -> ensures (read_inspol_record E h n irow) (fun r => wf_inspol_record n r = true).
Proof.
  intros Hn. unfold read_inspol_record. do 4 (apply en_skip; intros ?).
  do 4 (eapply en_bind; [apply en_cplxs|intros ? ?]). apply en_skip; intros ?. apply en_ret.
  unfold wf_inspol_record. cbn [ip_jxx ip_jyy ip_jxy ip_jyx]. lens.
Qed.
Lemma en_inspol h : ensures (read_oi_inspol_chdu E h) (opt_all good_inspol).
Proof.
  unfold read_oi_inspol_chdu. do 9 en_step. apply en_unless. destruct a5 as ((nrows, nwave), k).
  eapply en_bind; [apply en_lift; intros u Hu; exact (alloc_pos _ _ _ Hu)|]. intros ? (Hp & Hw).
  eapply en_bind; [apply en_new_rows; intros irow; apply (en_inspol_record h nwave irow Hw)|].
  intros r (Hl & Hr). apply en_finish. split; [|split; assumption].
  unfold wf_inspol. cbn [is_numrec is_nwave is_record]. lens. now apply forallb_of.
Qed.

Lemma en_category h rev l :
  ensures (read_category h rev l) (fun r => List.length (fst r) = List.length l).
Proof.
  unfold read_category. destruct (2 <=? rev); [|now apply en_ret].
  destruct l as [|t l]; [apply en_lift; discriminate|]. apply en_skip. intros c. cbv zeta.
  destruct (snd c); [|now apply en_ret].
  eapply en_bind; [apply en_rows with (P := fun _ => True) (Q := fun _ => True);
                   [intros; apply en_any|apply Forall_forall; auto]|].
  intros r (Hl & _). apply en_ret. cbn [fst List.length]. now rewrite Hl.
Qed.
Lemma en_target h : ensures (read_oi_target_chdu E h) (opt_all good_target).
Proof.
  unfold read_oi_target_chdu. do 4 en_step. cbv zeta.
  apply en_unless. eapply en_bind; [apply en_lift; intros u Hu; exact (chk_pos _ _ Hu)|]. intros ? Hp; cbv beta in Hp.
  eapply en_bind; [apply en_new_rows with (Q := fun _ => True); intros; apply en_any|].
  intros r (Hl & _). eapply en_bind; [apply en_category|]. intros c Hc.
  apply en_finish. split; [|exact Hp]. apply len_is_of; [exact Hp|]. unfold len in *. cbn [ot_ntarget ot_targ].
  now rewrite Hc.
Qed.

(** OI_VIS: the five columns always present, then the optional ones *)
Definition vis_core (n : Z) (r : vis_record) : Prop :=
  len n (vr_visamp r) /\ len n (vr_visamperr r) /\ len n (vr_visphi r) /\ len n (vr_visphierr r)
  /\ len n (vr_flag r).
Definition map_state (b : bool) (n : Z) (r : vis_record) : Prop :=
  if b then exists m, vr_visrefmap r = Some m /\ len (n * n) m else vr_visrefmap r = None.
Definition cplx_state (b : bool) (n : Z) (r : vis_record) : Prop :=
  if b then exists m1 m2 m3 m4, vr_rvis r = Some m1 /\ vr_rviserr r = Some m2
            /\ vr_ivis r = Some m3 /\ vr_iviserr r = Some m4 /\ len n m1 /\ len n m2 /\ len n m3 /\ len n m4
  else vr_rvis r = None /\ vr_rviserr r = None /\ vr_ivis r = None /\ vr_iviserr r = None.
Definition vis_state (m c : bool) (n : Z) (r : vis_record) : Prop :=
  vis_core n r /\ map_state m n r /\ cplx_state c n r.
Lemma vis_state_wf x n r : 0 < n ->
  vis_state (vx_usevisrefmap x) (vx_usecomplex x) n r -> wf_vis_record x n r = true.
Proof.
  intros Hn ((H1 & H2 & H3 & H4 & H5) & Hm & Hc). unfold wf_vis_record, map_state, cplx_state in *.
  assert (Hnn : 0 < n * n) by lia.
  apply andb_true_intro; split; [apply andb_true_intro; split; [lens|]|].
  - destruct (vx_usevisrefmap x); [|now rewrite Hm]. destruct Hm as (m & -> & Hm). now apply len_is_of.
  - destruct (vx_usecomplex x).
    + destruct Hc as (m1 & m2 & m3 & m4 & -> & -> & -> & -> & ? & ? & ? & ?). cbn [opt_len_is]. lens.
    + destruct Hc as (-> & -> & -> & ->). reflexivity.
Qed.
Lemma en_vis_record h n irow : ensures (read_vis_record E h n irow) (vis_state false false n).
Proof.
  unfold read_vis_record. do 4 (apply en_skip; intros ?).
  do 4 (eapply en_bind; [apply en_dbls|intros ? ?]). do 3 (apply en_skip; intros ?).
  eapply en_bind; [apply en_bools|intros ? ?]. apply en_ret. repeat split; assumption.
Qed.
Lemma en_vis_complex h n b m l : Forall (vis_state m false n) l ->
  ensures (read_oi_vis_complex E h n b l)
    (fun r => List.length (snd r) = List.length l /\ Forall (vis_state m (fst (fst r)) n) (snd r)).
Proof.
  intros Hl. unfold read_oi_vis_complex. apply en_skip. intros st.
  destruct (negb (st =? 0)); [apply en_ret; auto|].
  do 2 (apply en_skip; intros ?). destruct (_ =? COL_NOT_FOUND).
  - apply en_skip. intros _. apply en_ret. cbn [fst snd]. rewrite map_length. split; [reflexivity|].
    apply Forall_map. eapply Forall_impl; [|exact Hl]. intros r (Hc & Hm & _).
    split; [exact Hc|]. split; [exact Hm|]. now cbn.
  - do 2 (apply en_skip; intros ?).
    eapply en_bind; [eapply (en_rows _ _ (vis_state m true n)); [|exact Hl]|].
    + intros irow r (Hc & Hm & _). unfold read_complex_row. apply en_skip. intros _.
      do 4 (eapply en_bind; [apply en_dbls|intros ? ?]). apply en_skip. intros ix. apply en_ret.
      split; [exact Hc|]. split; [exact Hm|]. cbn. repeat eexists; eassumption.
    + intros r Hr. apply en_ret. exact Hr.
Qed.
Lemma en_vis_opt h rev n u l : Forall (vis_state false false n) l ->
  ensures (read_oi_vis_opt E h rev n u l)
    (fun r => List.length (snd r) = List.length l
      /\ Forall (vis_state (vx_usevisrefmap (snd (fst r))) (vx_usecomplex (snd (fst r))) n) (snd r)).
Proof.
  intros Hl. unfold read_oi_vis_opt. cbv zeta. apply en_skip. intros st.
  destruct (negb (st =? 0)); [now apply en_ret|]. destruct (rev =? 1); [now apply en_ret|].
  do 5 (apply en_skip; intros ?).
  eapply en_bind with (P := fun r => List.length r = List.length l /\ Forall (vis_state false false n) r).
  { destruct (snd a); [|now apply en_ret].
    eapply (en_rows _ _ (vis_state false false n)); [|exact Hl].
    intros irow r Hr. do 2 (apply en_skip; intros ?). apply en_ret. exact Hr. }
  intros l1 (Hl1 & HF1). do 2 (apply en_skip; intros ?).
  eapply en_bind with (P := fun r => List.length (snd r) = List.length l /\ Forall (vis_state (fst r) false n) (snd r)).
  { destruct (_ =? COL_NOT_FOUND).
    - apply en_skip. intros _. apply en_ret. cbn [fst snd]. rewrite map_length. split; [exact Hl1|].
      apply Forall_map. eapply Forall_impl; [|exact HF1]. intros r (Hc & _ & Hm). split; [exact Hc|]. split; [reflexivity|exact Hm].
    - eapply en_bind; [eapply (en_rows _ _ (vis_state true false n)); [|exact HF1]|].
      + intros irow r (Hc & _ & Hm). apply en_skip. intros _.
        eapply en_bind; [apply en_read_col|]. intros mm Hmm. apply en_ret.
        split; [exact Hc|]. split; [|exact Hm]. eexists. split; [reflexivity|]. now apply slot_len.
      + intros r (Hr & HF). apply en_ret. cbn [fst snd]. split; [congruence|exact HF]. }
  intros (m, l2) (Hl2 & HF2). cbn [fst snd] in *.
  eapply en_bind; [apply en_vis_complex, HF2|]. intros ((c, cu), l3) (Hl3 & HF3).
  apply en_ret. cbn [fst snd vx_usevisrefmap vx_usecomplex] in *. split; [congruence|exact HF3].
Qed.
Lemma en_vis h : ensures (read_oi_vis_chdu E h) (opt_all (good_dtab wf_vis_record)).
Proof.
  unfold read_oi_vis_chdu. do 7 en_step. apply en_unless. destruct a3 as ((nrows, nwave), k).
  eapply en_bind; [apply en_lift; intros u Hu; exact (alloc_pos _ _ _ Hu)|]. intros ? (Hp & Hw).
  apply en_skip. intros u.
  eapply en_bind; [apply en_new_rows; intros irow; apply (en_vis_record h nwave irow)|].
  intros r (Hl & Hr). eapply en_bind; [apply en_vis_opt, Hr|]. intros ((c, x), r') (Hl' & Hr').
  cbn [fst snd] in *. apply en_finish. split; [|split; assumption].
  unfold wf_dtab. cbn [tb_numrec tb_nwave tb_record tb_x]. lens.
  - apply len_is_of; [assumption|]. unfold len in *. congruence.
  - apply Z.leb_le. lia.
  - apply forallb_of. eapply Forall_impl; [|exact Hr']. intros q Hq. now apply vis_state_wf.
Qed.
Lemma en_vis2_record h n b irow : 0 < n -> ensures (read_vis2_record E h n b irow) (fun r => wf_vis2_record n r = true).
Proof.
  intros Hn. unfold read_vis2_record. do 4 (apply en_skip; intros ?).
  do 2 (eapply en_bind; [apply en_dbls|intros ? ?]). do 3 (apply en_skip; intros ?).
  eapply en_bind; [apply en_bools|intros ? ?]. apply en_skip; intros ?. apply en_ret.
  unfold wf_vis2_record. cbn [v2_vis2data v2_vis2err v2_flag]. lens.
Qed.
Lemma en_t3_record h n b irow : 0 < n -> ensures (read_t3_record E h n b irow) (fun r => wf_t3_record n r = true).
Proof.
  intros Hn. unfold read_t3_record. do 4 (apply en_skip; intros ?).
  do 4 (eapply en_bind; [apply en_dbls|intros ? ?]). do 5 (apply en_skip; intros ?).
  eapply en_bind; [apply en_bools|intros ? ?]. do 2 (apply en_skip; intros ?). apply en_ret.
  unfold wf_t3_record. cbn [t3_t3amp t3_t3amperr t3_t3phi t3_t3phierr t3_flag]. lens.
Qed.
Lemma en_flux_record h n b irow : 0 < n -> ensures (read_flux_record E h n b irow) (fun r => wf_flux_record n r = true).
Proof.
  intros Hn. unfold read_flux_record. do 3 (apply en_skip; intros ?).
  do 2 (eapply en_bind; [apply en_dbls|intros ? ?]).
  eapply en_bind; [apply en_bools|intros ? ?]. do 4 (apply en_skip; intros ?). apply en_ret.
  unfold wf_flux_record. cbn [fr_fluxdata fr_fluxerr fr_flag]. lens.
Qed.
Lemma en_vis2 h : ensures (read_oi_vis2_chdu E h) (opt_all (good_dtab (fun _ => wf_vis2_record))).
Proof.
  unfold read_oi_vis2_chdu. do 8 en_step. apply en_unless. destruct a4 as ((nrows, nwave), k).
  eapply en_bind; [apply en_lift; intros u Hu; exact (alloc_pos _ _ _ Hu)|]. intros ? (Hp & Hw).
  eapply en_bind; [apply en_new_rows; intros irow; apply (en_vis2_record h nwave _ irow Hw)|].
  intros r (Hl & Hr). apply en_finish. split; [|split; assumption].
  unfold wf_dtab. cbn [tb_numrec tb_nwave tb_record tb_x]. lens; [apply Z.leb_le; lia|now apply forallb_of].
Qed.
Lemma en_t3 h : ensures (read_oi_t3_chdu E h) (opt_all (good_dtab (fun _ => wf_t3_record))).
Proof.
  unfold read_oi_t3_chdu. do 8 en_step. apply en_unless. destruct a4 as ((nrows, nwave), k).
  eapply en_bind; [apply en_lift; intros u Hu; exact (alloc_pos _ _ _ Hu)|]. intros ? (Hp & Hw).
  eapply en_bind; [apply en_new_rows; intros irow; apply (en_t3_record h nwave _ irow Hw)|].
  intros r (Hl & Hr). apply en_finish. split; [|split; assumption].
  unfold wf_dtab. cbn [tb_numrec tb_nwave tb_record tb_x]. lens; [apply Z.leb_le; lia|now apply forallb_of].
Qed.
Lemma en_flux h : ensures (read_oi_flux_chdu E h) (opt_all (good_dtab (fun _ => wf_flux_record))).
Proof.
  unfold read_oi_flux_chdu. do 11 en_step. apply en_unless. destruct a7 as ((nrows, nwave), k).
  eapply en_bind; [apply en_lift; intros u Hu; exact (alloc_pos _ _ _ Hu)|]. intros ? (Hp & Hw).
  apply en_skip. intros u.
  eapply en_bind; [apply en_new_rows; intros irow; apply (en_flux_record h nwave _ irow Hw)|].
  intros r (Hl & Hr). apply en_finish. split; [|split; assumption].
  unfold wf_dtab. cbn [tb_numrec tb_nwave tb_record tb_x]. lens; [apply Z.leb_le; lia|now apply forallb_of].
Qed.
End Tables.

(** ** Functions of the API *)

Definition io_ensures {A} (m : io A) (Q : A -> Prop) : Prop :=
  forall s a s', m s = Ok (Some a, s') -> Q a.
Lemma io_guard {A} (k : io A) Q : io_ensures k Q -> io_ensures (guard_io k) Q.
Proof. intros H s a s' He. unfold guard_io in He. destruct (negb _); [discriminate|]. eapply H; eassumption. Qed.
Lemma io_chdu {A} (r : hdu -> rd (option A)) Q :
  (forall h, ensures (r h) (opt_all Q)) -> io_ensures (at_chdu r) Q.
Proof.
  intros H s a s' He. unfold at_chdu in He. destruct (chdu (fst s)); [|discriminate].
  apply bind_inv in He as ((o, st) & H1 & H2). cbn [fst snd] in H2. injection H2 as -> <-. exact (H _ _ _ _ H1).
Qed.
Section Public.
Variable E : cfitsio.
Lemma io_next {A} ext (r : hdu -> rd (option A)) Q :
  (forall h, ensures (r h) (opt_all Q)) -> io_ensures (read_next E ext r) Q.
Proof.
  intros H. apply io_guard. intros s a s' He. cbv zeta in He.
  destruct (negb _); [discriminate|]. eapply io_chdu; eassumption.
Qed.
Lemma io_loop {A} (next : io A) Q fuel skip : io_ensures next Q -> forall s l s',
  read_loop fuel skip next s = Ok (l, s') -> Forall Q l.
Proof.
  intros H. induction fuel as [|fuel IH]; intros s l s' He; cbn [read_loop] in He; [discriminate|].
  apply bind_inv in He as ((a, (f, st)) & H1 & H2).
  destruct (negb (st =? 0)).
  - destruct (st =? END_OF_FILE); [injection H2 as <- _; constructor|].
    destruct skip; [eauto|injection H2 as <- _; constructor].
  - destruct a; [|discriminate]. apply bind_inv in H2 as (r & H3 & H4). injection H4 as <- _.
    destruct r as (l', s''). constructor; eauto.
Qed.
Lemma io_all {A} (next : io A) Q skip s l s' : io_ensures next Q ->
  read_all skip next s = Ok (l, s') -> Forall Q l.
Proof. intros H He. unfold read_all in He. apply bind_inv in He as (s1 & _ & He). eapply io_loop; eassumption. Qed.

Lemma forallb_good {A} (f : A -> bool) (P : A -> Prop) l : Forall (fun a => f a = true /\ P a) l -> forallb f l = true.
Proof. intros H. apply forallb_of. eapply Forall_impl; [|exact H]. now intros a []. Qed.
Lemma forall_good {A} (f : A -> bool) (P : A -> Prop) l : Forall (fun a => f a = true /\ P a) l -> Forall P l.
Proof. intros H. eapply Forall_impl; [|exact H]. now intros a []. Qed.

Lemma assemble_wf h tg la lw lc li lv l2 l3 lf o :
  good_target tg -> Forall good_array la -> Forall good_wave lw -> Forall good_corr lc ->
  Forall good_inspol li -> Forall (good_dtab wf_vis_record) lv ->
  Forall (good_dtab (fun _ => wf_vis2_record)) l2 -> Forall (good_dtab (fun _ => wf_t3_record)) l3 ->
  Forall (good_dtab (fun _ => wf_flux_record)) lf ->
  assemble h tg la lw lc li lv l2 l3 lf = Ok o ->
  wf_fits o = true /\ tables_nonempty o /\ 0 < ot_ntarget (o_targets o).
Proof.
  intros Ht Ha Hw Hc Hi Hv H2 H3 Hf He. unfold assemble in He. cbv zeta in He.
  assert (G : forall ix, 
    let o' := mk_fits h tg (Z.of_nat (List.length la)) (Z.of_nat (List.length lw)) (Z.of_nat (List.length lc))
      (Z.of_nat (List.length li)) (Z.of_nat (List.length lv)) (Z.of_nat (List.length l2))
      (Z.of_nat (List.length l3)) (Z.of_nat (List.length lf)) la lw lc li lv l2 l3 lf
      (ix_array ix) (ix_wavelength ix) (ix_corr ix) in
    wf_fits o' = true /\ tables_nonempty o' /\ 0 < ot_ntarget (o_targets o')).
  { intros ix o'. split; [|split].
    - assert (L : forall A (l : list A), len_is (Z.of_nat (List.length l)) l = true)
        by (intros; unfold len_is; apply Z.eqb_refl).
      unfold wf_fits, o'. cbn.
      rewrite !L, (proj1 Ht), (forallb_good _ _ _ Ha), (forallb_good _ _ _ Hw), (forallb_good _ _ _ Hc),
        (forallb_good _ _ _ Hi).
      change (forallb wf_vis lv) with (forallb (fun t => wf_dtab (wf_vis_record (tb_x t)) t) lv).
      change (forallb wf_vis2 l2) with (forallb (fun t => wf_dtab wf_vis2_record t) l2).
      change (forallb wf_t3 l3) with (forallb (fun t => wf_dtab wf_t3_record t) l3).
      change (forallb wf_flux lf) with (forallb (fun t => wf_dtab wf_flux_record t) lf).
      now rewrite (forallb_good _ _ _ Hv), (forallb_good _ _ _ H2), (forallb_good _ _ _ H3), (forallb_good _ _ _ Hf).
    - unfold tables_nonempty, o'. cbn. repeat split;
        match goal with
        | H : Forall ?G ?l |- Forall _ ?l => eapply Forall_impl; [|exact H]; intros ? []; assumption
        end.
    - exact (proj2 Ht). }
  destruct (is_oi_fits_two _); [injection He as <-; apply G|].
  apply bind_inv in He as (h' & _ & He). injection He as <-.
  exact (G (index_all la lw lc lv l2 l3 lf)).
Qed.

Lemma tables_wf s o st : read_tables E s = Ok (Some o, st) ->
  wf_fits o = true /\ tables_nonempty o /\ 0 < ot_ntarget (o_targets o).
Proof.
  intros He. unfold read_tables in He.
  apply bind_inv in He as ((hd, s1) & _ & He). apply bind_inv in He as ((tg, s2) & Ht & He).
  unfold ok_status in He. destruct (negb (snd s2 =? 0)); [discriminate|].
  apply bind_inv in He as ((la, s3) & Ha & He). destruct (negb (snd s3 =? 0)); [discriminate|].
  apply bind_inv in He as ((lw, s4) & Hw & He). destruct (negb (snd s4 =? 0)); [discriminate|].
  apply bind_inv in He as ((lc, s5) & Hc & He). apply bind_inv in He as ((li, s6) & Hi & He).
  apply bind_inv in He as ((lv, s7) & Hv & He). apply bind_inv in He as ((l2, s8) & H2 & He).
  apply bind_inv in He as ((l3, s9) & H3 & He). apply bind_inv in He as ((lf, s10) & Hf & He).
  destruct hd as [hd|]; [|discriminate]. destruct tg as [tg|]; [|discriminate].
  apply bind_inv in He as (o' & Ho & He). injection He as <- _.
  eapply assemble_wf; [| | | | | | | | |exact Ho].
  - revert Ht. apply io_guard. intros s' a s''. apply io_chdu. intros h. apply en_target.
  - eapply io_all; [|exact Ha]. apply io_next. intros h. apply en_array.
  - eapply io_all; [|exact Hw]. apply io_next. intros h. apply en_wave.
  - eapply io_all; [|exact Hc]. apply io_next. intros h. apply en_corr.
  - eapply io_all; [|exact Hi]. apply io_next. intros h. apply en_inspol.
  - eapply io_all; [|exact Hv]. apply io_next. intros h. apply en_vis.
  - eapply io_all; [|exact H2]. apply io_next. intros h. apply en_vis2.
  - eapply io_all; [|exact H3]. apply io_next. intros h. apply en_t3.
  - eapply io_all; [|exact Hf]. apply io_next. intros h. apply en_flux.
Qed.
Lemma read_wf name d st o st' : read_oi_fits E name d st = Ok (Some o, st') ->
  wf_fits o = true /\ tables_nonempty o /\ 0 < ot_ntarget (o_targets o).
Proof.
  unfold read_oi_fits. destruct (negb (st =? 0)); [discriminate|].
  destruct (find_file name d); [|discriminate]. apply tables_wf.
Qed.
End Public.

(** ** Names found in a dataset that was read *)

Section Lookup.
Variable E : cfitsio.
Lemma read_assembled name d st o st' : read_oi_fits E name d st = Ok (Some o, st') ->
  exists h, assemble h (o_targets o) (o_arrayList o) (o_wavelengthList o) (o_corrList o) (o_inspolList o)
    (o_visList o) (o_vis2List o) (o_t3List o) (o_fluxList o) = Ok o.
Proof.
  unfold read_oi_fits. destruct (negb (st =? 0)); [discriminate|].
  destruct (find_file name d) as [hdus|]; [|discriminate]. intros He. unfold read_tables in He.
  apply bind_inv in He as ((hd, s1) & _ & He). apply bind_inv in He as ((tg, s2) & Ht & He).
  unfold ok_status in He. destruct (negb (snd s2 =? 0)); [discriminate|].
  apply bind_inv in He as ((la, s3) & Ha & He). destruct (negb (snd s3 =? 0)); [discriminate|].
  apply bind_inv in He as ((lw, s4) & Hw & He). destruct (negb (snd s4 =? 0)); [discriminate|].
  apply bind_inv in He as ((lc, s5) & Hc & He). apply bind_inv in He as ((li, s6) & Hi & He).
  apply bind_inv in He as ((lv, s7) & Hv & He). apply bind_inv in He as ((l2, s8) & H2 & He).
  apply bind_inv in He as ((l3, s9) & H3 & He). apply bind_inv in He as ((lf, s10) & Hf & He).
  destruct hd as [hd|]; [|discriminate]. destruct tg as [tg|]; [|discriminate].
  apply bind_inv in He as (o' & Ho & He). injection He as <- _. exists hd.
  assert (F : o_targets o' = tg /\ o_arrayList o' = la /\ o_wavelengthList o' = lw /\ o_corrList o' = lc
    /\ o_inspolList o' = li /\ o_visList o' = lv /\ o_vis2List o' = l2 /\ o_t3List o' = l3 /\ o_fluxList o' = lf).
  { pose proof Ho as He. unfold assemble in He. cbv zeta in He.
    destruct (is_oi_fits_two _); [injection He as <-; now cbn|].
    apply bind_inv in He as (h' & _ & He). injection He as <-. now cbn. }
  destruct F as (-> & -> & -> & -> & -> & -> & -> & -> & ->). exact Ho.
Qed.
Lemma read_status name d o st : read_oi_fits E name d 0 = Ok (Some o, st) -> st = 0.
Proof.
  intros He. pose proof He as H. unfold read_oi_fits in H. cbn [Z.eqb negb] in H.
  destruct (find_file name d) as [[|p rest]|] eqn:Hf; [|exact (proj1 (fits_inv E _ _ _ _ _ _ Hf He))|discriminate].
  vm_compute in H. discriminate.
Qed.
End Lookup.
