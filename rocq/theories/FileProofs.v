From Verif Require Import Base BaseLemmas FloatModel FloatLemmas Types FileModel FileSpec DateSpec DateProofs Sample.
From Coq Require Import Lia ZifyBool.

(** ** Generic lemmas on loops of the model *)

Lemma len_is_eq {A} n (l : list A) : len_is n l = true -> n = Z.of_nat (length l).
Proof. unfold len_is. lia. Qed.

Lemma memdup_ok {A} n (l : list A) : len_is n l = true -> 0 < n -> memdup n l = Ok l.
Proof.
  intros Hl Hn. apply len_is_eq in Hl. unfold memdup, chkmalloc.
  destruct (Z.ltb_spec 0 n); [|lia]. cbn [bind].
  destruct (Z.ltb_spec (Z.of_nat (length l)) n); [lia|].
  f_equal. subst n. rewrite Nat2Z.id. apply firstn_all.
Qed.
Lemma memdup_zero {A} n (l : list A) : n <= 0 -> memdup n l = Abort.
Proof. intros. unfold memdup, chkmalloc. destruct (Z.ltb_spec 0 n); [lia|reflexivity]. Qed.
Lemma memdup_ptr_ok {A} n (o : option (list A)) :
  opt_len_is n o = true -> 0 < n -> memdup_ptr n o = Ok o.
Proof.
  destruct o as [l|]; [|discriminate]. simpl. intros. rewrite memdup_ok by auto. reflexivity.
Qed.

Lemma foreach_app_map {A R} (f : A -> res R) (g : A -> R) l out :
  (forall a, In a l -> f a = Ok (g a)) ->
  foreach l (fun a out => r <- f a ;; Ok (out ++ [r])) out = Ok (out ++ map g l).
Proof.
  revert out. induction l as [|a l IH]; intros out H; simpl.
  - now rewrite app_nil_r.
  - rewrite H by now left. cbn [bind]. rewrite IH by (intros; apply H; now right).
    rewrite <- app_assoc. reflexivity.
Qed.

Lemma map_records_ok {R} n (l : list R) f g :
  len_is n l = true -> (forall r, In r l -> f r = Ok (g r)) ->
  map_records n l f = Ok (map g l).
Proof.
  intros Hl H. apply len_is_eq in Hl. unfold map_records.
  rewrite (for_foreach (fun r out => r' <- f r ;; Ok (out ++ [r'])) l) by exact Hl.
  rewrite (foreach_app_map f g l [] H). reflexivity.
Qed.

Lemma list_set_middle {A} (pre : list A) a post v :
  list_set (pre ++ a :: post) (length pre) v = Some (pre ++ v :: post).
Proof. induction pre as [|b pre IH]; simpl; [reflexivity|]. rewrite IH. reflexivity. Qed.

Lemma put_middle {A} (pre : list A) a post v :
  put (pre ++ a :: post) (Z.of_nat (length pre)) v = Ok (pre ++ v :: post).
Proof.
  unfold put. destruct (Z.ltb_spec (Z.of_nat (length pre)) 0); [lia|].
  rewrite Nat2Z.id, list_set_middle. reflexivity.
Qed.

Lemma update_records_gen {R} (f : R -> res R) g (l pre : list R) :
  (forall r, In r l -> f r = Ok (g r)) ->
  for_from (length l) (Z.of_nat (length pre))
    (fun i l => r <- get l i ;; r' <- f r ;; put l i r') (pre ++ l)
  = Ok (pre ++ map g l).
Proof.
  revert pre. induction l as [|a l IH]; intros pre H; [reflexivity|].
  cbn [length for_from]. rewrite get_middle, bind_Ok, H, bind_Ok by now left.
  rewrite put_middle, bind_Ok.
  specialize (IH (pre ++ [g a])). rewrite <- !app_assoc in IH. simpl in IH.
  rewrite app_length in IH. simpl in IH.
  replace (Z.of_nat (length pre) + 1) with (Z.of_nat (length pre + 1)) by lia.
  rewrite IH by (intros; apply H; now right). reflexivity.
Qed.

Lemma update_records_ok {R} n (f : R -> res R) g (l : list R) :
  len_is n l = true -> (forall r, In r l -> f r = Ok (g r)) ->
  update_records n f l = Ok (map g l).
Proof.
  intros Hl H. apply len_is_eq in Hl. subst n. unfold update_records, for_.
  rewrite Nat2Z.id. exact (update_records_gen f g l [] H).
Qed.

Lemma search_gen {A} (p : A -> bool) (l pre : list A) :
  search_from (length l) (Z.of_nat (length pre)) (pre ++ l) p = Ok (find p l).
Proof.
  revert pre. induction l as [|a l IH]; intros pre; [reflexivity|].
  cbn [length search_from find]. rewrite get_middle, bind_Ok.
  destruct (p a); [reflexivity|].
  specialize (IH (pre ++ [a])). rewrite <- app_assoc in IH. simpl in IH.
  rewrite app_length in IH. simpl in IH.
  replace (Z.of_nat (length pre) + 1) with (Z.of_nat (length pre + 1)) by lia. exact IH.
Qed.
Lemma search_ok {A} n (l : list A) p : len_is n l = true -> search n l p = Ok (find p l).
Proof.
  intros Hl. apply len_is_eq in Hl. subst n. unfold search. rewrite Nat2Z.id.
  exact (search_gen p l []).
Qed.

Lemma find_lookup_result {A} (p : A -> bool) (P : A -> Prop) l :
  (forall a, p a = true <-> P a) -> lookup_result P l (find p l).
Proof.
  intros HP. induction l as [|a l IH]; simpl.
  - intros ? [].
  - destruct (p a) eqn:E.
    + exists [], l. split; [reflexivity|]. split; [now apply HP|]. intros ? [].
    + destruct (find p l) as [b|]; simpl in *.
      * destruct IH as (bef & aft & -> & Hp & Hb). exists (a :: bef), aft.
        split; [reflexivity|]. split; [exact Hp|]. intros c [<-|Hc]; [|auto].
        rewrite <- HP. congruence.
      * intros c [<-|Hc]; [|auto]. rewrite <- HP. congruence.
Qed.

Lemma find_by_find {A} (nm : A -> string) l name :
  find_by nm l name = find (fun a => str_eqb (nm a) name) l.
Proof. induction l as [|a l IH]; simpl; [reflexivity|]. rewrite IH. reflexivity. Qed.

Lemma find_by_lookup_result {A} (nm : A -> string) l name :
  lookup_result (fun a => nm a = name) l (find_by nm l name).
Proof. rewrite find_by_find. apply find_lookup_result. intros a. apply str_eqb_eq. Qed.

(** ** C03 duplicates *)

Lemma dup_oi_target_ok t : wf_targets t = true -> 0 < ot_ntarget t -> dup_oi_target t = Ok t.
Proof. unfold wf_targets, dup_oi_target. intros. rewrite memdup_ok by auto. destruct t; reflexivity. Qed.
Lemma dup_oi_array_ok a : wf_array a = true -> 0 < ar_nelement a -> dup_oi_array a = Ok a.
Proof. unfold wf_array, dup_oi_array. intros. rewrite memdup_ok by auto. destruct a; reflexivity. Qed.
Lemma dup_oi_wavelength_ok w : wf_wavelength w = true -> 0 < wv_nwave w -> dup_oi_wavelength w = Ok w.
Proof.
  unfold wf_wavelength, dup_oi_wavelength. intros H Hn. apply andb_true_iff in H as [H1 H2].
  rewrite !memdup_ok by auto. destruct w; reflexivity.
Qed.
Lemma dup_oi_corr_ok c : wf_corr c = true -> 0 < co_ncorr c -> dup_oi_corr c = Ok c.
Proof.
  unfold wf_corr, dup_oi_corr. intros H Hn. rewrite !andb_true_iff in H. destruct H as [[H1 H2] H3].
  rewrite !memdup_ok by auto. destruct c; reflexivity.
Qed.
Lemma dup_oi_inspol_ok t : wf_inspol t = true -> 0 < is_numrec t -> 0 < is_nwave t ->
  dup_oi_inspol t = Ok t.
Proof.
  unfold wf_inspol, dup_oi_inspol. intros H Hr Hn. apply andb_true_iff in H as [H1 H2].
  rewrite memdup_ok by auto. cbn [bind].
  rewrite (map_records_ok _ _ _ (fun r => r)); [|exact H1|].
  - rewrite map_id. destruct t; reflexivity.
  - intros r Hin. rewrite forallb_forall in H2. specialize (H2 r Hin).
    unfold wf_inspol_record in H2. rewrite !andb_true_iff in H2. destruct H2 as [[[A B] C] D].
    rewrite !memdup_ok by auto. destruct r; reflexivity.
Qed.

Lemma dup_dtab_ok {X R} (dupr : Z -> R -> res R) wfr g (t : dtab X R) :
  wf_dtab wfr t = true -> 0 < tb_numrec t -> 0 < tb_nwave t ->
  (forall r, wfr (tb_nwave t) r = true -> dupr (tb_nwave t) r = Ok (g r)) ->
  dup_dtab dupr t = Ok (set_record (map g (tb_record t)) t).
Proof.
  unfold wf_dtab, dup_dtab. intros H Hr Hn Hf. rewrite !andb_true_iff in H. destruct H as [[H1 _] H2].
  rewrite memdup_ok by auto. cbn [bind].
  rewrite (map_records_ok _ _ _ g); [reflexivity|exact H1|].
  intros r Hin. rewrite forallb_forall in H2. apply Hf. auto.
Qed.

Lemma set_record_same {X R} (t : dtab X R) : set_record (tb_record t) t = t.
Proof. destruct t; reflexivity. Qed.

Lemma dup_vis2_record_ok n r : wf_vis2_record n r = true -> 0 < n -> dup_vis2_record n r = Ok r.
Proof.
  unfold wf_vis2_record, dup_vis2_record. rewrite !andb_true_iff. intros [[A B] C] Hn.
  rewrite !memdup_ok by auto. destruct r; reflexivity.
Qed.
Lemma dup_t3_record_ok n r : wf_t3_record n r = true -> 0 < n -> dup_t3_record n r = Ok r.
Proof.
  unfold wf_t3_record, dup_t3_record. rewrite !andb_true_iff. intros [[[[A B] C] D] E] Hn.
  rewrite !memdup_ok by auto. destruct r; reflexivity.
Qed.
Lemma dup_flux_record_ok n r : wf_flux_record n r = true -> 0 < n -> dup_flux_record n r = Ok r.
Proof.
  unfold wf_flux_record, dup_flux_record. rewrite !andb_true_iff. intros [[A B] C] Hn.
  rewrite !memdup_ok by auto. destruct r; reflexivity.
Qed.

(** What dup_oi_vis makes of a record *)
Definition vis_dup_image (x : vis_extra) (r : vis_record) : vis_record :=
  if vx_usecomplex x then
    mk_vis_record (vr_target_id r) (vr_time r) (vr_mjd r) (vr_int_time r) (vr_visamp r)
      (vr_visamperr r) (vr_corrindx_visamp r) (vr_visphi r) (vr_visphierr r)
      (vr_corrindx_visphi r) (vr_visrefmap r) (vr_rvis r) (vr_rviserr r) (vr_corrindx_rvis r)
      (vr_ivis r) (vr_rviserr r) (vr_corrindx_ivis r) (vr_ucoord r) (vr_vcoord r)
      (vr_sta_index r) (vr_flag r)
  else r.

Lemma dup_vis_record_ok x n r : wf_vis_record x n r = true -> 0 < n ->
  dup_vis_record x n r = Ok (vis_dup_image x r).
Proof.
  unfold wf_vis_record, dup_vis_record, vis_dup_image. rewrite !andb_true_iff.
  intros [[[[[[A B] C] D] E] F] G] Hn.
  rewrite !memdup_ok by auto. cbn [bind].
  assert (HF : (if vx_usevisrefmap x then memdup_ptr (n * n) (vr_visrefmap r)
                else Ok (vr_visrefmap r)) = Ok (vr_visrefmap r)).
  { destruct (vx_usevisrefmap x); [|reflexivity]. apply memdup_ptr_ok; [exact F|nia]. }
  rewrite HF. cbn [bind]. destruct (vx_usecomplex x).
  - rewrite !andb_true_iff in G. destruct G as [[[G1 G2] G3] G4].
    rewrite !memdup_ptr_ok by auto. reflexivity.
  - cbn [bind]. destruct r; reflexivity.
Qed.

Lemma dup_oi_vis2_ok t : wf_vis2 t = true -> 0 < tb_numrec t -> 0 < tb_nwave t -> dup_oi_vis2 t = Ok t.
Proof.
  intros H Hr Hn. unfold dup_oi_vis2.
  rewrite (dup_dtab_ok _ wf_vis2_record (fun r => r)); auto.
  - rewrite map_id, set_record_same. reflexivity.
  - intros. now apply dup_vis2_record_ok.
Qed.
Lemma dup_oi_t3_ok t : wf_t3 t = true -> 0 < tb_numrec t -> 0 < tb_nwave t -> dup_oi_t3 t = Ok t.
Proof.
  intros H Hr Hn. unfold dup_oi_t3.
  rewrite (dup_dtab_ok _ wf_t3_record (fun r => r)); auto.
  - rewrite map_id, set_record_same. reflexivity.
  - intros. now apply dup_t3_record_ok.
Qed.
Lemma dup_oi_flux_ok t : wf_flux t = true -> 0 < tb_numrec t -> 0 < tb_nwave t -> dup_oi_flux t = Ok t.
Proof.
  intros H Hr Hn. unfold dup_oi_flux.
  rewrite (dup_dtab_ok _ wf_flux_record (fun r => r)); auto.
  - rewrite map_id, set_record_same. reflexivity.
  - intros. now apply dup_flux_record_ok.
Qed.
Lemma dup_oi_vis_image t : wf_vis t = true -> 0 < tb_numrec t -> 0 < tb_nwave t ->
  dup_oi_vis t = Ok (set_record (map (vis_dup_image (tb_x t)) (tb_record t)) t).
Proof.
  intros H Hr Hn. unfold dup_oi_vis.
  apply (dup_dtab_ok _ (wf_vis_record (tb_x t))); auto.
  intros. now apply dup_vis_record_ok.
Qed.
Lemma vis_dup_image_plain x r : vx_usecomplex x = false -> vis_dup_image x r = r.
Proof. unfold vis_dup_image. intros ->. reflexivity. Qed.
Lemma dup_oi_vis_plain t : wf_vis t = true -> 0 < tb_numrec t -> 0 < tb_nwave t ->
  vx_usecomplex (tb_x t) = false -> dup_oi_vis t = Ok t.
Proof.
  intros H Hr Hn Hc. rewrite dup_oi_vis_image by auto.
  rewrite (map_ext _ (fun r => r)), map_id, set_record_same; [reflexivity|].
  intros. now apply vis_dup_image_plain.
Qed.

(** The copy of any record with complex data has the right IVISERR replaced. *)
Lemma dup_oi_vis_partial t : wf_vis t = true -> 0 < tb_numrec t -> 0 < tb_nwave t ->
  exists t', dup_oi_vis t = Ok t' /\ tb_revision t' = tb_revision t /\ same_attributes t t'
    /\ Forall2 (fun r r' => vr_time r' = vr_time r /\
         same_but_time_vis r (mk_vis_record (vr_target_id r') (vr_time r') (vr_mjd r')
           (vr_int_time r') (vr_visamp r') (vr_visamperr r') (vr_corrindx_visamp r')
           (vr_visphi r') (vr_visphierr r') (vr_corrindx_visphi r') (vr_visrefmap r')
           (vr_rvis r') (vr_rviserr r') (vr_corrindx_rvis r') (vr_ivis r') (vr_iviserr r)
           (vr_corrindx_ivis r') (vr_ucoord r') (vr_vcoord r') (vr_sta_index r') (vr_flag r')))
         (tb_record t) (tb_record t').
Proof.
  intros H Hr Hn. exists (set_record (map (vis_dup_image (tb_x t)) (tb_record t)) t).
  split; [now apply dup_oi_vis_image|]. split; [reflexivity|].
  split; [unfold same_attributes; repeat split|].
  simpl. induction (tb_record t) as [|r l IH]; constructor; [|exact IH].
  unfold vis_dup_image, same_but_time_vis. destruct (vx_usecomplex (tb_x t)); simpl; repeat split.
Qed.

(** ** C04 upgrades *)

Lemma upgrade_dtab_ok {X R} (set_time : f64 -> R -> R) time same (t : dtab X R) :
  len_is (tb_numrec t) (tb_record t) = true ->
  (forall r, time (set_time f64_zero r) = f64_zero /\ same r (set_time f64_zero r)) ->
  exists t', upgrade_dtab set_time t = Ok t' /\ upgraded time same t t'.
Proof.
  intros Hl Hs. unfold upgrade_dtab. destruct (Z.eqb_spec (tb_revision t) 1) as [E|E].
  - rewrite (update_records_ok _ _ (set_time f64_zero)) by auto. cbn [bind].
    eexists. split; [reflexivity|]. left. simpl. repeat split; auto. clear Hl.
    induction (tb_record t) as [|r l IH]; constructor; auto.
  - exists t. split; [reflexivity|]. right. auto.
Qed.

Lemma wf_dtab_len {X R} wfr (t : dtab X R) : wf_dtab wfr t = true -> len_is (tb_numrec t) (tb_record t) = true.
Proof. unfold wf_dtab. rewrite !andb_true_iff. tauto. Qed.

Lemma upgrade_oi_vis_ok t : wf_vis t = true ->
  exists t', upgrade_oi_vis t = Ok t' /\ upgraded vr_time same_but_time_vis t t'.
Proof.
  intros H. apply upgrade_dtab_ok; [now apply wf_dtab_len in H|].
  intros r. unfold same_but_time_vis. destruct r; simpl; repeat split.
Qed.
Lemma upgrade_oi_vis2_ok t : wf_vis2 t = true ->
  exists t', upgrade_oi_vis2 t = Ok t' /\ upgraded v2_time same_but_time_vis2 t t'.
Proof.
  intros H. apply upgrade_dtab_ok; [now apply wf_dtab_len in H|].
  intros r. unfold same_but_time_vis2. destruct r; simpl; repeat split.
Qed.
Lemma upgrade_oi_t3_ok t : wf_t3 t = true ->
  exists t', upgrade_oi_t3 t = Ok t' /\ upgraded t3_time same_but_time_t3 t t'.
Proof.
  intros H. apply upgrade_dtab_ok; [now apply wf_dtab_len in H|].
  intros r. unfold same_but_time_t3. destruct r; simpl; repeat split.
Qed.

Lemma upgrade_dtab_idem {X R} (set_time : f64 -> R -> R) (t t' : dtab X R) :
  upgrade_dtab set_time t = Ok t' -> upgrade_dtab set_time t' = Ok t'.
Proof.
  unfold upgrade_dtab. destruct (Z.eqb_spec (tb_revision t) 1) as [E|E].
  - intros H. apply bind_inv in H as (rec & _ & H). injection H as <-. reflexivity.
  - intros [= <-]. destruct (Z.eqb_spec (tb_revision t) 1); [contradiction|reflexivity].
Qed.

(** ** C05 lookups *)

Lemma lookup_target_ok o i : wf_targets (o_targets o) = true ->
  exists r, oi_fits_lookup_target o i = Ok r /\
    lookup_result (fun t => tg_target_id t = i) (ot_targ (o_targets o)) r.
Proof.
  intros H. unfold oi_fits_lookup_target. rewrite search_ok by exact H.
  eexists. split; [reflexivity|]. apply find_lookup_result. intros. apply Z.eqb_eq.
Qed.
Lemma lookup_target_by_name_ok o s : wf_targets (o_targets o) = true ->
  exists r, oi_fits_lookup_target_by_name o s = Ok r /\
    lookup_result (fun t => tg_target t = s) (ot_targ (o_targets o)) r.
Proof.
  intros H. unfold oi_fits_lookup_target_by_name. rewrite search_ok by exact H.
  eexists. split; [reflexivity|]. apply find_lookup_result. intros. apply str_eqb_eq.
Qed.
Lemma lookup_element_ok o name i a : oi_fits_lookup_array o name = Some a -> wf_array a = true ->
  exists r, oi_fits_lookup_element o name i = Ok r /\
    lookup_result (fun e => el_sta_index e = i) (ar_elem a) r.
Proof.
  intros Ha H. unfold oi_fits_lookup_element. rewrite Ha, search_ok by exact H.
  eexists. split; [reflexivity|]. apply find_lookup_result. intros. apply Z.eqb_eq.
Qed.
Lemma lookup_element_none o name i : oi_fits_lookup_array o name = None ->
  oi_fits_lookup_element o name i = Ok None.
Proof. intros H. unfold oi_fits_lookup_element. rewrite H. reflexivity. Qed.

(** ** C06 index *)

Section IndexProofs.
Variables (arrays : list oi_array) (waves : list oi_wavelength) (corrs : list oi_corr).

(** every stored entry is the result of the list search *)
Definition sound {V} (nm : V -> string) (l : list V) (h : hash V) : Prop :=
  forall k v, hash_find h k = Some v -> v = find_by nm l k.

Lemma hash_cache_sound {V} (nm : V -> string) l h k :
  sound nm l h -> sound nm l (hash_cache h k (find_by nm l k)).
Proof.
  intros H. unfold hash_cache. destruct (hash_lookup h k); [exact H|].
  intros k' v Hf. destruct (string_dec k' k) as [->|Hn].
  - rewrite hash_find_insert_same in Hf. congruence.
  - rewrite hash_find_insert_other in Hf by exact Hn. now apply H.
Qed.
Lemma hash_cache_covers {V} (nm : V -> string) l (h : hash V) k :
  sound nm l h -> hash_lookup (hash_cache h k (find_by nm l k)) k = find_by nm l k.
Proof.
  intros H. unfold hash_cache. destruct (hash_lookup h k) as [v|] eqn:E.
  - rewrite E. unfold hash_lookup in E. destruct (hash_find h k) as [w|] eqn:F; [|discriminate].
    subst w. now apply H.
  - now rewrite hash_lookup_insert_same.
Qed.
Lemma hash_cache_keeps {V} (nm : V -> string) l (h : hash V) k k' :
  hash_lookup h k' = find_by nm l k' -> hash_lookup (hash_cache h k (find_by nm l k)) k' = find_by nm l k'.
Proof.
  intros H. unfold hash_cache. destruct (hash_lookup h k); [exact H|].
  destruct (string_dec k' k) as [->|Hn].
  - now rewrite hash_lookup_insert_same.
  - now rewrite hash_lookup_insert_other.
Qed.

Definition ix_sound (ix : name_index) : Prop :=
  sound ar_arrname arrays (ix_array ix) /\ sound wv_insname waves (ix_wavelength ix)
  /\ sound co_corrname corrs (ix_corr ix).
Definition arr_done (ix : name_index) k := hash_lookup (ix_array ix) k = find_by ar_arrname arrays k.
Definition ins_done (ix : name_index) k := hash_lookup (ix_wavelength ix) k = find_by wv_insname waves k.
Definition corr_done (ix : name_index) k := hash_lookup (ix_corr ix) k = find_by co_corrname corrs k.

Lemma index_table_step {X R} ix (t : dtab X R) : ix_sound ix ->
  let ix' := index_table arrays waves corrs ix t in
  ix_sound ix' /\
  (tb_arrname t <> ""%string -> arr_done ix' (tb_arrname t)) /\ ins_done ix' (tb_insname t)
  /\ (tb_corrname t <> ""%string -> corr_done ix' (tb_corrname t))
  /\ (forall k, arr_done ix k -> arr_done ix' k) /\ (forall k, ins_done ix k -> ins_done ix' k)
  /\ (forall k, corr_done ix k -> corr_done ix' k).
Proof.
  intros (Ha & Hw & Hc). unfold index_table, ix_sound, arr_done, ins_done, corr_done,
    cache_arrname, cache_insname, cache_corrname. cbn [ix_array ix_wavelength ix_corr].
  destruct (nonempty (tb_arrname t)) eqn:Ea; destruct (nonempty (tb_corrname t)) eqn:Ec;
    try apply nonempty_false in Ea; try apply nonempty_false in Ec;
    repeat split; intros; try contradiction;
    auto using hash_cache_sound, hash_cache_covers, hash_cache_keeps.
Qed.

Lemma index_fold {X R} (l : list (dtab X R)) ix : ix_sound ix ->
  let ix' := fold_left (index_table arrays waves corrs) l ix in
  ix_sound ix' /\
  (forall t, In t l -> (tb_arrname t <> ""%string -> arr_done ix' (tb_arrname t))
     /\ ins_done ix' (tb_insname t) /\ (tb_corrname t <> ""%string -> corr_done ix' (tb_corrname t)))
  /\ (forall k, arr_done ix k -> arr_done ix' k) /\ (forall k, ins_done ix k -> ins_done ix' k)
  /\ (forall k, corr_done ix k -> corr_done ix' k).
Proof.
  revert ix. induction l as [|t l IH]; intros ix Hs; simpl.
  - repeat split; auto; destruct Hs as (?&?&?); auto; contradiction.
  - destruct (index_table_step ix t Hs) as (S1 & A1 & I1 & C1 & KA & KI & KC).
    destruct (IH _ S1) as (S2 & T2 & KA2 & KI2 & KC2).
    split; [exact S2|]. split.
    + intros t' [<-|Hin]; [|now apply T2].
      split; [|split]; auto.
    + split; [|split]; auto.
Qed.

Lemma index_flux_step ix (t : oi_flux) : ix_sound ix ->
  let ix' := index_flux arrays waves ix t in
  ix_sound ix' /\
  (tb_arrname t <> ""%string -> arr_done ix' (tb_arrname t)) /\ ins_done ix' (tb_insname t)
  /\ (forall k, arr_done ix k -> arr_done ix' k) /\ (forall k, ins_done ix k -> ins_done ix' k)
  /\ (forall k, corr_done ix k -> corr_done ix' k).
Proof.
  intros (Ha & Hw & Hc). unfold index_flux, ix_sound, arr_done, ins_done, corr_done,
    cache_arrname, cache_insname. cbn [ix_array ix_wavelength ix_corr].
  destruct (nonempty (tb_arrname t)) eqn:Ea;
    try apply nonempty_false in Ea;
    repeat split; intros; try contradiction;
    auto using hash_cache_sound, hash_cache_covers, hash_cache_keeps.
Qed.
Lemma index_flux_fold (l : list oi_flux) ix : ix_sound ix ->
  let ix' := fold_left (index_flux arrays waves) l ix in
  ix_sound ix' /\
  (forall t, In t l -> (tb_arrname t <> ""%string -> arr_done ix' (tb_arrname t))
     /\ ins_done ix' (tb_insname t))
  /\ (forall k, arr_done ix k -> arr_done ix' k) /\ (forall k, ins_done ix k -> ins_done ix' k)
  /\ (forall k, corr_done ix k -> corr_done ix' k).
Proof.
  revert ix. induction l as [|t l IH]; intros ix Hs; simpl.
  - repeat split; auto; destruct Hs as (?&?&?); auto; contradiction.
  - destruct (index_flux_step ix t Hs) as (S1 & A1 & I1 & KA & KI & KC).
    destruct (IH _ S1) as (S2 & T2 & KA2 & KI2 & KC2).
    split; [exact S2|]. split.
    + intros t' [<-|Hin]; [|now apply T2].
      split; auto.
    + split; [|split]; auto.
Qed.

Lemma index_all_ok vis vis2 t3 flux :
  let ix := index_all arrays waves corrs vis vis2 t3 flux in
  ix_sound ix /\
  (forall t, In t vis -> (tb_arrname t <> ""%string -> arr_done ix (tb_arrname t))
     /\ ins_done ix (tb_insname t) /\ (tb_corrname t <> ""%string -> corr_done ix (tb_corrname t))) /\
  (forall t, In t vis2 -> (tb_arrname t <> ""%string -> arr_done ix (tb_arrname t))
     /\ ins_done ix (tb_insname t) /\ (tb_corrname t <> ""%string -> corr_done ix (tb_corrname t))) /\
  (forall t, In t t3 -> (tb_arrname t <> ""%string -> arr_done ix (tb_arrname t))
     /\ ins_done ix (tb_insname t) /\ (tb_corrname t <> ""%string -> corr_done ix (tb_corrname t))) /\
  (forall t, In t flux -> (tb_arrname t <> ""%string -> arr_done ix (tb_arrname t))
     /\ ins_done ix (tb_insname t)).
Proof.
  unfold index_all.
  assert (S0 : ix_sound (mk_index hash_new hash_new hash_new)).
  { repeat split; intros k v; discriminate. }
  destruct (index_fold vis _ S0) as (S1 & T1 & _).
  destruct (index_fold vis2 _ S1) as (S2 & T2 & A2 & I2 & C2).
  destruct (index_fold t3 _ S2) as (S3 & T3 & A3 & I3 & C3).
  destruct (index_flux_fold flux _ S3) as (S4 & T4 & A4 & I4 & C4).
  split; [exact S4|]. split; [|split; [|split; [|exact T4]]].
  - intros t Hin. destruct (T1 t Hin) as (P & Q & W). auto 10.
  - intros t Hin. destruct (T2 t Hin) as (P & Q & W). auto 10.
  - intros t Hin. destruct (T3 t Hin) as (P & Q & W). auto 10.
Qed.
End IndexProofs.

(** ** C07 counts *)

Lemma foreach_count {A} (body : A -> Z -> res Z) (c : A -> Z) l n :
  (forall a n, In a l -> body a n = Ok (n + c a)) ->
  foreach l body n = Ok (n + fold_right Z.add 0 (map c l)).
Proof.
  revert n. induction l as [|a l IH]; intros n H; simpl.
  - f_equal. lia.
  - rewrite H by now left. cbn [bind]. rewrite IH by (intros; apply H; now right). f_equal. lia.
Qed.
Lemma list_sum_Z {A} (c : A -> nat) (l : list A) :
  fold_right Z.add 0 (map (fun a => Z.of_nat (c a)) l) = Z.of_nat (list_sum (map c l)).
Proof. induction l as [|a l IH]; simpl; [reflexivity|]. rewrite IH. lia. Qed.

Lemma count_flags (l : list bool) n :
  foreach l (fun (f : bool) n => Ok (if f then n else n + 1)) n = Ok (n + Z.of_nat (unflagged l)).
Proof.
  rewrite (foreach_count _ (fun f : bool => Z.of_nat (if f then 0%nat else 1%nat))).
  - f_equal. f_equal. rewrite list_sum_Z. f_equal. unfold unflagged.
    induction l as [|[] l IH]; simpl; auto.
  - intros [] m _; f_equal; lia.
Qed.

Lemma count_list_ok {X R} (flag : R -> list bool) wfr (l : list (dtab X R)) :
  forallb (wf_dtab wfr) l = true ->
  (forall n r, wfr n r = true -> len_is n (flag r) = true) ->
  count_list flag l = Ok (Z.of_nat (total_unflagged flag l)).
Proof.
  intros Hw Hf. unfold count_list.
  rewrite (foreach_count _ (fun t => Z.of_nat
    (list_sum (map (fun r => unflagged (flag r)) (tb_record t))))).
  - rewrite list_sum_Z. reflexivity.
  - intros t n Hin. rewrite forallb_forall in Hw. specialize (Hw t Hin).
    unfold wf_dtab in Hw. rewrite !andb_true_iff in Hw. destruct Hw as [[H1 _] H2].
    apply len_is_eq in H1.
    transitivity (foreach (tb_record t) (fun r n => Ok (n + Z.of_nat (unflagged (flag r)))) n).
    + rewrite <- (for_foreach (fun r n => Ok (n + Z.of_nat (unflagged (flag r)))) (tb_record t)
                    (tb_numrec t)) by exact H1.
      unfold for_ at 1 3. apply for_from_ext. intros j s Hj.
      destruct (nth_error (tb_record t) (Z.to_nat j)) as [r|] eqn:E.
      2:{ apply nth_error_None in E. lia. }
      assert (G : get (tb_record t) j = Ok r) by (apply get_at; [lia|exact E]).
      rewrite G. cbn [bind].
      rewrite forallb_forall in H2.
      assert (Hr : len_is (tb_nwave t) (flag r) = true).
      { apply Hf, H2. eapply nth_error_In; eauto. }
      rewrite <- count_flags.
      rewrite <- (for_foreach (fun (f : bool) n => Ok (if f then n else n + 1)) _ (tb_nwave t))
        by (now apply len_is_eq).
      reflexivity.
    + rewrite (foreach_count _ (fun r => Z.of_nat (unflagged (flag r)))) by reflexivity.
      rewrite list_sum_Z. reflexivity.
Qed.

Lemma count_ok o : forallb wf_vis (o_visList o) = true -> forallb wf_vis2 (o_vis2List o) = true ->
  forallb wf_t3 (o_t3List o) = true ->
  count_oi_fits_data o = Ok (Z.of_nat (total_unflagged vr_flag (o_visList o)),
    Z.of_nat (total_unflagged v2_flag (o_vis2List o)),
    Z.of_nat (total_unflagged t3_flag (o_t3List o))).
Proof.
  intros H1 H2 H3. unfold count_oi_fits_data.
  assert (H1' : forallb (wf_dtab (fun n r => len_is n (vr_flag r))) (o_visList o) = true).
  { apply forallb_forall. intros t Hin. rewrite forallb_forall in H1. specialize (H1 t Hin).
    unfold wf_vis, wf_dtab in *. rewrite !andb_true_iff in *. destruct H1 as [[? ?] H1].
    repeat split; auto. apply forallb_forall. intros r Hr. rewrite forallb_forall in H1.
    specialize (H1 r Hr). unfold wf_vis_record in H1. rewrite !andb_true_iff in H1. tauto. }
  rewrite (count_list_ok vr_flag _ _ H1') by auto. cbn [bind].
  rewrite (count_list_ok v2_flag wf_vis2_record) by
    (auto; intros n r; unfold wf_vis2_record; rewrite !andb_true_iff; tauto). cbn [bind].
  rewrite (count_list_ok t3_flag wf_t3_record) by
    (auto; intros n r; unfold wf_t3_record; rewrite !andb_true_iff; tauto). reflexivity.
Qed.

(** ** C08 time span *)

Lemma scan_mjd_ok {X R} (mjd : R -> f64) better wfr (l : list (dtab X R)) m :
  forallb (wf_dtab wfr) l = true ->
  scan_mjd mjd better l m =
  Ok (fold_left (fun m x => if better x m then x else m)
        (flat_map (fun t => map mjd (tb_record t)) l) m).
Proof.
  intros Hw. unfold scan_mjd. revert m. induction l as [|t l IH]; intros m; [reflexivity|].
  simpl in Hw. apply andb_true_iff in Hw as [H1 H2]. simpl.
  rewrite (for_foreach (fun r m => Ok (if better (mjd r) m then mjd r else m)))
    by (apply len_is_eq; eapply wf_dtab_len; eauto).
  rewrite foreach_fold. cbn [bind]. rewrite IH by exact H2. rewrite fold_left_app.
  f_equal. f_equal. clear. revert m. induction (tb_record t) as [|r rs IHr]; intros m; [reflexivity|].
  simpl. apply IHr.
Qed.

Lemma wf_fits_parts o : wf_fits o = true ->
  wf_targets (o_targets o) = true /\ forallb wf_array (o_arrayList o) = true
  /\ forallb wf_wavelength (o_wavelengthList o) = true /\ forallb wf_corr (o_corrList o) = true
  /\ forallb wf_inspol (o_inspolList o) = true /\ forallb wf_vis (o_visList o) = true
  /\ forallb wf_vis2 (o_vis2List o) = true /\ forallb wf_t3 (o_t3List o) = true
  /\ forallb wf_flux (o_fluxList o) = true
  /\ len_is (o_numArray o) (o_arrayList o) = true
  /\ len_is (o_numWavelength o) (o_wavelengthList o) = true.
Proof. unfold wf_fits. rewrite !andb_true_iff. tauto. Qed.

Lemma wf_vis_weak l : forallb wf_vis l = true ->
  forallb (wf_dtab (fun n r => len_is n (vr_flag r))) l = true.
Proof.
  intros H1. apply forallb_forall. intros t Hin. rewrite forallb_forall in H1. specialize (H1 t Hin).
  unfold wf_vis, wf_dtab in *. rewrite !andb_true_iff in *. destruct H1 as [[? ?] H1].
  repeat split; auto. apply forallb_forall. intros r Hr. rewrite forallb_forall in H1.
  specialize (H1 r Hr). unfold wf_vis_record in H1. rewrite !andb_true_iff in H1. tauto.
Qed.

Lemma get_min_mjd_ok o : wf_fits o = true ->
  get_min_mjd o = Ok (fold_left (fun m x => if flt x m then x else m) (all_mjd o) (f64_of_Z 100000)).
Proof.
  intros H. apply wf_fits_parts in H as (_&_&_&_&_&H1&H2&H3&H4&_&_).
  unfold get_min_mjd, all_mjd.
  rewrite (scan_mjd_ok _ _ _ _ _ (wf_vis_weak _ H1)). cbn [bind].
  rewrite (scan_mjd_ok _ _ wf_vis2_record) by exact H2. cbn [bind].
  rewrite (scan_mjd_ok _ _ wf_t3_record) by exact H3. cbn [bind].
  rewrite (scan_mjd_ok _ _ wf_flux_record) by exact H4.
  rewrite !fold_left_app. reflexivity.
Qed.
Lemma get_max_mjd_ok o : wf_fits o = true ->
  get_max_mjd o = Ok (fold_left (fun m x => if fgt x m then x else m) (all_mjd o) (f64_of_Z 0)).
Proof.
  intros H. apply wf_fits_parts in H as (_&_&_&_&_&H1&H2&H3&H4&_&_).
  unfold get_max_mjd, all_mjd.
  rewrite (scan_mjd_ok _ _ _ _ _ (wf_vis_weak _ H1)). cbn [bind].
  rewrite (scan_mjd_ok _ _ wf_vis2_record) by exact H2. cbn [bind].
  rewrite (scan_mjd_ok _ _ wf_t3_record) by exact H3. cbn [bind].
  rewrite (scan_mjd_ok _ _ wf_flux_record) by exact H4.
  rewrite !fold_left_app. reflexivity.
Qed.

Lemma SFleb_refl x : is_nan x = false -> SFleb x x = true.
Proof. intros. apply fle_spec. repeat split; auto using klt_irrefl. Qed.
Lemma not_flt_fle x y : is_nan x = false -> is_nan y = false -> flt y x = false -> SFleb x y = true.
Proof.
  intros. apply fle_spec. repeat split; auto. intros K.
  assert (flt y x = true) by (apply flt_spec; auto). congruence.
Qed.
Lemma fle_trans x y z : SFleb x y = true -> SFleb y z = true -> SFleb x z = true.
Proof.
  rewrite !fle_spec. intros (?&?&A) (?&?&B). repeat split; auto.
  destruct (key x) as [[? ?] ?], (key y) as [[? ?] ?], (key z) as [[? ?] ?]. unfold klt in *. lia.
Qed.
Lemma flt_fle x y : flt x y = true -> SFleb x y = true.
Proof.
  rewrite flt_spec, fle_spec. intros (?&?&?). repeat split; auto.
  destruct (key x) as [[? ?] ?], (key y) as [[? ?] ?]. unfold klt in *. lia.
Qed.

(** The running minimum over a non-empty list below the start value is the minimum. *)
Lemma fold_min_start l m : is_nan m = false -> (forall x, In x l -> is_nan x = false) ->
  let r := fold_left (fun m x => if flt x m then x else m) l m in
  (r = m \/ In r l) /\ SFleb r m = true /\ (forall x, In x l -> SFleb r x = true).
Proof.
  revert m. induction l as [|a l IH]; intros m Hm Hl; simpl.
  - repeat split; auto using SFleb_refl; try contradiction.
  - assert (Ha : is_nan a = false) by (apply Hl; now left).
    destruct (flt a m) eqn:E.
    + destruct (IH a Ha) as (I1 & I2 & I3); [intros; apply Hl; now right|].
      repeat split.
      * destruct I1 as [->|I1]; auto.
      * eapply fle_trans; [exact I2|]. now apply flt_fle.
      * intros x [<-|Hx]; auto.
    + destruct (IH m Hm) as (I1 & I2 & I3); [intros; apply Hl; now right|].
      repeat split.
      * destruct I1 as [I1|I1]; auto.
      * exact I2.
      * intros x [<-|Hx]; auto. eapply fle_trans; [exact I2|]. now apply not_flt_fle.
Qed.
Lemma fold_max_start l m : is_nan m = false -> (forall x, In x l -> is_nan x = false) ->
  let r := fold_left (fun m x => if fgt x m then x else m) l m in
  (r = m \/ In r l) /\ SFleb m r = true /\ (forall x, In x l -> SFleb x r = true).
Proof.
  revert m. induction l as [|a l IH]; intros m Hm Hl; simpl.
  - repeat split; auto using SFleb_refl; try contradiction.
  - assert (Ha : is_nan a = false) by (apply Hl; now left).
    destruct (fgt a m) eqn:E.
    + destruct (IH a Ha) as (I1 & I2 & I3); [intros; apply Hl; now right|].
      repeat split.
      * destruct I1 as [->|I1]; auto.
      * eapply fle_trans; [|exact I2]. apply flt_fle. exact E.
      * intros x [<-|Hx]; auto.
    + destruct (IH m Hm) as (I1 & I2 & I3); [intros; apply Hl; now right|].
      repeat split.
      * destruct I1 as [I1|I1]; auto.
      * exact I2.
      * intros x [<-|Hx]; auto. eapply fle_trans; [|exact I2].
        apply not_flt_fle; auto.
Qed.

Lemma mjd_in_range_spec x : mjd_in_range x = true ->
  is_nan x = false /\ flt f64_zero x = true /\ flt x (f64_of_Z 100000) = true.
Proof.
  unfold mjd_in_range. rewrite !andb_true_iff. intros [[_ A] B]. split; [|auto].
  destruct x; try reflexivity. discriminate.
Qed.

Lemma min_mjd_earliest o : wf_fits o = true -> all_mjd o <> [] ->
  forallb mjd_in_range (all_mjd o) = true ->
  exists m, get_min_mjd o = Ok m /\ earliest (all_mjd o) m.
Proof.
  intros Hw Hne Hr. rewrite get_min_mjd_ok by exact Hw. eexists. split; [reflexivity|].
  rewrite forallb_forall in Hr.
  destruct (fold_min_start (all_mjd o) (f64_of_Z 100000)) as (I1 & I2 & I3).
  - reflexivity.
  - intros x Hx. now apply mjd_in_range_spec, Hr.
  - split; [|exact I3]. destruct I1 as [I1|I1]; [|exact I1]. exfalso.
    destruct (all_mjd o) as [|a l] eqn:E; [congruence|].
    specialize (I3 a (or_introl eq_refl)). rewrite I1 in I3.
    destruct (mjd_in_range_spec a (Hr a (or_introl eq_refl))) as (_ & _ & H).
    apply fle_spec in I3 as (_ & _ & K). apply flt_spec in H as (_ & _ & K'). contradiction.
Qed.
Lemma max_mjd_latest o : wf_fits o = true -> all_mjd o <> [] ->
  forallb mjd_in_range (all_mjd o) = true ->
  exists m, get_max_mjd o = Ok m /\ latest (all_mjd o) m.
Proof.
  intros Hw Hne Hr. rewrite get_max_mjd_ok by exact Hw. eexists. split; [reflexivity|].
  rewrite forallb_forall in Hr.
  destruct (fold_max_start (all_mjd o) (f64_of_Z 0)) as (I1 & I2 & I3).
  - reflexivity.
  - intros x Hx. now apply mjd_in_range_spec, Hr.
  - split; [|exact I3]. destruct I1 as [I1|I1]; [|exact I1]. exfalso.
    destruct (all_mjd o) as [|a l] eqn:E; [congruence|].
    specialize (I3 a (or_introl eq_refl)). rewrite I1 in I3.
    destruct (mjd_in_range_spec a (Hr a (or_introl eq_refl))) as (_ & H & _).
    change (f64_of_Z 0) with f64_zero in I3.
    apply fle_spec in I3 as (_ & _ & K). apply flt_spec in H as (_ & _ & K'). contradiction.
Qed.

Lemma is_atomic_ok o maxDays : wf_fits o = true -> all_mjd o <> [] ->
  forallb mjd_in_range (all_mjd o) = true ->
  exists b lo hi, is_atomic o maxDays = Ok b /\ earliest (all_mjd o) lo /\ latest (all_mjd o) hi /\
  (b = true <-> (length (o_arrayList o) <= 1)%nat /\ length (o_wavelengthList o) = 1%nat
     /\ length (ot_targ (o_targets o)) = 1%nat /\ SFltb maxDays (SFabs (f64_sub hi lo)) = false).
Proof.
  intros Hw Hne Hr.
  destruct (min_mjd_earliest o Hw Hne Hr) as (lo & E1 & L1).
  destruct (max_mjd_latest o Hw Hne Hr) as (hi & E2 & L2).
  apply wf_fits_parts in Hw as (Ht&_&_&_&_&_&_&_&_&Hna&Hnw).
  unfold is_atomic. rewrite E1, E2. cbn [bind].
  apply len_is_eq in Ht, Hna, Hnw. unfold fgt, fabs.
  destruct (Z.gtb_spec (o_numArray o) 1).
  { exists false, lo, hi. repeat split; try apply L1; try apply L2; auto; try discriminate; try lia. }
  destruct (Z.eqb_spec (o_numWavelength o) 1); cbn [negb].
  2:{ exists false, lo, hi. repeat split; try apply L1; try apply L2; auto; try discriminate; try lia. }
  destruct (Z.eqb_spec (ot_ntarget (o_targets o)) 1); cbn [negb].
  2:{ exists false, lo, hi. repeat split; try apply L1; try apply L2; auto; try discriminate; try lia. }
  destruct (SFltb maxDays (SFabs (f64_sub hi lo))) eqn:E.
  - exists false, lo, hi. split; [reflexivity|]. split; [exact L1|]. split; [exact L2|].
    split; [discriminate|]. intros (_&_&_&?). congruence.
  - exists true, lo, hi. split; [reflexivity|]. split; [exact L1|]. split; [exact L2|].
    split; [|auto]. intros _. repeat split; lia.
Qed.

(** ** C09 header *)

Lemma substring_all s n : (String.length s <= n)%nat -> substring 0 n s = s.
Proof.
  revert n. induction s as [|c s IH]; intros [|n] H; simpl in *; auto; try lia.
  f_equal. apply IH. lia.
Qed.
Lemma strlcpy_fits s : fits_value s = true -> strlcpy FLEN_VALUE s = s.
Proof. unfold fits_value, strlcpy, strlen. intros H. apply substring_all.
  change FLEN_VALUE with 71 in *. lia. Qed.

(** ** C10 versions *)
Lemma all_revision_spec {A} (rv : A -> Z) v l :
  all_revision rv v l = true <-> forall a, In a l -> rv a = v.
Proof.
  induction l as [|a l IH]; simpl.
  - split; auto. intros _ ? [].
  - destruct (Z.eqb_spec (rv a) v) as [E|E].
    + rewrite IH. split; [intros H b [<-|Hb]; auto | intros H b Hb; auto].
    + split; [discriminate|]. intros H. exfalso. apply E, H. now left.
Qed.
Lemma is_one_spec o : is_oi_fits_one o = true <->
  h_content (o_header o) <> "OIFITS2"%string /\ ot_revision (o_targets o) = 1
  /\ (forall a, In a (o_arrayList o) -> ar_revision a = 1)
  /\ (forall a, In a (o_wavelengthList o) -> wv_revision a = 1)
  /\ (forall a, In a (o_visList o) -> tb_revision a = 1)
  /\ (forall a, In a (o_vis2List o) -> tb_revision a = 1)
  /\ (forall a, In a (o_t3List o) -> tb_revision a = 1).
Proof.
  unfold is_oi_fits_one.
  destruct (str_eqb _ _) eqn:E.
  { apply str_eqb_eq in E. split; [discriminate|]. tauto. }
  apply str_eqb_neq in E. destruct (Z.eqb_spec (ot_revision (o_targets o)) 1) as [E1|E1]; cbn [negb].
  2:{ split; [discriminate|]. tauto. }
  rewrite !andb_true_iff, !all_revision_spec. tauto.
Qed.

(** ** Header proofs *)

Lemma floor_Z_Qfloor x z : floor_Z x = Some z -> exists q, float_value x = Some q /\ z = Qfloor q.
Proof.
  destruct x as [s|s| |s m e]; simpl; try discriminate.
  - intros [= <-]. exists 0%Q. split; reflexivity.
  - intros [= <-]. eexists. split; [reflexivity|].
    destruct (Z.ltb_spec e 0) as [He|He].
    + unfold Qfloor. rewrite Pos2Z.inj_pow, Z2Pos.id by lia. destruct s; reflexivity.
    + rewrite Qfloor_Z. destruct s; reflexivity.
Qed.

Lemma digits2_pos_bound m : Zpos m < 2 ^ Zpos (digits2_pos m).
Proof.
  induction m as [m IH|m IH|]; cbn [digits2_pos].
  - rewrite Pos2Z.inj_succ, Z.pow_succ_r by lia. lia.
  - rewrite Pos2Z.inj_succ, Z.pow_succ_r by lia. lia.
  - reflexivity.
Qed.

Lemma mjd_in_range_floor x : mjd_in_range x = true ->
  exists z, floor_Z x = Some z /\ 0 <= z < 100000.
Proof.
  unfold mjd_in_range. rewrite !andb_true_iff. intros [[V A] B].
  destruct x as [s|s| |s m e]; try discriminate; try (destruct s; discriminate).
  destruct s; [discriminate|]. simpl.
  assert (Hd : Zpos m < 2 ^ 53).
  { unfold valid_binary, bounded, canonical_mantissa in V. apply andb_true_iff in V as [V _].
    apply Zeq_is_eq_bool in V. unfold fexp, emin in V.
    pose proof (digits2_pos_bound m) as Hm.
    assert (Zpos (digits2_pos m) <= 53) by lia.
    eapply Z.lt_le_trans; [exact Hm|]. apply Z.pow_le_mono_r; lia. }
  eexists. split; [reflexivity|].
  apply flt_spec in B as (_ & _ & K).
  change (f64_of_Z 100000) with (S754_finite false 6871947673600000 (-36)) in K.
  unfold klt, key in K.
  assert (He : e <= -36) by lia.
  destruct (Z.ltb_spec e 0); [|lia].
  split; [apply Z.div_pos; lia|].
  apply Z.div_lt_upper_bound; [lia|].
  destruct (Z.eq_dec e (-36)) as [->|Hne].
  - change (2 ^ - (-36)) with (2 ^ 36). lia.
  - assert (2 ^ 37 <= 2 ^ (- e)) by (apply Z.pow_le_mono_r; lia). lia.
Qed.

(** Dates of MJD 0..99999 have four-digit years; formatting agrees with iso_date *)
Lemma mjd_year_bounds mjd : 0 <= mjd < 100000 ->
  let '(y, m, d) := mjd2date mjd in 1000 <= y < 3000 /\ 1 <= m <= 12 /\ 1 <= d <= 31.
Proof.
  intros H. destruct (mjd2date_dn mjd ltac:(unfold first_mjd; lia)) as [V E].
  destruct (mjd2date mjd) as [[y m] d]. unfold valid_ymd in V.
  pose proof (doy_bounds _ _ _ V) as B.
  change (dn (-4900, 3, 1)) with (-1789689) in E. unfold dn, first_mjd in E.
  assert (Hd : 1 <= m <= 12 /\ 1 <= d <= 31).
  { unfold valid_date, month_length in V. destruct (m =? 2); [destruct (leap y); lia|]. destruct (_ || (m =? 11)); lia. }
  split; [|exact Hd].
  assert (Ey : 1001 <= march_year y m < 2999).
  { assert (B' : 0 <= mstart (march_month m) + d - 1 <= 365) by (destruct (leap _); lia).
    apply (ystart_bounds _ _ B'). lia. }
  unfold march_year in Ey. destruct (m <=? 2); lia.
Qed.

Definition zrange (a : Z) (n : nat) : list Z := map (fun i => a + Z.of_nat i) (seq 0 n).
Lemma in_zrange a n x : a <= x < a + Z.of_nat n -> In x (zrange a n).
Proof.
  intros H. unfold zrange. apply in_map_iff. exists (Z.to_nat (x - a)).
  split; [lia|]. apply in_seq. lia.
Qed.
Lemma two_digits n : 0 <= n < 100 ->
  fmt_0wd 2 n = String (digit (n / 10)) (String (digit n) EmptyString).
Proof.
  intros H. assert (S : forallb (fun n => str_eqb (fmt_0wd 2 n)
    (String (digit (n / 10)) (String (digit n) EmptyString))) (zrange 0 100) = true)
    by (vm_compute; reflexivity).
  rewrite forallb_forall in S. apply str_eqb_eq, S, in_zrange. lia.
Qed.
Lemma four_digits n : 1000 <= n < 3000 ->
  fmt_wd 4 n = String (digit (n / 1000)) (String (digit (n / 100)) (String (digit (n / 10)) (String (digit n) EmptyString))).
Proof.
  intros H. assert (S : forallb (fun n => str_eqb (fmt_wd 4 n)
    (String (digit (n / 1000)) (String (digit (n / 100)) (String (digit (n / 10)) (String (digit n) EmptyString)))))
    (zrange 1000 2000) = true) by (vm_compute; reflexivity).
  rewrite forallb_forall in S. apply str_eqb_eq, S, in_zrange. lia.
Qed.
Lemma format_date_iso mjd : 0 <= mjd < 100000 ->
  let '(y, m, d) := mjd2date mjd in strlcpy FLEN_VALUE (format_date (y, m, d)) = iso_date y m d.
Proof.
  intros H. pose proof (mjd_year_bounds mjd H) as B.
  destruct (mjd2date mjd) as [[y m] d]. destruct B as (By & Bm & Bd).
  unfold format_date. rewrite four_digits, !two_digits by lia. reflexivity.
Qed.

Lemma set_oi_header_ok o : wf_fits o = true -> all_mjd o <> [] ->
  forallb mjd_in_range (all_mjd o) = true ->
  forallb (fun a => fits_value (ar_arrname a)) (o_arrayList o) = true ->
  forallb (fun w => fits_value (wv_insname w)) (o_wavelengthList o) = true ->
  forallb (fun t => fits_value (tg_target t)) (ot_targ (o_targets o)) = true ->
  exists h, set_oi_header o = Ok h /\ header_from_tables o (o_header o) h.
Proof.
  intros Hw Hne Hr Fa Fw Ft.
  destruct (min_mjd_earliest o Hw Hne Hr) as (m & Em & Lm).
  pose proof Lm as [Hin _].
  rewrite forallb_forall in Hr.
  destruct (mjd_in_range_floor m (Hr m Hin)) as (z & Ez & Hz).
  destruct (floor_Z_Qfloor m z Ez) as (q & Eq & ->).
  destruct (mjd2date_correct (Qfloor q)) as [D1 D2]; [unfold first_mjd; lia|].
  pose proof (format_date_iso _ Hz) as F.
  destruct (mjd2date (Qfloor q)) as [[y mo] d] eqn:Ed.
  apply wf_fits_parts in Hw as (Wt&_&_&_&_&_&_&_&_&Wa&Ww).
  unfold wf_targets in Wt. apply len_is_eq in Wt, Wa, Ww.
  unfold set_oi_header. rewrite Em, Wa, Ww, Wt.
  assert (TA : (if Z.of_nat (length (o_arrayList o)) =? 0 then Ok "UNKNOWN"%string
     else if Z.of_nat (length (o_arrayList o)) =? 1 then
       a <- head_res (o_arrayList o) ;; Ok (strlcpy FLEN_VALUE (ar_arrname a))
     else Ok "MULTIPLE"%string) = Ok (only_name ar_arrname "UNKNOWN" (o_arrayList o))).
  { destruct (o_arrayList o) as [|a [|b l]]; try reflexivity.
    - cbn [forallb] in Fa. cbn [length head_res bind only_name].
      apply andb_true_iff in Fa as [Fa _]. rewrite strlcpy_fits by exact Fa. reflexivity.
    - cbn [length only_name]. destruct (Z.eqb_spec (Z.of_nat (S (S (length l)))) 0); [lia|].
      destruct (Z.eqb_spec (Z.of_nat (S (S (length l)))) 1); [lia|]. reflexivity. }
  assert (TW : (if Z.of_nat (length (o_wavelengthList o)) =? 1 then
       w <- head_res (o_wavelengthList o) ;; Ok (strlcpy FLEN_VALUE (wv_insname w))
     else Ok "MULTIPLE"%string) = Ok (only_name wv_insname "MULTIPLE" (o_wavelengthList o))).
  { destruct (o_wavelengthList o) as [|a [|b l]]; try reflexivity.
    - cbn [forallb] in Fw. cbn [length head_res bind only_name].
      apply andb_true_iff in Fw as [Fw _]. rewrite strlcpy_fits by exact Fw. reflexivity.
    - cbn [length only_name].
      destruct (Z.eqb_spec (Z.of_nat (S (S (length l)))) 1); [lia|]. reflexivity. }
  assert (TT : (if Z.of_nat (length (ot_targ (o_targets o))) =? 1 then
       t <- get (ot_targ (o_targets o)) 0 ;; Ok (strlcpy FLEN_VALUE (tg_target t))
     else Ok "MULTIPLE"%string) = Ok (only_name tg_target "MULTIPLE" (ot_targ (o_targets o)))).
  { destruct (ot_targ (o_targets o)) as [|a [|b l]]; try reflexivity.
    - cbn [forallb] in Ft. cbn [length only_name].
      apply andb_true_iff in Ft as [Ft _]. change (get [a] 0) with (Ok a).
      cbn [bind Z.of_nat Pos.of_succ_nat Z.eqb Pos.eqb].
      rewrite strlcpy_fits by exact Ft. reflexivity.
    - cbn [length only_name].
      destruct (Z.eqb_spec (Z.of_nat (S (S (length l)))) 1); [lia|]. reflexivity. }
  rewrite TA, TW, TT. cbn [bind]. rewrite Ez, Ed. eexists. split; [reflexivity|].
  unfold header_from_tables; cbn [h_telescop h_instrume h_object h_date_obs h_origin h_observer
    h_insmode h_date h_content h_referenc h_author h_prog_id h_procsoft h_obstech].
  repeat split. exists m, q, y, mo, d. rewrite F. auto.
Qed.

(** ** Remaining lemmas for FileProps *)

Lemma dup_oi_vis_counterexample : exists t t',
  wf_vis t = true /\ 0 < tb_numrec t /\ 0 < tb_nwave t /\ dup_oi_vis t = Ok t' /\ t' <> t
  /\ map vr_iviserr (tb_record t') = map vr_rviserr (tb_record t)
  /\ map vr_iviserr (tb_record t') <> map vr_iviserr (tb_record t).
Proof.
  exists s_vis.
  set (t' := set_record (map (vis_dup_image (tb_x s_vis)) (tb_record s_vis)) s_vis).
  assert (N : map vr_iviserr (tb_record t') <> map vr_iviserr (tb_record s_vis)).
  { vm_compute. discriminate. }
  exists t'. repeat split; try (vm_compute; reflexivity).
  - intros E. apply N. rewrite E. reflexivity.
  - exact N.
Qed.

Lemma dup_empty_aborts :
  (forall t, ot_ntarget t <= 0 -> dup_oi_target t = Abort)
  /\ (forall a, ar_nelement a <= 0 -> dup_oi_array a = Abort)
  /\ (forall w, wv_nwave w <= 0 -> dup_oi_wavelength w = Abort)
  /\ (forall c, co_ncorr c <= 0 -> dup_oi_corr c = Abort)
  /\ (forall t, is_numrec t <= 0 -> dup_oi_inspol t = Abort)
  /\ (forall t, tb_numrec t <= 0 -> dup_oi_vis t = Abort)
  /\ (forall t, tb_numrec t <= 0 -> dup_oi_vis2 t = Abort)
  /\ (forall t, tb_numrec t <= 0 -> dup_oi_t3 t = Abort)
  /\ (forall t, tb_numrec t <= 0 -> dup_oi_flux t = Abort).
Proof.
  repeat split; intros t H;
    unfold dup_oi_target, dup_oi_array, dup_oi_wavelength, dup_oi_corr, dup_oi_inspol,
      dup_oi_vis, dup_oi_vis2, dup_oi_t3, dup_oi_flux, dup_dtab;
    rewrite memdup_zero by exact H; reflexivity.
Qed.

Lemma upgrade_oi_target_ok t :
  (ot_revision t = 1 -> upgrade_oi_target t
     = mk_oi_target 2 (ot_ntarget t) (ot_targ t) (ot_usecategory t))
  /\ (ot_revision t <> 1 -> upgrade_oi_target t = t).
Proof. unfold upgrade_oi_target. destruct (Z.eqb_spec (ot_revision t) 1); split; intros; auto; contradiction. Qed.
Lemma upgrade_oi_array_ok a :
  (ar_revision a = 1 -> upgrade_oi_array a
     = mk_array 2 (ar_arrname a) (ar_frame a) (ar_arrayx a) (ar_arrayy a) (ar_arrayz a)
         (ar_nelement a) (ar_elem a))
  /\ (ar_revision a <> 1 -> upgrade_oi_array a = a).
Proof. unfold upgrade_oi_array. destruct (Z.eqb_spec (ar_revision a) 1); split; intros; auto; contradiction. Qed.
Lemma upgrade_oi_wavelength_ok w :
  (wv_revision w = 1 -> upgrade_oi_wavelength w
     = mk_wavelength 2 (wv_insname w) (wv_nwave w) (wv_eff_wave w) (wv_eff_band w))
  /\ (wv_revision w <> 1 -> upgrade_oi_wavelength w = w).
Proof. unfold upgrade_oi_wavelength. destruct (Z.eqb_spec (wv_revision w) 1); split; intros; auto; contradiction. Qed.
Lemma upgrade_idempotent :
  (forall t t', upgrade_oi_vis t = Ok t' -> upgrade_oi_vis t' = Ok t')
  /\ (forall t t', upgrade_oi_vis2 t = Ok t' -> upgrade_oi_vis2 t' = Ok t')
  /\ (forall t t', upgrade_oi_t3 t = Ok t' -> upgrade_oi_t3 t' = Ok t').
Proof. repeat split; intros t t'; apply upgrade_dtab_idem. Qed.

Lemma assemble_inv h tg arrays waves corrs inspols vis vis2 t3 flux o :
  assemble h tg arrays waves corrs inspols vis vis2 t3 flux = Ok o ->
  let ix := index_all arrays waves corrs vis vis2 t3 flux in
  o_arrayHash o = ix_array ix /\ o_wavelengthHash o = ix_wavelength ix /\ o_corrHash o = ix_corr ix.
Proof.
  unfold assemble. cbv zeta. destruct (is_oi_fits_two _).
  - intros [= <-]. auto.
  - intros H. apply bind_inv in H as (h' & _ & H). injection H as <-. auto.
Qed.

Lemma sound_first_match {V} (nm : V -> string) l h k v :
  sound nm l h -> hash_lookup h k = Some v -> first_match (fun x => nm x = k) l v.
Proof.
  intros S H. unfold hash_lookup in H. destruct (hash_find h k) as [w|] eqn:E; [|discriminate].
  subst w. apply S in E. pose proof (find_by_lookup_result nm l k) as L.
  rewrite <- E in L. exact L.
Qed.

Lemma assemble_sound h tg arrays waves corrs inspols vis vis2 t3 flux o :
  assemble h tg arrays waves corrs inspols vis vis2 t3 flux = Ok o ->
  (forall name a, oi_fits_lookup_array o name = Some a ->
     first_match (fun x => ar_arrname x = name) arrays a)
  /\ (forall name w, oi_fits_lookup_wavelength o name = Some w ->
     first_match (fun x => wv_insname x = name) waves w)
  /\ (forall name c, oi_fits_lookup_corr o name = Some c ->
     first_match (fun x => co_corrname x = name) corrs c).
Proof.
  intros H. apply assemble_inv in H as (Ea & Ew & Ec).
  destruct (index_all_ok arrays waves corrs vis vis2 t3 flux) as ((Sa & Sw & Sc) & _).
  unfold oi_fits_lookup_array, oi_fits_lookup_wavelength, oi_fits_lookup_corr.
  rewrite Ea, Ew, Ec. repeat split; intros name v; now apply sound_first_match.
Qed.

Lemma assemble_complete h tg arrays waves corrs inspols vis vis2 t3 flux o :
  assemble h tg arrays waves corrs inspols vis vis2 t3 flux = Ok o ->
  let refs {X R} (t : dtab X R) :=
    (tb_arrname t <> ""%string ->
     lookup_result (fun x => ar_arrname x = tb_arrname t) arrays
       (oi_fits_lookup_array o (tb_arrname t)))
    /\ lookup_result (fun x => wv_insname x = tb_insname t) waves
         (oi_fits_lookup_wavelength o (tb_insname t)) in
  let corr_ref {X R} (t : dtab X R) :=
    tb_corrname t <> ""%string ->
    lookup_result (fun x => co_corrname x = tb_corrname t) corrs
      (oi_fits_lookup_corr o (tb_corrname t)) in
  (forall t, In t vis -> refs t /\ corr_ref t)
  /\ (forall t, In t vis2 -> refs t /\ corr_ref t)
  /\ (forall t, In t t3 -> refs t /\ corr_ref t)
  /\ (forall t, In t flux -> refs t).
Proof.
  intros H refs corr_ref. apply assemble_inv in H as (Ea & Ew & Ec).
  destruct (index_all_ok arrays waves corrs vis vis2 t3 flux) as (_ & T1 & T2 & T3 & T4).
  assert (Ra : forall k, arr_done arrays (index_all arrays waves corrs vis vis2 t3 flux) k ->
     lookup_result (fun x => ar_arrname x = k) arrays (oi_fits_lookup_array o k)).
  { intros k D. unfold oi_fits_lookup_array. rewrite Ea, D. apply find_by_lookup_result. }
  assert (Rw : forall k, ins_done waves (index_all arrays waves corrs vis vis2 t3 flux) k ->
     lookup_result (fun x => wv_insname x = k) waves (oi_fits_lookup_wavelength o k)).
  { intros k D. unfold oi_fits_lookup_wavelength. rewrite Ew, D. apply find_by_lookup_result. }
  assert (Rc : forall k, corr_done corrs (index_all arrays waves corrs vis vis2 t3 flux) k ->
     lookup_result (fun x => co_corrname x = k) corrs (oi_fits_lookup_corr o k)).
  { intros k D. unfold oi_fits_lookup_corr. rewrite Ec, D. apply find_by_lookup_result. }
  unfold refs, corr_ref. repeat apply conj.
  - intros t Hin. destruct (T1 t Hin) as (P & Q & W). auto.
  - intros t Hin. destruct (T2 t Hin) as (P & Q & W). auto.
  - intros t Hin. destruct (T3 t Hin) as (P & Q & W). auto.
  - intros t Hin. destruct (T4 t Hin) as (P & Q). auto.
Qed.

Lemma flux_corrname_not_indexed : exists h tg arrays waves corrs flux o t c,
  assemble h tg arrays waves corrs [] [] [] [] flux = Ok o /\ In t flux /\ In c corrs
  /\ co_corrname c = tb_corrname t /\ oi_fits_lookup_corr o (tb_corrname t) = None.
Proof.
  set (t := set_corrname "CORR1" s_flux).
  set (o := match assemble s_header s_targets [s_array1] [s_wave1] [s_corr] [] [] [] [] [t] with
            | Ok o => o | _ => init_oi_fits end).
  exists s_header, s_targets, [s_array1], [s_wave1], [s_corr], [t], o, t, s_corr.
  split; [vm_compute; reflexivity|]. split; [now left|]. split; [now left|].
  split; vm_compute; reflexivity.
Qed.

Lemma inspol_arrname_not_indexed : exists h tg arrays waves inspols o t a w r,
  assemble h tg arrays waves [] inspols [] [] [] [] = Ok o /\ In t inspols /\ In a arrays
  /\ ar_arrname a = is_arrname t /\ oi_fits_lookup_array o (is_arrname t) = None
  /\ In r (is_record t) /\ In w waves /\ wv_insname w = ip_insname r
  /\ oi_fits_lookup_wavelength o (ip_insname r) = None.
Proof.
  set (o := match assemble s_header s_targets [s_array1] [s_wave1] [] [s_inspol] [] [] [] [] with
            | Ok o => o | _ => init_oi_fits end).
  exists s_header, s_targets, [s_array1], [s_wave1], [s_inspol], o, s_inspol, s_array1, s_wave1,
    (mk_inspol_record 4 "GRAVITY" (fl 58848 1) (fl 58849 1) s_cplx s_cplx s_cplx s_cplx 1).
  split; [vm_compute; reflexivity|]. split; [now left|]. split; [now left|].
  split; [reflexivity|]. split; [vm_compute; reflexivity|]. split; [now left|].
  split; [now left|]. split; vm_compute; reflexivity.
Qed.

(** One record, MJD 100001: the time span is 0 days, yet is_atomic compares
    100001 with the initial value 100000 of the minimum. *)
Definition late_v1 : oi_fits :=
  mk_fits empty_header (mk_oi_target 1 1 [s_target 1 "alpha"] false) 0 1 0 0 0 1 0 0
    [] [s_wave2] [] []
    [] [mk_dtab 1 "" "" "PIONIER" "" tt 1 2 [s_vis2_record 1 100001 [false; false]]] [] []
    [] [] [].
Lemma is_atomic_counterexample : exists o maxDays lo hi,
  wf_fits o = true /\ earliest (all_mjd o) lo /\ latest (all_mjd o) hi
  /\ SFltb maxDays (SFabs (f64_sub hi lo)) = false /\ is_atomic o maxDays = Ok false
  /\ (length (o_arrayList o) <= 1)%nat /\ length (o_wavelengthList o) = 1%nat
  /\ length (ot_targ (o_targets o)) = 1%nat.
Proof.
  exists late_v1, (fl 1 2), (fl 100001 1), (fl 100001 1).
  split; [vm_compute; reflexivity|].
  split. { split; [left; reflexivity|]. intros x [<-|[]]. vm_compute. reflexivity. }
  split. { split; [left; reflexivity|]. intros x [<-|[]]. vm_compute. reflexivity. }
  split; [vm_compute; reflexivity|]. split; [vm_compute; reflexivity|].
  split; [auto|]. split; reflexivity.
Qed.

Lemma is_two_spec o : is_oi_fits_two o = true <-> h_content (o_header o) = "OIFITS2"%string.
Proof. apply str_eqb_eq. Qed.
Lemma one_two_exclusive o : is_oi_fits_one o = true -> is_oi_fits_two o = false.
Proof. rewrite is_one_spec. intros (H & _). now apply str_eqb_neq. Qed.
Lemma init_neither : is_oi_fits_one init_oi_fits = false /\ is_oi_fits_two init_oi_fits = false.
Proof. split; reflexivity. Qed.
