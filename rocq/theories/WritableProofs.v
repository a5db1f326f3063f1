(** The status after each call of write_fits.c, whatever the contents. *)
From Coq Require Import Lia.
From Verif Require Import BaseLemmas FileModel IOSpec FitsText FitsRows WriteModel WriteTables WritableSpec.
Open Scope list_scope.
Open Scope Z_scope.

(** the current HDU has columns of these forms *)
Definition ready (fs : list form) (s : wstate) : Prop :=
  snd s = 0 /\ exists h, chdu (fst s) = Some h /\ map c_form (hd_cols h) = fs.
Definition acts (a : wstate -> res wstate) (fs : list form) (b : bool) (fs' : list form) : Prop :=
  (forall s, snd s <> 0 -> a s = Ok s)
  /\ forall s, ready fs s -> exists s', a s = Ok s' /\ if b then ready fs' s' else snd s' <> 0.

Lemma acts_seq a b fs x fs' y fs'' : acts a fs x fs' -> acts b fs' y fs'' -> acts (a ;> b) fs (x && y) fs''.
Proof.
  intros [A1 A2] [B1 B2]. split.
  - intros s H. unfold seq_. rewrite (A1 s H), bind_Ok. auto.
  - intros s H. unfold seq_. destruct (A2 s H) as (s' & -> & Hs). rewrite bind_Ok. destruct x; cbn [andb].
    + now apply B2.
    + exists s'. split; [now apply B1|exact Hs].
Qed.
Lemma acts_bool a fs x y fs' : x = y -> acts a fs x fs' -> acts a fs y fs'.
Proof. now intros <-. Qed.
Lemma acts_skip fs : acts skip_ fs true fs.
Proof. split; intros s H; [reflexivity|]. exists s. now split. Qed.
Lemma acts_when c a fs x fs' : (c = true -> acts a fs x fs') ->
  acts (when c a) fs (negb c || x) (if c then fs' else fs).
Proof. intros H. destruct c; cbn [when negb orb]; [now apply H|apply acts_skip]. Qed.

Lemma chdu_put f h h' : chdu f = Some h -> chdu (put_hdu (f_cur f) h' f) = Some h'.
Proof.
  unfold chdu, put_hdu. cbn [f_cur f_hdus]. destruct (f_cur f <? 1); [discriminate|].
  intros H. rewrite nth_at_nth_same, H. reflexivity.
Qed.
Lemma acts_op op fs (x : bool) fs' :
  (forall h, map c_form (hd_cols h) = fs ->
     (snd (op h) = 0 <-> x = true) /\ (x = true -> map c_form (hd_cols (fst (op h))) = fs')) ->
  acts (on_chdu op) fs x fs'.
Proof.
  intros Hop. split.
  - intros [f st] H. unfold on_chdu. cbn [snd] in H. destruct (Z.eqb_spec st 0); [contradiction|]. reflexivity.
  - intros [f st] (H0 & h & Hh & Hf). cbn [fst snd] in *. subst st. unfold on_chdu. cbn [Z.eqb negb].
    rewrite Hh. destruct (Hop h Hf) as [H1 H2]. destruct (op h) as [h' e]. cbn [fst snd] in *.
    eexists. split; [reflexivity|]. destruct x.
    + split; [cbn [snd]; tauto|]. exists h'. split; [now apply chdu_put with h|auto].
    + cbn [snd]. intros ->. destruct H1 as [H1 _]. now specialize (H1 eq_refl).
Qed.
Ltac same := apply acts_op; intros h Hh; cbn [fst snd]; split; [tauto|intros _; exact Hh].
Lemma acts_str k v fs : acts (write_key_str k v) fs true fs.
Proof. same. Qed.
Lemma acts_int k v fs : acts (write_key_int k v) fs true fs.
Proof. same. Qed.
Lemma acts_double E k v fs : acts (write_key_double E k v) fs (key_double E v) fs.
Proof.
  apply acts_op. intros h Hh. unfold key_double. destruct (cf_key_double E v); cbn; split; try tauto; try easy.
Qed.
Lemma update_cols k v h : hd_cols (update_key k v h) = hd_cols h.
Proof. unfold update_key. now destruct (find_key k (hd_keys h)). Qed.
Lemma acts_date E fs : acts (fits_write_date E) fs true fs.
Proof. apply acts_op. intros h Hh. cbn [fst snd]. rewrite update_cols. tauto. Qed.
Lemma acts_chksum E fs : acts (fits_write_chksum E) fs true fs.
Proof.
  apply acts_op. intros h Hh. destruct (cf_sums E h). cbn [fst snd]. rewrite !update_cols. tauto.
Qed.
Lemma on_col_forms k f h : (forall c, c_form (f c) = c_form c) ->
  map c_form (hd_cols (on_col k f h)) = map c_form (hd_cols h).
Proof.
  intros H. unfold on_col. cbn [hd_cols]. destruct (k <? 1); [reflexivity|].
  generalize (Z.to_nat (k - 1)). induction (hd_cols h) as [|c l IH]; intros [|n]; cbn [at_nth map]; f_equal; auto.
Qed.
Lemma acts_tunit k u fs : acts (write_tunit k u) fs true fs.
Proof. apply acts_op. intros h Hh. cbn [fst snd]. rewrite on_col_forms by reflexivity. tauto. Qed.
Lemma acts_tdim k u fs : acts (write_tdim k u) fs true fs.
Proof. apply acts_op. intros h Hh. cbn [fst snd]. rewrite on_col_forms by reflexivity. tauto. Qed.
Lemma acts_insert k l fs : 1 <= k <= Z.of_nat (List.length fs) + 1 ->
  acts (fits_insert_cols k l) fs true
    (firstn (Z.to_nat (k - 1)) fs ++ map snd l ++ skipn (Z.to_nat (k - 1)) fs).
Proof.
  intros Hk. apply acts_op. intros h Hh. unfold insert_cols.
  assert (Hl : List.length (hd_cols h) = List.length fs) by (rewrite <- Hh; now rewrite map_length).
  rewrite Hl. destruct (Z.ltb_spec k 1); [lia|]. destruct (Z.ltb_spec (Z.of_nat (List.length fs) + 1) k); [lia|].
  cbn [orb fst snd hd_cols]. split; [tauto|]. intros _. rewrite !map_app, map_map, <- Hh, firstn_map, skipn_map.
  reflexivity.
Qed.

(** ** Cells *)

Definition stores (F : form) (vs : list value) : bool := forallb (fun v => negb (snd (store F v))) vs.
Lemma stores_overflow F vs : existsb snd (map (store F) vs) = negb (stores F vs).
Proof.
  unfold stores. induction vs as [|v l IH]; cbn [map existsb forallb]; [reflexivity|]. rewrite IH.
  now destruct (snd (store F v)).
Qed.
Lemma acts_col k irow vs fs F :
  1 <= k -> nth_error fs (Z.to_nat (k - 1)) = Some F -> (vs = [] \/ 1 <= per_row F) ->
  acts (fits_write_col k irow vs) fs (stores F vs) fs.
Proof.
  intros Hk HF Hp. apply acts_op. intros h Hh. unfold write_col, nth_col.
  destruct (Z.ltb_spec k 1); [lia|].
  assert (Hc : exists c, nth_error (hd_cols h) (Z.to_nat (k - 1)) = Some c /\ c_form c = F).
  { rewrite <- Hh, nth_error_map in HF. destruct (nth_error (hd_cols h) (Z.to_nat (k - 1))) as [c|]; [|discriminate].
    injection HF as HF. eauto. }
  destruct Hc as (c & -> & Hc). rewrite Hc. destruct vs as [|v vs]; [cbn; tauto|].
  destruct Hp as [?|Hp]; [discriminate|].
  destruct (Z.ltb_spec (per_row F) 1); [lia|]. cbn [fst snd hd_cols]. rewrite stores_overflow. split.
  - destruct (stores F (v :: vs)); cbn [negb]; unfold NUM_OVERFLOW; split; try easy; lia.
  - intros _.
    assert (He : forall n h, map c_form (hd_cols (extend_rows n h)) = map c_form (hd_cols h)).
    { intros n h0. unfold extend_rows. destruct (n <=? hd_nrows h0); [reflexivity|]. cbn [hd_cols].
      rewrite map_map. now apply map_ext. }
    rewrite <- Hh, <- (He (last_row F irow (Z.of_nat (List.length (v :: vs))))).
    generalize (hd_cols (extend_rows (last_row F irow (Z.of_nat (List.length (v :: vs)))) h)).
    generalize (Z.to_nat (k - 1)). intros n l. revert n.
    induction l as [|c0 l IH]; intros [|n]; cbn [at_nth map]; f_equal; auto.
Qed.

Definition defined (fs : list form) (kv : Z * res (list value)) : Prop :=
  exists vs F, snd kv = Ok vs /\ 1 <= fst kv /\ nth_error fs (Z.to_nat (fst kv - 1)) = Some F
               /\ (vs = [] \/ 1 <= per_row F).
Definition cell_stores (fs : list form) (kv : Z * res (list value)) : bool :=
  match snd kv, nth_error fs (Z.to_nat (fst kv - 1)) with
  | Ok vs, Some F => stores F vs
  | _, _ => false
  end.
Lemma acts_cells fs irow l : Forall (defined fs) l ->
  acts (write_cells irow l) fs (forallb (cell_stores fs) l) fs.
Proof.
  intros H. unfold write_cells. induction H as [|[k v] l Hd Hl IH]; [apply acts_skip|].
  cbn [forallb].
  destruct Hd as (vs & F & Hv & Hk & HF & Hp). cbn [fst snd] in *. subst v.
  replace (cell_stores fs (k, Ok vs)) with (stores F vs) by (unfold cell_stores; cbn [fst snd]; now rewrite HF).
  pose proof (acts_seq _ _ _ _ _ _ _ (acts_col k irow vs fs F Hk HF Hp) IH) as H. exact H.
Qed.
Lemma acts_ext a b fs x fs' : (forall s, a s = b s) -> acts b fs x fs' -> acts a fs x fs'.
Proof.
  intros H [H1 H2]. split; intros s Hs; rewrite H; auto.
Qed.
Lemma acts_rows {R} fs n (records : list R) cells :
  len_is n records = true -> Forall (fun r => Forall (defined fs) (cells r)) records ->
  acts (write_rows n records cells) fs (forallb (fun r => forallb (cell_stores fs) (cells r)) records) fs.
Proof.
  intros Hn H. apply Z.eqb_eq in Hn.
  apply (acts_ext _ (rows_loop cells 1 records)); [intros s; apply write_rows_loop; lia|].
  clear Hn. generalize 1. induction H as [|r l Hr Hl IH]; intros irow; cbn [rows_loop forallb]; [apply acts_skip|].
  apply acts_seq with fs; [now apply acts_cells|apply IH].
Qed.
