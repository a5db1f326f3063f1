(** Tables lacking a mandatory keyword or column are not read. *)
From Coq Require Import Lia.
From Verif Require Import BaseLemmas FileProofs ReadModel IOClaims ReadFile IOProofs.
Open Scope list_scope.
Open Scope Z_scope.

(** ** Computations once *pStatus is set, or setting it *)

Definition sticky {A} (m : rd A) : Prop :=
  forall st a st', m st = Ok (a, st') -> st <> 0 -> st' = st.
Definition fails {A} (m : rd A) : Prop := forall st a st', m st = Ok (a, st') -> st' <> 0.

Lemma sticky_ret {A} (a : A) : sticky (rret a).
Proof. intros st b st' [= <- <-]. auto. Qed.
Lemma sticky_bind {A B} (x : rd A) (k : A -> rd B) : sticky x -> (forall a, sticky (k a)) -> sticky (rbind x k).
Proof.
  intros Hx Hk st b st' He Hs. unfold rbind in He. apply bind_inv in He as ((a, st1) & H1 & H2).
  cbn [fst snd] in H2. rewrite (Hx _ _ _ H1 Hs) in *. exact (Hk _ _ _ _ H2 Hs).
Qed.
Lemma sticky_status : sticky get_status.
Proof. intros st a st' [= <- <-]. auto. Qed.
Lemma sticky_lift {A} (x : res A) : sticky (lift x).
Proof. intros st a st' He. unfold lift in He. apply bind_inv in He as (b & _ & He). injection He as <- <-. auto. Qed.
Lemma sticky_call {A} (r : A + Z) : sticky (call r).
Proof. intros st a st' He Hs. unfold call in He. destruct (Z.eqb_spec st 0); [congruence|]. now injection He as <- <-. Qed.
(** [if ( *pStatus) ...] *)
Lemma sticky_guard {A} (k k' : Z -> rd A) :
  (forall st, sticky (k st)) -> sticky (st <~ get_status ;~ if negb (st =? 0) then k st else k' st).
Proof.
  intros H st a st' He Hs. unfold rbind, get_status in He. rewrite bind_Ok in He. cbn [fst snd] in He.
  destruct (Z.eqb_spec st 0); [congruence|]. cbn [negb] in He. exact (H _ _ _ _ He Hs).
Qed.
Lemma sticky_unless {A} (k : rd (option A)) : sticky (unless_error k).
Proof. apply sticky_guard. intros. apply sticky_ret. Qed.
Lemma sticky_key_opt {A} (d : A) m : sticky (key_opt d m).
Proof. apply sticky_guard. intros. apply sticky_ret. Qed.
Lemma sticky_rows_from {A B} (f : Z -> A -> rd B) l : (forall i a, sticky (f i a)) ->
  forall i, sticky (rows_from i l f).
Proof.
  intros H. induction l as [|a l IH]; intros i; [apply sticky_ret|]. cbn [rows_from].
  apply sticky_bind; [apply H|]. intros b. apply sticky_bind; [apply IH|]. intros r. apply sticky_ret.
Qed.
Ltac sticky1 := first
  [ apply sticky_ret | apply sticky_lift | apply sticky_unless | apply sticky_key_opt
  | apply sticky_call | apply sticky_guard; intros
  | apply sticky_rows_from; intros
  | apply sticky_bind; [|intros]
  | apply sticky_status
  | match goal with |- sticky (if ?b then _ else _) => destruct b end
  | match goal with |- sticky (match ?b with _ => _ end) => destruct b end ].
Ltac stickies := repeat sticky1.
Ltac unfold_reads := unfold int_if, int_at, dbl_at, flt_at, dbls_at, flts_at, ints_at, bools_at, cplxs_at,
  str_at, str_trunc_at, key_str, key_int, key_dbl, key_opt_str, key_opt_int, key_opt_dbl, read_corrname,
  read_key_opt_string, read_key_opt_int, read_key_opt_double, pair_at, triple_at, dimensions, cell1, celln,
  read_col_string, read_col_string_truncate, column_number, bad_format, read_col, get_colnum, get_coltype,
  get_num_rows, read_tunit, read_key_str, read_key_int, read_key_double, new_rows, each_row.

Lemma fails_left {A B} (x : rd A) (k : A -> rd B) : fails x -> (forall a, sticky (k a)) -> fails (rbind x k).
Proof.
  intros Hx Hk st b st' He. unfold rbind in He. apply bind_inv in He as ((a, st1) & H1 & H2).
  cbn [fst snd] in H2. apply Hx in H1. rewrite (Hk _ _ _ _ H2 H1). exact H1.
Qed.
Lemma fails_right {A B} (x : rd A) (k : A -> rd B) : (forall a, fails (k a)) -> fails (rbind x k).
Proof.
  intros Hk st b st' He. unfold rbind in He. apply bind_inv in He as ((a, st1) & H1 & H2).
  cbn [fst snd] in H2. now apply Hk in H2.
Qed.
Lemma fails_unless {A} (k : rd (option A)) : fails k -> fails (unless_error k).
Proof.
  intros H st a st' He. unfold unless_error, rbind, get_status in He. rewrite bind_Ok in He. cbn [fst snd] in He.
  destruct (Z.eqb_spec st 0); cbn [negb] in He; [now apply H in He|]. now injection He as <- <-.
Qed.
Lemma fails_call {A} (e : Z) : e <> 0 -> fails (call (A := A) (inr e)).
Proof.
  intros H st a st' He. unfold call in He. destruct (Z.eqb_spec st 0); cbn [negb] in He; now injection He as <- <-.
Qed.
Lemma fails_alloc {A} n w (k : unit -> rd A) :
  (0 < n -> fails (k tt)) -> fails (rbind (lift (alloc_records n w)) k).
Proof.
  intros H st a st' He. unfold rbind, lift in He. apply bind_inv in He as ((u, st1) & H1 & H2).
  apply bind_inv in H1 as ([] & H0 & H1). injection H1 as <- <-. cbn [fst snd] in H2.
  unfold alloc_records in H0. apply bind_inv in H0 as ([] & H0 & _). unfold chkmalloc in H0.
  destruct (Z.ltb_spec 0 n); [|discriminate]. now apply H in H2.
Qed.
Lemma fails_new_rows {B} n (f : Z -> rd B) :
  0 < n -> fails (f 1) -> (forall i, sticky (f i)) -> fails (new_rows n f).
Proof.
  intros Hn Hf Hs. unfold new_rows, each_row.
  destruct (Z.to_nat n) eqn:E; [lia|]. cbn [repeat rows_from]. apply fails_left; [exact Hf|].
  intros b. apply sticky_bind; [|intros; apply sticky_ret]. apply sticky_rows_from. intros. apply Hs.
Qed.

(** ** Keywords and columns *)

Lemma find_cols_length name l : forall i,
  List.length (find_cols name i l) = List.length (filter (fun c => str_eqb (upper (c_name c)) (upper name)) l).
Proof.
  induction l as [|c l IH]; intros i; [reflexivity|]. cbn [find_cols filter].
  destruct (str_eqb (upper (c_name c)) (upper name)); cbn [List.length]; now rewrite IH.
Qed.
Lemma fails_colnum h name : lacks_column h name -> fails (get_colnum h name).
Proof.
  intros H. unfold lacks_column, columns in H. rewrite <- (find_cols_length _ _ 1) in H. unfold get_colnum.
  destruct (find_cols name 1 (hd_cols h)) as [|k [|k' l]]; [now apply fails_call|now elim H|now apply fails_call].
Qed.
Lemma fails_column_number h name k : lacks_column h name -> fails (column_number h false name k).
Proof.
  intros H st a st' He. unfold column_number, rbind at 1, get_status in He. rewrite bind_Ok in He. cbn [fst snd] in He.
  destruct (Z.eqb_spec st 0) as [->|Hn]; cbn [negb] in He; [|now injection He as <- <-].
  unfold rbind at 1 in He. apply bind_inv in He as ((c, st1) & Hc & He). cbn [fst snd] in He.
  assert (H1 := fails_colnum h name H _ _ _ Hc).
  unfold get_colnum, call in Hc. cbn [Z.eqb negb] in Hc. unfold rbind in He. rewrite bind_Ok in He. cbn [fst snd] in He.
  destruct (Z.eqb_spec st1 COL_NOT_FOUND).
  - unfold rret in He. rewrite bind_Ok in He. now injection He as <- <-.
  - destruct (find_cols name 1 (hd_cols h)) as [|? [|? ?]]; injection Hc as <- <-; cbn in He; congruence.
Qed.
Lemma fails_key {E h k} : lacks_keyword h k ->
  fails (read_key_str E h k) /\ fails (read_key_int E h k) /\ fails (read_key_double E h k).
Proof.
  intros H. unfold lacks_keyword in H. unfold read_key_str, read_key_int, read_key_double. rewrite H.
  repeat split; now apply fails_call.
Qed.

(** cells and keywords: [Hm : lacks_column h _] or [lacks_keyword h _] *)
Ltac missing Hm := first
  [ apply (proj1 (fails_key Hm)) | apply (proj1 (proj2 (fails_key Hm))) | apply (proj2 (proj2 (fails_key Hm)))
  | exact (fails_colnum _ _ Hm) | exact (fails_column_number _ _ _ Hm) ].
Ltac miss Hm := first
  [ missing Hm
  | unfold int_at, dbl_at, flt_at, dbls_at, flts_at, ints_at, bools_at, cplxs_at, str_at, str_trunc_at, key_str,
      key_int, key_dbl, pair_at, triple_at, dimensions, cell1, celln, read_col_string, read_col_string_truncate;
    first [ missing Hm
          | apply fails_left; [miss_in Hm|intros; unfold_reads; stickies]
          | apply fails_right; intros; miss_in Hm ] ]
with miss_in Hm := first
  [ missing Hm
  | apply fails_left; [miss_in Hm|intros; unfold_reads; stickies]
  | apply fails_right; intros; miss_in Hm ].

Section Kinds.
Variable E : cfitsio.

Lemma unreadable {A} name (r : hdu -> rd (option A)) h :
  (forall h, agrees (r h)) -> fails (r h) -> readable (read_next E name r) h = [].
Proof.
  intros Ha Hf. unfold readable. destruct (named E name h) eqn:Hn.
  - rewrite alone_named by exact Hn. destruct (r h 0) as [(a, st)| |] eqn:Hr; [|reflexivity|reflexivity].
    rewrite bind_Ok. cbn [fst snd]. destruct a; [|reflexivity].
    assert (Hs := Hf _ _ _ Hr). apply (Ha h _ _ _ Hr) in Hs. discriminate.
  - now rewrite alone_other.
Qed.

Lemma sticky_vis_record h w i : sticky (read_vis_record E h w i).
Proof. unfold read_vis_record; unfold_reads. stickies. Qed.
Lemma sticky_vis2_record h w c i : sticky (read_vis2_record E h w c i).
Proof. unfold read_vis2_record; unfold_reads. stickies. Qed.
Lemma sticky_t3_record h w c i : sticky (read_t3_record E h w c i).
Proof. unfold read_t3_record; unfold_reads. stickies. Qed.
Lemma sticky_inspol_record h w i : sticky (read_inspol_record E h w i).
Proof. unfold read_inspol_record; unfold_reads. stickies. Qed.
Lemma sticky_vis_opt h rv w u l : sticky (read_oi_vis_opt E h rv w u l).
Proof. unfold read_oi_vis_opt. apply sticky_guard. intros. apply sticky_ret. Qed.

Ltac stick := intros; unfold_reads; repeat (first
  [ apply sticky_vis_record | apply sticky_vis2_record | apply sticky_t3_record | apply sticky_inspol_record
  | apply sticky_vis_opt | sticky1 ]).
Ltac fails_record Hm := repeat (first [apply fails_left; [miss Hm|stick] | apply fails_right; intros]).
Ltac fails_table Hm rec sticky_rec := repeat (first
  [ apply fails_unless
  | apply fails_alloc; intros
  | apply fails_left; [miss Hm|stick]
  | match goal with |- fails (rbind (new_rows _ _) _) =>
      apply fails_left;
      [apply fails_new_rows; [assumption|unfold rec; fails_record Hm; fail|intros; apply sticky_rec]|stick] end
  | apply fails_right; intros
  | match goal with |- fails (match ?b with _ => _ end) => destruct b end ]).
Ltac each Hc := cbn [In] in Hc; repeat destruct Hc as [<-|Hc]; [..|contradiction].

Lemma vis_lacks_column h c : In c vis_columns -> lacks_column h c -> fails (read_oi_vis_chdu E h).
Proof.
  intros Hc Hm. unfold vis_columns in Hc. unfold read_oi_vis_chdu.
  each Hc; fails_table Hm read_vis_record sticky_vis_record.
Qed.
Lemma vis_lacks_keyword h c : In c data_keywords -> lacks_keyword h c -> fails (read_oi_vis_chdu E h).
Proof.
  intros Hc Hm. unfold data_keywords in Hc. unfold read_oi_vis_chdu.
  each Hc; fails_table Hm read_vis_record sticky_vis_record.
Qed.
Lemma vis2_lacks_column h c : In c vis2_columns -> lacks_column h c -> fails (read_oi_vis2_chdu E h).
Proof.
  intros Hc Hm. unfold vis2_columns in Hc. unfold read_oi_vis2_chdu.
  each Hc; fails_table Hm read_vis2_record sticky_vis2_record.
Qed.
Lemma vis2_lacks_keyword h c : In c data_keywords -> lacks_keyword h c -> fails (read_oi_vis2_chdu E h).
Proof.
  intros Hc Hm. unfold data_keywords in Hc. unfold read_oi_vis2_chdu.
  each Hc; fails_table Hm read_vis2_record sticky_vis2_record.
Qed.
Lemma t3_lacks_column h c : In c t3_columns -> lacks_column h c -> fails (read_oi_t3_chdu E h).
Proof.
  intros Hc Hm. unfold t3_columns in Hc. unfold read_oi_t3_chdu.
  each Hc; fails_table Hm read_t3_record sticky_t3_record.
Qed.
Lemma t3_lacks_keyword h c : In c data_keywords -> lacks_keyword h c -> fails (read_oi_t3_chdu E h).
Proof.
  intros Hc Hm. unfold data_keywords in Hc. unfold read_oi_t3_chdu.
  each Hc; fails_table Hm read_t3_record sticky_t3_record.
Qed.
Lemma inspol_lacks_column h c : In c inspol_columns -> lacks_column h c -> fails (read_oi_inspol_chdu E h).
Proof.
  intros Hc Hm. unfold inspol_columns in Hc. unfold read_oi_inspol_chdu.
  each Hc; fails_table Hm read_inspol_record sticky_inspol_record.
Qed.
Lemma inspol_lacks_keyword h c : In c inspol_keywords -> lacks_keyword h c -> fails (read_oi_inspol_chdu E h).
Proof.
  intros Hc Hm. unfold inspol_keywords in Hc. unfold read_oi_inspol_chdu.
  each Hc; fails_table Hm read_inspol_record sticky_inspol_record.
Qed.
Lemma corr_lacks_column h c : In c corr_columns -> lacks_column h c -> fails (read_oi_corr_chdu E h None).
Proof.
  intros Hc Hm. unfold corr_columns in Hc. unfold read_oi_corr_chdu.
  each Hc; fails_table Hm read_inspol_record sticky_inspol_record.
Qed.
Lemma corr_lacks_keyword h c : In c corr_keywords -> lacks_keyword h c -> fails (read_oi_corr_chdu E h None).
Proof.
  intros Hc Hm. unfold corr_keywords in Hc. unfold read_oi_corr_chdu, name_of.
  each Hc; fails_table Hm read_inspol_record sticky_inspol_record.
Qed.
Lemma flux_lacks_keyword h c : In c flux_keywords -> lacks_keyword h c -> fails (read_oi_flux_chdu E h).
Proof.
  intros Hc Hm. unfold flux_keywords in Hc. unfold read_oi_flux_chdu.
  each Hc; fails_table Hm read_inspol_record sticky_inspol_record.
Qed.
Lemma flux_lacks_data h : lacks_column h "FLUXDATA" -> fails (read_oi_flux_chdu E h).
Proof.
  intros Hm. unfold read_oi_flux_chdu. fails_table Hm read_inspol_record sticky_inspol_record.
Qed.
End Kinds.
