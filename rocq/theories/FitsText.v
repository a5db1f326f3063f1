(** Strings that survive being stored in a FITS header or table. *)
From Coq Require Import Lia.
From Verif Require Import BaseLemmas MergeNames IOSpec.
Open Scope Z_scope.

Lemma no_trailing_cons c s : no_trailing_blank (String c s) = true -> no_trailing_blank s = true.
Proof. destruct s; cbn; auto. Qed.
Lemma rtrim_id s : no_trailing_blank s = true -> rtrim s = s.
Proof.
  induction s as [|c s IH]; intros H; [reflexivity|]. cbn [rtrim].
  rewrite (IH (no_trailing_cons _ _ H)). destruct s as [|c' s'].
  - cbn in H. cbn. destruct (Ascii.eqb c blank) eqn:Hb; [|reflexivity].
    unfold blank in Hb. rewrite Hb in H. discriminate.
  - now rewrite andb_false_r.
Qed.
Lemma sanitize_id s :
  all_chars (fun c => let n := Z.of_nat (nat_of_ascii c) in (32 <=? n) && (n <=? 126)) s = true ->
  sanitize s = s.
Proof.
  induction s as [|c s IH]; intros H; [reflexivity|]. cbn in H. apply andb_true_iff in H as [Hc H].
  cbn [sanitize]. unfold printable. cbv zeta. rewrite Hc. now rewrite IH.
Qed.
Lemma card_length_nonneg s : 0 <= card_length s.
Proof. induction s as [|c s IH]; cbn [card_length]; [lia|]. destruct (Ascii.eqb c "'"); lia. Qed.
Lemma fit_card_id s n : card_length s <= n -> fit_card n s = s.
Proof.
  revert n; induction s as [|c s IH]; intros n H; [reflexivity|]. cbn [fit_card card_length] in *.
  pose proof (card_length_nonneg s) as Hs. unfold quote.
  destruct (Z.leb_spec (if Ascii.eqb c "'" then 2 else 1) n); [|destruct (Ascii.eqb c "'"); lia].
  rewrite IH; [reflexivity|]. lia.
Qed.
Lemma card_id s : card_text s = true -> card s = s.
Proof.
  unfold card_text. intros H. apply andb_true_iff in H as [H Hl]. apply andb_true_iff in H as [Hp Ht].
  apply Z.leb_le in Hl. unfold card. rewrite fit_card_id by exact Hl.
  rewrite sanitize_id by exact Hp. now apply rtrim_id.
Qed.
Lemma substring_all s n : (String.length s <= n)%nat -> substring 0 n s = s.
Proof.
  revert n; induction s as [|c s IH]; intros n H; [now destruct n|].
  destruct n as [|n]; [cbn in H; lia|]. cbn [substring]. rewrite IH; [reflexivity|]. cbn in H. lia.
Qed.
Lemma cell_id w s : cell_text w s = true -> cell w s = s.
Proof.
  unfold cell_text. intros H. apply andb_true_iff in H as [Hl Ht]. apply Z.leb_le in Hl.
  unfold cell. rewrite substring_all; [now apply rtrim_id|]. unfold strlen in Hl. lia.
Qed.
Lemma cell_text_len w s : cell_text w s = true -> strlen s <= w.
Proof. unfold cell_text. intros H. apply andb_true_iff in H as [Hl _]. now apply Z.leb_le. Qed.

Lemma clip_short z : short z = true -> clip (-32768) 32767 z = z /\ in_short z = true.
Proof.
  unfold short, in_short, clip. intros H. split; [|exact H].
  apply andb_true_iff in H as [H1 H2]. apply Z.leb_le in H1, H2.
  destruct (Z.ltb_spec z (-32768)); [lia|]. destruct (Z.ltb_spec 32767 z); lia.
Qed.
Lemma clip_long z : long z = true -> clip (-2147483648) 2147483647 z = z /\ in_int z = true.
Proof.
  unfold long, in_int, clip. intros H. split; [|exact H].
  apply andb_true_iff in H as [H1 H2]. apply Z.leb_le in H1, H2.
  destruct (Z.ltb_spec z (-2147483648)); [lia|]. destruct (Z.ltb_spec 2147483647 z); lia.
Qed.

(** make_tform's buffer is large enough *)
Lemma digits_lt_10000 n : 0 <= n <= 9999 -> strlen (fmt_d n) + 1 < 6.
Proof.
  intros H. destruct (Z.eq_dec n 0) as [->|Hn]; [vm_compute; reflexivity|].
  pose proof (fmt_0wd_length n ltac:(lia)) as Hl. unfold fmt_0wd in Hl.
  destruct (Z.ltb_spec n 0); [lia|]. rewrite length_app in Hl. unfold strlen, fmt_d. lia.
Qed.
