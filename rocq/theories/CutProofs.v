(** Cut strings are written as the whole ones are. *)
From Coq Require Import Lia.
From Verif Require Import BaseLemmas FileProofs FileModel IOSpec FitsText FitsRows WriteModel WriteTables WriteProofs
  WritableSpec WritableProofs WritableTables WritableWhole CutSpec.
Open Scope list_scope.
Open Scope Z_scope.

(** ** Strings *)

Lemma rtrim_no_trailing s : no_trailing_blank (rtrim s) = true.
Proof.
  induction s as [|c s IH]; [reflexivity|]. cbn [rtrim]. destruct (Ascii.eqb c blank && is_empty (rtrim s)) eqn:H; [reflexivity|].
  destruct (rtrim s) as [|c' s'].
  - cbn [is_empty] in H. rewrite andb_true_r in H. cbn. unfold blank in H. now rewrite H.
  - exact IH.
Qed.
Lemma rtrim_length s : (String.length (rtrim s) <= String.length s)%nat.
Proof.
  induction s as [|c s IH]; [reflexivity|]. cbn [rtrim String.length]. destruct (Ascii.eqb c blank && is_empty (rtrim s)); cbn; lia.
Qed.
Lemma rtrim_chars p s : all_chars p s = true -> all_chars p (rtrim s) = true.
Proof.
  induction s as [|c s IH]; [reflexivity|]. cbn [rtrim all_chars]. intros H. apply andb_true_iff in H as [Hc H].
  destruct (Ascii.eqb c blank && is_empty (rtrim s)); [reflexivity|]. cbn [all_chars]. now rewrite Hc, IH.
Qed.
Lemma rtrim_card_length s : card_length (rtrim s) <= card_length s.
Proof.
  induction s as [|c s IH]; [reflexivity|]. cbn [rtrim card_length]. pose proof (card_length_nonneg s).
  destruct (Ascii.eqb c blank && is_empty (rtrim s)); cbn [card_length]; destruct (Ascii.eqb c "'"); lia.
Qed.
Lemma sanitize_card_length s : card_length (sanitize s) <= card_length s.
Proof.
  induction s as [|c s IH]; [reflexivity|]. cbn [sanitize card_length].
  destruct (printable c) eqn:Hp; [lia|]. change (Ascii.eqb blank "'") with false. destruct (Ascii.eqb c "'"); lia.
Qed.
Lemma sanitize_chars s : all_chars printable (sanitize s) = true.
Proof.
  induction s as [|c s IH]; [reflexivity|]. cbn [sanitize all_chars]. rewrite IH, andb_true_r.
  destruct (printable c) eqn:Hp; [exact Hp|reflexivity].
Qed.
Lemma fit_card_length n s : 0 <= n -> card_length (fit_card n s) <= n.
Proof.
  revert n. induction s as [|c s IH]; intros n H; cbn [fit_card card_length]; [exact H|]. unfold quote.
  destruct (Z.leb_spec (if Ascii.eqb c "'" then 2 else 1) n); cbn [card_length]; [|lia].
  specialize (IH (n - (if Ascii.eqb c "'" then 2 else 1)) ltac:(lia)). lia.
Qed.
Lemma card_is_text s : card_text (card s) = true.
Proof.
  unfold card_text, card. rewrite rtrim_no_trailing, andb_true_r. apply andb_true_intro. split.
  - apply rtrim_chars. apply sanitize_chars.
  - apply Z.leb_le. pose proof (rtrim_card_length (sanitize (fit_card 68 s))).
    pose proof (sanitize_card_length (fit_card 68 s)). pose proof (fit_card_length 68 s ltac:(lia)). lia.
Qed.
Lemma card_card s : card (card s) = card s.
Proof. apply card_id, card_is_text. Qed.
Lemma cell_is_text w s : 0 <= w -> cell_text w (cell w s) = true.
Proof.
  intros H. unfold cell_text, cell. rewrite rtrim_no_trailing, andb_true_r. apply Z.leb_le. unfold strlen.
  pose proof (rtrim_length (substring 0 (Z.to_nat w) s)). pose proof (MergeNames.substring_length (Z.to_nat w) s). lia.
Qed.
Lemma cell_cell w s : 0 <= w -> cell w (cell w s) = cell w s.
Proof. intros H. apply cell_id. now apply cell_is_text. Qed.
Lemma kept_nonempty s : kept s -> nonempty (card s) = nonempty s.
Proof.
  intros [->|H]; [reflexivity|]. destruct s as [|c s]; [contradiction H; reflexivity|].
  destruct (card (String c s)); [contradiction|reflexivity].
Qed.
Lemma char_is_text c : char_text (cut_char c) = true.
Proof.
  unfold cut_char, char_text. destruct (printable c && negb (Ascii.eqb c " ")) eqn:H; [|reflexivity].
  apply andb_true_iff in H as [H1 H2]. apply orb_true_iff. right. unfold card_text.
  cbn [all_chars no_trailing_blank card_length]. unfold printable in H1. cbv zeta in H1. rewrite H1, H2. cbn [andb].
  now destruct (Ascii.eqb c "'").
Qed.
Lemma one_char_cut c : card (one_char (cut_char c)) = card (one_char c).
Proof.
  unfold cut_char. destruct (printable c) eqn:Hp; cbn [andb].
  - destruct (Ascii.eqb_spec c " "); [subst; reflexivity|reflexivity].
  - unfold one_char. destruct (Ascii.eqb c zero); [reflexivity|]. change (Ascii.eqb zero zero) with true. cbn iota.
    unfold card. cbn [fit_card]. destruct (Ascii.eqb c quote); cbn; now rewrite Hp.
Qed.

(** ** The same calls *)

Definition same (a b : wstate -> res wstate) (fs : list form) : Prop :=
  forall s, snd s <> 0 \/ ready fs s -> a s = b s.
Lemma same_refl a fs : same a a fs.
Proof. intros s _. reflexivity. Qed.
Lemma same_eq a b fs : (forall s, a s = b s) -> same a b fs.
Proof. intros H s _. apply H. Qed.
Lemma same_seq a a' b b' fs x fs' : same a a' fs -> acts a fs x fs' -> same b b' fs' -> same (a ;> b) (a' ;> b') fs.
Proof.
  intros H1 [A1 A2] H2 s Hs. unfold seq_. rewrite <- (H1 s Hs). destruct Hs as [Hs|Hs].
  - rewrite (A1 s Hs). rewrite !bind_Ok. apply H2. now left.
  - destruct (A2 s Hs) as (s' & -> & Hr). rewrite !bind_Ok. apply H2. destruct x; [now right|now left].
Qed.
Lemma key_same k s s' : card s = card s' -> write_key_str k s = write_key_str k s'.
Proof. intros H. unfold write_key_str. now rewrite H. Qed.
Lemma unit_same k s s' st : card s = card s' -> write_tunit k s st = write_tunit k s' st.
Proof.
  intros H. unfold write_tunit, on_chdu. destruct st as [f st]. destruct (negb (st =? 0)); [reflexivity|].
  destruct (chdu f); [|reflexivity]. unfold on_col, set_unit. now rewrite H.
Qed.

(** strings in cells *)
Definition same_cell (fs : list form) (a b : Z * res (list value)) : Prop :=
  a = b \/ exists k w s s', a = (k, str s) /\ b = (k, str s') /\ 1 <= k
           /\ nth_error fs (Z.to_nat (k - 1)) = Some (mk_form Chars w) /\ cell w s = cell w s'.
Lemma same_cells fs irow l l' bs : Forall2 (same_cell fs) l l' -> Forall2 (cell_gives fs) l bs ->
  same (write_cells irow l) (write_cells irow l') fs.
Proof.
  intros H Hb. revert bs Hb. induction H as [|[k v] [k' v'] l l' Hc Hl IH]; intros bs Hb; [apply same_refl|].
  inversion Hb as [|x b y bs' Hg Hgs]; subst. intros st Hst. rewrite !write_cells_cons.
  revert st Hst.
  change (same ((fun s => vs <- v ;; fits_write_col k irow vs s) ;> write_cells irow l)
    ((fun s => vs <- v' ;; fits_write_col k' irow vs s) ;> write_cells irow l') fs).
  destruct Hg as (Hk & F & HF & vs & Hv & Hp & Hs). cbn [fst snd] in *. subst v.
  eapply same_seq; [|cbn [bind]; exact (acts_col k irow vs fs F Hk HF Hp)|now apply IH with bs'].
  destruct Hc as [Hc|(k0 & w & s & s' & H1 & H2 & _ & HF' & Hw)].
  - injection Hc as <- <-. apply same_refl.
  - injection H1 as E1 E2. injection H2 as E3 E4. subst k0 vs k' v'.
    rewrite HF in HF'. injection HF' as ->. unfold str. cbn [bind]. intros st [Hst|(Hst & h & Hh & Hf)].
    + unfold fits_write_col, on_chdu. destruct st as [f st]. cbn [snd] in Hst.
      destruct (Z.eqb_spec st 0); [contradiction|reflexivity].
    + unfold fits_write_col, on_chdu. destruct st as [f st]. cbn [fst snd] in *. subst st. cbn [Z.eqb negb]. rewrite Hh.
      unfold write_col. destruct (nth_col k h) as [c|] eqn:Hc; [|reflexivity].
      assert (HF' : c_form c = mk_form Chars w).
      { unfold nth_col in Hc. destruct (k <? 1); [discriminate|]. rewrite <- Hf, nth_error_map, Hc in HF. cbn in HF. congruence. }
      rewrite HF'. cbn [List.length map store fm_kind fm_repeat fst snd]. now rewrite Hw.
Qed.
Lemma same_rows {R} fs n (records : list R) (f : R -> R) cells cells' :
  len_is n records = true ->
  (forall r, In r records -> Forall2 (same_cell fs) (cells r) (cells' (f r))
                             /\ exists bs, Forall2 (cell_gives fs) (cells r) bs) ->
  same (write_rows n records cells) (write_rows n (map f records) cells') fs.
Proof.
  intros Hn H s Hs. apply Z.eqb_eq in Hn. rewrite !write_rows_loop by (rewrite ?map_length; exact Hn).
  revert s Hs. change (same (rows_loop cells 1 records) (rows_loop cells' 1 (map f records)) fs).
  clear Hn. generalize 1. induction records as [|r l IH]; intros irow; cbn [map rows_loop]; [apply same_refl|].
  destruct (H r (or_introl eq_refl)) as (H1 & bs & H2).
  eapply same_seq; [eapply same_cells; eassumption|eapply acts_columns; eassumption|].
  apply IH. intros r' Hr. apply H. now right.
Qed.
Lemma same_table nwave cols l extname body body' s :
  make_tform nwave cols = Ok l -> same body body' (map snd l) ->
  guarded (create_table nwave cols extname ;> body) s = guarded (create_table nwave cols extname ;> body') s.
Proof.
  intros Hm Hb. unfold guarded. destruct s as [f st]. cbn [snd]. destruct (Z.eqb_spec st 0) as [->|]; [|reflexivity].
  cbn [negb]. unfold seq_, create_table. rewrite Hm, !bind_Ok. unfold fits_create_tbl. cbn [Z.eqb negb]. rewrite !bind_Ok.
  apply Hb. right. split; [reflexivity|]. eexists. split; [apply chdu_append|]. cbn [hd_cols]. rewrite !map_map.
  apply map_ext. intros [[name u] F]. reflexivity.
Qed.
