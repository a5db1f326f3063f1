(** Building a table: its columns, keywords and cells. *)
From Coq Require Import Lia.
From Verif Require Import BaseLemmas FileProofs WriteModel FitsRows IOSpec FitsText.
Open Scope Z_scope.

(** ** Cells of a known value *)

Definition cell_is (F : form) (x : res (list value)) (vs : list value) : Prop :=
  good_cell F x /\ cell_data F x = vs.

Lemma cell_is_plain F vs :
  Z.of_nat (List.length vs) = per_row F -> (forall v, In v vs -> store F v = (v, false)) ->
  cell_is F (Ok vs) vs.
Proof.
  intros Hl Hs. split.
  - exists vs. split; [reflexivity|]. split; [exact Hl|]. unfold overflow. clear Hl.
    induction vs as [|v vs IH]; [reflexivity|]. cbn [map existsb].
    rewrite Hs by now left. cbn. apply IH. intros v' Hv. apply Hs. now right.
  - cbn [cell_data]. unfold stored_vals. rewrite map_map. clear Hl.
    induction vs as [|v vs IH]; [reflexivity|]. cbn [map]. rewrite Hs by now left. cbn [fst].
    f_equal. apply IH. intros v' Hv. apply Hs. now right.
Qed.
Lemma store_short n z : short z = true -> store (mk_form Short n) (VInt z) = (VInt z, false).
Proof. intros H. unfold store. cbn [fm_kind]. destruct (clip_short z H) as [-> ->]. reflexivity. Qed.
Lemma store_long n z : long z = true -> store (mk_form Long n) (VInt z) = (VInt z, false).
Proof. intros H. unfold store. cbn [fm_kind]. destruct (clip_long z H) as [-> ->]. reflexivity. Qed.

Lemma cell_short z : short z = true -> cell_is (mk_form Short 1) (int z) [VInt z].
Proof. intros H. apply cell_is_plain; [reflexivity|]. intros v [<-|[]]. now apply store_short. Qed.
Lemma cell_shorts2 a b : short a = true -> short b = true ->
  cell_is (mk_form Short 2) (ints [a; b]) [VInt a; VInt b].
Proof.
  intros Ha Hb. apply cell_is_plain; [reflexivity|].
  intros v [<-|[<-|[]]]; now apply store_short.
Qed.
Lemma cell_shorts3 a b c : short a = true -> short b = true -> short c = true ->
  cell_is (mk_form Short 3) (ints [a; b; c]) [VInt a; VInt b; VInt c].
Proof.
  intros Ha Hb Hc. apply cell_is_plain; [reflexivity|].
  intros v [<-|[<-|[<-|[]]]]; now apply store_short.
Qed.
Lemma cell_long z : long z = true -> cell_is (mk_form Long 1) (int z) [VInt z].
Proof. intros H. apply cell_is_plain; [reflexivity|]. intros v [<-|[]]. now apply store_long. Qed.
Lemma cell_dbl x : cell_is (mk_form Double 1) (dbl x) [VDbl x].
Proof. apply cell_is_plain; [reflexivity|]. intros v [<-|[]]. reflexivity. Qed.
Lemma cell_dbl3 x y z : cell_is (mk_form Double 3) (Ok [VDbl x; VDbl y; VDbl z]) [VDbl x; VDbl y; VDbl z].
Proof. apply cell_is_plain; [reflexivity|]. intros v [<-|[<-|[<-|[]]]]; reflexivity. Qed.
Lemma cell_flt x : cell_is (mk_form Float 1) (flt_ x) [VFlt x].
Proof. apply cell_is_plain; [reflexivity|]. intros v [<-|[]]. reflexivity. Qed.
Lemma cell_str w s : cell_text w s = true -> cell_is (mk_form Chars w) (str s) [VStr s].
Proof.
  intros H. apply cell_is_plain; [reflexivity|]. intros v [<-|[]].
  unfold store. cbn [fm_kind fm_repeat]. now rewrite cell_id.
Qed.
Lemma take_all {A} n (l : list A) : len_is n l = true -> take n l = Ok l.
Proof.
  intros H. apply Z.eqb_eq in H. unfold take. destruct (Z.ltb_spec n 0); [lia|].
  destruct (Z.ltb_spec (Z.of_nat (List.length l)) n); [lia|].
  f_equal. apply firstn_all2. lia.
Qed.
Lemma cell_dbls n l : len_is n l = true -> cell_is (mk_form Double n) (dbls n l) (map VDbl l).
Proof.
  intros H. unfold dbls. rewrite (take_all _ _ H), bind_Ok. apply Z.eqb_eq in H.
  apply cell_is_plain; [rewrite map_length; exact H|].
  intros v Hv. apply in_map_iff in Hv as (x & <- & _). reflexivity.
Qed.
Lemma cell_logs n l : len_is n l = true -> cell_is (mk_form Logical n) (logs n l) (map VLog l).
Proof.
  intros H. unfold logs. rewrite (take_all _ _ H), bind_Ok. apply Z.eqb_eq in H.
  apply cell_is_plain; [rewrite map_length; exact H|].
  intros v Hv. apply in_map_iff in Hv as (x & <- & _). reflexivity.
Qed.
Lemma flat_map_pair_length {A B} (f g : A -> B) l :
  List.length (flat_map (fun c => [f c; g c]) l) = (2 * List.length l)%nat.
Proof. induction l as [|a l IH]; cbn [flat_map List.length app]; [reflexivity|]. rewrite IH. lia. Qed.
Lemma cell_cplxs n l : len_is n l = true ->
  cell_is (mk_form Complex n) (cplxs n l) (map VFlt (flat_map (fun c => [fst c; snd c]) l)).
Proof.
  intros H. unfold cplxs. rewrite (take_all _ _ H), bind_Ok. apply Z.eqb_eq in H.
  assert (He : flat_map (fun c => [VFlt (fst c); VFlt (snd c)]) l
               = map VFlt (flat_map (fun c : cplx => [fst c; snd c]) l)).
  { clear H. induction l as [|a l IH]; [reflexivity|]. cbn [flat_map map app]. now rewrite IH. }
  rewrite He. apply cell_is_plain.
  - rewrite map_length, flat_map_pair_length. unfold per_row. cbn [fm_kind fm_repeat].
    unfold cplx in *. lia.
  - intros v Hv. apply in_map_iff in Hv as (x & <- & _). reflexivity.
Qed.
Lemma cell_opt {A} (f : list A -> res (list value)) F o l vs :
  o = Some l -> cell_is F (f l) vs -> cell_is F (opt f o) vs.
Proof. intros -> H. exact H. Qed.

(** ** Columns filled from records *)

Record cspec (R : Type) := mk_cspec {
  cs_name : string; cs_form : form; cs_unit : option string; cs_dim : option string;
  cs_val : R -> list value }.
Arguments mk_cspec {R}. Arguments cs_name {R}. Arguments cs_form {R}. Arguments cs_unit {R}.
Arguments cs_dim {R}. Arguments cs_val {R}.
Definition scol {R} (l : list R) (s : cspec R) : column :=
  mk_column (cs_name s) (cs_form s) (cs_unit s) (cs_dim s) (flat_map (cs_val s) l).
Definition empty_col {R} (s : cspec R) : column :=
  mk_column (cs_name s) (cs_form s) (cs_unit s) (cs_dim s) [].
Definition cells_are {R} (l : list R) (s : cspec R) (g : R -> res (list value)) : Prop :=
  forall r, In r l -> cell_is (cs_form s) (g r) (cs_val s r).

Lemma flat_map_cells {R} (l : list R) s g :
  cells_are l s g -> flat_map (fun r => cell_data (cs_form s) (g r)) l = flat_map (cs_val s) l.
Proof.
  intros H. induction l as [|r l IH]; [reflexivity|]. cbn [flat_map].
  destruct (H r (or_introl eq_refl)) as [_ ->]. f_equal. apply IH. intros r' Hr. apply H. now right.
Qed.
Lemma runs_rows {R} ty keys (specs : list (cspec R)) gs cells records n :
  (forall r, cells r = number 1 (map (fun g => g r) gs)) ->
  Z.of_nat (List.length records) = n ->
  match specs with s :: _ => 1 <= per_row (cs_form s) | [] => False end ->
  Forall2 (cells_are records) specs gs ->
  runs (write_rows n records cells) (mk_hdu ty keys (map empty_col specs) 0)
    (mk_hdu ty keys (map (scol records) specs) n).
Proof.
  intros Hc Hn Hp Hg.
  assert (He : map (scol records) specs = fill_all (map empty_col specs) gs records).
  { clear Hc Hp. induction Hg as [|s g specs gs Hs Hg IH]; [reflexivity|]. cbn [map fill_all].
    rewrite IH. f_equal. unfold scol, with_data, empty_col. cbn [c_name c_form c_unit c_dim c_data app].
    now rewrite flat_map_cells. }
  rewrite He. apply runs_new_rows; auto.
  - destruct specs; [contradiction|]. exact Hp.
  - rewrite map_length. clear - Hg. induction Hg; cbn; congruence.
  - clear. induction specs; constructor; auto.
  - apply Forall_forall. intros r Hr. unfold good_row. clear - Hg Hr.
    induction Hg as [|s g specs gs Hs Hg IH]; cbn [map]; constructor; [|exact IH].
    exact (proj1 (Hs r Hr)).
Qed.

Lemma refill_is {R} (l : list R) s g data :
  cells_are l s g ->
  refill l g (mk_column (cs_name s) (cs_form s) (cs_unit s) (cs_dim s) data) = scol l s.
Proof. intros H. unfold refill, scol, with_data. cbn. now rewrite flat_map_cells. Qed.

(** filling in the columns of [ks] just inserted (they hold zeros) *)
Definition blank_col {R} (n : Z) (s : cspec R) : column :=
  mk_column (cs_name s) (cs_form s) (cs_unit s) (cs_dim s) (zeros (cs_form s) n).
Lemma runs_fill {R} ty keys (ksg : list (Z * (cspec R * (R -> res (list value))))) cells records cols cols' n :
  (forall r, cells r = map (fun kg => (fst kg, snd (snd kg) r)) ksg) ->
  Z.of_nat (List.length records) = n ->
  NoDup (map (fun kg => col_of (fst kg)) ksg) ->
  Forall (fun kg => 1 <= fst kg /\ nth_error cols (col_of (fst kg)) = Some (blank_col n (fst (snd kg)))
                    /\ 0 <= per_row (cs_form (fst (snd kg)))
                    /\ cells_are records (fst (snd kg)) (snd (snd kg))) ksg ->
  cols' = upd_cols (fun sg _ => scol records (fst sg)) ksg cols ->
  runs (write_rows n records cells) (mk_hdu ty keys cols n) (mk_hdu ty keys cols' n).
Proof.
  intros Hc Hn Hnd Hf ->.
  pose (kgs := map (fun kg => (fst kg, snd (snd kg))) ksg).
  assert (Hk : map (fun kg => col_of (fst kg)) kgs = map (fun kg => col_of (fst kg)) ksg).
  { unfold kgs. rewrite map_map. reflexivity. }
  assert (He : upd_cols (fun sg _ => scol records (fst sg)) ksg cols
               = upd_cols (refill records) kgs cols).
  { transitivity (upd_cols (fun sg => refill records (snd sg)) ksg cols).
    - apply upd_cols_ext; [exact Hnd|]. intros k (s, g) c Hi Hkc. cbn [fst snd].
      rewrite Forall_forall in Hf. destruct (Hf _ Hi) as (_ & Hb & _ & Hcells). cbn [fst snd] in *.
      rewrite Hkc in Hb. injection Hb as ->. symmetry. now apply refill_is.
    - clear. unfold kgs, upd_cols. revert cols. induction ksg as [|kg ksg IH]; intros cols; [reflexivity|].
      cbn [map fold_left fst snd]. apply IH. }
  rewrite He. apply runs_set_rows; [| exact Hn | rewrite Hk; exact Hnd |].
  - intros r. rewrite Hc. unfold kgs. rewrite map_map. reflexivity.
  - unfold kgs. apply Forall_map. eapply Forall_impl; [|exact Hf].
    intros (k, (s, g)) (H1 & Hb & Hp & Hcells). cbn [fst snd] in *. split; [exact H1|].
    exists (blank_col n s). split; [exact Hb|]. split.
    + unfold filled, blank_col, zeros. cbn [c_data c_form]. rewrite repeat_length. nia.
    + intros r Hr. exact (proj1 (Hcells r Hr)).
Qed.

(** ** Keywords *)

(** keywords, those with [false] being left out *)
Definition mkkeys (l : list (bool * string * kval)) : list (string * kval) :=
  flat_map (fun bkv : bool * string * kval => if fst (fst bkv) then [(snd (fst bkv), snd bkv)] else []) l.
Fixpoint lookup (k : string) (l : list (bool * string * kval)) : option kval :=
  match l with
  | [] => None
  | (b, k', v) :: l' => if str_eqb k' k then if b then Some v else lookup k l' else lookup k l'
  end.
Lemma find_mkkeys k l : find_key k (mkkeys l) = lookup k l.
Proof.
  induction l as [|[[b k'] v] l IH]; [reflexivity|].
  unfold mkkeys. cbn [flat_map fst snd lookup]. fold (mkkeys l).
  destruct b; cbn [app find_key]; rewrite IH; destruct (str_eqb k' k); reflexivity.
Qed.
Lemma mkkeys_app l m : mkkeys (l ++ m) = mkkeys l ++ mkkeys m.
Proof. unfold mkkeys. apply flat_map_app. Qed.

Section Keys.
Variables (ty : hdutype) (l : list (bool * string * kval)) (c : list column) (n : Z).
Let h l := mk_hdu ty (mkkeys l) c n.
Lemma add_mkkeys k v : add_key k v (h l) = h (l ++ [(true, k, v)]).
Proof. unfold add_key, with_keys, h. cbn [hd_keys hd_type hd_cols hd_nrows]. now rewrite mkkeys_app. Qed.
Lemma runs_str k v : card_text v = true ->
  runs (write_key_str k v) (h l) (h (l ++ [(true, k, KStr v)])).
Proof. intros H. rewrite <- add_mkkeys. rewrite <- (card_id v H) at 2. apply runs_key_str. Qed.
Lemma runs_int k v : runs (write_key_int k v) (h l) (h (l ++ [(true, k, KInt v)])).
Proof. rewrite <- add_mkkeys. apply runs_key_int. Qed.
Lemma runs_double E k v : key_double E v = true ->
  runs (write_key_double E k v) (h l) (h (l ++ [(true, k, KDbl (kept_double E v))])).
Proof.
  intros H. rewrite <- add_mkkeys. apply runs_key_double. unfold kept_double.
  unfold key_double in H. now destruct (cf_key_double E v).
Qed.
Lemma runs_when_keys b a m :
  (b = true -> runs a (h l) (h (l ++ map (fun kv => (true, fst kv, snd kv)) m))) ->
  runs (when b a) (h l) (h (l ++ map (fun kv => (b, fst kv, snd kv)) m)).
Proof.
  intros H. destruct b; [now apply H|].
  assert (Hm : mkkeys (map (fun kv => (false, fst kv, snd kv)) m) = []).
  { clear. induction m; cbn; auto. }
  unfold h. rewrite mkkeys_app, Hm, app_nil_r. apply runs_skip.
Qed.
Lemma runs_when_str b k v : card_text v = true ->
  runs (when b (write_key_str k v)) (h l) (h (l ++ [(b, k, KStr v)])).
Proof. intros H. apply (runs_when_keys b _ [(k, KStr v)]). intros _. now apply runs_str. Qed.
Lemma runs_when_int b k v :
  runs (when b (write_key_int k v)) (h l) (h (l ++ [(b, k, KInt v)])).
Proof. apply (runs_when_keys b _ [(k, KInt v)]). intros _. apply runs_int. Qed.
End Keys.

Lemma find_update_other k k' v h :
  str_eqb k' k = false -> find_key k (hd_keys (update_key k' v h)) = find_key k (hd_keys h).
Proof.
  intros H. unfold update_key. destruct (find_key k' (hd_keys h)).
  - cbn [with_keys hd_keys]. induction (hd_keys h) as [|(k1, v1) l IH]; [reflexivity|].
    cbn [map find_key fst]. destruct (str_eqb k1 k') eqn:E1.
    + apply str_eqb_eq in E1. subst k1. cbn [find_key]. rewrite H. exact IH.
    + cbn [find_key]. now rewrite IH.
  - unfold add_key. cbn [with_keys hd_keys].
    induction (hd_keys h) as [|(k1, v1) l IH]; cbn [app find_key]; [now rewrite H|]. now rewrite IH.
Qed.
Lemma find_sums E k h :
  str_eqb "CHECKSUM" k = false -> str_eqb "DATASUM" k = false ->
  find_key k (hd_keys (sums E h)) = find_key k (hd_keys h).
Proof. intros H1 H2. unfold sums. now rewrite !find_update_other. Qed.
Lemma update_key_rest k v h :
  hd_type (update_key k v h) = hd_type h /\ hd_cols (update_key k v h) = hd_cols h
  /\ hd_nrows (update_key k v h) = hd_nrows h.
Proof. unfold update_key. destruct (find_key k (hd_keys h)); auto. Qed.
Lemma sums_rest E h :
  hd_type (sums E h) = hd_type h /\ hd_cols (sums E h) = hd_cols h /\ hd_nrows (sums E h) = hd_nrows h.
Proof.
  unfold sums. destruct (update_key_rest "DATASUM" (snd (cf_sums E h))
    (update_key "CHECKSUM" (fst (cf_sums E h)) h)) as (-> & -> & ->). apply update_key_rest.
Qed.

(** ** A new table *)

Definition with_primary (f : fitsfile) : fitsfile :=
  match f_hdus f with [] => append_hdu null_primary f | _ => f end.
(** [a] appends [h] to the file *)
Definition writes (a : wstate -> res wstate) (h : hdu) : Prop :=
  forall f, a (f, 0) = Ok (append_hdu h (with_primary f), 0).

Lemma writes_table nwave cols l extname body h :
  make_tform nwave cols = Ok l ->
  runs body (mk_hdu BINARY_TBL (mkkeys [(true, "EXTNAME"%string, KStr extname)])
               (map make_column (map (fun '(name, u, f) => (name, f, u)) l)) 0) h ->
  writes (guarded (create_table nwave cols extname ;> body)) h.
Proof.
  intros Hm Hb f. unfold guarded. cbn [snd Z.eqb negb]. unfold seq_, create_table.
  rewrite Hm, bind_Ok. unfold fits_create_tbl. cbn [Z.eqb negb]. rewrite bind_Ok.
  apply Hb.
Qed.
Lemma make_tform_cons {A} v (a : A) t l f r :
  make_form v t = Ok f -> make_tform v l = Ok r -> make_tform v ((a, t) :: l) = Ok ((a, f) :: r).
Proof. intros H1 H2. cbn [make_tform]. now rewrite H1, bind_Ok, H2, bind_Ok. Qed.
Lemma make_form_wave v k : 0 <= v <= 9999 -> make_form v (PerWave k) = Ok (mk_form k v).
Proof.
  intros H. unfold make_form. pose proof (digits_lt_10000 v H) as Hd.
  apply Z.ltb_lt in Hd. now rewrite Hd.
Qed.
Lemma runs_nil_when b a h : (b = false) -> runs (when b a) h h.
Proof. intros ->. apply runs_skip. Qed.
