(** Reading is the same whatever the checksums, and the warnings are about HDUs of the file. *)
From Coq Require Import Lia.
From Verif Require Import BaseLemmas ReadFile ChksumSpec.
Open Scope string_scope.
Open Scope list_scope.
Open Scope Z_scope.

Section Proofs.
Variable E : cfitsio.
Variable V : hdu -> verdict.

Lemma verify_error h n st : st <> 0 -> verify_chksum E V h n st = Ok ([], st).
Proof. intros H. unfold verify_chksum. destruct (Z.eqb_spec st 0); [congruence|reflexivity]. Qed.
Lemma name_read h :
  (find_key "EXTNAME" (hd_keys h) <> None ->
   match find_key "EXTVER" (hd_keys h) with
   | None => True | Some (KInt _) => True | Some v => cf_conv_int E v <> None end) ->
  chksum_name E h 0 = Ok ((Some (shown_name E h), Some (shown_version E h)), 0).
Proof.
  unfold chksum_name, rbind, read_key_opt_string, read_key_opt_int, key_opt, rbind, get_status, set_status, rret,
    read_key_str, read_key_int, call, shown_name, shown_version, key_text.
  cbn [bind fst snd Z.eqb negb].
  destruct (find_key "EXTNAME" (hd_keys h)) as [v|].
  - intros H. specialize (H ltac:(discriminate)).
    destruct (find_key "EXTVER" (hd_keys h)) as [w|].
    + unfold of_option. destruct v, w; cbn in *; try reflexivity;
      match goal with |- context [cf_conv_int ?E ?x] => destruct (cf_conv_int E x); [reflexivity|congruence] end.
    + destruct v; reflexivity.
  - reflexivity.
Qed.
Lemma verify_ok h n : verifiable E V h -> verify_chksum E V h n 0 = Ok (warnings E V (n, h), 0).
Proof.
  intros (Hs & Hd & Hh & Hk). unfold verify_chksum, warnings, wrong_data, wrong_hdu in *. cbn [Z.eqb negb fst snd].
  destruct (V h) as [[d|] [u|] st]; cbn [v_dataok v_hduok v_status wrong] in *; try congruence. subst st.
  cbn [var]. rewrite bind_Ok. destruct (d =? -1); cbn [app]; rewrite !bind_Ok.
  - cbn [negb]. rewrite name_read by (apply Hk; auto). rewrite bind_Ok. cbn [var]. rewrite !bind_Ok.
    destruct (u =? -1); reflexivity.
  - destruct (u =? -1) eqn:Hu; cbn [negb]; [|reflexivity]. rewrite name_read by (apply Hk; auto).
    rewrite !bind_Ok. cbn [var]. rewrite !bind_Ok, Hu. reflexivity.
Qed.

(** ** Printing computations against silent ones *)

Section File.
Variable hdus : list hdu.
Hypothesis checkable : forall h, In h hdus -> verifiable E V h.

Definition about (t : string) : Prop := exists n h, hdu_at hdus n h /\ In t (warnings E V (n, h)).
Definition sim {A} (post : A -> Prop) (x : pr A) (r : res A) : Prop :=
  silenced x = r /\ forall m a, x = Ok (m, a) -> Forall about m /\ post a.
Definition kept {A} (a : A * wstate) : Prop := f_hdus (fst (snd a)) = hdus.

Lemma sim_bind {A B} (P : A -> Prop) (Q : B -> Prop) x r k k' :
  sim P x r -> (forall a, P a -> sim Q (k a) (k' a)) -> sim Q (pbind x k) (a <- r ;; k' a).
Proof.
  intros [Hs Hx] Hk. destruct x as [(m, a)| |]; cbn [silenced] in Hs; subst r; [|split; [reflexivity|discriminate]..].
  destruct (Hx _ _ eq_refl) as [Hm Ha]. destruct (Hk a Ha) as [Hs' Hk']. unfold pbind. cbn [bind fst snd].
  rewrite <- Hs'. destruct (k a) as [(m', b)| |]; cbn [bind fst snd silenced]; (split; [reflexivity|]);
    [|discriminate..]. intros ? ? [= <- <-]. destruct (Hk' _ _ eq_refl) as [Hm' Hb]. split; [|exact Hb].
  now apply Forall_app.
Qed.
Lemma sim_ret {A} (P : A -> Prop) a : P a -> sim P (Ok ([], a)) (Ok a).
Proof. split; [reflexivity|]. intros ? ? [= <- <-]. auto. Qed.
Lemma sim_quiet {A} (P : A -> Prop) r : (forall a, r = Ok a -> P a) -> sim P (quiet r) r.
Proof.
  intros H. destruct r as [a| |]; (split; [reflexivity|]); cbn [quiet bind]; [|discriminate..].
  intros ? ? [= <- <-]. auto.
Qed.
Lemma sim_UB {A} (P : A -> Prop) : sim P UB UB.
Proof. split; [reflexivity|discriminate]. Qed.

Lemma chdu_at f h : f_hdus f = hdus -> chdu f = Some h -> hdu_at hdus (f_cur f) h.
Proof.
  unfold chdu, hdu_at. intros ->. destruct (Z.ltb_spec (f_cur f) 1); [discriminate|]. intros H1. split; [lia|exact H1].
Qed.
Lemma at_chdu_kept {A} (r : hdu -> rd (option A)) f st a :
  f_hdus f = hdus -> at_chdu r (f, st) = Ok a -> kept a.
Proof.
  intros Hf. unfold at_chdu, kept. cbn [fst snd]. destruct (chdu f); [|intros [= <-]; exact Hf].
  intros H. apply bind_inv in H as (p & _ & H). injection H as <-. exact Hf.
Qed.
Lemma sim_chdu {A} (r : hdu -> rd (option A)) f st :
  f_hdus f = hdus -> sim kept (verified_chdu E V r (f, st)) (at_chdu r (f, st)).
Proof.
  intros Hf. unfold verified_chdu. cbn [fst snd]. destruct (chdu f) as [h|] eqn:Hh.
  - assert (Hv : sim (fun z => z = st) (verify_chksum E V h (f_cur f) st) (Ok st)).
    { pose proof (chdu_at f h Hf Hh) as Ha. destruct (Z.eq_dec st 0) as [->|Hn].
      - rewrite verify_ok by (apply checkable; destruct Ha as [_ Ha]; exact (nth_error_In _ _ Ha)).
        split; [reflexivity|]. intros ? ? [= <- <-]. split; [|reflexivity]. apply Forall_forall.
        intros t Ht. exists (f_cur f), h. auto.
      - rewrite verify_error by exact Hn. apply sim_ret. reflexivity. }
    apply (sim_bind _ kept _ _ _ (fun z => at_chdu r (f, z)) Hv). intros a ->. apply sim_quiet.
    intros a. now apply at_chdu_kept.
  - apply sim_quiet. intros a. now apply at_chdu_kept.
Qed.
Lemma sim_guard {A} (k : pio A) (k' : io A) f st :
  f_hdus f = hdus -> (st = 0 -> sim kept (k (f, st)) (k' (f, st))) ->
  sim kept (guard_pio k (f, st)) (guard_io k' (f, st)).
Proof.
  intros Hf H. unfold guard_pio, guard_io. cbn [snd]. destruct (Z.eqb_spec st 0); cbn [negb]; [auto|].
  now apply sim_ret.
Qed.

Lemma movabs_kept n s : f_hdus (fst s) = hdus -> exists s', fits_movabs_hdu n s = Ok s' /\ f_hdus (fst s') = hdus.
Proof.
  destruct s as (f, st). cbn [fst]. intros H. unfold fits_movabs_hdu. destruct (negb _); [eauto|].
  eexists. split; [reflexivity|]. unfold movabs. destruct (_ || _); exact H.
Qed.
Lemma movnam_kept n s : f_hdus (fst s) = hdus -> f_hdus (fst (fits_movnam_hdu E n s)) = hdus.
Proof.
  destruct s as (f, st). cbn [fst]. intros H. unfold fits_movnam_hdu. destruct (negb _); [exact H|].
  destruct (movnam _ _ _ _); exact H.
Qed.
Lemma next_kept n s : f_hdus (fst s) = hdus -> f_hdus (fst (next_named_hdu E n s)) = hdus.
Proof.
  destruct s as (f, st). cbn [fst]. intros H. unfold next_named_hdu. destruct (negb _); [exact H|].
  destruct (next_named _ _ _ _); exact H.
Qed.
Lemma specific_kept n k v s : f_hdus (fst s) = hdus -> f_hdus (fst (specific_named_hdu E n k v s)) = hdus.
Proof.
  destruct s as (f, st). cbn [fst]. intros H. unfold specific_named_hdu. destruct (negb _); [exact H|].
  destruct (specific_named _ _ _ _ _ _); exact H.
Qed.
Lemma sim_chdu' {A} (r : hdu -> rd (option A)) s :
  f_hdus (fst s) = hdus -> sim kept (verified_chdu E V r s) (at_chdu r s).
Proof. destruct s. apply sim_chdu. Qed.

Lemma sim_header f st : f_hdus f = hdus -> sim kept (read_header E V (f, st)) (read_oi_header E (f, st)).
Proof.
  intros Hf. apply sim_guard; [exact Hf|]. intros _. destruct (movabs_kept 1 (f, st) Hf) as (s & -> & Hs).
  rewrite !bind_Ok. now apply sim_chdu'.
Qed.
Lemma sim_targets f st : f_hdus f = hdus -> sim kept (read_targets E V (f, st)) (read_oi_target E (f, st)).
Proof. intros Hf. apply sim_guard; [exact Hf|]. intros _. apply sim_chdu'. now apply movnam_kept. Qed.
Lemma sim_array n f st : f_hdus f = hdus -> sim kept (read_array E V n (f, st)) (read_oi_array E n (f, st)).
Proof. intros Hf. apply sim_guard; [exact Hf|]. intros _. apply sim_chdu'. now apply specific_kept. Qed.
Lemma sim_wavelength n f st :
  f_hdus f = hdus -> sim kept (read_wavelength E V n (f, st)) (read_oi_wavelength E n (f, st)).
Proof. intros Hf. apply sim_guard; [exact Hf|]. intros _. apply sim_chdu'. now apply specific_kept. Qed.
Lemma sim_corr n f st : f_hdus f = hdus -> sim kept (read_corr E V n (f, st)) (read_oi_corr E n (f, st)).
Proof. intros Hf. apply sim_guard; [exact Hf|]. intros _. apply sim_chdu'. now apply specific_kept. Qed.
Lemma sim_next {A} n (r : hdu -> rd (option A)) f st :
  f_hdus f = hdus -> sim kept (read_next_table E V n r (f, st)) (read_next E n r (f, st)).
Proof.
  intros Hf. apply sim_guard; [exact Hf|]. intros _. cbv zeta.
  pose proof (next_kept n (f, st) Hf) as Hk. destruct (negb _); [now apply sim_ret|now apply sim_chdu'].
Qed.

Lemma sim_loop {A} n (r : hdu -> rd (option A)) skip fuel : forall s, f_hdus (fst s) = hdus ->
  sim kept (loop_tables fuel skip (read_next_table E V n r) s) (read_loop fuel skip (read_next E n r) s).
Proof.
  induction fuel as [|fuel IH]; intros [f st] Hf; [apply sim_UB|]. cbn [loop_tables read_loop].
  apply (sim_bind kept kept); [now apply sim_next|]. intros (a, (f', st')) Ha. unfold kept in Ha. cbn [fst snd] in Ha.
  destruct (negb (st' =? 0)).
  - destruct (st' =? END_OF_FILE); [now apply sim_ret|]. destruct skip; [now apply IH|now apply sim_ret].
  - destruct a as [a|]; [|apply sim_UB]. apply (sim_bind kept kept); [now apply IH|]. intros b Hb. now apply sim_ret.
Qed.
Lemma sim_all {A} n (r : hdu -> rd (option A)) skip s : f_hdus (fst s) = hdus ->
  sim kept (all_tables skip (read_next_table E V n r) s) (read_all skip (read_next E n r) s).
Proof.
  intros Hs. unfold all_tables, read_all. destruct (movabs_kept 1 s Hs) as (s' & -> & Hs'). rewrite !bind_Ok.
  now apply sim_loop.
Qed.
Lemma sim_so_far {A} s (k : pr (option A * Z)) k' :
  sim (fun _ => True) k k' -> sim (fun _ => True) (ok_so_far s k) (ok_status s k').
Proof. intros H. unfold ok_so_far, ok_status. destruct (negb _); [now apply sim_ret|exact H]. Qed.
Lemma sim_file s : f_hdus (fst s) = hdus -> sim (fun _ => True) (read_file E V s) (read_tables E s).
Proof.
  destruct s as (f, st). cbn [fst]. intros Hf. unfold read_file, read_tables.
  eapply sim_bind; [now apply sim_header|]. intros (hd, (f1, st1)) H1. unfold kept in H1. cbn [fst snd] in H1.
  eapply sim_bind; [now apply sim_targets|]. intros (tg, (f2, st2)) H2. unfold kept in H2. cbn [fst snd] in H2.
  Ltac turn := eapply sim_bind; [now apply sim_all|];
    let Hk := fresh in intros (?, (?, ?)) Hk; unfold kept in Hk; cbn [fst snd] in Hk.
  apply sim_so_far. turn. apply sim_so_far. turn. apply sim_so_far. turn. turn. turn. turn. turn. turn.
  destruct hd as [hd|]; [|apply sim_UB]. destruct tg as [tg|]; [|apply sim_UB].
  apply (sim_bind (fun _ => True)); [now apply sim_quiet|]. intros o _. now apply sim_ret.
Qed.
End File.
End Proofs.
