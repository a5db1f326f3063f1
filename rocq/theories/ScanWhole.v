(** What demo_write does with whatever it has read. *)
From Coq Require Import Lia.
From Verif Require Import BaseLemmas FileProofs FileModel IOSpec FitsRows WriteModel WriteTables WritableSpec WritableProofs WritableTables
  WritableWhole DemoSpec DemoProofs ScanSpec ScanWords ScanFile.
Open Scope string_scope.
Open Scope list_scope.
Open Scope Z_scope.

(** ** Steps that succeeded *)

Lemma bind_s_inv {A B} (m : scan A) (k : A -> scan B) s y : bind_s m k s = Ok y ->
  exists a s', m s = Ok (a, s') /\ k a s' = Ok y.
Proof. unfold bind_s. intros H. apply bind_inv in H as ((a & s') & H1 & H2). eauto. Qed.
Lemma times_inv {A} (m : Z -> scan A) n : forall k s l s', times n k m s = Ok (l, s') ->
  List.length l = n /\ Forall (fun a => exists k s s', m k s = Ok (a, s')) l.
Proof.
  induction n as [|n IH]; intros k s l s' H; cbn [times] in H.
  - injection H as <- _. split; [reflexivity|constructor].
  - apply bind_s_inv in H as (a & s1 & H1 & H). apply bind_s_inv in H as (l1 & s2 & H2 & H). injection H as <- _.
    apply IH in H2 as [H2 H3]. split; [cbn; now rewrite H2|]. constructor; eauto.
Qed.
Lemma rows_inv {A} (m : Z -> scan A) n s l s' : 0 <= n -> rows n m s = Ok (l, s') ->
  len_is n l = true /\ Forall (fun a => exists k s s', m k s = Ok (a, s')) l.
Proof.
  intros Hn H. apply times_inv in H as [H1 H2]. split; [|exact H2]. unfold len_is. apply Z.eqb_eq. rewrite H1. lia.
Qed.
Lemma room_inv n s a : room n s = Ok a -> 1 <= n.
Proof. unfold room. destruct (Z.ltb_spec 0 n); [lia|discriminate]. Qed.
Lemma unflagged_len n : 0 <= n -> len_is n (unflagged n) = true.
Proof. intros H. unfold len_is, unflagged. rewrite repeat_length. apply Z.eqb_eq. lia. Qed.
Lemma len_map {A B} (f : A -> B) n l : len_is n l = true -> len_is n (map f l) = true.
Proof. unfold len_is. now rewrite map_length. Qed.

Ltac peel H := let a := fresh "a" in let s := fresh "s" in let Ha := fresh "Ha" in
  lazymatch type of H with bind_s ?m ?k ?s0 = Ok ?y => apply (bind_s_inv m k s0 y) in H; destruct H as (a & s & Ha & H) end;
  cbv beta in H.
Ltac opens H := repeat first
  [ peel H
  | match type of H with (match ?v with _ => _ end) _ = Ok _ => destruct v; try discriminate H end ].
Ltac enter H d := lazymatch type of H with ?x ?s = Ok ?y =>
  let b := eval unfold d in x in
  let He := fresh "He" in assert (He : x = b) by (unfold d; reflexivity); rewrite He in H; clear He; cbv beta in H end.
Ltac rooms := repeat match goal with H : room _ _ = Ok _ |- _ => apply room_inv in H end.
Ltac lens := repeat match goal with
  | H : rows _ _ _ = Ok _ |- _ => apply rows_inv in H as [? ?]; [|lia]
  | H : vector _ _ _ = Ok _ |- _ => unfold vector in H end.

Section Whole.
Variable N : numbers.

Lemma array_shape s a s' : scan_array N s = Ok (a, s') -> wf_array a = true /\ 1 <= ar_nelement a.
Proof. intros H. enter H scan_array. opens H. injection H as <- _. rooms. lens. now split. Qed.
Lemma targets_shape s t s' : scan_targets N s = Ok (t, s') -> wf_targets t = true /\ 1 <= ot_ntarget t.
Proof. intros H. enter H scan_targets. opens H. injection H as <- _. rooms. lens. split; [now apply len_map|assumption]. Qed.
Lemma wavelength_shape s w s' : scan_wavelength N s = Ok (w, s') -> wf_wavelength w = true /\ 1 <= wv_nwave w.
Proof.
  intros H. enter H scan_wavelength. opens H. injection H as <- _. rooms. lens. split; [|assumption].
  now apply andb_true_intro.
Qed.
Lemma corr_shape s c s' : scan_corr N s = Ok (c, s') -> wf_corr c = true /\ 1 <= co_ncorr c.
Proof.
  intros H. enter H scan_corr. opens H. injection H as <- _. rooms. lens. split; [|assumption].
  unfold wf_corr. cbn [co_ncorr co_iindx co_jindx co_corr]. repeat (apply andb_true_intro; split); assumption.
Qed.
Lemma records_wf {R} (m : Z -> scan R) (wf : R -> bool) l :
  (forall k s r s', m k s = Ok (r, s') -> wf r = true) ->
  Forall (fun r => exists k s s', m k s = Ok (r, s')) l -> forallb wf l = true.
Proof.
  intros Hm Hl. apply forallb_forall. intros r Hr. eapply Forall_forall in Hl; [|exact Hr].
  destruct Hl as (k & s & s' & H). eauto.
Qed.
Ltac both := repeat match goal with |- andb _ _ = true => apply andb_true_intro; split end.

Lemma inspol_shape nwave s t s' : 0 <= nwave -> scan_inspol N nwave s = Ok (t, s') ->
  wf_inspol t = true /\ 1 <= is_numrec t /\ is_nwave t = nwave.
Proof.
  intros Hn H. enter H scan_inspol. opens H. injection H as <- _. rooms. lens. repeat split; [|assumption].
  unfold wf_inspol. cbn [is_numrec is_record is_nwave]. both; [assumption|].
  eapply (records_wf (fun _ => scan_inspol_record N nwave)); [|eassumption]. clear - Hn. intros _ s r s' H. enter H scan_inspol_record. opens H.
  injection H as <- _. lens. unfold wf_inspol_record. cbn [ip_jxx ip_jyy ip_jxy ip_jyx]. both; assumption.
Qed.
Lemma vis_shape junk nwave s t s' : 0 <= nwave -> scan_vis N junk nwave s = Ok (t, s') ->
  wf_vis t = true /\ 1 <= tb_numrec t /\ tb_nwave t = nwave.
Proof.
  intros Hn H. enter H scan_vis. opens H. injection H as <- _. rooms. lens. repeat split; [|assumption].
  unfold wf_vis, wf_dtab. cbn [tb_numrec tb_record tb_nwave tb_x]. both; [assumption|now apply Z.leb_le|].
  eapply (records_wf (fun _ => scan_vis_record N junk nwave)); [|eassumption]. clear - Hn. intros _ s r s' H. enter H scan_vis_record. opens H.
  injection H as <- _. lens. unfold wf_vis_record.
  cbn [vx_usevisrefmap vx_usecomplex vr_visamp vr_visamperr vr_visphi vr_visphierr vr_flag vr_visrefmap vr_rvis vr_rviserr
       vr_ivis vr_iviserr is_none]. both; try assumption; try reflexivity. now apply unflagged_len.
Qed.
Lemma vis2_shape nwave s t s' : 0 <= nwave -> scan_vis2 N nwave s = Ok (t, s') ->
  wf_vis2 t = true /\ 1 <= tb_numrec t /\ tb_nwave t = nwave.
Proof.
  intros Hn H. enter H scan_vis2. opens H. injection H as <- _. rooms. lens. repeat split; [|assumption].
  unfold wf_vis2, wf_dtab. cbn [tb_numrec tb_record tb_nwave tb_x]. both; [assumption|now apply Z.leb_le|].
  eapply (records_wf (fun _ => scan_vis2_record N nwave)); [|eassumption]. clear - Hn. intros _ s r s' H. enter H scan_vis2_record. opens H.
  injection H as <- _. lens. unfold wf_vis2_record.
  cbn [v2_vis2data v2_vis2err v2_flag]. both; try assumption. now apply unflagged_len.
Qed.
Lemma t3_shape nwave s t s' : 0 <= nwave -> scan_t3 N nwave s = Ok (t, s') ->
  wf_t3 t = true /\ 1 <= tb_numrec t /\ tb_nwave t = nwave.
Proof.
  intros Hn H. enter H scan_t3. opens H. injection H as <- _. rooms. lens. repeat split; [|assumption].
  unfold wf_t3, wf_dtab. cbn [tb_numrec tb_record tb_nwave tb_x]. both; [assumption|now apply Z.leb_le|].
  eapply (records_wf (fun _ => scan_t3_record N nwave)); [|eassumption]. clear - Hn. intros _ s r s' H. enter H scan_t3_record. opens H.
  injection H as <- _. lens. unfold wf_t3_record.
  cbn [t3_t3amp t3_t3amperr t3_t3phi t3_t3phierr t3_flag]. both; try assumption. now apply unflagged_len.
Qed.
Lemma flux_shape nwave s t s' : 0 <= nwave -> scan_flux N nwave s = Ok (t, s') ->
  wf_flux t = true /\ 1 <= tb_numrec t /\ tb_nwave t = nwave.
Proof.
  intros Hn H. enter H scan_flux. opens H. injection H as <- _. rooms. lens. repeat split; [|assumption].
  unfold wf_flux, wf_dtab. cbn [tb_numrec tb_record tb_nwave tb_x]. both; [assumption|now apply Z.leb_le|].
  eapply (records_wf (fun _ => scan_flux_record N nwave)); [|eassumption]. clear - Hn. intros _ s r s' H. enter H scan_flux_record. opens H.
  injection H as <- _. lens. unfold wf_flux_record.
  cbn [fr_fluxdata fr_fluxerr fr_flag]. both; try assumption. now apply unflagged_len.
Qed.
Theorem scan_shape junk s m s' : scan_all N junk s = Ok (m, s') -> shaped m.
Proof.
  intros H. enter H scan_all. do 9 peel H. injection H as <- _.
  apply array_shape in Ha as [? ?]. apply targets_shape in Ha0 as [? ?]. apply wavelength_shape in Ha1 as [? ?].
  apply corr_shape in Ha2 as [? ?]. apply inspol_shape in Ha3 as (? & ? & ?); [|lia]. apply vis_shape in Ha4 as (? & ? & ?); [|lia].
  apply vis2_shape in Ha5 as (? & ? & ?); [|lia]. apply t3_shape in Ha6 as (? & ? & ?); [|lia].
  apply flux_shape in Ha7 as (? & ? & ?); [|lia]. unfold shaped.
  cbn [dm_array dm_targets dm_wave dm_corr dm_inspol dm_vis dm_vis2 dm_t3 dm_flux].
  repeat (split; [assumption|]). split; repeat constructor; assumption.
Qed.

(** ** Strings have no white space *)

Lemma span_all p s : forall w, all_chars p (fst (span p w s)) = true.
Proof.
  induction s as [|c s IH]; intros w; [reflexivity|]. cbn [span].
  destruct (p c && _) eqn:Hc; [|reflexivity]. cbn [fst all_chars]. apply andb_true_iff in Hc as [-> _]. apply IH.
Qed.
Lemma fscanf_words ds : forall s x, In (SStr x) (fst (fscanf N ds s)) -> all_chars (fun c => negb (is_space c)) x = true.
Proof.
  induction ds as [|dir ds IH]; intros s x; cbn [fscanf]; [intros []|].
  destruct dir.
  - apply IH.
  - destruct s; [intros []|]. destruct (Ascii.eqb c a); [apply IH|intros []].
  - destruct (scan_int _) as [(z, s')|]; [|intros []]. cbn [fst In]. intros [H|H]; [discriminate|eauto].
  - destruct (nm_float N _) as [(z, s')|]; [|intros []]. cbn [fst In]. intros [H|H]; [discriminate|eauto].
  - destruct (nm_double N _) as [(z, s')|]; [|intros []]. cbn [fst In]. intros [H|H]; [discriminate|eauto].
  - cbv zeta. destruct (is_empty _); [intros []|]. cbn [fst In]. intros [H|H]; [|eauto]. injection H as <-. apply span_all.
  - destruct s; [intros []|]. cbn [fst In]. intros [H|H]; [discriminate|eauto].
Qed.
Lemma opt_string_words format s o s' : scan_opt_string N format s = Ok (o, s') ->
  all_chars (fun c => negb (is_space c)) (text o) = true.
Proof.
  unfold scan_opt_string, scanf. intros H. peel H. injection Ha as Ha.
  pose proof (fscanf_words (directives None format) s) as Hw. rewrite Ha in Hw. cbn [fst] in Hw.
  destruct a as [|[] [|]]; injection H as <- _; try reflexivity. cbn [text]. apply Hw. now left.
Qed.
Theorem scan_no_unit junk s m s' : scan_all N junk s = Ok (m, s') -> vx_ampunit (tb_x (dm_vis m)) = EmptyString.
Proof.
  intros H. enter H scan_all. do 9 peel H. injection H as <- _. cbn [dm_vis].
  enter Ha4 scan_vis. do 10 peel Ha4. injection Ha4 as <- _. cbn [tb_x vx_ampunit].
  apply opt_string_words in Ha11.
  destruct (str_eqb (text a11) "correlated flux") eqn:He; [|reflexivity]. apply str_eqb_eq in He. rewrite He in Ha11. discriminate.
Qed.

(** ** Writing *)

Variable E : cfitsio.
Definition demo_verdicts (m : demo) : list (bool * bool) :=
  let w := wv_nwave (dm_wave m) <=? 9999 in
  [(true, writable_target (dm_targets m)); (w, writable_vis (dm_vis m)); (w, writable_vis2 (dm_vis2 m));
   (w, writable_t3 (dm_t3 m)); (w, writable_flux E (dm_flux m)); (true, writable_array E (dm_array m)); (true, true);
   (true, writable_corr (dm_corr m)); (w, writable_inspol (dm_inspol m))].
Lemma demo_outcome h m : shaped m ->
  demo_write_tables E h m (mk_file [] 0, 0) = Abort /\ writable_target (dm_targets m) = true /\ 9999 < wv_nwave (dm_wave m)
  \/ (writable_target (dm_targets m) = false \/ wv_nwave (dm_wave m) <= 9999)
     /\ exists f st, demo_write_tables E h m (mk_file [] 0, 0) = Ok (f, st) /\ (st = 0 <-> writable_demo E m = true /\ wv_nwave (dm_wave m) <= 9999).
Proof.
  intros (W1 & W2 & W3 & W4 & W5 & W6 & W7 & W8 & W9 & _ & Hn).
  inversion_clear Hn as [|? ? N1 Hn1]. inversion_clear Hn1 as [|? ? N2 Hn]. inversion_clear Hn as [|? ? N3 Hn1].
  inversion_clear Hn1 as [|? ? N4 Hn]. inversion_clear Hn as [|? ? N5 _].
  assert (N0 : 0 <= wv_nwave (dm_wave m)).
  { unfold wf_wavelength, len_is in W3. apply andb_true_iff in W3 as [W3 _]. apply Z.eqb_eq in W3. lia. }
  destruct (acts_header E h) as (f & Hh).
  assert (Hs : forall a b s s', a s = Ok s' -> seq_ a b s = b s') by (intros a b s s' H'; unfold seq_; now rewrite H').
  unfold demo_write_tables. rewrite !(Hs _ _ _ _ Hh). clear Hs.
  match goal with |- context [?a (f, 0)] => assert (G : result (demo_verdicts m) a) end.
  { unfold demo_verdicts. cbv zeta.
    repeat match goal with |- result (?x :: ?y :: ?l) _ => change (x :: y :: l) with ([x] ++ (y :: l)); apply result_app end;
      apply result_one.
    - now apply outcome_target.
    - rewrite <- N2. now apply outcome_vis.
    - rewrite <- N3. now apply outcome_vis2.
    - rewrite <- N4. now apply outcome_t3.
    - rewrite <- N5. now apply outcome_flux.
    - now apply outcome_array.
    - now apply outcome_wavelength.
    - now apply outcome_corr.
    - rewrite <- N1. apply outcome_inspol; [assumption|lia]. }
  destruct G as [_ G]. specialize (G f). unfold demo_verdicts in G. cbv zeta in G.
  destruct G as [[(p & q & v & Hv & Hp & Hf) ->]|[Hst (f' & st & -> & Hs)]].
  - left. split; [reflexivity|].
    destruct p as [|x p]; [injection Hv as <- _; discriminate|]. injection Hv as <- Hv. apply Forall_inv in Hp.
    unfold good in Hp. injection Hp as Hp. split; [exact Hp|].
    destruct (Z.leb_spec (wv_nwave (dm_wave m)) 9999) as [Hl|Hl]; [exfalso|exact Hl].
    do 8 (destruct p as [|? p]; cbn [app] in Hv; [injection Hv as <- _; discriminate|injection Hv as _ Hv]).
    destruct p; discriminate.
  - right. split.
    + destruct (Z.leb_spec (wv_nwave (dm_wave m)) 9999) as [Hl|Hl]; [now right|]. left.
      destruct (writable_target (dm_targets m)) eqn:Ht; [exfalso|reflexivity]. apply Hst.
      exists [(true, true)]. do 2 eexists. split; [reflexivity|]. split; [repeat constructor|reflexivity].
    + exists f', st. split; [reflexivity|]. rewrite Hs. unfold writable_demo. rewrite !andb_true_iff.
      destruct (Z.leb_spec (wv_nwave (dm_wave m)) 9999) as [Hl|Hl].
      * split.
        -- intros H. rewrite !Forall_cons_iff in H. unfold good in H. decompose [and] H.
           repeat match goal with H : (_, _) = _ |- _ => injection H as H end. tauto.
        -- intros (H & _). decompose [and] H. unfold good.
           repeat match goal with H : _ = true |- _ => rewrite H; clear H end. repeat constructor.
      * split; [|lia]. intros H. rewrite !Forall_cons_iff in H. unfold good in H. destruct H as (_ & H & _). discriminate.
Qed.
Theorem demo_ends text out rest texts d s m s' : line text -> line out -> find_text text texts = Some s ->
  scan_all N (cf_junk_int E) s = Ok (m, s') -> find_file out d = None ->
  let w := demo_write N E (typing [text; out] rest) texts d in
  let n := wv_nwave (dm_wave m) in
  (w = Abort <-> writable_target (dm_targets m) = true /\ 9999 < n)
  /\ (w = Ok (Some 1, d, rest) <-> writable_demo E m = false /\ (n <= 9999 \/ writable_target (dm_targets m) = false))
  /\ ((exists hdus, w = Ok (None, (out, hdus) :: d, rest)) <-> writable_demo E m = true /\ n <= 9999).
Proof.
  intros Hl1 Hl2 Ht Hs Hd w n. pose proof (scan_shape _ _ _ _ Hs) as Hm.
  assert (Hh : exists h, demo_header E m = Ok h).
  { unfold demo_header. destruct (ot_targ (dm_targets m)) eqn:He; [|eauto]. exfalso.
    destruct Hm as (_ & W & _ & _ & _ & _ & _ & _ & _ & Hc & _). inversion_clear Hc as [|? ? _ Hc1]. inversion_clear Hc1 as [|? ? H1 _].
    unfold wf_targets, len_is in W. rewrite He in W. apply Z.eqb_eq in W. cbn [List.length] in W. lia. }
  destruct Hh as (h & Hh).
  assert (Hw : w = (x <- demo_write_tables E h m (mk_file [] 0, 0) ;;
                    if snd x =? 0 then Ok (None, (out, f_hdus (fst x)) :: d, rest) else Ok (Some 1, d, rest))).
  { unfold w, demo_write. rewrite (typed _ text (typing_types text [out] rest Hl1)), bind_Ok, Ht, Hs, bind_Ok. cbv zeta. cbn [fst].
    rewrite Hh, bind_Ok, (typing_after text [out] rest Hl1), (typed _ out (typing_types out [] rest Hl2)), bind_Ok, Hd.
    rewrite (typing_after out [] rest Hl2). reflexivity. }
  clearbody w. subst w. unfold n. clear n.
  assert (Hwt : writable_target (dm_targets m) = false -> writable_demo E m = false).
  { unfold writable_demo. now intros ->. }
  destruct (demo_outcome h m Hm) as [(-> & H1 & H2)|[H1 (f & st & -> & H2)]].
  - cbn [bind]. split; [tauto|]. split.
    + split; [discriminate|]. intros [_ [H|H]]; [lia|congruence].
    + split; [intros [? H]; discriminate|lia].
  - rewrite bind_Ok. cbn [snd fst]. split; [|destruct (Z.eqb_spec st 0) as [->|Hst]; split].
    + split; [destruct (st =? 0); discriminate|]. intros [H3 H4]. destruct H1; [congruence|lia].
    + split; [discriminate|]. intros [H3 _]. destruct (proj1 H2 eq_refl). congruence.
    + split; [intros _; now apply H2|eauto].
    + split; [intros _|reflexivity]. destruct (writable_demo E m) eqn:Hb.
      * exfalso. destruct H1 as [H1|H1]; [apply Hwt in H1; discriminate|]. now apply Hst, H2.
      * split; [reflexivity|tauto].
    + split; [intros [? H]; discriminate|]. intros H. now apply H2 in H.
Qed.
End Whole.
