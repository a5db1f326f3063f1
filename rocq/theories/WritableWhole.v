(** The outcome of write_oi_fits. *)
From Coq Require Import Lia.
From Verif Require Import BaseLemmas FileProofs FileModel IOSpec FitsRows WriteModel WriteTables WriteProofs WriteVis RoundTrip
  WritableSpec WritableProofs WritableTables.
Open Scope list_scope.
Open Scope Z_scope.

(** several tables in turn *)
Definition result (l : list (bool * bool)) (a : wstate -> res wstate) : Prop :=
  (forall s, snd s <> 0 -> a s = Ok s)
  /\ forall f,
     ((exists before after v, l = before ++ v :: after /\ Forall good before /\ fst v = false) /\ a (f, 0) = Abort)
     \/ (~ (exists before after v, l = before ++ v :: after /\ Forall good before /\ fst v = false)
         /\ exists f' st, a (f, 0) = Ok (f', st) /\ (st = 0 <-> Forall good l)).

Lemma result_nil : result [] skip_.
Proof.
  split; [reflexivity|]. intros f. right. split.
  - intros (b & a & v & H & _). now destruct b.
  - exists f, 0. split; [reflexivity|]. split; [constructor|reflexivity].
Qed.
Lemma result_app l m a b : result l a -> result m b -> result (l ++ m) (a ;> b).
Proof.
  intros [A1 A2] [B1 B2]. split.
  - intros s H. unfold seq_. rewrite (A1 s H), bind_Ok. auto.
  - intros f. unfold seq_. destruct (A2 f) as [[(p & q & v & E & Hp & Hv) Ha]|[Hn (f' & st & Ha & Hs)]].
    + left. split; [|now rewrite Ha]. exists p, (q ++ m), v. rewrite E, <- app_assoc. auto.
    + rewrite Ha, bind_Ok. destruct (Z.eq_dec st 0) as [->|Hst].
      * assert (Hl : Forall good l) by now apply Hs.
        destruct (B2 f') as [[(p & q & v & E & Hp & Hv) Hb]|[Hnb (f'' & st & Hb & Hs')]].
        -- left. split; [|exact Hb]. exists (l ++ p), q, v. rewrite E, app_assoc. split; [reflexivity|].
           split; [now apply Forall_app|exact Hv].
        -- right. split.
           ++ intros (p & q & v & E & Hp & Hv). apply Hnb.
              assert (G : exists p', p = l ++ p').
              { clear - E Hl Hv Hp. revert p E Hp. induction Hl as [|x l Hx Hl IH]; intros p E Hp; [now exists p|].
                destruct p as [|y p]; cbn [app] in E.
                - injection E as <- _. unfold good in Hx. subst x. discriminate.
                - injection E as <- E. destruct (IH p E (Forall_inv_tail Hp)) as (p' & ->). now exists p'. }
              destruct G as (p' & ->). rewrite <- app_assoc in E. apply app_inv_head in E.
              exists p', q, v. split; [exact E|]. split; [|exact Hv]. now apply Forall_app in Hp.
           ++ exists f'', st. split; [exact Hb|]. rewrite Hs', Forall_app. tauto.
      * right. split.
        -- intros (p & q & v & E & Hp & Hv). apply Hn.
           assert (G : ~ Forall good l) by (intros G; apply Hst; now apply Hs).
           clear - E Hp Hv G. revert p E Hp. induction l as [|x l IH]; intros p E Hp; [contradiction G; constructor|].
           destruct p as [|y p]; cbn [app] in E.
           ++ injection E as <- <-. exists [], l, x. auto.
           ++ injection E as <- E. assert (Hx : good x) by exact (Forall_inv Hp).
              destruct (IH) with (p := p) as (p' & q' & v' & E' & Hp' & Hv').
              ** intros Hl. apply G. now constructor.
              ** exact E.
              ** exact (Forall_inv_tail Hp).
              ** exists (x :: p'), q', v'. rewrite E'. split; [reflexivity|]. split; [now constructor|exact Hv'].
        -- exists f', st. split; [now apply B1|]. rewrite Forall_app. tauto.
Qed.
Lemma result_one a n ok : outcome a n ok -> result [(n, ok)] a.
Proof.
  intros [A1 A2]. split; [exact A1|]. intros f. specialize (A2 f). destruct n.
  - right. split.
    + intros (b & q & v & E & _ & Hv). destruct b as [|x b]; [injection E as <-; discriminate|].
      now destruct b.
    + destruct A2 as (f' & st & Ha & Hs). exists f', st. split; [exact Ha|]. rewrite Hs. unfold good. split.
      * intros ->. repeat constructor.
      * intros H. apply Forall_inv in H. congruence.
  - left. split; [|exact A2]. exists [], [], (false, ok). repeat split. constructor.
Qed.
Lemma result_list {A} (w : A -> Z -> wstate -> res wstate) (g : A -> bool * bool) l :
  (forall a v, In a l -> outcome (w a v) (fst (g a)) (snd (g a))) ->
  forall k, result (map g l) (write_list w k l).
Proof.
  induction l as [|a l IH]; intros H k; cbn [map write_list]; [apply result_nil|].
  change (g a :: map g l) with ([g a] ++ map g l). apply result_app.
  - specialize (H a k (or_introl eq_refl)). destruct (g a). now apply result_one.
  - apply IH. intros b v Hb. apply H. now right.
Qed.

Section Whole.
Variable E : cfitsio.

Lemma acts_header h : exists f, write_oi_header E h (mk_file [] 0, 0) = Ok (f, 0).
Proof.
  unfold write_oi_header, guarded. cbn [snd Z.eqb negb]. unfold seq_ at 1. cbn [fst f_hdus].
  unfold fits_create_img. cbn [Z.eqb negb]. rewrite bind_Ok.
  match goal with |- context [?m (append_hdu ?h ?f, 0)] => assert (G : acts m [] true []) end.
  { eapply acts_bool; [|repeat (eapply acts_seq; [first [apply acts_str | apply acts_date | apply acts_when_key]|]);
      apply acts_chksum]. reflexivity. }
  destruct G as [_ G]. match goal with |- context [_ (append_hdu ?h ?f, 0)] => destruct (G (append_hdu h f, 0)) as ([f' st] & -> & Hs) end.
  - split; [reflexivity|]. eexists. split; [apply chdu_append|reflexivity].
  - destruct Hs as [Hs _]. cbn [snd] in Hs. subst st. eauto.
Qed.
Lemma result_tables o : wf_fits o = true -> channels_counted o ->
  (stuck E o /\ write_tables E o (mk_file [] 0, 0) = Abort)
  \/ (~ stuck E o /\ exists f st, write_tables E o (mk_file [] 0, 0) = Ok (f, st)
      /\ (st = 0 <-> Forall good (verdicts E o))).
Proof.
  intros Hw Hc. unfold wf_fits in Hw. split_and. rewrite forallb_forall in *.
  destruct (acts_header (o_header o)) as (f & Hh).
  assert (Hs : forall a b s s', a s = Ok s' -> seq_ a b s = b s') by (intros a b s s' H'; unfold seq_; now rewrite H').
  unfold write_tables. rewrite !(Hs _ _ _ _ Hh). clear Hs. unfold stuck, verdicts.
  match goal with |- context [?m (f, 0)] => match goal with |- context [(true, writable_target ?t) :: ?l] =>
    assert (G : result ([(true, writable_target t)] ++ l) m) end end.
  { apply result_app; [apply result_one; now apply outcome_target|].
    apply result_app; [apply result_list; cbn [fst snd]; intros; apply outcome_array; auto|].
    apply result_app; [apply result_list; cbn [fst snd]; intros; apply outcome_wavelength; auto|].
    apply result_app; [apply result_list; cbn [fst snd]; intros; apply outcome_corr; auto|].
    apply result_app; [apply result_list; cbn [fst snd]; intros; apply outcome_inspol; auto|].
    { unfold channels_counted in Hc. rewrite Forall_forall in Hc. auto. }
    apply result_app; [apply result_list; cbn [fst snd]; intros; apply outcome_vis; auto|].
    apply result_app; [apply result_list; cbn [fst snd]; intros; apply outcome_vis2; auto|].
    apply result_app; [apply result_list; cbn [fst snd]; intros; apply outcome_t3; auto|].
    apply result_list; cbn [fst snd]; intros; apply outcome_flux; auto. }
  destruct G as [_ G]. exact (G f).
Qed.
Lemma write_outcome o name d : wf_fits o = true -> channels_counted o -> find_file name d = None ->
  (write_oi_fits E name o d 0 = Abort <-> stuck E o)
  /\ (~ stuck E o -> exists hdus st, write_oi_fits E name o d 0 = Ok ((name, hdus) :: d, st)
      /\ (st = 0 <-> Forall good (verdicts E o))).
Proof.
  intros Hw Hc Hd. unfold write_oi_fits. cbn [Z.eqb negb]. rewrite Hd.
  destruct (result_tables o Hw Hc) as [[Hs ->]|[Hn (f & st & -> & Hst)]].
  - split; [easy|contradiction].
  - rewrite bind_Ok. cbn [fst snd]. split; [easy|]. intros _. eauto.
Qed.
End Whole.
