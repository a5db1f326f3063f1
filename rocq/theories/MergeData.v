(** Merging data tables. *)
From Verif Require Import BaseLemmas FileModel FileSpec FileProofs MergeModel MergeSpec
  MergeProofs MergeNames MergeNamed MergeTables MergeTargets.
From Coq Require Import Lia.
Open Scope Z_scope.

Lemma Forall2_length {A B} (P : A -> B -> Prop) l m : Forall2 P l m -> length l = length m.
Proof. induction 1; cbn; auto. Qed.

(** ** The loop over inputs *)

Section Inputs.
Context {T : Type}.
Variables (tabs : oi_fits -> list T)
  (f : oi_fits -> hash string -> hash string -> hash string -> T -> res T).
Variables (Pa Pi Pc : oi_fits -> hash string -> Prop).

Definition step d a i c (t : T) (s : list T * Z) : res (list T * Z) :=
  t' <- f d a i c t ;; Ok (fst s ++ [t'], snd s + 1).

Definition produced (ins : list oi_fits) (dt : oi_fits * T) (t' : T) : Prop :=
  In (fst dt) ins /\ In (snd dt) (tabs (fst dt)) /\
  exists a i c, Pa (fst dt) a /\ Pi (fst dt) i /\ Pc (fst dt) c
    /\ f (fst dt) a i c (snd dt) = Ok t'.

Lemma produced_more d ins dt t' : produced ins dt t' -> produced (d :: ins) dt t'.
Proof. intros (H1 & H2). split; [now right|exact H2]. Qed.

Lemma one_input d a i c l0 n0 s ins : Pa d a -> Pi d i -> Pc d c ->
  foreach (tabs d) (step d a i c) (l0, n0) = Ok s ->
  exists l', s = (l0 ++ l', n0 + Z.of_nat (length l'))
    /\ Forall2 (produced (d :: ins)) (map (pair d) (tabs d)) l'.
Proof.
  intros Ha Hi Hc H.
  apply (foreach_invariant (fun pre s => exists l', s = (l0 ++ l', n0 + Z.of_nat (length l'))
    /\ Forall2 (produced (d :: ins)) (map (pair d) pre) l')) in H.
  - exact H.
  - exists []. split; [|constructor]. cbn. rewrite app_nil_r. f_equal. lia.
  - intros pre t s1 s2 (l' & -> & F) Hin Hb. unfold step in Hb. cbn [fst snd] in Hb.
    inv_bind Hb. injection Hb as <-. exists (l' ++ [a0]). split.
    + rewrite <- app_assoc, app_length. cbn. f_equal. lia.
    + rewrite map_app. apply Forall2_app; [exact F|]. constructor; [|constructor].
      split; [now left|]. split; [exact Hin|]. exists a, i, c. auto.
Qed.

Lemma all_inputs ins ha hi hc l0 n0 s :
  Forall2 Pa ins ha -> Forall2 Pi ins hi -> Forall2 Pc ins hc ->
  for_inputs ins ha hi hc (fun d a i c s => foreach (tabs d) (step d a i c) s) (l0, n0) = Ok s ->
  exists l', s = (l0 ++ l', n0 + Z.of_nat (length l'))
    /\ Forall2 (produced ins) (from_inputs tabs ins) l'.
Proof.
  intros Fa. revert hi hc l0 n0. induction Fa as [|d a ins ha Ha Fa IH]; intros hi hc l0 n0 Fi Fc H.
  - cbn in H. injection H as <-. exists []. split; [|constructor]. cbn. rewrite app_nil_r. f_equal. lia.
  - inversion Fi as [|? i ? hi' Hi Fi']; subst. inversion Fc as [|? c ? hc' Hc Fc']; subst.
    cbn [for_inputs] in H. apply bind_inv in H as (s1 & E & H).
    apply (one_input d a i c l0 n0 s1 ins Ha Hi Hc) in E as (l1 & -> & F1).
    destruct (IH hi' hc' _ _ Fi' Fc' H) as (l2 & -> & F2).
    exists (l1 ++ l2). split.
    + rewrite <- app_assoc, app_length. f_equal. lia.
    + cbn [from_inputs flat_map]. apply Forall2_app; [exact F1|].
      eapply Forall2_impl'; [|exact F2]. intros; now apply produced_more.
Qed.

(** Progress *)
Lemma all_inputs_progress ins ha hi hc s0 :
  (forall d a i c t, In d ins -> In t (tabs d) -> exists t', f d a i c t = Ok t') ->
  length ha = length ins -> length hi = length ins -> length hc = length ins ->
  exists s, for_inputs ins ha hi hc (fun d a i c s => foreach (tabs d) (step d a i c) s) s0 = Ok s.
Proof.
  clear Pa Pi Pc. revert ha hi hc s0.
  induction ins as [|d ins IH]; intros [|a ha] [|i hi] [|c hc] s0 Hf La Li Lc; try discriminate;
    [cbn; eauto|]. cbn [for_inputs].
  destruct (foreach_progress (fun _ _ => True) (step d a i c) (tabs d) s0) as (s1 & E & _).
  - exact I.
  - intros pre t post s Et _. destruct (Hf d a i c t) as (t' & E); [now left| |].
    + rewrite Et. apply in_elt.
    + unfold step. rewrite E. cbn [bind]. eauto.
  - rewrite E. cbn [bind]. apply IH; try (cbn in *; lia).
    intros; apply Hf; auto. now right.
Qed.
End Inputs.

(** ** Names *)

Section Follow.
Context {A : Type} (name : A -> string) (set_name : string -> A -> A)
  (same : A -> A -> Prop) (good : A -> Prop).
Variables (tabs outl : list A) (hout : hash A) (h : hash string).
Hypothesis Rn : renames name same tabs h outl.
Hypothesis Hh : forall n, hash_lookup hout n = latest_named name outl n.
Hypothesis Nd : NoDup (map name outl).
Hypothesis Ft : Forall (fun c => fits_value (name c) = true) outl.

Lemma name_follows_intro old :
  name_follows name same tabs (hash_lookup hout) old (replace_name h old).
Proof using All.
  split.
  - intros a Ha. destruct (renames_the_one name same tabs h outl old a Rn Ha) as (c & Hc & Sc & Lc).
    exists c. split; [|exact Sc]. unfold replace_name. rewrite Lc.
    rewrite Forall_forall in Ft. rewrite strlcpy_fits by (now apply Ft). rewrite Hh.
    now apply latest_unique.
  - intros Hn. unfold replace_name. destruct Rn as [R1 _]. rewrite R1; [reflexivity|].
    intros Hin. apply in_map_iff in Hin as (a & E & Ha). now apply (Hn a).
Qed.
Lemma optional_follows_intro old :
  optional_follows name same tabs (hash_lookup hout) old (replace_optional h old).
Proof using All.
  split.
  - intros ->. reflexivity.
  - intros Hne. unfold replace_optional.
    replace (0 <? strlen old) with true; [apply name_follows_intro|].
    destruct old; [congruence|]. unfold strlen. cbn [String.length]. lia.
Qed.
End Follow.

(** ** Tables *)

Section Tables.
Context {X R : Type}.
Variables (copy : dtab X R -> res (dtab X R)) (id : R -> Z) (set_id : Z -> R -> R)
  (time : R -> f64) (same : R -> R -> Prop) (tabs : oi_fits -> list (dtab X R))
  (wft : dtab X R -> bool).
(** How the copy is related to the original: its revision and, given the attributes
    of the table, its records *)
Variables (rv : Z -> Z) (rel : X -> Z -> R -> R -> Prop).

Definition copied (t t1 : dtab X R) : Prop :=
  tb_revision t1 = rv (tb_revision t) /\ same_attributes t t1
  /\ len_is (tb_numrec t1) (tb_record t1) = true
  /\ Forall2 (fun r r' => id r' = id r /\ rel (tb_x t) (tb_revision t) r r') (tb_record t) (tb_record t1).
Hypothesis copy_copied : forall t t1, wft t = true -> copy t = Ok t1 -> copied t t1.

(** [t'] is what becomes of [t]. *)
Definition placed (ids : hash Z) (d : oi_fits) (a i c : hash string) (t t' : dtab X R) : Prop :=
  tb_revision t' = rv (tb_revision t) /\ tb_date_obs t' = tb_date_obs t /\ tb_x t' = tb_x t
  /\ tb_numrec t' = tb_numrec t /\ tb_nwave t' = tb_nwave t
  /\ tb_arrname t' = replace_optional a (tb_arrname t)
  /\ tb_insname t' = replace_name i (tb_insname t)
  /\ tb_corrname t' = replace_optional c (tb_corrname t)
  /\ Forall2 (fun r r' => exists r1 n, rel (tb_x t) (tb_revision t) r r1 /\ id r1 = id r
       /\ replace_target_id d ids (id r) = Ok n /\ r' = set_id n r1) (tb_record t) (tb_record t').

Lemma placed_intro ids d a i c t t' : wft t = true ->
  merge_data_table copy id set_id ids d a i c t = Ok t' -> placed ids d a i c t t'.
Proof using copy_copied.
  intros W H. unfold merge_data_table in H. apply bind_inv in H as (t1 & E & H).
  destruct (copy_copied t t1 W E) as (Rv & (A1 & A2 & A3 & A4 & A5 & A6 & A7) & Ln & F).
  cbv zeta in H. apply bind_inv in H as (rec & Er & H). injection H as <-.
  cbn [tb_record set_corrname set_insname set_arrname tb_numrec] in Er.
  apply update_records_inv in Er; [|exact Ln].
  unfold placed. cbn [tb_revision tb_date_obs tb_x tb_numrec tb_nwave tb_arrname tb_insname
    tb_corrname tb_record set_record set_corrname set_insname set_arrname].
  rewrite A2, A3, A4. repeat (split; [assumption || reflexivity|]).
  clear -F Er. revert rec Er. induction F as [|r r1 l l1 [Hi Hr] F IH]; intros rec Er;
    inversion Er as [|? r' ? rec' Hb Er']; subst; constructor; auto.
  apply bind_inv in Hb as (n & En & Hb). injection Hb as <-. rewrite Hi in En. eauto 6.
Qed.

Lemma table_progress ids ins d a i c t rows : In d ins -> wf_targets (o_targets d) = true ->
  target_inv (all_targets ins) rows ids -> wft t = true ->
  (exists t1, copy t = Ok t1) ->
  Forall (fun r => In (id r) (map tg_target_id (ot_targ (o_targets d)))) (tb_record t) ->
  exists t', merge_data_table copy id set_id ids d a i c t = Ok t'.
Proof using copy_copied.
  intros Hd W I Wt (t1 & E) Hid. unfold merge_data_table. rewrite E. cbn [bind]. cbv zeta.
  cbn [tb_record set_corrname set_insname set_arrname tb_numrec].
  destruct (copy_copied t t1 Wt E) as (_ & _ & Ln & F).
  destruct (update_records_progress (tb_numrec t1) (fun r =>
    n <- replace_target_id d ids (id r) ;; Ok (set_id n r)) (tb_record t1) Ln) as (rec & ->).
  - intros r Hr.
    assert (K : In (id r) (map tg_target_id (ot_targ (o_targets d)))).
    { clear -F Hid Hr. induction F as [|x y l l1 [E _] F IH]; [contradiction|].
      inversion Hid; subst. destruct Hr as [->|Hr]; [now rewrite E|auto]. }
    destruct (replace_id_progress ins d ids rows (id r) Hd W I K) as (n & ->). cbn [bind]. eauto.
  - cbn [bind]. eauto.
Qed.
End Tables.

(** Successful copies *)
Lemma dup_dtab_pos {X R} (dupr : Z -> R -> res R) (t t1 : dtab X R) :
  len_is (tb_numrec t) (tb_record t) = true ->
  (forall r r', dupr (tb_nwave t) r = Ok r' -> 0 < tb_nwave t) ->
  dup_dtab dupr t = Ok t1 -> 0 < tb_numrec t /\ 0 < tb_nwave t.
Proof.
  intros Ln Hp H. unfold dup_dtab in H. apply bind_inv in H as (r0 & E & H).
  pose proof (memdup_inv _ _ _ E) as (Hn & _ & _). rewrite memdup_ok in E by auto. injection E as <-.
  split; [exact Hn|]. apply bind_inv in H as (rec & Er & _).
  apply map_records_inv in Er; [|exact Ln].
  destruct (get_lt (tb_record t) (tb_numrec t)) as (a & l & El); [now apply len_is_eq|lia|].
  rewrite El in Er. inversion Er; subst. eauto.
Qed.
Lemma vis2_pos t t1 : wf_vis2 t = true -> dup_oi_vis2 t = Ok t1 -> 0 < tb_numrec t /\ 0 < tb_nwave t.
Proof.
  intros W H. eapply dup_dtab_pos; [now apply wf_dtab_len in W| |exact H].
  intros r r' Hr. unfold dup_vis2_record in Hr. apply bind_inv in Hr as (? & E & _).
  now apply memdup_inv in E.
Qed.
Lemma t3_pos t t1 : wf_t3 t = true -> dup_oi_t3 t = Ok t1 -> 0 < tb_numrec t /\ 0 < tb_nwave t.
Proof.
  intros W H. eapply dup_dtab_pos; [now apply wf_dtab_len in W| |exact H].
  intros r r' Hr. unfold dup_t3_record in Hr. apply bind_inv in Hr as (? & E & _).
  now apply memdup_inv in E.
Qed.
Lemma flux_pos t t1 : wf_flux t = true -> dup_oi_flux t = Ok t1 -> 0 < tb_numrec t /\ 0 < tb_nwave t.
Proof.
  intros W H. eapply dup_dtab_pos; [now apply wf_dtab_len in W| |exact H].
  intros r r' Hr. unfold dup_flux_record in Hr. apply bind_inv in Hr as (? & E & _).
  now apply memdup_inv in E.
Qed.
Lemma vis_pos t t1 : wf_vis t = true -> dup_oi_vis t = Ok t1 -> 0 < tb_numrec t /\ 0 < tb_nwave t.
Proof.
  intros W H. eapply dup_dtab_pos; [now apply wf_dtab_len in W| |exact H].
  intros r r' Hr. unfold dup_vis_record in Hr. apply bind_inv in Hr as (? & E & _).
  now apply memdup_inv in E.
Qed.

Definition rev12 (r : Z) : Z := if r =? 1 then 2 else r.
(** [r'] is [r] with another TIME if the revision was 1. *)
Definition upgraded_record {R} (time : R -> f64) (same : R -> R -> Prop) (rev : Z) (r r' : R) : Prop :=
  same r r' /\ time r' = (if rev =? 1 then f64_zero else time r).

Lemma upgraded_copied {X R} (id : R -> Z) (time : R -> f64) (same : R -> R -> Prop) (t t1 : dtab X R) :
  (forall r, same r r) -> (forall r r', same r r' -> id r' = id r) ->
  len_is (tb_numrec t) (tb_record t) = true -> upgraded time same t t1 ->
  copied id rev12 (fun _ => upgraded_record time same) t t1.
Proof.
  intros Rf Sid Ln [(R1 & R2 & At & F)|[R1 ->]]; unfold copied, rev12, upgraded_record.
  - rewrite R1. cbn [Z.eqb Pos.eqb]. split; [exact R2|]. split; [exact At|]. split.
    + destruct At as (_ & _ & _ & _ & _ & -> & _). unfold len_is in *.
      now rewrite <- (Forall2_length _ _ _ F).
    + eapply Forall2_impl'; [|exact F]. cbn. intros r r' []. auto.
  - destruct (Z.eqb_spec (tb_revision t) 1); [contradiction|]. split; [reflexivity|].
    split; [repeat split|]. split; [exact Ln|]. apply Forall2_diag. auto.
Qed.

Lemma vis2_copied t t1 : wf_vis2 t = true -> copy_oi_vis2 t = Ok t1 ->
  copied v2_target_id rev12 (fun _ => upgraded_record v2_time same_but_time_vis2) t t1.
Proof.
  intros W H. unfold copy_oi_vis2 in H. apply bind_inv in H as (c & E & H).
  destruct (vis2_pos t c W E) as [P1 P2]. rewrite dup_oi_vis2_ok in E by auto. injection E as <-.
  destruct (upgrade_oi_vis2_ok t W) as (t' & E & U). rewrite E in H. injection H as <-.
  apply upgraded_copied; auto.
  - intros r. repeat split.
  - intros r r' S. apply S.
  - now apply wf_dtab_len in W.
Qed.
Lemma t3_copied t t1 : wf_t3 t = true -> copy_oi_t3 t = Ok t1 ->
  copied t3_target_id rev12 (fun _ => upgraded_record t3_time same_but_time_t3) t t1.
Proof.
  intros W H. unfold copy_oi_t3 in H. apply bind_inv in H as (c & E & H).
  destruct (t3_pos t c W E) as [P1 P2]. rewrite dup_oi_t3_ok in E by auto. injection E as <-.
  destruct (upgrade_oi_t3_ok t W) as (t' & E & U). rewrite E in H. injection H as <-.
  apply upgraded_copied; auto.
  - intros r. repeat split.
  - intros r r' S. apply S.
  - now apply wf_dtab_len in W.
Qed.
Lemma flux_copied t t1 : wf_flux t = true -> dup_oi_flux t = Ok t1 ->
  copied fr_target_id (fun r => r) (fun _ _ r r' => r' = r) t t1.
Proof.
  intros W H. destruct (flux_pos t t1 W H) as [P1 P2]. rewrite dup_oi_flux_ok in H by auto.
  injection H as <-. split; [reflexivity|]. split; [repeat split|].
  split; [now apply wf_dtab_len in W|]. apply Forall2_diag. auto.
Qed.

Lemma wf_vis_image t : wf_vis t = true ->
  wf_vis (set_record (map (vis_dup_image (tb_x t)) (tb_record t)) t) = true.
Proof.
  unfold wf_vis, wf_dtab. cbn [tb_numrec tb_record tb_nwave tb_x set_record].
  rewrite !andb_true_iff. intros [[H1 H2] H3]. repeat split; auto.
  - unfold len_is in *. now rewrite map_length.
  - rewrite forallb_forall in *. intros r Hr. apply in_map_iff in Hr as (r0 & <- & Hr0).
    specialize (H3 r0 Hr0). unfold wf_vis_record, vis_dup_image in *.
    destruct (tb_x t) as []; destruct r0; cbn in *.
    destruct vx_usecomplex; cbn in *; [|exact H3].
    rewrite !andb_true_iff in *. intuition auto.
Qed.

(** OI_VIS: the record copied, then its TIME *)
Definition vis_rel (x : vis_extra) (rev : Z) (r r' : vis_record) : Prop :=
  upgraded_record vr_time same_but_time_vis rev (vis_dup_image x r) r'.
Lemma image_id x r : vr_target_id (vis_dup_image x r) = vr_target_id r.
Proof. unfold vis_dup_image. destruct (vx_usecomplex x); reflexivity. Qed.
Lemma image_time x r : vr_time (vis_dup_image x r) = vr_time r.
Proof. unfold vis_dup_image. destruct (vx_usecomplex x); reflexivity. Qed.

Lemma vis_copied t t1 : wf_vis t = true -> copy_oi_vis t = Ok t1 ->
  copied vr_target_id rev12 vis_rel t t1.
Proof.
  intros W H. unfold copy_oi_vis in H. apply bind_inv in H as (c & E & H).
  destruct (vis_pos t c W E) as [P1 P2]. rewrite dup_oi_vis_image in E by auto.
  injection E as <-. pose proof (wf_vis_image t W) as W'.
  destruct (upgrade_oi_vis_ok _ W') as (t' & E & U). rewrite E in H. injection H as <-.
  apply (upgraded_copied vr_target_id) in U.
  - destruct U as (U1 & U2 & U3 & U4). split; [exact U1|]. split; [exact U2|]. split; [exact U3|].
    cbn [tb_record set_record tb_revision] in U4.
    clear -U4. remember (map (vis_dup_image (tb_x t)) (tb_record t)) as l eqn:El.
    revert El. generalize (tb_record t). induction U4 as [|r r1 l l1 [Hi Hr] F IH]; intros l0 El.
    + destruct l0; [constructor|discriminate].
    + destruct l0 as [|r0 l0]; [discriminate|]. injection El as -> ->. constructor; [|now apply IH].
      split; [now rewrite Hi, image_id|exact Hr].
  - intros r. repeat split.
  - intros r r' S. apply S.
  - cbn. unfold len_is. rewrite map_length. now apply wf_dtab_len in W.
Qed.

(** Copies always succeed on non-empty tables. *)
Lemma vis_copy_total t : wf_vis t = true -> 0 < tb_numrec t -> 0 < tb_nwave t ->
  exists t1, copy_oi_vis t = Ok t1.
Proof.
  intros W P1 P2. unfold copy_oi_vis. rewrite dup_oi_vis_image by auto. cbn [bind].
  destruct (upgrade_oi_vis_ok _ (wf_vis_image t W)) as (t' & E & _). eauto.
Qed.
Lemma vis2_copy_total t : wf_vis2 t = true -> 0 < tb_numrec t -> 0 < tb_nwave t ->
  exists t1, copy_oi_vis2 t = Ok t1.
Proof.
  intros W P1 P2. unfold copy_oi_vis2. rewrite dup_oi_vis2_ok by auto. cbn [bind].
  destruct (upgrade_oi_vis2_ok t W) as (t' & E & _). eauto.
Qed.
Lemma t3_copy_total t : wf_t3 t = true -> 0 < tb_numrec t -> 0 < tb_nwave t ->
  exists t1, copy_oi_t3 t = Ok t1.
Proof.
  intros W P1 P2. unfold copy_oi_t3. rewrite dup_oi_t3_ok by auto. cbn [bind].
  destruct (upgrade_oi_t3_ok t W) as (t' & E & _). eauto.
Qed.

(** ** OI_INSPOL *)

Lemma inspol_pos t t1 : wf_inspol t = true -> dup_oi_inspol t = Ok t1 ->
  0 < is_numrec t /\ 0 < is_nwave t.
Proof.
  intros W H. unfold wf_inspol in W. apply andb_true_iff in W as [Ln _].
  unfold dup_oi_inspol in H. apply bind_inv in H as (r0 & E & H).
  pose proof (memdup_inv _ _ _ E) as (Hn & _ & _). rewrite memdup_ok in E by auto. injection E as <-.
  split; [exact Hn|]. apply bind_inv in H as (rec & Er & _).
  apply map_records_inv in Er; [|exact Ln].
  destruct (get_lt (is_record t) (is_numrec t)) as (a & l & El); [now apply len_is_eq|lia|].
  rewrite El in Er. inversion Er as [|? ? ? ? Hr _]; subst. apply bind_inv in Hr as (? & Hr & _).
  now apply memdup_inv in Hr.
Qed.

Definition inspol_placed (ids : hash Z) (d : oi_fits) (a i : hash string) (t t' : oi_inspol) : Prop :=
  is_revision t' = is_revision t /\ is_date_obs t' = is_date_obs t /\ is_npol t' = is_npol t
  /\ is_orient t' = is_orient t /\ is_model t' = is_model t
  /\ is_numrec t' = is_numrec t /\ is_nwave t' = is_nwave t
  /\ is_arrname t' = replace_optional a (is_arrname t)
  /\ Forall2 (fun r r' => exists n, replace_target_id d ids (ip_target_id r) = Ok n
       /\ r' = ip_set_insname (replace_name i (ip_insname r)) (ip_set_target_id n r))
       (is_record t) (is_record t').

Lemma inspol_placed_intro ids d a i t t' : wf_inspol t = true ->
  merge_inspol_table ids d a i t = Ok t' -> inspol_placed ids d a i t t'.
Proof.
  intros W H. unfold merge_inspol_table in H. apply bind_inv in H as (t1 & E & H).
  destruct (inspol_pos t t1 W E) as [P1 P2]. rewrite dup_oi_inspol_ok in E by auto.
  injection E as <-. cbv zeta in H. apply bind_inv in H as (rec & E1 & H).
  apply bind_inv in H as (rec' & E2 & H). injection H as <-.
  cbn [is_record is_set_arrname is_numrec] in E1, E2.
  unfold wf_inspol in W. apply andb_true_iff in W as [Ln _].
  apply update_records_inv in E1; [|exact Ln].
  apply update_records_inv in E2; [|unfold len_is in *; now rewrite <- (Forall2_length _ _ _ E1)].
  unfold inspol_placed. cbn [is_revision is_date_obs is_npol is_orient is_model is_numrec is_nwave
    is_arrname is_record is_set_record is_set_arrname].
  repeat (split; [reflexivity|]).
  clear -E1 E2. revert rec' E2. induction E1 as [|r r1 l l1 Hb F IH]; intros rec' E2;
    inversion E2 as [|? r' ? l' Hb' E2']; subst; constructor; auto.
  apply bind_inv in Hb as (n & En & Hb). injection Hb as <-. injection Hb' as <-.
  exists n. split; [exact En|]. reflexivity.
Qed.

Lemma inspol_progress ids ins d a i t rows : In d ins -> wf_targets (o_targets d) = true ->
  target_inv (all_targets ins) rows ids -> wf_inspol t = true ->
  0 < is_numrec t -> 0 < is_nwave t ->
  Forall (fun r => In (ip_target_id r) (map tg_target_id (ot_targ (o_targets d)))) (is_record t) ->
  exists t', merge_inspol_table ids d a i t = Ok t'.
Proof.
  intros Hd W I Wt P1 P2 Hid. unfold merge_inspol_table. rewrite dup_oi_inspol_ok by auto.
  cbn [bind]. cbv zeta. cbn [is_record is_set_arrname is_numrec].
  unfold wf_inspol in Wt. apply andb_true_iff in Wt as [Ln _].
  destruct (update_records_progress (is_numrec t) (fun r =>
    n <- replace_target_id d ids (ip_target_id r) ;; Ok (ip_set_target_id n r)) (is_record t) Ln)
    as (rec & E1).
  - intros r Hr. rewrite Forall_forall in Hid.
    destruct (replace_id_progress ins d ids rows (ip_target_id r) Hd W I (Hid r Hr)) as (n & ->).
    cbn [bind]. eauto.
  - rewrite E1. cbn [bind]. apply update_records_inv in E1; [|exact Ln].
    destruct (update_records_progress (is_numrec t) (fun r =>
      Ok (ip_set_insname (replace_name i (ip_insname r)) r)) rec) as (rec' & ->).
    + unfold len_is in *. now rewrite <- (Forall2_length _ _ _ E1).
    + eauto.
    + cbn [bind]. eauto.
Qed.
