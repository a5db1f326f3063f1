(** Filtering a whole dataset. *)
From Coq Require Import Lia Permutation.
From Verif Require Import HeapSpec HeapFilterSpec BaseLemmas HeapProofs HeapDup HeapTables HeapFree HeapAlloc
  HeapMain HeapGrow HeapFilterTab HeapFilterOne HeapFilterPol HeapFilterAll HeapFilterHeld.
Open Scope Z_scope.

Lemma listed_in o T p : In (T, p) (listed o) <->
  (T = array_shape /\ In p (fp_array o)) \/ (T = wavelength_shape /\ In p (fp_wavelength o))
  \/ (T = corr_shape /\ In p (fp_corr o)) \/ (T = inspol_shape /\ In p (fp_inspol o))
  \/ (T = vis_shape /\ In p (fp_vis o)) \/ (T = vis2_shape /\ In p (fp_vis2 o))
  \/ (T = t3_shape /\ In p (fp_t3 o)) \/ (T = flux_shape /\ In p (fp_flux o)).
Proof.
  unfold listed. rewrite !in_app_iff.
  assert (H : forall S l, In (T, p) (map (pair S) l) <-> T = S /\ In p l).
  { intros S l. rewrite in_map_iff. split.
    - intros (x & [= -> ->] & Hx). split; [reflexivity | exact Hx].
    - intros [-> Hx]. exists p. split; [reflexivity | exact Hx]. }
  rewrite !H. tauto.
Qed.

Section Filter.
Variable malloc : heap -> addr.
Hypothesis Hfresh : fresh malloc.
Variable fill : heap -> string -> Z -> struct.
Variable ch : choices.

Section Input.
Variables (h : heap) (i : fits_ptrs) (ts : list addr) (bss : list (list addr)) (t : addr).
Hypothesis Hdata : dataset_at h i ts bss.
Hypothesis Hfl : filterable h i.
Hypothesis Ht : ~ In t (fp_targets i :: blocks i ts bss).

(** [hb] still has the input as in [h] *)
Definition sees (hb : heap) : Prop := forall a, live h a -> a <> t -> lookup hb a = lookup h a.
Lemma sees_grows hb hc l : sees hb -> grows hb hc l -> sees hc.
Proof.
  intros S G a Ha Hn. rewrite (grows_keep _ _ _ _ G); [exact (S a Ha Hn)|]. unfold live. rewrite (S a Ha Hn). exact Ha.
Qed.

Lemma input_owned T p : In (T, p) (listed i) ->
  exists s n vs arrs vecs, table_at T h p s n vs arrs vecs /\ 0 < n /\ Forall (fun v => 0 < snd v) vs
    /\ ~ In t (p :: storage arrs vecs).
Proof.
  intros Hin. destruct (Forall2_in_l _ _ _ _ (da_tables _ _ _ _ Hdata) Hin) as (bs & Hbs & s & n & vs & arrs & vecs & Htab & ->).
  cbn [fst snd] in Htab. destruct (fl_sizes _ _ Hfl _ _ _ _ _ _ _ Hin Htab) as [Hn Hv].
  exists s, n, vs, arrs, vecs. split; [exact Htab|]. split; [exact Hn|]. split; [exact Hv|].
  intros X. apply Ht. right. unfold blocks. rewrite !in_app_iff. right. destruct X as [<-|X].
  - left. apply in_map_iff. exists (T, p). split; [reflexivity | exact Hin].
  - right. apply in_concat. exists (storage arrs vecs). tauto.
Qed.
Lemma input_at hb T p : sees hb -> In (T, p) (listed i) ->
  exists s n vs arrs vecs, table_at T h p s n vs arrs vecs /\ table_at T hb p s n vs arrs vecs
    /\ 0 < n /\ Forall (fun v => 0 < snd v) vs.
Proof.
  intros S Hin. destruct (input_owned T p Hin) as (s & n & vs & arrs & vecs & Htab & Hn & Hv & Nt).
  exists s, n, vs, arrs, vecs. split; [exact Htab|]. split; [|split; assumption].
  eapply table_at_frame; [exact Htab|]. intros a Ha. apply S; [exact (table_live _ _ _ _ _ _ _ _ Htab a Ha)|].
  intros ->. contradiction.
Qed.
Lemma input_struct hb T p : sees hb -> In (T, p) (listed i) -> exists s, lookup hb p = Some [s].
Proof.
  intros S Hin. destruct (input_at hb T p S Hin) as (s & n & vs & arrs & vecs & _ & Htab & _).
  exists s. exact (ta_struct _ _ _ _ _ _ _ _ Htab).
Qed.

Lemma wave_input hb p : sees hb -> In p (fp_wavelength i) -> exists s x n, input_wave hb p s x n.
Proof.
  intros S Hp. assert (Hin : In (wavelength_shape, p) (listed i)) by (apply listed_in; tauto).
  destruct (input_at hb _ p S Hin) as (s & n & vs & arrs & vecs & H0 & Hb & Hn & _).
  destruct (fl_waves _ _ Hfl p s Hp (ta_struct _ _ _ _ _ _ _ _ H0)) as (x & Hx).
  exists s, x, n. split; [exact (ta_struct _ _ _ _ _ _ _ _ Hb)|]. split; [exact Hx|].
  split; [apply num_some; exact (ta_count _ _ _ _ _ _ _ _ Hb)|]. split; [exact Hn|].
  pose proof (ta_arrays _ _ _ _ _ _ _ _ Hb) as A. cbn [wavelength_shape flat sh_arrays] in A.
  inversion A as [|? e1 ? l1 (A1 & _) B]; subst. inversion B as [|? e2 ? l2 (A2 & _) _]; subst.
  intros f [<-|[<-|[]]]; [rewrite A1 | rewrite A2]; discriminate.
Qed.
Lemma hash_flags hw hb th x nIn : sees hw -> hash_ok (fp_wavelength i) hw hb th -> agrees h i x (Some nIn) ->
  flags_ok hb (hash_lookup th x) nIn.
Proof.
  intros S Hh Ha u Hu. destruct (Hh x u Hu) as (Hl & p & s & n & k & Hp & (Ls & Nx & Nw & _) & Hused & Hk).
  split; [exact Hl|]. exists k.
  assert (Hin : In (wavelength_shape, p) (listed i)) by (apply listed_in; tauto).
  destruct (input_at hw _ p S Hin) as (s' & n' & vs & arrs & vecs & H0 & Hb & _).
  pose proof (ta_struct _ _ _ _ _ _ _ _ Hb) as X. rewrite Ls in X. injection X as <-.
  pose proof (Ha p s Hp (ta_struct _ _ _ _ _ _ _ _ H0) Nx) as Y. rewrite (num_of _ _ _ Nw) in Y. injection Y as <-.
  split; assumption.
Qed.

Lemma nwave_of V s vs : sh_vectors (records V) s = Some vs -> (forall s, num s "nwave" = None -> V s = None) ->
  exists nIn, num s "nwave" = Some nIn.
Proof.
  intros Hk HV. destruct (num s "nwave") as [nIn|] eqn:E; [exists nIn; reflexivity|].
  cbn [records sh_vectors] in Hk. rewrite (HV s E) in Hk. discriminate.
Qed.

Lemma data_step V vectors hw hb th p :
  In (records V, p) (listed i) -> In p (fp_vis i ++ fp_vis2 i ++ fp_t3 i ++ fp_flux i) ->
  (forall s, num s "nwave" = None -> V s = None) ->
  (forall s n vs rec rows vecs, table_at (records V) h p s n vs [(rec, rows)] vecs ->
     (forall r f, In r rows -> In f (map fst vs) -> getf r f <> None) -> vectors_fit V vectors p s rows) ->
  sees hw -> sees hb -> hash_ok (fp_wavelength i) hw hb th ->
  exists r, (name <- load_bytes hb p 0 "insname" ;;
    match hash_lookup th name with
    | None => Ok (None, hb)
    | Some u => filter_or_free malloc fill (fun p q h => filter_table malloc fill ch vectors p u q h) p hb
    end) = Ok r /\ kept (records V) hb r.
Proof.
  intros Hin Hd HV Hfit Sw Sb Hh. destruct (input_at hb _ p Sb Hin) as (s & n & vs & arrs & vecs & H0 & Hb & Hn & _).
  destruct (nwave_of V s vs (ta_kinds _ _ _ _ _ _ _ _ Hb) HV) as (nIn & Hw).
  destruct (record_input V hb p s n vs arrs vecs nIn Hb Hn Hw) as (rec & rows & Hit & -> & Hm).
  destruct (fl_data _ _ Hfl p s Hd (ta_struct _ _ _ _ _ _ _ _ H0)) as (x & Hx & Ha). rewrite Hw in Ha.
  eapply (data_ok malloc Hfresh fill ch V vectors th p hb s n nIn rec rows x Hit); [|exact Hx | exact (hash_flags hw hb th x nIn Sw Hh Ha)].
  eapply Hfit; eassumption.
Qed.

Lemma inspol_step hw hb th p : In p (fp_inspol i) -> sees hw -> sees hb -> hash_ok (fp_wavelength i) hw hb th ->
  exists r, filter_or_free malloc fill (filter_oi_inspol malloc fill ch th) p hb = Ok r /\ kept inspol_shape hb r.
Proof.
  intros Hp Sw Sb Hh. assert (Hin : In (inspol_shape, p) (listed i)) by (apply listed_in; tauto).
  destruct (input_at hb _ p Sb Hin) as (s & n & vs & arrs & vecs & H0 & Hb & Hn & Hv).
  pose proof (ta_kinds _ _ _ _ _ _ _ _ Hb) as Hk. cbn [inspol_shape records sh_vectors] in Hk. unfold of_nwave in Hk.
  destruct (num s "nwave") as [nIn|] eqn:Hw; [|discriminate]. injection Hk as <-.
  assert (Hpos : 0 < nIn) by (inversion Hv; assumption).
  destruct (record_input _ hb p s n _ arrs vecs nIn Hb Hn Hw) as (rec & rows & Hit & -> & Hm).
  apply (filter_inspol_ok malloc Hfresh fill ch th p hb s n nIn rec rows Hit Hpos).
  - exact Hm.
  - intros r Hr. pose proof (ta_arrays _ _ _ _ _ _ _ _ H0) as A. inversion A as [|? ? ? ? (A1 & A2 & _) _]; subst.
    destruct (fl_inspol _ _ Hfl p s (rec, rows) r Hp (ta_struct _ _ _ _ _ _ _ _ H0) A1 A2 Hr) as (x & Hx & Ha).
    rewrite Hw in Ha. exists x. split; [exact Hx | exact (hash_flags hw hb th x nIn Sw Hh Ha)].
Qed.

Lemma hash_grows hw hb hc th l : hash_ok (fp_wavelength i) hw hb th -> grows hb hc l ->
  hash_ok (fp_wavelength i) hw hc th.
Proof.
  intros Hh G. eapply hash_ok_keep; [exact Hh|]. intros x u Hu. apply (grows_keep _ _ _ _ G). apply (Hh x u Hu).
Qed.

(** one group of data tables *)
Lemma data_group V vectors hw h1 hb th l gs ex :
  (forall p, In p l -> In (records V, p) (listed i) /\ In p (fp_vis i ++ fp_vis2 i ++ fp_t3 i ++ fp_flux i)) ->
  (forall s, num s "nwave" = None -> V s = None) ->
  (forall p s n vs rec rows vecs, In p l -> table_at (records V) h p s n vs [(rec, rows)] vecs ->
     (forall r f, In r rows -> In f (map fst vs) -> getf r f <> None) -> vectors_fit V vectors p s rows) ->
  sees hw -> sees hb -> hash_ok (fp_wavelength i) hw hb th -> held h1 hb gs ex ->
  exists out h' b, filter_all_data malloc fill ch (filter_table malloc fill ch vectors) th l hb = Ok (out, h')
    /\ held h1 h' ((records V, out, b) :: gs) ex /\ sees h' /\ hash_ok (fp_wavelength i) hw h' th.
Proof.
  intros Hl HV Hfit Sw Sb Hh Hheld. unfold filter_all_data.
  edestruct (filter_all_ok ch (records V)) with (l := l) (h0 := hb) as (out & h' & b & E & Ho & G);
    [| |exists out, h', b; split; [exact E|]; split; [|split]].
  - intros p Hp. eapply input_struct; [exact Sb | apply (Hl p Hp)].
  - intros p hc L Hp G. destruct (Hl p Hp) as [Hin Hd]. apply (data_step V vectors hw hc th p Hin Hd HV).
    + intros s n vs rec rows vecs. exact (Hfit p s n vs rec rows vecs Hp).
    + exact Sw.
    + eapply sees_grows; eassumption.
    + eapply hash_grows; eassumption.
  - apply (held_add h1 hb h' gs ex [] (records V, out, b) Hheld Ho G).
  - eapply sees_grows; eassumption.
  - eapply hash_grows; eassumption.
Qed.
Lemma flat_group k h1 hb l gs ex :
  (forall p, In p l -> In (shape_of k, p) (listed i)) -> sees hb -> held h1 hb gs ex ->
  exists out h' b, filter_all ch (fun p h => r <- dup_of k malloc p h ;; Ok (Some (fst r), snd r)) l hb = Ok (out, h')
    /\ held h1 h' ((shape_of k, out, b) :: gs) ex /\ sees h'.
Proof.
  intros Hl Sb Hheld.
  edestruct (filter_all_ok ch (shape_of k)) with (l := l) (h0 := hb) as (out & h' & b & E & Ho & G);
    [| |exists out, h', b; split; [exact E|]; split].
  - intros p Hp. eapply input_struct; [exact Sb | apply (Hl p Hp)].
  - intros p hc L Hp G. destruct (input_at hc _ p (sees_grows _ _ _ Sb G) (Hl p Hp)) as (s & n & vs & arrs & vecs & _ & Hb & Hn & Hv).
    eapply dup_kept; eassumption.
  - apply (held_add h1 hb h' gs ex [] (shape_of k, out, b) Hheld Ho G).
  - eapply sees_grows; eassumption.
Qed.
Lemma inspol_group hw h1 hb th gs ex : sees hw -> sees hb -> hash_ok (fp_wavelength i) hw hb th -> held h1 hb gs ex ->
  exists out h' b, filter_all_oi_inspol malloc fill ch th (fp_inspol i) hb = Ok (out, h')
    /\ held h1 h' ((inspol_shape, out, b) :: gs) ex /\ sees h' /\ hash_ok (fp_wavelength i) hw h' th.
Proof.
  intros Sw Sb Hh Hheld. unfold filter_all_oi_inspol.
  edestruct (filter_all_ok ch inspol_shape) with (l := fp_inspol i) (h0 := hb) as (out & h' & b & E & Ho & G);
    [| |exists out, h', b; split; [exact E|]; split; [|split]].
  - intros p Hp. eapply (input_struct _ inspol_shape); [exact Sb | apply listed_in; tauto].
  - intros p hc L Hp G. eapply inspol_step; [exact Hp | exact Sw | eapply sees_grows; eassumption | eapply hash_grows; eassumption].
  - apply (held_add h1 hb h' gs ex [] (inspol_shape, out, b) Hheld Ho G).
  - eapply sees_grows; eassumption.
  - eapply hash_grows; eassumption.
Qed.
Lemma wave_group h1 hb gs : sees hb -> held h1 hb gs [] ->
  exists out th h' b, filter_all_oi_wavelength malloc fill ch (fp_wavelength i) hb = Ok (out, th, h')
    /\ held h1 h' ((wavelength_shape, out, b) :: gs) (hv th) /\ sees h' /\ hash_ok (fp_wavelength i) hb h' th.
Proof.
  intros Sb Hheld.
  destruct (filter_waves_ok malloc Hfresh fill ch (fp_wavelength i) hb) as (out & th & h' & b & E & Ho & Hh & G).
  { intros p Hp. exact (wave_input hb p Sb Hp). }
  exists out, th, h', b. split; [exact E|]. split; [|split; [eapply sees_grows; eassumption | exact Hh]].
  rewrite <- (app_nil_r (hv th)). apply (held_add h1 hb h' gs [] (hv th) (wavelength_shape, out, b) Hheld Ho G).
Qed.

Lemma of_nwave_none names s : num s "nwave" = None -> of_nwave names s = None.
Proof. unfold of_nwave. intros ->. reflexivity. Qed.
Lemma fl_kinds names (p : addr) s n vs rec rows vecs : NoDup names ->
  table_at (records (of_nwave names)) h p s n vs [(rec, rows)] vecs ->
  (forall r f, In r rows -> In f (map fst vs) -> getf r f <> None) ->
  vectors_fit (of_nwave names) (fun _ _ w => Ok (map (fun f => (f, w)) names, [])) p s rows.
Proof.
  intros Hd Htab Hm. apply simple_fit; [exact Hd|]. intros r f Hr Hf. apply (Hm r f Hr).
  pose proof (ta_kinds _ _ _ _ _ _ _ _ Htab) as Hk. cbn [records sh_vectors] in Hk. unfold of_nwave in Hk.
  destruct (num s "nwave"); [|discriminate]. injection Hk as <-. rewrite map_fst_pair. exact Hf.
Qed.

Theorem apply_storage st :
  one_target ch h i -> lookup h t = Some [st] -> getf st "ntarget" <> None -> getf st "targ" <> None ->
  exists o h' ts' bss', apply_oi_filter malloc fill ch i t h = Ok (o, h')
    /\ fp_targets o = t /\ output_at h' o ts' bss'
    /\ (forall a, a <> t -> live h a -> lookup h' a = lookup h a)
    /\ (forall a, In a (blocks o ts' bss') <-> (~ live h a /\ live h' a)).
Proof.
  intros Hone Lt M1 M2. unfold apply_oi_filter.
  destruct (da_targets _ _ _ _ Hdata) as (s & n & vs & arrs & vecs & Htab & Ets).
  destruct (filter_target_ok malloc Hfresh fill ch h (fp_targets i) s n vs arrs vecs t st Htab) as (h1 & E1 & hz & ts' & Z1 & Z2 & Z3 & Z4).
  { exact (fl_targets _ _ Hfl _ _ _ _ _ Htab). }
  { intros sel e Hs H1 H2. exact (Hone sel s e Hs (ta_struct _ _ _ _ _ _ _ _ Htab) H1 H2). }
  { exact Lt. } { exact M1. } { exact M2. }
  { intros X. apply Ht. destruct X as [X|X]; [left; exact X | right; apply in_app_iff; left; rewrite Ets; exact X]. }
  rewrite E1. cbn [bind].
  assert (S1 : sees h1).
  { intros a Ha Hn. rewrite (grows_keep _ _ _ _ Z3); [apply Z1, Hn|]. unfold live. rewrite Z1 by exact Hn. exact Ha. }
  destruct (flat_group KArray h1 h1 (fp_array i) [] []) as (oa & h2 & ba & E2 & H2 & S2).
  { intros p Hp. apply listed_in. cbn [shape_of]. tauto. } { exact S1. } { apply held_nil. }
  unfold filter_all_oi_array. cbn [dup_of] in E2. rewrite E2. cbn [bind fst snd].
  assert (Hc : forall p, In p (fp_corr i) -> In (shape_of KCorr, p) (listed i)).
  { intros p Hp. apply listed_in. cbn [shape_of]. tauto. }
  destruct (flat_group KCorr h1 h2 (fp_corr i) _ [] Hc S2 H2) as (oc & h3 & bc & E3 & H3 & S3).
  unfold filter_all_oi_corr. cbn [dup_of] in E3. rewrite E3. cbn [bind fst snd].
  destruct (wave_group h1 h3 _ S3 H3) as (ow & th & h4 & bw & E4 & H4 & S4 & Hh4). rewrite E4. cbn [bind fst snd]. cbv zeta.
  destruct (inspol_group h3 h1 h4 th _ _ S3 S4 Hh4 H4) as (op & h5 & bp & E5 & H5 & S5 & Hh5). rewrite E5. cbn [bind fst snd].
  edestruct (data_group vis_kinds) with (5 := S5) (l := fp_vis i) (6 := Hh5) (7 := H5)
    as (ov & h6 & bv & E6 & H6 & S6 & Hh6);
    [intros p Hp; split; [apply listed_in; tauto | rewrite !in_app_iff; tauto]
    |intros s0 X; unfold vis_kinds; rewrite X; reflexivity
    |intros p s0 n0 vs0 rec rows vecs0 Hp H0 Hm; eapply vis_fit;
       [exact (ta_kinds _ _ _ _ _ _ _ _ H0) | exact Hm
       |pose proof (ta_arrays _ _ _ _ _ _ _ _ H0) as A; inversion A as [|? ? ? ? (A1 & A2 & _) _]; subst;
        intros r f Hr Hf; exact (fl_vis _ _ Hfl p s0 (rec, rows) r Hp (ta_struct _ _ _ _ _ _ _ _ H0) A1 A2 Hr f Hf)]
    |exact S3|].
  unfold filter_oi_vis. rewrite E6. cbn [bind fst snd].
  edestruct (data_group (of_nwave ["vis2data"; "vis2err"; "flag"]%string)) with (5 := S6) (l := fp_vis2 i) (6 := Hh6) (7 := H6)
    as (ov2 & h7 & bv2 & E7 & H7 & S7 & Hh7);
    [intros p Hp; split; [apply listed_in; tauto | rewrite !in_app_iff; tauto]
    |apply of_nwave_none
    |intros p s0 n0 vs0 rec rows vecs0 Hp H0 Hm; eapply fl_kinds; [nodup | exact H0 | exact Hm]
    |exact S3|].
  unfold filter_oi_vis2. rewrite E7. cbn [bind fst snd].
  edestruct (data_group (of_nwave ["t3amp"; "t3amperr"; "t3phi"; "t3phierr"; "flag"]%string)) with (5 := S7) (l := fp_t3 i) (6 := Hh7) (7 := H7)
    as (ot3 & h8 & bt3 & E8 & H8 & S8 & Hh8);
    [intros p Hp; split; [apply listed_in; tauto | rewrite !in_app_iff; tauto]
    |apply of_nwave_none
    |intros p s0 n0 vs0 rec rows vecs0 Hp H0 Hm; eapply fl_kinds; [nodup | exact H0 | exact Hm]
    |exact S3|].
  unfold filter_oi_t3. rewrite E8. cbn [bind fst snd].
  edestruct (data_group (of_nwave ["fluxdata"; "fluxerr"; "flag"]%string)) with (5 := S8) (l := fp_flux i) (6 := Hh8) (7 := H8)
    as (ofx & h9 & bfx & E9 & H9 & _ & _);
    [intros p Hp; split; [apply listed_in; tauto | rewrite !in_app_iff; tauto]
    |apply of_nwave_none
    |intros p s0 n0 vs0 rec rows vecs0 Hp H0 Hm; eapply fl_kinds; [nodup | exact H0 | exact Hm]
    |exact S3|].
  unfold filter_oi_flux. rewrite E9. cbn [bind fst snd].
  change (records vis_kinds) with vis_shape in *.
  change (records (of_nwave ["vis2data"; "vis2err"; "flag"]%string)) with vis2_shape in *.
  change (records (of_nwave ["t3amp"; "t3amperr"; "t3phi"; "t3phierr"; "flag"]%string)) with t3_shape in *.
  change (records (of_nwave ["fluxdata"; "fluxerr"; "flag"]%string)) with flux_shape in *.
  change (shape_of KArray) with array_shape in *. change (shape_of KCorr) with corr_shape in *.
  set (gf := (flux_shape, ofx, bfx)) in *. set (gt := (t3_shape, ot3, bt3)) in *. set (g2 := (vis2_shape, ov2, bv2)) in *.
  set (gv := (vis_shape, ov, bv)) in *.
  destruct (held_prune ch free_oi_array h1 h9 [gf; gt; g2; gv; (inspol_shape, op, bp); (wavelength_shape, ow, bw); (corr_shape, oc, bc)]
              array_shape oa ba [] (hv th) (free_frees KArray) H9) as (oa' & h10 & ba' & E10 & H10).
  rewrite E10. cbn [bind fst snd]. cbn [app] in H10.
  destruct (held_prune ch free_oi_inspol h1 h10 [gf; gt; g2; gv] inspol_shape op bp
              [(wavelength_shape, ow, bw); (corr_shape, oc, bc); (array_shape, oa', ba')] (hv th) (free_frees KInspol) H10)
    as (op' & h11 & bp' & E11 & H11).
  rewrite E11. cbn [bind fst snd]. cbn [app] in H11.
  destruct (held_prune ch free_oi_wavelength h1 h11 [gf; gt; g2; gv; (inspol_shape, op', bp')] wavelength_shape ow bw
              [(corr_shape, oc, bc); (array_shape, oa', ba')] (hv th) (free_frees KWavelength) H11)
    as (ow' & h12 & bw' & E12 & H12).
  rewrite E12. cbn [bind fst snd]. cbn [app] in H12.
  destruct (held_prune ch free_oi_corr h1 h12 [gf; gt; g2; gv; (inspol_shape, op', bp'); (wavelength_shape, ow', bw')] corr_shape oc bc
              [(array_shape, oa', ba')] (hv th) (free_frees KCorr) H12)
    as (oc' & h13 & bc' & E13 & H13).
  rewrite E13. cbn [bind fst snd]. cbn [app] in H13.
  destruct (held_destroy h1 h13 _ th H13) as (h' & E14 & H14). rewrite E14. cbn [bind].
  set (gs := [(array_shape, oa', ba'); (wavelength_shape, ow', bw'); (corr_shape, oc', bc'); (inspol_shape, op', bp'); gv; g2; gt; gf]).
  assert (Hgs : held h1 h' gs []).
  { eapply held_perm; [|exact H14]. unfold gs.
    match goal with |- Permutation ?l ?m => change m with ([(array_shape, oa', ba'); (wavelength_shape, ow', bw'); (corr_shape, oc', bc'); (inspol_shape, op', bp'); gv; g2; gt; gf] : list group) end.
    transitivity (rev [(array_shape, oa', ba'); (corr_shape, oc', bc'); (wavelength_shape, ow', bw'); (inspol_shape, op', bp'); gv; g2; gt; gf] : list group).
    { apply Permutation_refl. }
    rewrite <- Permutation_rev. apply perm_skip. apply perm_swap. }
  clear - Hgs Z1 Z2 Z3 Z4 S1 Lt. destruct Hgs as [F G]. rewrite app_nil_r in G.
  set (o := mk_ptrs t oa' ow' oc' op' ov ov2 ot3 ofx).
  exists o, h', ts', (flat_map snd gs). split; [reflexivity|]. split; [reflexivity|].
  assert (Hm : map snd (listed o) = flat_map (fun g : group => snd (fst g)) gs).
  { unfold listed, o, gs, gv, g2, gt, gf. cbn [fp_array fp_wavelength fp_corr fp_inspol fp_vis fp_vis2 fp_t3 fp_flux flat_map fst snd].
    rewrite !map_app, !map_map. cbn [snd]. rewrite !map_id, app_nil_r. reflexivity. }
  assert (Hl : listed o = flat_map (fun g : group => map (pair (fst (fst g))) (snd (fst g))) gs).
  { unfold listed, o, gs, gv, g2, gt, gf. cbn [fp_array fp_wavelength fp_corr fp_inspol fp_vis fp_vis2 fp_t3 fp_flux flat_map fst snd].
    rewrite app_nil_r. reflexivity. }
  assert (GG : grows hz h' (blocks o ts' (flat_map snd gs))).
  { eapply grows_perm; [|eapply grows_app; [exact Z3 | exact G]]. unfold blocks. apply Permutation_app_head.
    rewrite Hm. apply blocks_perm. }
  assert (Nt : ~ In t (blocks o ts' (flat_map snd gs))) by (intros X; exact (proj1 (proj1 (proj2 GG) t X) Z2)).
  split; [|split].
  - constructor.
    + change (fp_targets o) with t.
      assert (Hk : forall a, In a (t :: ts') -> lookup h' a = lookup h1 a).
      { intros a Ha. apply (grows_keep _ _ _ _ G). destruct Ha as [<-|Ha]; [exact (grows_live _ _ _ _ Z3 Z2) | apply Z3, Ha]. }
      destruct Z4 as [Z4|(-> & s0 & A & B & C)]; [left; eapply owned_frame; eassumption | right].
      split; [reflexivity|]. exists s0. split; [rewrite Hk by (left; reflexivity); exact A | split; assumption].
    + rewrite Hl. clear - F. induction F as [|g gs Hg F IH]; [constructor|]. cbn [flat_map]. apply Forall2_app; [|exact IH].
      clear - Hg. unfold g_owned in Hg. destruct g as [[T l] b]. cbn [fst snd] in *.
      induction Hg as [|p bs l b H Hg IH]; constructor; assumption.
    + change (fp_targets o) with t. constructor; [exact Nt | exact (proj1 GG)].
  - intros a Ha Hn. rewrite (grows_keep _ _ _ _ GG); [apply Z1, Ha|]. unfold live. rewrite Z1 by exact Ha. exact Hn.
  - intros a. rewrite (grows_new _ _ _ a GG). destruct (Z.eq_dec a t) as [->|Ha]; [|unfold live; rewrite Z1 by exact Ha; reflexivity].
    assert (L' : live h' t) by (apply (grows_live _ _ _ _ GG Z2)).
    split; [intros [X _]; contradiction|]. intros [X _]. exfalso. apply X. unfold live. rewrite Lt. discriminate.
Qed.
End Input.
End Filter.
