(** Filtering all tables of one kind; the hash table of accepted channels; pruning. *)
From Coq Require Import Lia Permutation.
From Verif Require Import HeapSpec HeapFilterSpec BaseLemmas HeapProofs HeapDup HeapTables HeapFree HeapAlloc
  HeapGrow HeapFilterTab HeapFilterOne HeapFilterPol.
Open Scope Z_scope.

Lemma owned_tables_grow T h h' l out bss : Forall2 (owned T h) out bss -> grows h h' l ->
  (forall a, In a (out ++ concat bss) -> live h a) -> Forall2 (owned T h') out bss.
Proof.
  intros H G Hl. induction H as [|q bs out bss Ho H IH]; constructor.
  - eapply owned_frame; [exact Ho|]. intros a Ha. apply (grows_keep _ _ _ _ G), Hl. cbn [concat app].
    destruct Ha as [<-|Ha]; [left; reflexivity|]. right. rewrite !in_app_iff. tauto.
  - apply IH. intros a Ha. apply Hl. cbn [concat app]. right. rewrite !in_app_iff in *. tauto.
Qed.
Lemma perm_add {A} (out : list A) bss q bs : Permutation ((out ++ concat bss) ++ q :: bs) ((out ++ [q]) ++ concat (bss ++ [bs])).
Proof.
  rewrite concat_app. cbn [concat]. rewrite app_nil_r, <- !app_assoc. apply Permutation_app_head. cbn [app].
  symmetry. apply Permutation_middle.
Qed.
Lemma owned_frame_list T h h' out bss : Forall2 (owned T h) out bss ->
  (forall a, In a (out ++ concat bss) -> lookup h' a = lookup h a) -> Forall2 (owned T h') out bss.
Proof.
  intros H Heq. induction H as [|q bs out bss Ho H IH]; constructor.
  - eapply owned_frame; [exact Ho|]. intros a Ha. apply Heq. cbn [concat app].
    destruct Ha as [<-|Ha]; [left; reflexivity|]. right. rewrite !in_app_iff. tauto.
  - apply IH. intros a Ha. apply Heq. cbn [concat app]. right. rewrite !in_app_iff in *. tauto.
Qed.

Section Filter.
Variable malloc : heap -> addr.
Hypothesis Hfresh : fresh malloc.
Variable fill : heap -> string -> Z -> struct.
Variable ch : choices.

Lemma filter_all_ok T one l h0 :
  (forall p, In p l -> exists s, lookup h0 p = Some [s]) ->
  (forall p h L, In p l -> grows h0 h L -> exists r, one p h = Ok r /\ kept T h r) ->
  exists out h' bss, filter_all ch one l h0 = Ok (out, h')
    /\ Forall2 (owned T h') out bss /\ grows h0 h' (out ++ concat bss).
Proof.
  intros Hl Hone. unfold filter_all.
  match goal with |- context [foreach l ?b _] => set (body := b) end.
  destruct (foreach_total (fun st : list addr * heap => exists bss, Forall2 (owned T (snd st)) (fst st) bss
              /\ grows h0 (snd st) (fst st ++ concat bss)) body l ([], h0)) as ([out h'] & E & bss & Ho & G).
  - exists []. split; [constructor | apply grows_refl].
  - intros p [out h] Hp (bss & Ho & G). cbn [fst snd] in *. unfold body. cbn [fst snd].
    destruct (Hl p Hp) as (s & Ls).
    assert (Lh : lookup h p = Some [s]).
    { rewrite (grows_keep _ _ _ _ G); [exact Ls | unfold live; rewrite Ls; discriminate]. }
    unfold load. rewrite Lh. cbn [get Z.ltb Z.compare Z.to_nat nth_error bind].
    destruct (ch_table ch s); [|exists (out, h); split; [reflexivity | exists bss; split; assumption]].
    destruct (Hone p h _ Hp G) as ([r h1] & E1 & K). unfold kept in K. cbn [fst snd] in *.
    rewrite E1. cbn [bind fst snd]. destruct r as [q|].
    + destruct K as (bs & Oq & Gq). eexists. split; [reflexivity|]. exists (bss ++ [bs]). cbn [fst snd]. split.
      * apply Forall2_app; [|constructor; [exact Oq | constructor]].
        eapply owned_tables_grow; [exact Ho | exact Gq|]. intros a Ha. apply G, Ha.
      * eapply grows_perm; [apply perm_add | eapply grows_app; eassumption].
    + eexists. split; [reflexivity|]. exists bss. cbn [fst snd]. split.
      * eapply owned_tables_grow; [exact Ho | exact K|]. intros a Ha. apply G, Ha.
      * rewrite <- (app_nil_r (out ++ concat bss)). eapply grows_app; eassumption.
  - exists out, h', bss. split; [exact E | split; assumption].
Qed.

(** ** The hash table *)

Definition opt (v : option addr) : list addr := match v with Some u => [u] | None => [] end.
Definition hv (t : wave_hash) : list addr := flat_map (fun e => opt (snd e)) t.

Lemma hash_absent (t : wave_hash) k : ~ In k (map fst t) -> filter (fun e => negb (str_eqb (fst e) k)) t = t.
Proof.
  induction t as [|[k' v] t IH]; intros H; [reflexivity|]. cbn [filter fst]. destruct (str_eqb k' k) eqn:E.
  - apply str_eqb_eq in E. subst. exfalso. apply H. left. reflexivity.
  - cbn [negb]. f_equal. apply IH. intros X. apply H. right. exact X.
Qed.
Lemma hv_split (t : wave_hash) k : NoDup (map fst t) ->
  Permutation (hv t) (opt (hash_lookup t k) ++ hv (filter (fun e => negb (str_eqb (fst e) k)) t)).
Proof.
  induction t as [|[k' v] t IH]; intros Hd; [constructor|]. cbn [map fst] in Hd. inversion Hd as [|? ? N Hd']; subst.
  cbn [hash_lookup filter fst hv flat_map snd]. fold (hv t). destruct (str_eqb k' k) eqn:E; cbn [negb].
  - apply str_eqb_eq in E. subst. rewrite hash_absent by exact N. reflexivity.
  - cbn [flat_map snd]. fold (hv (filter (fun e => negb (str_eqb (fst e) k)) t)).
    rewrite (IH Hd') at 1. rewrite !app_assoc. apply Permutation_app_tail, Permutation_app_comm.
Qed.
Lemma hash_keys (t : wave_hash) k : NoDup (map fst t) -> NoDup (map fst (filter (fun e : string * option addr => negb (str_eqb (fst e) k)) t)).
Proof.
  induction t as [|[k' v] t IH]; intros Hd; [constructor|]. inversion Hd as [|? ? N Hd']; subst. cbn [filter fst].
  destruct (str_eqb k' k); cbn [negb]; [apply IH, Hd'|]. cbn [map fst]. constructor; [|apply IH, Hd'].
  intros X. apply N. apply in_map_iff in X. destruct X as (e & E1 & E2). apply filter_In in E2. apply in_map_iff. exists e. tauto.
Qed.
Lemma hash_not_key (t : wave_hash) k : ~ In k (map fst (filter (fun e : string * option addr => negb (str_eqb (fst e) k)) t)).
Proof.
  intros X. apply in_map_iff in X. destruct X as (e & E1 & E2). apply filter_In in E2. destruct E2 as [_ E2].
  rewrite <- E1, str_eqb_refl in E2. discriminate.
Qed.
Lemma hash_lookup_others (t : wave_hash) k x : str_eqb k x = false ->
  hash_lookup (filter (fun e => negb (str_eqb (fst e) k)) t) x = hash_lookup t x.
Proof.
  intros E. induction t as [|[k' v'] t IH]; [reflexivity|]. cbn [filter fst hash_lookup].
  destruct (str_eqb k' k) eqn:E1; cbn [negb].
  - apply str_eqb_eq in E1. subst. rewrite E. exact IH.
  - cbn [hash_lookup]. destruct (str_eqb k' x); [reflexivity | exact IH].
Qed.
Lemma hash_lookup_insert (t : wave_hash) k v x :
  hash_lookup ((k, v) :: filter (fun e => negb (str_eqb (fst e) k)) t) x = if str_eqb k x then v else hash_lookup t x.
Proof.
  cbn [hash_lookup]. destruct (str_eqb k x) eqn:E; [reflexivity | exact (hash_lookup_others t k x E)].
Qed.

Lemma free_opt h0 h v M L : grows h0 h L -> Permutation L (opt v ++ M) ->
  exists h', free h v = Ok h' /\ grows h0 h' M /\ forall a, In a M -> lookup h' a = lookup h a.
Proof.
  intros G P. destruct v as [u|]; cbn [opt app] in P.
  - destruct (free_one h u) as (h' & E & W).
    { apply G. apply (Permutation_in _ (Permutation_sym P)). left. reflexivity. }
    exists h'. split; [exact E|]. split; [exact (grows_without _ _ _ _ [u] M G P W)|].
    intros a Ha. apply W. intros [<-|[]]. pose proof (Permutation_NoDup P (proj1 G)) as D. inversion D; contradiction.
  - exists h. split; [reflexivity|]. split; [exact (grows_perm _ _ _ _ P G) | reflexivity].
Qed.
Lemma hash_insert_ok h0 h t k v L M : NoDup (map fst t) -> grows h0 h L -> Permutation L (opt (hash_lookup t k) ++ M) ->
  exists h', hash_insert t k v h = Ok ((k, v) :: filter (fun e => negb (str_eqb (fst e) k)) t, h')
    /\ grows h0 h' M /\ forall a, In a M -> lookup h' a = lookup h a.
Proof.
  intros Hd G P. destruct (free_opt h0 h _ M L G P) as (h' & E & G' & S). exists h'.
  unfold hash_insert. rewrite E. split; [reflexivity | split; assumption].
Qed.
Lemma hash_destroy_ok h0 t : forall h L M, grows h0 h L -> Permutation L (hv t ++ M) ->
  exists h', hash_destroy t h = Ok h' /\ grows h0 h' M /\ forall a, In a M -> lookup h' a = lookup h a.
Proof.
  induction t as [|[k v] t IH]; intros h L M G P.
  - exists h. split; [reflexivity|]. split; [exact (grows_perm _ _ _ _ P G) | reflexivity].
  - cbn [hv flat_map snd] in P. fold (hv t) in P. rewrite <- app_assoc in P.
    destruct (free_opt h0 h v _ L G P) as (h1 & E1 & G1 & S1).
    destruct (IH h1 _ M G1 (Permutation_refl _)) as (h' & E & G' & S).
    exists h'. unfold hash_destroy in *. cbn [foreach snd]. rewrite E1. cbn [bind]. split; [exact E|]. split; [exact G'|].
    intros a Ha. rewrite S by exact Ha. apply S1, in_app_iff. right. exact Ha.
Qed.

(** ** OI_WAVELENGTH tables *)

Definition use_flags (c : Z -> bool) (n : Z) : block :=
  map (fun j => [("use"%string, Num (if c (Z.of_nat j) then 1 else 0))]) (seq 0 (Z.to_nat n)).
Lemma used_flags h u c n : lookup h u = Some (use_flags c n) -> 0 <= n ->
  exists k, used h u n = Ok k /\ 0 <= k <= n.
Proof.
  intros Hu Hn. unfold used.
  match goal with |- context [for_ n ?b 0] => set (body := b) end.
  destruct (for_total (fun i k => 0 <= k <= i) body n 0 Hn) as (k & E & H); [lia| |exists k; split; assumption].
  intros j k Hj Hk. unfold body, load_num, load. rewrite Hu.
  destruct (get_nth (use_flags c n) j) as (x & Ex & Hx).
  { unfold use_flags. rewrite map_length, seq_length. lia. }
  rewrite Ex. cbn [bind]. unfold use_flags in Hx. apply in_map_iff in Hx. destruct Hx as (m & <- & _).
  cbn [getf]. rewrite str_eqb_refl. cbn [bind]. eexists. split; [reflexivity|].
  destruct (c (Z.of_nat m)); cbn [Z.eqb]; lia.
Qed.

(** an OI_WAVELENGTH table of the input *)
Definition input_wave (h : heap) (p : addr) (s : struct) (x : string) (n : Z) : Prop :=
  lookup h p = Some [s] /\ named_by s x /\ getf s "nwave" = Some (Num n) /\ 0 < n
  /\ (forall f, In f wave_vectors -> getf s f <> None).
(** every array of flags is for a table of that name *)
Definition hash_ok (l : list addr) (h0 h : heap) (t : wave_hash) : Prop :=
  forall x u, hash_lookup t x = Some u -> live h u
    /\ exists p s n k, In p l /\ input_wave h0 p s x n /\ used h u n = Ok k /\ 1 <= k <= n.
Lemma hash_ok_keep l h0 h h' t : hash_ok l h0 h t ->
  (forall x u, hash_lookup t x = Some u -> lookup h' u = lookup h u) -> hash_ok l h0 h' t.
Proof.
  intros H Hs x u Hx. destruct (H x u Hx) as (Hl & p & s & n & k & Hp & Hw & Hu & Hk). split.
  - unfold live. rewrite (Hs x u Hx). exact Hl.
  - exists p, s, n, k. split; [exact Hp|]. split; [exact Hw|]. split; [|exact Hk].
    rewrite (used_frame h h' u n) by exact (Hs x u Hx). exact Hu.
Qed.
Lemma hash_lookup_in t x u : hash_lookup t x = Some u -> In u (hv t).
Proof.
  induction t as [|[k v] t IH]; [discriminate|]. cbn [hash_lookup hv flat_map snd]. fold (hv t). intros H. apply in_app_iff.
  destruct (str_eqb k x); [left; subst v; left; reflexivity | right; apply IH, H].
Qed.

Lemma filter_waves_ok l h0 :
  (forall p, In p l -> exists s x n, input_wave h0 p s x n) ->
  exists out t h' bss, filter_all_oi_wavelength malloc fill ch l h0 = Ok (out, t, h')
    /\ Forall2 (owned wavelength_shape h') out bss /\ hash_ok l h0 h' t
    /\ grows h0 h' (hv t ++ out ++ concat bss).
Proof.
  intros Hl. unfold filter_all_oi_wavelength.
  match goal with |- context [foreach l ?b _] => set (body := b) end.
  destruct (foreach_total (fun st : list addr * wave_hash * heap => exists bss,
              Forall2 (owned wavelength_shape (snd st)) (fst (fst st)) bss
              /\ hash_ok l h0 (snd st) (snd (fst st)) /\ NoDup (map fst (snd (fst st)))
              /\ grows h0 (snd st) (hv (snd (fst st)) ++ fst (fst st) ++ concat bss)) body l ([], [], h0))
    as ([[out t] h'] & E & bss & Ho & Hh & _ & G).
  - exists []. cbn [fst snd]. split; [constructor|]. split; [intros x u H; discriminate|]. split; [constructor | apply grows_refl].
  - intros p [[out t] h] Hp (bss & Ho & Hh & Hd & G). cbn [fst snd] in *. unfold body.
    destruct (Hl p Hp) as (s & x & n & Hw). pose proof Hw as (Ls & Nx & Nw & Np & Hv).
    assert (Pl : live h0 p) by (unfold live; rewrite Ls; discriminate).
    assert (Lh : lookup h p = Some [s]) by (rewrite (grows_keep _ _ _ _ G Pl); exact Ls).
    unfold load at 1. rewrite Lh. cbn [get Z.ltb Z.compare Z.to_nat nth_error bind].
    destruct (ch_table ch s).
    2:{ exists (out, t, h). split; [reflexivity|]. exists bss. cbn [fst snd]. split; [exact Ho|]. split; [exact Hh|]. split; assumption. }
    rewrite (load_num_at h p s "nwave" n Lh (num_of _ _ _ Nw)). cbn [bind].
    unfold chkmalloc. destruct (Z.ltb_spec 0 n); [|lia]. cbn [bind]. cbv zeta.
    fold (use_flags (ch_channel ch h p) n).
    pose proof (grows_cons malloc Hfresh h (use_flags (ch_channel ch h p) n)) as Gu.
    pose proof (lookup_new malloc h (use_flags (ch_channel ch h p) n)) as Lu.
    set (u := malloc h) in *. set (h1 := (u, use_flags (ch_channel ch h p) n) :: h) in *.
    match goal with |- context [new_struct malloc fill ?x] => change x with h1 end.
    destruct (used_flags h1 u _ n Lu) as (k & Hused & Hk); [lia|].
    assert (Lp1 : lookup h1 p = Some [s]).
    { rewrite (grows_keep _ _ _ _ Gu); [exact Lh | unfold live; rewrite Lh; discriminate]. }
    assert (Ulive : live h1 u) by (unfold live; rewrite Lu; discriminate).
    destruct (filter_wavelength_ok malloc Hfresh fill h1 p s n u k Lp1 Nw Np Hv Ulive Hused Hk) as (h2 & E2 & K2 & R2).
    cbv zeta in *. generalize dependent (fst (new_struct malloc fill h1)).
    generalize (snd (new_struct malloc fill h1)). intros hn q E2 K2 R2.
    rewrite E2. cbn [bind]. rewrite K2. cbn [bind].
    assert (G1 := grows_app _ _ _ _ _ G Gu).
    assert (X : exists Lq, grows h1 h2 Lq /\ Lq = (if 0 <? k then Lq else [q])).
    { destruct (0 <? k); [destruct R2 as (bs & _ & Gq); eexists; split; [exact Gq | reflexivity] | exists [q]; split; [exact R2 | reflexivity]]. }
    destruct X as (Lq & G2 & ELq). assert (G3 := grows_app _ _ _ _ _ G1 G2).
    assert (Lp2 : lookup h2 p = Some [s]) by (rewrite (grows_keep _ _ _ _ G3 Pl); exact Ls).
    assert (Eb : load_bytes h2 p 0 "insname" = Ok x).
    { unfold load_bytes, load. rewrite Lp2. cbn [get Z.ltb Z.compare Z.to_nat nth_error bind]. rewrite Nx. reflexivity. }
    rewrite Eb. cbn [bind]. clear Eb.
    set (t' := filter (fun e : string * option addr => negb (str_eqb (fst e) x)) t).
    assert (Hsplit := hv_split t x Hd). fold t' in Hsplit.
    assert (Live_old : forall a, In a (hv t ++ out ++ concat bss) -> live h a) by (intros a Ha; apply G, Ha).
    assert (Hkeep : forall h3 v M, (forall a, In a M -> lookup h3 a = lookup h2 a) ->
              incl (hv t' ++ out ++ concat bss) M -> (forall w, v = Some w -> w = u /\ In w M /\ 0 < k) ->
              Forall2 (owned wavelength_shape h3) out bss /\ hash_ok l h0 h3 ((x, v) :: t')).
    { intros h3 v M Hs Hi Hvu.
      assert (Hold : forall a, In a (hv t' ++ out ++ concat bss) -> lookup h3 a = lookup h a).
      { intros a Ha. rewrite Hs by (apply Hi, Ha).
        assert (La : live h a).
        { apply Live_old. apply in_app_iff in Ha. apply in_app_iff. destruct Ha as [Ha|Ha]; [left|right; exact Ha].
          apply (Permutation_in _ (Permutation_sym Hsplit)), in_app_iff. right. exact Ha. }
        rewrite (grows_keep _ _ _ _ G2 (grows_live _ _ _ _ Gu La)). exact (grows_keep _ _ _ _ Gu La). }
      split.
      - eapply owned_frame_list; [exact Ho|]. intros a Ha. apply Hold, in_app_iff. right. exact Ha.
      - intros y w Hy. unfold t' in Hy. rewrite hash_lookup_insert in Hy. destruct (str_eqb x y) eqn:Exy.
        + apply str_eqb_eq in Exy. subst y. destruct (Hvu w Hy) as (-> & Hwm & Hkp).
          assert (Lu3 : lookup h3 u = lookup h1 u) by (rewrite Hs by exact Hwm; exact (grows_keep _ _ _ _ G2 Ulive)).
          split; [unfold live; rewrite Lu3; exact Ulive|]. exists p, s, n, k. split; [exact Hp|]. split; [exact Hw|].
          split; [rewrite (used_frame h1 h3 u n Lu3); exact Hused | lia].
        + destruct (Hh y w Hy) as (Hlw & pw & sw & nw & kw & A1 & A2 & A3 & A4).
          assert (Hin : In w (hv t')).
          { apply (hash_lookup_in t' y). unfold t'. rewrite hash_lookup_others by exact Exy. exact Hy. }
          assert (Lw : lookup h3 w = lookup h w) by (apply Hold, in_app_iff; left; exact Hin).
          split; [unfold live; rewrite Lw; exact Hlw|]. exists pw, sw, nw, kw. split; [exact A1|]. split; [exact A2|].
          split; [rewrite (used_frame h h3 w nw Lw); exact A3 | exact A4]. }
    destruct (Z.ltb_spec 0 k) as [Hk0|Hk0].
    + destruct R2 as (bs & Oq & Gq). clear Lq G2 ELq G3. assert (G3 := grows_app _ _ _ _ _ G1 Gq).
      assert (Pm : Permutation (((hv t ++ out ++ concat bss) ++ [u]) ++ q :: bs)
                     (opt (hash_lookup t x) ++ (u :: hv t') ++ (out ++ [q]) ++ concat (bss ++ [bs]))).
      { rewrite <- !app_assoc. cbn [app]. rewrite Hsplit, <- app_assoc. apply Permutation_app_head.
        rewrite (Permutation_app_comm (hv t')). rewrite <- app_assoc.
        transitivity ((out ++ concat bss) ++ (u :: q :: bs) ++ hv t').
        { rewrite <- !app_assoc. apply Permutation_refl. }
        transitivity (u :: ((out ++ concat bss) ++ (q :: bs)) ++ hv t').
        { cbn [app]. rewrite <- (app_assoc (out ++ concat bss)). cbn [app]. symmetry. apply Permutation_middle. }
        apply perm_skip. rewrite Permutation_app_comm. apply Permutation_app_head.
        rewrite perm_add, <- !app_assoc. apply Permutation_refl. }
      destruct (hash_insert_ok h0 h2 t x (Some u) _ _ Hd G3 Pm) as (h3 & E3 & G4 & S3). fold t' in E3.
      rewrite E3. cbn [bind fst snd]. eexists. split; [reflexivity|]. cbn [fst snd].
      destruct (Hkeep h3 (Some u) _ S3) as (Ko & Kh).
      { intros a Ha. rewrite !in_app_iff in *. rewrite concat_app, in_app_iff. cbn [In]. tauto. }
      { intros w [= <-]. split; [reflexivity|]. split; [left; reflexivity | lia]. }
      exists (bss ++ [bs]). split; [|split; [exact Kh|]].
      * apply Forall2_app; [exact Ko|]. constructor; [|constructor]. eapply owned_frame; [exact Oq|].
        intros a Ha. apply S3. rewrite !in_app_iff, concat_app, in_app_iff. cbn [concat In]. rewrite app_nil_r.
        destruct Ha as [<-|Ha]; [tauto|]. tauto.
      * split; [|exact G4]. cbn [map fst]. constructor; [apply hash_not_key | apply hash_keys, Hd].
    + clear ELq Lq G2 G3. assert (G3 := grows_app _ _ _ _ _ G1 R2).
      assert (Pm : Permutation (((hv t ++ out ++ concat bss) ++ [u]) ++ [q])
                     (opt (hash_lookup t x) ++ u :: q :: hv t' ++ out ++ concat bss)).
      { rewrite <- !app_assoc. cbn [app]. rewrite Hsplit, <- app_assoc. apply Permutation_app_head.
        change (u :: q :: hv t' ++ out ++ concat bss) with ([u; q] ++ hv t' ++ out ++ concat bss).
        rewrite (Permutation_app_comm [u; q]), <- !app_assoc. apply Permutation_refl. }
      destruct (hash_insert_ok h0 h2 t x None _ _ Hd G3 Pm) as (h3 & E3 & G4 & S3). fold t' in E3.
      rewrite E3. cbn [bind fst snd].
      destruct (free_opt h0 h3 (Some u) _ _ G4 (Permutation_refl _)) as (h4 & E4 & G5 & S4). rewrite E4. cbn [bind].
      destruct (free_opt h0 h4 (Some q) _ _ G5 (Permutation_refl _)) as (h5 & E5 & G6 & S5). rewrite E5. cbn [bind].
      eexists. split; [reflexivity|]. cbn [fst snd].
      destruct (Hkeep h5 None (hv t' ++ out ++ concat bss)) as (Ko & Kh).
      { intros a Ha. rewrite S5 by exact Ha. rewrite S4 by (right; exact Ha). apply S3. right. right. exact Ha. }
      { apply incl_refl. } { discriminate. }
      exists bss. split; [exact Ko|]. split; [exact Kh|]. split; [|exact G6].
      cbn [map fst]. constructor; [apply hash_not_key | apply hash_keys, Hd].
  - exists out, t, h', bss. split; [exact E|]. split; [exact Ho|]. split; assumption.
Qed.

(** ** Pruning *)

Lemma prune_ok T fr : frees T fr -> forall l bss h,
  Forall2 (owned T h) l bss -> NoDup (l ++ concat bss) ->
  exists r h', prune ch (fun p h => h <- fr p h ;; free h (Some p)) l h = Ok (r, h')
    /\ match r with
       | None => h' = h
       | Some l' => exists bss' d, Forall2 (owned T h') l' bss' /\ without h h' d
           /\ Permutation (l ++ concat bss) (d ++ l' ++ concat bss') /\ (List.length l' < List.length l)%nat
       end.
Proof.
  intros Hfr l. induction l as [|p l IH]; intros bss h Ho Hd.
  - exists None, h. split; reflexivity.
  - destruct (Forall2_uncons _ _ _ _ Ho) as (bs & bss1 & -> & Op & Ho1).
    pose proof Op as (s & n & vs & arrs & vecs & Ht & Hbs). cbn [prune]. unfold load.
    rewrite (ta_struct _ _ _ _ _ _ _ _ Ht). cbn [get Z.ltb Z.compare Z.to_nat nth_error bind].
    assert (Pm0 : Permutation ((p :: l) ++ concat (bs :: bss1)) ((p :: bs) ++ l ++ concat bss1)).
    { cbn [concat app]. apply perm_skip. rewrite !app_assoc. apply Permutation_app_tail, Permutation_app_comm. }
    assert (D2 := Permutation_NoDup Pm0 Hd).
    assert (Dr : NoDup (l ++ concat bss1)).
    { clear - D2. induction (p :: bs) as [|y m IH]; [exact D2|]. apply IH. inversion D2; assumption. }
    assert (Dis : forall a, In a (p :: bs) -> ~ In a (l ++ concat bss1)).
    { clear - D2. induction (p :: bs) as [|y m IH]; intros a Ha Hx; [contradiction|]. cbn [app] in D2.
      inversion D2; subst. destruct Ha as [->|Ha]; [apply H1, in_app_iff; right; exact Hx | exact (IH H2 a Ha Hx)]. }
    destruct (ch_listed ch s).
    + destruct (IH bss1 h Ho1 Dr) as (r & h' & E & R). rewrite E. cbn [bind fst snd].
      eexists. eexists. split; [reflexivity|]. destruct r as [l'|]; cbn [option_map]; [|exact R].
      destruct R as (bss' & d & Ho' & W & Pm & Hlen). exists (bs :: bss'), d.
      assert (Hnd : forall a, In a (p :: bs) -> ~ In a d).
      { intros a Ha Hx. apply (Dis a Ha), (Permutation_in _ (Permutation_sym Pm)), in_app_iff. left. exact Hx. }
      split; [|split; [exact W|split]].
      * constructor; [|exact Ho']. eapply owned_frame; [exact Op|]. intros a Ha. apply W, Hnd, Ha.
      * rewrite Pm0, Pm. rewrite (Permutation_app_comm (p :: bs)), <- !app_assoc. apply Permutation_app_head.
        cbn [concat app]. rewrite (Permutation_app_comm bs (concat bss')).
        rewrite app_assoc, <- Permutation_middle. apply perm_skip. rewrite <- app_assoc. apply Permutation_refl.
      * cbn [List.length]. lia.
    + destruct (Hfr h p s n vs arrs vecs Ht) as (h1 & E1 & W1). rewrite <- Hbs in W1.
      assert (Nb : ~ In p bs).
      { inversion D2 as [|? ? N _]; subst. intros X. apply N, in_app_iff. left. exact X. }
      destruct (free_one h1 p) as (h2 & E2 & V).
      { unfold live. rewrite (proj2 W1) by exact Nb. rewrite (ta_struct _ _ _ _ _ _ _ _ Ht). discriminate. }
      rewrite E1. cbn [bind]. rewrite E2. cbn [bind]. eexists. eexists. split; [reflexivity|].
      assert (W : without h h2 (bs ++ [p])) by (eapply without_app; eassumption).
      exists bss1, (bs ++ [p]). split; [|split; [exact W|split]].
      * eapply owned_frame_list; [exact Ho1|]. intros a Ha. apply W. intros Hx.
        apply (Dis a); [|exact Ha]. apply in_app_iff in Hx. destruct Hx as [Hx|[<-|[]]]; [right; exact Hx | left; reflexivity].
      * rewrite Pm0. apply Permutation_app_tail. apply Permutation_cons_append.
      * cbn [List.length]. lia.
Qed.

Lemma pruned_ok T fr l bss h : frees T fr ->
  Forall2 (owned T h) l bss -> NoDup (l ++ concat bss) ->
  exists l' h' bss' d, pruned ch fr l h = Ok (l', h')
    /\ Forall2 (owned T h') l' bss' /\ without h h' d
    /\ Permutation (l ++ concat bss) (d ++ l' ++ concat bss').
Proof.
  intros Hfr Ho Hd. unfold pruned.
  assert (Hf : (List.length l < S (List.length l))%nat) by lia. revert Hf. generalize (S (List.length l)) as fuel.
  intros fuel. revert l bss h Ho Hd. induction fuel as [|fuel IH]; intros l bss h Ho Hd Hf; [lia|].
  cbn [prune_all]. destruct (prune_ok T fr Hfr l bss h Ho Hd) as (r & h1 & E & R). rewrite E. cbn [bind fst snd].
  destruct r as [l1|].
  - destruct R as (bss1 & d1 & Ho1 & W1 & P1 & Hlen).
    assert (Hd1 : NoDup (l1 ++ concat bss1)).
    { pose proof (Permutation_NoDup P1 Hd) as D. clear - D. induction d1 as [|y m IH]; [exact D|]. apply IH. inversion D; assumption. }
    destruct (IH l1 bss1 h1 Ho1 Hd1) as (l' & h' & bss' & d & E' & Ho' & W' & P'); [lia|].
    exists l', h', bss', (d1 ++ d). split; [exact E'|]. split; [exact Ho'|]. split; [eapply without_app; eassumption|].
    rewrite P1, P', app_assoc. apply Permutation_refl.
  - subst h1. exists l, h, bss, []. split; [reflexivity|]. split; [exact Ho|]. split; [apply without_nil | apply Permutation_refl].
Qed.
End Filter.
