(** Filtering: the tables made so far; tables of the input; the target table. *)
From Coq Require Import Lia Permutation.
From Verif Require Import HeapSpec HeapFilterSpec BaseLemmas HeapProofs HeapDup HeapTables HeapFree HeapAlloc
  HeapMain HeapGrow HeapFilterTab HeapFilterOne HeapFilterPol HeapFilterAll.
Open Scope Z_scope.

(** ** Groups of tables *)

Definition group := (shape * list addr * list (list addr))%type.
Definition g_blocks (g : group) : list addr := snd (fst g) ++ concat (snd g).
Definition g_owned (h : heap) (g : group) : Prop := Forall2 (owned (fst (fst g)) h) (snd (fst g)) (snd g).
(** everything new since [h1]: the tables [gs] and the blocks [ex] *)
Definition held (h1 h : heap) (gs : list group) (ex : list addr) : Prop :=
  Forall (g_owned h) gs /\ grows h1 h (flat_map g_blocks gs ++ ex).

Lemma held_frame h h' gs : Forall (g_owned h) gs ->
  (forall a, In a (flat_map g_blocks gs) -> lookup h' a = lookup h a) -> Forall (g_owned h') gs.
Proof.
  intros H Heq. induction H as [|g gs Hg H IH]; constructor.
  - unfold g_owned in *. eapply owned_frame_list; [exact Hg|]. intros a Ha. apply Heq. cbn [flat_map].
    apply in_app_iff. left. exact Ha.
  - apply IH. intros a Ha. apply Heq. cbn [flat_map]. apply in_app_iff. right. exact Ha.
Qed.
Lemma held_perm h1 h gs gs' ex : Permutation gs gs' -> held h1 h gs ex -> held h1 h gs' ex.
Proof.
  intros P [F G]. split; [eapply Permutation_Forall; eassumption|]. eapply grows_perm; [|exact G].
  apply Permutation_app_tail, Permutation_flat_map, P.
Qed.
Lemma held_nil h : held h h [] [].
Proof. split; [constructor | apply grows_refl]. Qed.
Lemma held_add h1 h h' gs ex ex' g : held h1 h gs ex -> g_owned h' g -> grows h h' (ex' ++ g_blocks g) ->
  held h1 h' (g :: gs) (ex' ++ ex).
Proof.
  intros [F G] Hg Gg. split.
  - constructor; [exact Hg|]. eapply held_frame; [exact F|]. intros a Ha. apply (grows_keep _ _ _ _ Gg).
    apply G, in_app_iff. left. exact Ha.
  - eapply grows_perm; [|eapply grows_app; eassumption]. cbn [flat_map].
    rewrite Permutation_app_comm, <- !app_assoc.
    transitivity (g_blocks g ++ ex' ++ flat_map g_blocks gs ++ ex).
    { rewrite !(app_assoc _ (g_blocks g)), !(app_assoc (g_blocks g)). apply Permutation_app_tail, Permutation_app_comm. }
    apply Permutation_app_head. rewrite !app_assoc. apply Permutation_app_tail, Permutation_app_comm.
Qed.
Lemma held_prune ch fr h1 h A T l bss B ex : frees T fr -> held h1 h (A ++ (T, l, bss) :: B) ex ->
  exists l' h' bss', pruned ch fr l h = Ok (l', h') /\ held h1 h' (A ++ (T, l', bss') :: B) ex.
Proof.
  intros Hfr Hh. pose proof (held_perm _ _ _ _ _ (Permutation_sym (Permutation_middle A B (T, l, bss))) Hh) as [F G].
  inversion F as [|? ? Fg Fr]; subst. unfold g_owned in Fg. cbn [fst snd] in Fg. cbn [flat_map] in G.
  assert (Hd : NoDup (l ++ concat bss)).
  { pose proof (proj1 G) as D. unfold g_blocks at 1 in D. cbn [fst snd] in D. rewrite <- app_assoc in D. clear - D.
    induction (l ++ concat bss) as [|x m IH]; [constructor|]. cbn [app] in D. inversion D as [|? ? N D']; subst.
    constructor; [intros X; apply N, in_app_iff; left; exact X | apply IH, D']. }
  destruct (pruned_ok ch T fr l bss h Hfr Fg Hd) as (l' & h' & bss' & d & E & Ho & W & P).
  exists l', h', bss'. split; [exact E|]. apply (held_perm _ _ _ _ _ (Permutation_middle A B (T, l', bss'))).
  assert (P2 : Permutation ((g_blocks (T, l, bss) ++ flat_map g_blocks (A ++ B)) ++ ex)
                 (d ++ (g_blocks (T, l', bss') ++ flat_map g_blocks (A ++ B)) ++ ex)).
  { unfold g_blocks at 1 3. cbn [fst snd]. rewrite P, <- !app_assoc. apply Permutation_refl. }
  split.
  - constructor; [exact Ho|]. eapply held_frame; [exact Fr|]. intros a Ha. apply W. intros Hx.
    pose proof (Permutation_NoDup P2 (proj1 G)) as D. clear - D Hx Ha.
    induction d as [|y m IH]; [contradiction|]. cbn [app] in D. inversion D as [|? ? N D']; subst.
    destruct Hx as [->|Hx]; [|exact (IH Hx D')]. apply N. rewrite !in_app_iff. tauto.
  - cbn [flat_map]. exact (grows_without _ _ _ _ d _ G P2 W).
Qed.
Lemma held_destroy h1 h gs t : held h1 h gs (hv t) ->
  exists h', hash_destroy t h = Ok h' /\ held h1 h' gs [].
Proof.
  intros [F G]. destruct (hash_destroy_ok h1 t h _ _ G (Permutation_app_comm _ _)) as (h' & E & G' & S).
  exists h'. split; [exact E|]. split; [eapply held_frame; eassumption | rewrite app_nil_r; exact G'].
Qed.
Lemma blocks_perm (gs : list group) :
  Permutation (flat_map g_blocks gs) (flat_map (fun g => snd (fst g)) gs ++ concat (flat_map snd gs)).
Proof.
  induction gs as [|g gs IH]; [constructor|]. cbn [flat_map]. rewrite concat_app, IH. unfold g_blocks.
  rewrite <- !app_assoc. apply Permutation_app_head. rewrite !app_assoc. apply Permutation_app_tail, Permutation_app_comm.
Qed.

Section Filter.
Variable malloc : heap -> addr.
Hypothesis Hfresh : fresh malloc.
Variable fill : heap -> string -> Z -> struct.
Variable ch : choices.

(** ** Tables of the input *)

Lemma record_input V h p s n vs arrs vecs nIn : table_at (records V) h p s n vs arrs vecs -> 0 < n ->
  num s "nwave" = Some nIn ->
  exists rec rows, input_table h p s n nIn rec rows /\ arrs = [(rec, rows)]
    /\ forall r f, In r rows -> In f (map fst vs) -> getf r f <> None.
Proof.
  intros [A B C D E F] Hn Hw. cbn [records sh_count sh_arrays] in *.
  inversion D as [|? e ? l He Hl]; subst. inversion Hl; subst. destruct He as (P1 & P2 & P3).
  destruct e as [rec rows]. cbn [fst snd] in *. exists rec, rows. split; [|split; [reflexivity|]].
  - constructor; try assumption; [exact (num_some _ _ _ B) | exact (num_some _ _ _ Hw)].
  - cbn [flat_map snd] in E. rewrite app_nil_r in E. intros r f Hr Hf.
    destruct (Forall2_in_l _ _ _ _ E Hr) as (es & _ & Hes). clear - Hes Hf.
    induction Hes as [|v e vs es (X & _) H IH]; [contradiction|]. destruct Hf as [<-|Hf]; [rewrite X; discriminate | exact (IH Hf)].
Qed.

(** the vectors given to new records fit the shape *)
Definition vectors_fit (V : struct -> option (list (string * Z)))
  (vectors : heap -> addr -> Z -> res (list (string * Z) * list string)) (p : addr) (s : struct) (rows : list struct) : Prop :=
  forall w, 0 < w -> exists vs nulls,
    (forall h', lookup h' p = Some [s] -> vectors h' p w = Ok (vs, nulls))
    /\ NoDup (map fst vs) /\ (forall f, In f (map fst vs) -> ~ In f nulls) /\ Forall (fun v => 0 < snd v) vs
    /\ (forall r f, In r rows -> In f (map fst vs ++ nulls) -> getf r f <> None)
    /\ (forall s', getf s' "nwave" = Some (Num w) ->
          (forall f, ~ In f ["nwave"; "numrec"; "record"]%string -> getf s' f = getf s f) -> V s' = Some vs).

Lemma data_ok V vectors t p h s n nIn rec rows x :
  input_table h p s n nIn rec rows -> vectors_fit V vectors p s rows -> named_by s x ->
  flags_ok h (hash_lookup t x) nIn ->
  exists r, (name <- load_bytes h p 0 "insname" ;;
    match hash_lookup t name with
    | None => Ok (None, h)
    | Some u => filter_or_free malloc fill (fun p q h => filter_table malloc fill ch vectors p u q h) p h
    end) = Ok r /\ kept (records V) h r.
Proof.
  intros Hin Hv Hx Hf. unfold load_bytes, load. rewrite (in_struct _ _ _ _ _ _ _ Hin).
  cbn [get Z.ltb Z.compare Z.to_nat nth_error bind]. unfold named_by in Hx. rewrite Hx. cbn [bind].
  destruct (hash_lookup t x) as [u|].
  - destruct (Hf u eq_refl) as (Hu & w & Hused & Hw). destruct (Hv w) as (vs & nulls & A & B & C & D & E & F); [lia|].
    apply (filter_table_ok malloc Hfresh fill ch V vectors p u h s n nIn rec rows w vs nulls); try assumption. lia.
  - exists (None, h). split; [reflexivity | apply grows_refl].
Qed.

Lemma simple_fit names p s rows : NoDup names ->
  (forall r f, In r rows -> In f names -> getf r f <> None) ->
  vectors_fit (of_nwave names) (fun _ _ w => Ok (map (fun f => (f, w)) names, [])) p s rows.
Proof.
  intros Hd Hm w Hw. exists (map (fun f => (f, w)) names), []. rewrite map_fst_pair.
  split; [reflexivity|]. split; [exact Hd|]. split; [intros f _ []|]. split.
  - apply Forall_forall. intros v Hv. apply in_map_iff in Hv. destruct Hv as (f & <- & _). exact Hw.
  - split; [rewrite app_nil_r; exact Hm|]. intros s' Hs' _. unfold of_nwave, num. rewrite Hs'. reflexivity.
Qed.

Definition vis_kinds (s : struct) :=
  match num s "nwave", num s "usevisrefmap", num s "usecomplex" with
  | Some w, Some m, Some c =>
      Some (map (fun f => (f, w)) ["visamp"; "visamperr"; "visphi"; "visphierr"; "flag"]%string
            ++ (if m =? 0 then [] else [("visrefmap"%string, w * w)])
            ++ (if c =? 0 then []
                else map (fun f => (f, w)) ["rvis"; "rviserr"; "ivis"; "iviserr"]%string))
  | _, _, _ => None
  end.
Lemma vis_fit p s rows vs : vis_kinds s = Some vs ->
  (forall r f, In r rows -> In f (map fst vs) -> getf r f <> None) ->
  (forall r f, In r rows -> In f (vectors_null KVis) -> getf r f <> None) ->
  vectors_fit vis_kinds (fun h p w =>
    m <- load_num h p 0 "usevisrefmap" ;;
    c <- load_num h p 0 "usecomplex" ;;
    Ok (map (fun f => (f, w)) ["visamp"; "visamperr"; "visphi"; "visphierr"; "flag"]%string
        ++ (if m =? 0 then [] else [("visrefmap"%string, w * w)])
        ++ (if c =? 0 then [] else map (fun f => (f, w)) ["rvis"; "rviserr"; "ivis"; "iviserr"]%string),
        (if m =? 0 then ["visrefmap"%string] else [])
        ++ (if c =? 0 then ["rvis"; "rviserr"; "ivis"; "iviserr"]%string else []))%list) p s rows.
Proof.
  intros Hk Hm Hn w Hw. unfold vis_kinds in Hk.
  destruct (num s "nwave") as [nIn|] eqn:En; [|discriminate].
  destruct (num s "usevisrefmap") as [m|] eqn:Em; [|discriminate].
  destruct (num s "usecomplex") as [c|] eqn:Ec; [|discriminate]. injection Hk as <-.
  eexists. eexists. split; [|split; [|split; [|split; [|split]]]].
  - intros h' Hh. rewrite (load_num_at h' p s _ m Hh Em). cbn [bind]. rewrite (load_num_at h' p s _ c Hh Ec). cbn [bind]. reflexivity.
  - destruct (m =? 0), (c =? 0); nodup.
  - destruct (m =? 0), (c =? 0); cbn; intuition (subst; discriminate).
  - destruct (m =? 0), (c =? 0); repeat (constructor; [cbn; nia|]); constructor.
  - intros r f Hr Hf. assert (X : In f ["visamp"; "visamperr"; "visphi"; "visphierr"; "flag"]%string \/ In f (vectors_null KVis)).
    { revert Hf. destruct (m =? 0), (c =? 0); cbn; intuition. }
    destruct X as [X|X]; [|exact (Hn r f Hr X)]. apply (Hm r f Hr). cbn [map app fst In] in *. tauto.
  - intros s' Hs' Hsame. unfold vis_kinds, num. rewrite Hs'. rewrite !Hsame by (cbn; intuition discriminate).
    unfold num in Em, Ec. destruct (getf s "usevisrefmap") as [[]|]; try discriminate.
    destruct (getf s "usecomplex") as [[]|]; try discriminate. injection Em as ->. injection Ec as ->. reflexivity.
Qed.

Lemma dup_kept k p h s n vs arrs vecs : table_at (shape_of k) h p s n vs arrs vecs -> 0 < n -> Forall (fun v => 0 < snd v) vs ->
  exists r, (r <- dup_of k malloc p h ;; Ok (Some (fst r), snd r)) = Ok r /\ kept (shape_of k) h r.
Proof.
  intros Ht Hn Hv.
  destruct (dup_copies k malloc h p s n vs arrs vecs Hfresh Ht Hn Hv) as (p' & h' & s' & arrs' & vecs' & E & Ht' & _ & Ho & Hi).
  rewrite E. cbn [bind fst snd]. eexists. split; [reflexivity|]. unfold kept. cbn [fst snd].
  exists (storage arrs' vecs'). split; [exists s', n, vs, arrs', vecs'; split; [exact Ht' | reflexivity]|].
  split; [exact (ta_distinct _ _ _ _ _ _ _ _ Ht')|]. split; [intros a Ha; apply Hi, Ha|].
  intros a Ha. destruct (lookup h a) eqn:La.
  - rewrite Ho, La; [reflexivity | unfold live; rewrite La; discriminate].
  - destruct (lookup h' a) eqn:L'; [|reflexivity]. exfalso. apply Ha, Hi. unfold live. rewrite La, L'.
    split; [intros X; apply X; reflexivity | discriminate].
Qed.

(** ** The target table *)

Lemma firstn_next {A} (l : list A) i x : get l i = Ok x -> 0 <= i ->
  firstn (Z.to_nat (i + 1)) l = firstn (Z.to_nat i) l ++ [x].
Proof.
  intros H Hi. unfold get in H. destruct (Z.ltb_spec i 0); [lia|].
  replace (Z.to_nat (i + 1)) with (S (Z.to_nat i)) by lia.
  destruct (nth_error l (Z.to_nat i)) eqn:E; [|discriminate]. injection H as ->.
  revert E. generalize (Z.to_nat i). clear. induction l as [|y l IH]; intros [|k] E; try discriminate.
  - cbn in *. congruence.
  - cbn [nth_error] in E. specialize (IH k E). cbn [firstn app] in *. rewrite <- IH. reflexivity.
Qed.

Definition targets_made (h : heap) (t : addr) (h' : heap) : Prop :=
  exists hz ts, (forall a, a <> t -> lookup hz a = lookup h a) /\ live hz t
    /\ grows hz h' ts /\ targets_at h' t ts.

Lemma filter_target_ok h p s n vs arrs vecs t st :
  table_at target_shape h p s n vs arrs vecs -> 0 < n ->
  (forall sel e, ch_target ch = Some sel -> getf s "targ" = Some (Ptr (Some (fst e))) -> lookup h (fst e) = Some (snd e) ->
     (List.length (filter sel (snd e)) <= 1)%nat) ->
  lookup h t = Some [st] -> getf st "ntarget" <> None -> getf st "targ" <> None ->
  ~ In t (p :: storage arrs vecs) ->
  exists h', filter_oi_target malloc fill ch p t h = Ok h' /\ targets_made h t h'.
Proof.
  intros Ht Hn Hone Lt M1 M2 Nt. pose proof Ht as [A B C D E F]. cbn [target_shape flat sh_count sh_arrays sh_vectors] in *.
  injection C as <-. inversion D as [|? e ? l He Hl]; subst. inversion Hl; subst. clear D Hl.
  destruct e as [rec rows]. destruct He as (P1 & P2 & P3). cbn [fst snd] in *.
  assert (Hvn : concat vecs = []).
  { clear - E. induction E as [|r es rs vecs H E IH]; [reflexivity|]. inversion H; subst. exact IH. }
  assert (Hst : storage [(rec, rows)] vecs = [rec]) by (unfold storage; rewrite Hvn; reflexivity).
  rewrite Hst in *.
  assert (Npt : p <> t) by (intros ->; apply Nt; left; reflexivity).
  assert (Nrt : rec <> t) by (intros ->; apply Nt; right; left; reflexivity).
  assert (Npr : p <> rec) by (inversion F as [|? ? X _]; subst; intros ->; apply X; left; reflexivity).
  unfold filter_oi_target.
  destruct (store_ok h t [] st [] 0 "ntarget" (Num 0) Lt eq_refl M1) as (h1 & E1 & L1 & O1). rewrite E1. cbn [bind app] in *.
  destruct (store_ok h1 t [] (setf st "ntarget" (Num 0)) [] 0 "targ" (Ptr None) L1 eq_refl) as (h2 & E2 & L2 & O2).
  { rewrite getf_setf_other by discriminate. exact M2. }
  rewrite E2. cbn [bind app] in *. set (s0 := setf (setf st "ntarget" (Num 0)) "targ" (Ptr None)) in *.
  assert (S1 : getf s0 "ntarget" = Some (Num 0)).
  { unfold s0. rewrite getf_setf_other by discriminate. apply getf_setf_same, M1. }
  assert (S2 : getf s0 "targ" = Some (Ptr None)).
  { unfold s0. apply getf_setf_same. rewrite getf_setf_other by discriminate. exact M2. }
  assert (O : forall a, a <> t -> lookup h2 a = lookup h a) by (intros a Ha; rewrite O2, O1 by exact Ha; reflexivity).
  destruct (ch_target ch) as [sel|] eqn:Esel.
  - rewrite (load_num_at h2 p s "ntarget" n); [cbn [bind] | rewrite O by exact Npt; exact A | exact B].
    specialize (Hone sel (rec, rows) eq_refl P1 P2). cbn [snd] in Hone.
    match goal with |- context [for_ n ?b _] => set (body := b) end.
    destruct (for_total (fun i h3 =>
        (List.length (filter sel (firstn (Z.to_nat i) rows)) = 0%nat /\ forall a, lookup h3 a = lookup h2 a)
        \/ (List.length (filter sel (firstn (Z.to_nat i) rows)) = 1%nat
            /\ exists hz ts, (forall a, a <> t -> lookup hz a = lookup h a) /\ live hz t
               /\ grows hz h3 ts /\ owned target_shape h3 t ts)) body n h2) as (h' & E' & R).
    + lia.
    + left. split; [reflexivity | reflexivity].
    + intros i h3 Hi R. destruct (get_nth rows i) as (r & Er & _); [lia|].
      pose proof (firstn_next rows i r Er (proj1 Hi)) as Hfn.
      assert (Hle : (List.length (filter sel (firstn (Z.to_nat (i + 1)) rows)) <= 1)%nat).
      { rewrite <- (firstn_skipn (Z.to_nat (i + 1)) rows), filter_app, app_length in Hone. lia. }
      assert (Lk : lookup h3 p = Some [s] /\ lookup h3 rec = Some rows).
      { destruct R as [(_ & R)|(_ & hz & ts & R1 & R2 & R3 & _)].
        - rewrite !R, !O by assumption. split; assumption.
        - assert (forall a b, a <> t -> lookup h a = Some b -> lookup h3 a = Some b).
          { intros a b Ha Hb. rewrite (grows_keep _ _ _ _ R3); rewrite ?R1 by exact Ha; [exact Hb|].
            unfold live. rewrite R1 by exact Ha. rewrite Hb. discriminate. }
          split; apply H; assumption. }
      destruct Lk as [Lp Lr]. unfold body. rewrite (load_ptr_at h3 p [] s [] 0 "targ" (Some rec) Lp eq_refl P1). cbn [bind deref].
      unfold load. rewrite Lr, Er. cbn [bind]. rewrite Hfn in *. rewrite filter_app, app_length in *. cbn [filter] in *.
      destruct (sel r) eqn:Es; cbn [List.length] in *.
      * destruct R as [(R0 & R)|(R0 & _)]; [|lia].
        assert (L3 : lookup h3 t = Some [s0]) by (rewrite R; exact L2).
        destruct (alloc_flat malloc Hfresh (fill h3) "ntarget" ["targ"%string] t 1 h3 s0) as (h4 & s4 & arrs4 & E4 & T4 & _ & K4 & N4).
        { repeat constructor; intros []. } { cbn. intuition discriminate. } { lia. } { exact L3. }
        { intros f [<-|[<-|[]]]; [rewrite S1 | rewrite S2]; discriminate. }
        unfold alloc_oi_target. rewrite E4. cbn [bind].
        pose proof T4 as [A4 B4 C4 D4 E4' F4]. cbn [flat sh_count sh_arrays sh_vectors] in *.
        inversion D4 as [|? e4 ? l4 He4 Hl4]; subst. inversion Hl4; subst. clear D4 Hl4.
        destruct e4 as [rec4 rows4]. destruct He4 as (Q1 & Q2 & Q3). cbn [fst snd map] in *.
        rewrite (load_ptr_at h4 t [] s4 [] 0 "targ" (Some rec4) A4 eq_refl Q1). cbn [bind deref].
        assert (Lr4 : lookup h4 rec = Some rows).
        { rewrite K4; [exact Lr | exact Nrt | unfold live; rewrite Lr; discriminate]. }
        destruct rows4 as [|x4 [|y4 rest4]]; cbn [List.length] in Q3; try lia.
        destruct (copy_struct_at rec i rows r rec4 0 [] x4 [] h4 Lr4 Er Q2 eq_refl) as (h5 & E5 & L5 & O5).
        rewrite E5. exists h5. split; [reflexivity|]. right. split; [lia|].
        assert (N4t : ~ live h3 rec4 /\ live h4 rec4) by (apply N4; left; reflexivity).
        assert (Nt4 : t <> rec4). { intros <-. apply (proj1 N4t). unfold live. rewrite L3. discriminate. }
        exists (replace h3 t [s4]), [rec4]. split; [|split; [|split]].
        -- intros a Ha. rewrite lookup_replace. destruct (Z.eqb_spec t a); [congruence|]. rewrite R. apply O, Ha.
        -- unfold live. rewrite lookup_replace, Z.eqb_refl. discriminate.
        -- split; [repeat constructor; intros []|]. split.
           ++ intros a [<-|[]]. split.
              ** unfold live. rewrite lookup_replace. destruct (Z.eqb_spec t rec4); [contradiction | exact (proj1 N4t)].
              ** unfold live. rewrite L5. discriminate.
           ++ intros a Ha. assert (a <> rec4) by (intros ->; apply Ha; left; reflexivity).
              rewrite O5 by assumption. rewrite lookup_replace. destruct (Z.eqb_spec t a) as [<-|Hta]; [exact A4|].
              destruct (lookup h3 a) eqn:L3a.
              ** rewrite K4, L3a; [reflexivity | congruence | unfold live; rewrite L3a; discriminate].
              ** destruct (lookup h4 a) eqn:L4a; [|reflexivity]. exfalso. apply Ha.
                 destruct (proj2 (N4 a)) as [X|[]]; [unfold live; rewrite L3a, L4a; split; [intros X; apply X; reflexivity | discriminate]|].
                 left. exact X.
        -- exists s4, 1, [], [(rec4, [r])], [[]]. split; [|reflexivity]. constructor.
           ++ rewrite O5 by (intros ->; contradiction). exact A4.
           ++ exact B4.
           ++ reflexivity.
           ++ repeat constructor; cbn [fst snd]; [exact Q1 | exact L5].
           ++ cbn. repeat constructor.
           ++ cbn. constructor; [intros [<-|[]]; contradiction | repeat constructor; intros []].
      * exists h3. split; [reflexivity|]. destruct R as [(R0 & R)|(R0 & R)]; [left | right]; (split; [lia | exact R]).
    + exists h'. split; [exact E'|]. destruct R as [(_ & R)|(_ & hz & ts & R1 & R2 & R3 & R4)].
      * exists h', []. split; [intros a Ha; rewrite R; apply O, Ha|]. split; [unfold live; rewrite R, L2; discriminate|].
        split; [apply grows_refl|]. right. split; [reflexivity|]. exists s0. split; [rewrite R; exact L2|].
        split; [apply num_of, S1 | exact S2].
      * exists hz, ts. split; [exact R1|]. split; [exact R2|]. split; [exact R3 | left; exact R4].
  - destruct (copy_struct_at p 0 [s] s t 0 [] s0 [] h2) as (h3 & E3 & L3 & O3);
      [rewrite O by exact Npt; exact A | reflexivity | exact L2 | reflexivity|].
    rewrite E3. cbn [bind app] in *.
    assert (O' : forall a, a <> t -> lookup h3 a = lookup h a) by (intros a Ha; rewrite O3 by exact Ha; apply O, Ha).
    assert (Lp : lookup h3 p = Some [s]) by (rewrite O' by exact Npt; exact A).
    rewrite (load_num_at h3 p s "ntarget" n Lp B). cbn [bind].
    destruct (memdup_field_ok malloc Hfresh h3 p t 0 "targ" "targ" n (rec, rows) [] s [] [] s [] Lp eq_refl L3 eq_refl)
      as (h4 & E4 & L4 & Q4 & O4).
    { split; [exact P1|]. split; [cbn [fst]; rewrite O' by exact Nrt; exact P2 | exact P3]. }
    { exact Hn. } { rewrite P1. discriminate. }
    rewrite E4. exists h4. split; [reflexivity|]. cbn [app snd] in *.
    pose proof (Hfresh h3) as Fr. set (q := malloc h3) in *.
    assert (Nqt : q <> t) by (intros X; rewrite X in Fr; congruence).
    set (s4 := setf s "targ" (Ptr (Some q))) in *.
    exists (replace h3 t [s4]), [q]. split; [|split; [|split]].
    + intros a Ha. rewrite lookup_replace. destruct (Z.eqb_spec t a); [congruence | apply O', Ha].
    + unfold live. rewrite lookup_replace, Z.eqb_refl. discriminate.
    + split; [repeat constructor; intros []|]. split.
      * intros a [<-|[]]. unfold live. rewrite Q4, lookup_replace. destruct (Z.eqb_spec t q); [congruence|].
        rewrite Fr. split; [intros X; apply X; reflexivity | discriminate].
      * intros a Ha. rewrite lookup_replace. destruct (Z.eqb_spec t a) as [<-|Hta]; [exact L4|].
        apply O4; [congruence|]. intros ->. apply Ha. left. reflexivity.
    + left. exists s4, n, [], [(q, rows)], vecs. split; [|unfold storage; rewrite Hvn; reflexivity]. constructor.
      * exact L4.
      * cbn [target_shape flat sh_count]. unfold num, s4. rewrite getf_setf_other by discriminate. exact B.
      * reflexivity.
      * cbn [target_shape flat sh_arrays]. constructor; [|constructor]. split; [|split; [exact Q4 | exact P3]].
        unfold s4. apply getf_setf_same. rewrite P1. discriminate.
      * cbn [flat_map snd] in *. clear - E. induction E as [|r es rs vecs H E IH]; constructor; [inversion H; constructor | exact IH].
      * unfold storage. rewrite Hvn. cbn. constructor; [intros [X|[]]; congruence | repeat constructor; intros []].
Qed.
End Filter.
