(** Merging: writing names and numbers into the copy of a table. *)
From Coq Require Import Lia Permutation.
From Verif Require Import HeapSpec HeapMergeSpec BaseLemmas HeapProofs HeapDup HeapTables HeapFree HeapAlloc
  HeapGrow HeapFilterTab.
Open Scope Z_scope.

Lemma bytes_some s f x : bytes s f = Some x -> getf s f = Some (Bytes x).
Proof. unfold bytes. destruct (getf s f) as [[|?|y]|]; try discriminate. intros [= ->]. reflexivity. Qed.
Lemma bytes_not_none s f x : bytes s f = Some x -> getf s f <> None.
Proof. intros H. rewrite (bytes_some _ _ _ H). discriminate. Qed.
Lemma load_bytes_at h p l1 r l2 i f x : lookup h p = Some (l1 ++ r :: l2) -> i = Z.of_nat (List.length l1) ->
  bytes r f = Some x -> load_bytes h p i f = Ok x.
Proof.
  intros Hl Hi Hx. unfold load_bytes. rewrite (load_at _ _ _ _ _ _ Hl Hi). cbn [bind].
  rewrite (bytes_some _ _ _ Hx). reflexivity.
Qed.
Lemma load_num_row h p l1 r l2 i f x : lookup h p = Some (l1 ++ r :: l2) -> i = Z.of_nat (List.length l1) ->
  num r f = Some x -> load_num h p i f = Ok x.
Proof.
  intros Hl Hi Hx. unfold load_num. rewrite (load_at _ _ _ _ _ _ Hl Hi). cbn [bind].
  rewrite (num_some _ _ _ Hx). reflexivity.
Qed.

(** ** Members that are neither counts nor pointers *)
Definition plain (T : shape) (f : string) : Prop :=
  ~ In f (sh_arrays T) /\ f <> sh_count T /\ forall s v, sh_vectors T (setf s f v) = sh_vectors T s.

Lemma num_setf_other s f v g : f <> g -> num (setf s f v) g = num s g.
Proof. intros H. unfold num. rewrite getf_setf_other by exact H. reflexivity. Qed.
Lemma bytes_setf_other s f v g : f <> g -> bytes (setf s f v) g = bytes s g.
Proof. intros H. unfold bytes. rewrite getf_setf_other by exact H. reflexivity. Qed.

Lemma table_store T h p s n vs arrs vecs f v : table_at T h p s n vs arrs vecs -> plain T f -> getf s f <> None ->
  exists h', store h p 0 f v = Ok h' /\ table_at T h' p (setf s f v) n vs arrs vecs
    /\ forall a, a <> p -> lookup h' a = lookup h a.
Proof.
  intros [A B C D E F] (P1 & P2 & P3) Hf. destruct (store_ok h p [] s [] 0 f v A eq_refl Hf) as (h' & E' & L & O).
  exists h'. split; [exact E'|]. split; [|exact O]. cbn [app] in L.
  assert (Hs : forall a, In a (storage arrs vecs) -> lookup h' a = lookup h a).
  { intros a Ha. apply O. intros ->. inversion F; contradiction. }
  constructor.
  - exact L.
  - rewrite num_setf_other by exact P2. exact B.
  - rewrite P3. exact C.
  - assert (Hs1 : forall a, In a (map fst arrs) -> lookup h' a = lookup h a).
    { intros a Ha. apply Hs, in_app_iff. left. exact Ha. }
    clear - D Hs1 P1. induction D as [|g e l m (X & Y & Z) D IH]; constructor.
    + split; [|split; [|exact Z]].
      * rewrite getf_setf_other; [exact X|]. intros ->. apply P1. left. reflexivity.
      * rewrite Hs1 by (left; reflexivity). exact Y.
    + apply IH; [intros X0; apply P1; right; exact X0|]. intros a Ha. apply Hs1. right. exact Ha.
  - assert (Hs2 : forall a, In a (map fst (concat vecs)) -> lookup h' a = lookup h a).
    { intros a Ha. apply Hs, in_app_iff. right. exact Ha. }
    clear - E Hs2. induction E as [|r es rows vecs H E IH]; constructor.
    + apply (has_vectors_frame h h' vs r es H). intros a Ha. apply Hs2. cbn [concat]. rewrite map_app, in_app_iff. left. exact Ha.
    + apply IH. intros a Ha. apply Hs2. cbn [concat]. rewrite map_app, in_app_iff. right. exact Ha.
  - exact F.
Qed.

(** ** A member of each record *)
Definition same_but_f (f : string) (r r' : struct) : Prop := forall g, g <> f -> getf r' g = getf r g.

Lemma rows_store_loop V h0 q s n vs rec rows vecs f (body : Z -> heap -> res heap) :
  table_at (records V) h0 q s n vs [(rec, rows)] vecs -> ~ In f (map fst vs) ->
  (forall r, In r rows -> getf r f <> None) ->
  (forall l1 r l2 h, In r rows -> lookup h rec = Some (l1 ++ r :: l2) ->
     (forall a, a <> rec -> lookup h a = lookup h0 a) ->
     exists v, body (Z.of_nat (List.length l1)) h = store h rec (Z.of_nat (List.length l1)) f v) ->
  exists h' rows', for_ n body h0 = Ok h'
    /\ table_at (records V) h' q s n vs [(rec, rows')] vecs
    /\ (forall a, a <> rec -> lookup h' a = lookup h0 a)
    /\ Forall2 (same_but_f f) rows rows'.
Proof.
  intros Ht Hf Hm Hb. pose proof Ht as [A B C D E F]. cbn [records sh_count sh_arrays sh_vectors] in *.
  inversion D as [|? e ? l (P1 & P2 & P3) _]; subst. cbn [fst snd] in *.
  destruct (for_total (fun j h => exists done, Z.of_nat (List.length done) = j
      /\ lookup h rec = Some (done ++ skipn (Z.to_nat j) rows)
      /\ (forall a, a <> rec -> lookup h a = lookup h0 a)
      /\ Forall2 (same_but_f f) (firstn (Z.to_nat j) rows) done) body (Z.of_nat (List.length rows)) h0)
    as (h' & E' & done & L & Ld & O & S).
  - lia.
  - exists []. split; [reflexivity|]. split; [exact P2|]. split; [reflexivity | constructor].
  - intros j h Hj (done & L & Ld & O & S). destruct (get_nth rows j Hj) as (r & Er & Hr).
    assert (Hsk : skipn (Z.to_nat j) rows = r :: skipn (Z.to_nat (j + 1)) rows).
    { unfold get in Er. destruct (Z.ltb_spec j 0); [lia|]. replace (Z.to_nat (j + 1)) with (Datatypes.S (Z.to_nat j)) by lia.
      destruct (nth_error rows (Z.to_nat j)) eqn:En; [|discriminate]. injection Er as ->.
      clear - En. revert En. generalize (Z.to_nat j). induction rows as [|y rows IH]; intros [|k] En; try discriminate.
      - cbn in *. congruence.
      - cbn [nth_error] in En. exact (IH k En). }
    rewrite Hsk in Ld. destruct (Hb done r _ h Hr Ld O) as (v & Ev). rewrite L in Ev.
    destruct (store_ok h rec done r (skipn (Z.to_nat (j + 1)) rows) j f v Ld (eq_sym L) (Hm r Hr)) as (h1 & E1 & L1 & O1).
    exists h1. split; [rewrite Ev; exact E1|]. exists (done ++ [setf r f v]). split; [rewrite app_length; cbn; lia|].
    split; [rewrite <- app_assoc; exact L1|]. split; [intros a Ha; rewrite O1 by exact Ha; apply O, Ha|].
    assert (Hfn : firstn (Z.to_nat (j + 1)) rows = firstn (Z.to_nat j) rows ++ [r]).
    { unfold get in Er. destruct (Z.ltb_spec j 0); [lia|]. replace (Z.to_nat (j + 1)) with (Datatypes.S (Z.to_nat j)) by lia.
      destruct (nth_error rows (Z.to_nat j)) eqn:En; [|discriminate]. injection Er as ->.
      clear - En. revert En. generalize (Z.to_nat j). induction rows as [|y rows IH]; intros [|k] En; try discriminate.
      - cbn in *. congruence.
      - cbn [nth_error] in En. specialize (IH k En). cbn [firstn app] in *. rewrite <- IH. reflexivity. }
    rewrite Hfn. apply Forall2_app; [exact S|]. constructor; [|constructor].
    intros g Hg. apply getf_setf_other. congruence.
  - rewrite Nat2Z.id in *. rewrite firstn_all in S. rewrite skipn_all, app_nil_r in Ld.
    assert (Hlen : List.length done = List.length rows) by lia.
    exists h', done. split; [exact E'|]. split; [|split; [exact O | exact S]].
    unfold storage in F. cbn [map fst app] in F. inversion F as [|? ? Nq F']; subst. inversion F' as [|? ? Nr _]; subst.
    assert (Nqr : q <> rec) by (intros ->; apply Nq; left; reflexivity).
    constructor.
    + rewrite O by exact Nqr. exact A.
    + exact B.
    + exact C.
    + cbn [records sh_arrays]. constructor; [|constructor]. split; [exact P1|]. split; [exact Ld|]. cbn [snd]. congruence.
    + cbn [flat_map snd] in *. rewrite app_nil_r in *.
      assert (Hv : forall a, In a (map fst (concat vecs)) -> lookup h' a = lookup h0 a).
      { intros a Ha. apply O. intros ->. contradiction. }
      clear - E S Hv Hf. revert vecs E Hv. induction S as [|r r' rows rows' Hr S IH]; intros vecs E Hv; inversion E as [|? es ? vecs' He Ev]; subst; constructor.
      * assert (Hv1 : forall a, In a (map fst es) -> lookup h' a = lookup h0 a).
        { intros a Ha. apply Hv. cbn [concat]. rewrite map_app, in_app_iff. left. exact Ha. }
        clear - He Hr Hv1 Hf. induction He as [|v e vs es (X & Y & Z) He IH]; constructor.
        -- split; [|split; [|exact Z]].
           ++ rewrite Hr; [exact X|]. intros X0. apply Hf. left. exact X0.
           ++ rewrite Hv1 by (left; reflexivity). exact Y.
        -- apply IH; [intros X0; apply Hf; right; exact X0|]. intros a Ha. apply Hv1. right. exact Ha.
      * apply IH; [exact Ev|]. intros a Ha. apply Hv. cbn [concat]. rewrite map_app, in_app_iff. right. exact Ha.
    + exact F.
Qed.

(** ** Names and numbers of one copy *)
Section Rename.
(** the heap before the copy was made; what is in it has not changed *)
Variable hb : heap.
Definition keeps (h : heap) : Prop := forall a, live hb a -> lookup h a = lookup hb a.
Definition names_ok (f : string) (t : ptr_hash) : Prop :=
  forall x d, find_ptr t x = Some d -> exists s y, lookup hb d = Some [s] /\ bytes s f = Some y.
(** [x] is a name that the hash table has *)
Definition known (t : ptr_hash) (x : string) : Prop := find_ptr t x <> None.

Lemma keeps_but h h' p : keeps h -> ~ live hb p -> (forall a, a <> p -> lookup h' a = lookup h a) -> keeps h'.
Proof. intros K Np O a Ha. rewrite O; [exact (K a Ha)|]. intros ->. contradiction. Qed.

Lemma replace_name_at f t h p l1 r l2 x : keeps h -> names_ok f t -> known t x ->
  lookup h p = Some (l1 ++ r :: l2) -> bytes r f = Some x ->
  exists y, replace_name f t p (Z.of_nat (List.length l1)) h = store h p (Z.of_nat (List.length l1)) f (Bytes y).
Proof.
  intros K Hn Hk Hp Hx. unfold replace_name. rewrite (load_bytes_at h p l1 r l2 _ f x Hp eq_refl Hx). cbn [bind].
  unfold known in Hk. destruct (find_ptr t x) as [d|] eqn:Ed; [|contradiction]. cbn [deref bind].
  destruct (Hn x d Ed) as (s & y & Ls & Ly).
  assert (Ld : lookup h d = Some [s]) by (rewrite K; [exact Ls | unfold live; rewrite Ls; discriminate]).
  rewrite (load_bytes_at h d [] s [] 0 f y Ld eq_refl Ly). cbn [bind]. exists y. reflexivity.
Qed.

Lemma replace_name_table T f t h q s n vs arrs vecs x : keeps h -> names_ok f t -> known t x -> plain T f ->
  table_at T h q s n vs arrs vecs -> bytes s f = Some x -> ~ live hb q ->
  exists h' s', replace_name f t q 0 h = Ok h' /\ table_at T h' q s' n vs arrs vecs /\ keeps h'
    /\ (forall a, a <> q -> lookup h' a = lookup h a) /\ same_but_f f s s'.
Proof.
  intros K Hn Hk Hp Ht Hx Nq.
  destruct (replace_name_at f t h q [] s [] x K Hn Hk (ta_struct _ _ _ _ _ _ _ _ Ht) Hx) as (y & Ey).
  change (Z.of_nat (List.length (@nil struct))) with 0 in Ey. rewrite Ey.
  destruct (table_store T h q s n vs arrs vecs f (Bytes y) Ht Hp (bytes_not_none _ _ _ Hx)) as (h' & E' & T' & O).
  exists h', (setf s f (Bytes y)). split; [exact E'|]. split; [exact T'|]. split; [exact (keeps_but h h' q K Nq O)|].
  split; [exact O|]. intros g Hg. apply getf_setf_other. congruence.
Qed.
Lemma replace_optional_table T f t h q s n vs arrs vecs x : keeps h -> names_ok f t -> x = EmptyString \/ known t x -> plain T f ->
  table_at T h q s n vs arrs vecs -> bytes s f = Some x -> ~ live hb q ->
  exists h' s', replace_optional f t q h = Ok h' /\ table_at T h' q s' n vs arrs vecs /\ keeps h'
    /\ (forall a, a <> q -> lookup h' a = lookup h a) /\ same_but_f f s s'.
Proof.
  intros K Hn Hk Hp Ht Hx Nq. unfold replace_optional.
  rewrite (load_bytes_at h q [] s [] 0 f x (ta_struct _ _ _ _ _ _ _ _ Ht) eq_refl Hx). cbn [bind].
  destruct (str_eqb x "") eqn:Ee.
  - exists h, s. split; [reflexivity|]. split; [exact Ht|]. split; [exact K|]. split; [reflexivity | intros g _; reflexivity].
  - apply replace_name_table with (x := x); try assumption. destruct Hk as [->|Hk]; [discriminate | exact Hk].
Qed.

(** the number [id] leads to a row of the target table and to a number for the output *)
Definition id_ok (ids : ptr_hash) (pT : addr) (id : Z) : Prop :=
  exists x v k, (forall h, keeps h -> target_name pT id h = Ok x) /\ find_ptr ids x = Some v
    /\ lookup hb v = Some [[("value"%string, Num k)]].

Lemma replace_ids V ids pT h q s n vs rec rows vecs : keeps h ->
  table_at (records V) h q s n vs [(rec, rows)] vecs -> ~ In "target_id"%string (map fst vs) ->
  (forall r, In r rows -> exists id, num r "target_id" = Some id /\ id_ok ids pT id) -> ~ live hb rec ->
  exists h' rows', replace_target_id ids pT q h = Ok h'
    /\ table_at (records V) h' q s n vs [(rec, rows')] vecs /\ keeps h'
    /\ (forall a, a <> rec -> lookup h' a = lookup h a)
    /\ Forall2 (same_but_f "target_id") rows rows'.
Proof.
  intros K Ht Hv Hid Nr. unfold replace_target_id.
  rewrite (load_num_at h q s "numrec" n (ta_struct _ _ _ _ _ _ _ _ Ht) (ta_count _ _ _ _ _ _ _ _ Ht)). cbn [bind].
  match goal with |- context [for_ n ?b _] => set (body := b) end.
  pose proof (ta_arrays _ _ _ _ _ _ _ _ Ht) as D. inversion D as [|? e ? l (P1 & P2 & P3) _]; subst. cbn [fst] in P1.
  assert (Nqr : q <> rec).
  { pose proof (ta_distinct _ _ _ _ _ _ _ _ Ht) as F. inversion F as [|? ? X _]; subst. intros ->. apply X. left. reflexivity. }
  destruct (rows_store_loop V h q s _ vs rec rows vecs "target_id" body Ht Hv) as (h' & rows' & E' & T' & O & S).
  - intros r Hr. destruct (Hid r Hr) as (id & H & _). rewrite (num_some _ _ _ H). discriminate.
  - intros l1 r l2 h1 Hr L1 O1. destruct (Hid r Hr) as (id & Hn & x & v & k & Hx & Hf & Hl).
    assert (K1 : keeps h1) by exact (keeps_but h h1 rec K Nr O1).
    unfold body. rewrite (load_ptr_at h1 q [] s [] 0 "record" (Some rec)); [|rewrite O1 by exact Nqr; exact (ta_struct _ _ _ _ _ _ _ _ Ht) | reflexivity | exact P1].
    cbn [bind deref]. rewrite (load_num_row h1 rec l1 r l2 _ _ id L1 eq_refl Hn). cbn [bind]. rewrite (Hx h1 K1). cbn [bind].
    rewrite Hf. cbn [bind deref]. rewrite (load_num_at h1 v [("value"%string, Num k)] "value" k); [|rewrite K1; [exact Hl | unfold live; rewrite Hl; discriminate] | reflexivity].
    cbn [bind]. exists (Num k). reflexivity.
  - exists h', rows'. split; [exact E'|]. split; [exact T'|]. split; [exact (keeps_but h h' rec K Nr O)|]. split; [exact O | exact S].
Qed.

Definition data_plain (V : struct -> option (list (string * Z))) : Prop :=
  plain (records V) "arrname" /\ plain (records V) "insname" /\ plain (records V) "corrname"
  /\ forall s vs f, V s = Some vs -> In f ["target_id"; "insname"]%string -> ~ In f (map fst vs).

Lemma rename_data_ok V ids i ha hw hc h q s n vs rec rows vecs xa xi xc : keeps h -> data_plain V ->
  names_ok "arrname" ha -> names_ok "insname" hw -> names_ok "corrname" hc ->
  table_at (records V) h q s n vs [(rec, rows)] vecs ->
  bytes s "arrname" = Some xa -> xa = EmptyString \/ known ha xa ->
  bytes s "insname" = Some xi -> known hw xi ->
  bytes s "corrname" = Some xc -> xc = EmptyString \/ known hc xc ->
  (forall r, In r rows -> exists id, num r "target_id" = Some id /\ id_ok ids (fp_targets i) id) ->
  ~ live hb q -> ~ live hb rec ->
  exists h' s' rows', rename_data ids i (ha, hw, hc) q h = Ok h'
    /\ table_at (records V) h' q s' n vs [(rec, rows')] vecs
    /\ (forall a, a <> q -> a <> rec -> lookup h' a = lookup h a).
Proof.
  intros K (Pa & Pi & Pc & Pv) Na Ni Nc Ht Ha Ka Hi Ki Hc Kc Hid Nq Nr. unfold rename_data.
  destruct (replace_optional_table _ "arrname" ha h q s n vs _ vecs xa K Na Ka Pa Ht Ha Nq) as (h1 & s1 & E1 & T1 & K1 & O1 & S1).
  rewrite E1. cbn [bind].
  destruct (replace_name_table _ "insname" hw h1 q s1 n vs _ vecs xi K1 Ni Ki Pi T1) as (h2 & s2 & E2 & T2 & K2 & O2 & S2).
  { unfold bytes. rewrite S1 by discriminate. exact Hi. } { exact Nq. }
  rewrite E2. cbn [bind].
  destruct (replace_optional_table _ "corrname" hc h2 q s2 n vs _ vecs xc K2 Nc Kc Pc T2) as (h3 & s3 & E3 & T3 & K3 & O3 & S3).
  { unfold bytes. rewrite S2, S1 by discriminate. exact Hc. } { exact Nq. }
  rewrite E3. cbn [bind].
  destruct (replace_ids V ids (fp_targets i) h3 q s3 n vs rec rows vecs K3 T3) as (h4 & rows' & E4 & T4 & K4 & O4 & _).
  { apply (Pv s3); [exact (ta_kinds _ _ _ _ _ _ _ _ T3) | left; reflexivity]. } { exact Hid. } { exact Nr. }
  exists h4, s3, rows'. split; [exact E4|]. split; [exact T4|]. intros a A1 A2. rewrite O4, O3, O2, O1 by assumption. reflexivity.
Qed.

Lemma rename_inspol_ok V ids i ha hw hc h q s n vs rec rows vecs xa : keeps h -> data_plain V ->
  names_ok "arrname" ha -> names_ok "insname" hw ->
  table_at (records V) h q s n vs [(rec, rows)] vecs ->
  bytes s "arrname" = Some xa -> xa = EmptyString \/ known ha xa ->
  (forall r, In r rows -> exists id, num r "target_id" = Some id /\ id_ok ids (fp_targets i) id) ->
  (forall r, In r rows -> exists x, bytes r "insname" = Some x /\ known hw x) ->
  ~ live hb q -> ~ live hb rec ->
  exists h' s' rows', rename_inspol ids i (ha, hw, hc) q h = Ok h'
    /\ table_at (records V) h' q s' n vs [(rec, rows')] vecs
    /\ (forall a, a <> q -> a <> rec -> lookup h' a = lookup h a).
Proof.
  intros K (Pa & _ & _ & Pv) Na Ni Ht Ha Ka Hid Hin Nq Nr. unfold rename_inspol.
  destruct (replace_optional_table _ "arrname" ha h q s n vs _ vecs xa K Na Ka Pa Ht Ha Nq) as (h1 & s1 & E1 & T1 & K1 & O1 & S1).
  rewrite E1. cbn [bind].
  destruct (replace_ids V ids (fp_targets i) h1 q s1 n vs rec rows vecs K1 T1) as (h2 & rows2 & E2 & T2 & K2 & O2 & S2).
  { apply (Pv s1); [exact (ta_kinds _ _ _ _ _ _ _ _ T1) | left; reflexivity]. } { exact Hid. } { exact Nr. }
  rewrite E2. cbn [bind].
  rewrite (load_num_at h2 q s1 "numrec" n (ta_struct _ _ _ _ _ _ _ _ T2) (ta_count _ _ _ _ _ _ _ _ T2)). cbn [bind].
  match goal with |- context [for_ n ?b _] => set (body := b) end.
  pose proof (ta_arrays _ _ _ _ _ _ _ _ T2) as D. inversion D as [|? e ? l (P1 & P2 & P3) _]; subst. cbn [fst snd] in *.
  assert (Nqr : q <> rec).
  { pose proof (ta_distinct _ _ _ _ _ _ _ _ Ht) as F. inversion F as [|? ? X _]; subst. intros ->. apply X. left. reflexivity. }
  assert (Hin2 : forall r, In r rows2 -> exists x, bytes r "insname" = Some x /\ known hw x).
  { clear - Hin S2. intros r Hr. induction S2 as [|r0 r' rows rows2 H S2 IH]; [contradiction|]. destruct Hr as [->|Hr].
    - destruct (Hin r0) as (x & Hx & Hk); [left; reflexivity|]. exists x. split; [|exact Hk]. unfold bytes in *.
      rewrite H by discriminate. exact Hx.
    - apply IH; [|exact Hr]. intros y Hy. apply Hin. right. exact Hy. }
  destruct (rows_store_loop V h2 q s1 _ vs rec rows2 vecs "insname" body T2) as (h3 & rows3 & E3 & T3 & O3 & _).
  - apply (Pv s1); [exact (ta_kinds _ _ _ _ _ _ _ _ T1) | right; left; reflexivity].
  - intros r Hr. destruct (Hin2 r Hr) as (x & Hx & _). exact (bytes_not_none _ _ _ Hx).
  - intros l1 r l2 h3 Hr L3 O3. destruct (Hin2 r Hr) as (x & Hx & Hk).
    assert (K3 : keeps h3) by exact (keeps_but h2 h3 rec K2 Nr O3).
    unfold body. rewrite (load_ptr_at h3 q [] s1 [] 0 "record" (Some rec)); [|rewrite O3 by exact Nqr; exact (ta_struct _ _ _ _ _ _ _ _ T2) | reflexivity | exact P1].
    cbn [bind deref]. destruct (replace_name_at "insname" hw h3 rec l1 r l2 x K3 Ni Hk L3 Hx) as (y & Ey). exists (Bytes y). exact Ey.
  - exists h3, s1, rows3. split; [exact E3|]. split; [exact T3|]. intros a A1 A2. rewrite O3, O2, O1 by assumption. reflexivity.
Qed.
End Rename.

(** ** The kinds of table *)
Ltac not_in := let X := fresh in intros X; cbn in X; intuition discriminate.
Lemma of_nwave_plain names : (forall f, In f ["arrname"; "insname"; "corrname"; "target_id"]%string -> ~ In f names) ->
  data_plain (of_nwave names).
Proof.
  intros Hn.
  assert (P : forall f, f <> "record"%string -> f <> "numrec"%string -> f <> "nwave"%string -> plain (records (of_nwave names)) f).
  { intros f A B C. split; [|split].
    - cbn. intros [X|[]]. congruence.
    - exact B.
    - intros s v. cbn [records sh_vectors]. unfold of_nwave. rewrite num_setf_other by exact C. reflexivity. }
  split; [apply P; discriminate|]. split; [apply P; discriminate|]. split; [apply P; discriminate|].
  intros s vs f Hv Hf. unfold of_nwave in Hv. destruct (num s "nwave"); [|discriminate]. injection Hv as <-.
  rewrite map_map. cbn [fst]. rewrite map_id. apply Hn. destruct Hf as [<-|[<-|[]]]; cbn; tauto.
Qed.
Definition vectors_of (k : table_kind) : struct -> option (list (string * Z)) := sh_vectors (shape_of k).
Lemma kind_plain k : In k [KInspol; KVis; KVis2; KT3; KFlux] -> data_plain (vectors_of k) /\ shape_of k = records (vectors_of k).
Proof.
  intros Hk. split; [|cbn in Hk; intuition; subst; reflexivity].
  assert (X : forall names, (forall f, In f ["arrname"; "insname"; "corrname"; "target_id"]%string -> ~ In f names) ->
    vectors_of k = of_nwave names -> data_plain (vectors_of k)) by (intros names Hn ->; apply of_nwave_plain, Hn).
  destruct Hk as [<-|[<-|[<-|[<-|[<-|[]]]]]];
    try (eapply X; [|reflexivity]; intros f Hf Hg; cbn in Hf, Hg;
         intuition (subst; discriminate)).
  assert (P : forall f, f <> "record"%string -> f <> "numrec"%string -> f <> "nwave"%string ->
    f <> "usevisrefmap"%string -> f <> "usecomplex"%string -> plain vis_shape f).
  { intros f A B C D E. split; [|split].
    - cbn. intros [Y|[]]. congruence.
    - exact B.
    - intros s v. cbn [vis_shape records sh_vectors]. rewrite !num_setf_other by assumption. reflexivity. }
  split; [apply P; discriminate|]. split; [apply P; discriminate|]. split; [apply P; discriminate|].
  intros s vs f Hv Hf. unfold vectors_of in Hv. cbn [shape_of vis_shape records sh_vectors] in Hv.
  destruct (num s "nwave"); [|discriminate]. destruct (num s "usevisrefmap") as [m|]; [|discriminate].
  destruct (num s "usecomplex") as [c|]; [|discriminate]. injection Hv as <-. intros Hg.
  revert Hg.
  destruct Hf as [<-|[<-|[]]]; destruct (m =? 0), (c =? 0); not_in.
Qed.
