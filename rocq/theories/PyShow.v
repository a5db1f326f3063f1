(** What a script sees of a dataset it opened. *)
From Verif Require Import Base BaseLemmas Sample ToolModel ToolMain IOMain FilterMain PyModel PyShowSpec.
From Coq Require Import Lia.

(** ** Positions *)

Lemma nth_parts {A} (l : list A) n a : nth_error l n = Some a <-> exists before after, l = before ++ a :: after /\ n = length before.
Proof.
  split.
  - intros H. destruct (nth_error_split l n H) as (x & y & E & L). exists x, y. auto.
  - intros (x & y & -> & ->). rewrite nth_error_app2 by lia. now rewrite Nat.sub_diag.
Qed.
Lemma list_item_at {A} (l : list A) i a : list_item l i = Val a <-> at_position l i a.
Proof.
  unfold list_item. split.
  - destruct (Z.ltb_spec i 0) as [N|N].
    + destruct (Z.ltb_spec (i + Z.of_nat (length l)) 0) as [M|M]; [discriminate|].
      destruct (nth_error l _) as [b|] eqn:E; [|discriminate]. intros H. injection H as ->.
      apply nth_parts in E as (x & y & E & L). subst l. rewrite app_length in *. cbn [length] in *.
      replace i with (- Z.of_nat (length y) - 1) by lia. now apply (from_end _ x a y).
    + destruct (Z.ltb_spec i 0) as [M|M]; [lia|].
      destruct (nth_error l _) as [b|] eqn:E; [|discriminate]. intros H. injection H as ->.
      apply nth_parts in E as (x & y & E & L). replace i with (Z.of_nat (length x)) by lia. now apply (from_start _ x a y).
  - intros [x b y E|x b y E].
    + destruct (Z.ltb_spec (Z.of_nat (length x)) 0); [lia|]. destruct (Z.ltb_spec (Z.of_nat (length x)) 0); [lia|].
      rewrite Nat2Z.id. replace (nth_error l (length x)) with (Some b); [reflexivity|]. symmetry. apply nth_parts. eauto.
    + destruct (Z.ltb_spec (- Z.of_nat (length y) - 1) 0); [|lia].
      assert (L : Z.of_nat (length l) = Z.of_nat (length x) + 1 + Z.of_nat (length y)) by (rewrite E, app_length; cbn [length]; lia).
      rewrite L. destruct (Z.ltb_spec (- Z.of_nat (length y) - 1 + (Z.of_nat (length x) + 1 + Z.of_nat (length y))) 0); [lia|].
      replace (Z.to_nat _) with (length x) by lia.
      replace (nth_error l (length x)) with (Some b); [reflexivity|]. symmetry. apply nth_parts. eauto.
Qed.
Lemma list_item_out {A} (l : list A) i : list_item l i = Exc IndexError <-> i < - Z.of_nat (length l) \/ Z.of_nat (length l) <= i.
Proof.
  unfold list_item. destruct (Z.ltb_spec i 0) as [N|N].
  - destruct (Z.ltb_spec (i + Z.of_nat (length l)) 0) as [M|M]; [split; [lia|auto]|].
    destruct (nth_error l _) as [b|] eqn:E.
    + split; [discriminate|lia].
    + apply nth_error_None in E. lia.
  - destruct (Z.ltb_spec i 0) as [M|M]; [lia|]. destruct (nth_error l _) as [b|] eqn:E.
    + assert (nth_error l (Z.to_nat i) <> None) as K by congruence. apply nth_error_Some in K. split; [discriminate|lia].
    + apply nth_error_None in E. split; [lia|reflexivity].
Qed.
Lemma list_item_cases {A} (l : list A) i : (exists a, list_item l i = Val a) \/ list_item l i = Exc IndexError.
Proof.
  unfold list_item. destruct (i <? 0); destruct (_ <? 0); try destruct (nth_error l _); eauto.
Qed.
Lemma list_item_map {A B} (g : A -> B) l i : list_item (map g l) i =
  match list_item l i with Val a => Val (g a) | Exc e => Exc e end.
Proof.
  unfold list_item. rewrite map_length. set (i0 := if i <? 0 then _ else _). destruct (i0 <? 0); [reflexivity|].
  rewrite nth_error_map. now destruct (nth_error l (Z.to_nat i0)).
Qed.
Lemma at_map {A B} (g : A -> B) l i b : list_item (map g l) i = Val b <-> exists a, at_position l i a /\ b = g a.
Proof.
  rewrite list_item_map. split.
  - destruct (list_item l i) as [a|] eqn:E; [|discriminate]. intros H. injection H as <-. exists a. split; [now apply list_item_at|reflexivity].
  - intros (a & H & ->). apply list_item_at in H. now rewrite H.
Qed.
Lemma get_row {A} (l : list A) j r : get l j = Ok r <-> at_row l j r.
Proof.
  unfold get, at_row. split.
  - destruct (Z.ltb_spec j 0); [discriminate|]. destruct (nth_error l (Z.to_nat j)) as [b|] eqn:E; [|discriminate].
    intros H1. injection H1 as ->. apply nth_parts in E as (x & y & E & L). exists x, y. split; [exact E|lia].
  - intros (x & y & E & ->). destruct (Z.ltb_spec (Z.of_nat (length x)) 0); [lia|]. rewrite Nat2Z.id.
    replace (nth_error l (length x)) with (Some r); [reflexivity|]. symmetry. apply nth_parts. eauto.
Qed.
Lemma row_map {A B} (g : A -> B) l j b : at_row (map g l) j b <-> exists a, at_row l j a /\ b = g a.
Proof.
  unfold at_row. split.
  - intros (x & y & E & ->). apply map_eq_app in E as (x' & y' & -> & <- & E). destruct y' as [|a y']; [discriminate|].
    injection E as <- <-. exists a. split; [|reflexivity]. exists x', y'. split; [reflexivity|now rewrite map_length].
  - intros (a & (x & y & -> & ->) & ->). exists (map g x), (map g y). now rewrite map_app, map_length.
Qed.
Lemma get_map {A B} (g : A -> B) l j r : at_row l j r -> get (map g l) j = Ok (g r).
Proof. intros H. apply get_row, row_map. eauto. Qed.

(** ** The scripts *)

Section Run.
Variable E : cfitsio.
Variable fmt : string -> f64 -> string.
Variable pow_half : f64 -> f64.
Variables (x file : string) (d : disk) (v : oi_fits).
Hypothesis R : read_oi_fits E file d 0 = Ok (Some v, 0).

Definition opened : state := mk_state [mk_cell v true true false []] [(x, BData 0)] d.
Lemma run_opened c : run E fmt pow_half [Assign x (OOpen (Some file)); c] d
  = (r <- exec E fmt pow_half c opened ;; Ok (fst r, [Nothing; snd r])).
Proof.
  unfold run. cbn [run_from exec eval_owner s_disk start]. rewrite R. cbn [bind snd fst].
  change (negb (0 =? 0)) with false. cbn [new_cell s_cells start app length bind fst snd].
  unfold rebind. cbn [lookup s_vars start unbind filter app s_disk s_cells fst snd bind].
  fold opened. destruct (exec E fmt pow_half c opened) as [[s e]| |]; cbn [bind fst snd]; try reflexivity.
  destruct e; reflexivity.
Qed.
Lemma item_opened k i : eval_part E pow_half (PItem (OVar x) k i) opened
  = Ok (opened, match list_item (list_of k v) i with Val t => Val (0%nat, TableAt t) | Exc e => Exc e end).
Proof.
  cbn [eval_part]. unfold with_owner. cbn [eval_owner opened s_vars lookup]. rewrite str_eqb_refl. cbn [bind fst].
  unfold list_member, the_cell. cbn [s_cells opened nth_error c_alive c_freed bind existsb c_val drop snd].
  now destruct (list_item (list_of k v) i).
Qed.
Lemma show_table k i a : exec E fmt pow_half (Show (PItem (OVar x) k i) a) opened
  = Ok (opened, match list_item (list_of k v) i with
                | Val t => show (or_attribute_error (table_attr a t)) | Exc e => Raised e end).
Proof.
  cbn [exec]. rewrite item_opened. cbn [bind]. destruct (list_item (list_of k v) i) as [t|e]; [|reflexivity].
  unfold deref, the_cell. cbn [s_cells opened nth_error c_alive bind pointee_attr]. reflexivity.
Qed.
Lemma index_opened k i j : eval_part E pow_half (PIndex (PRows (PItem (OVar x) k i)) j) opened
  = match list_item (list_of k v) i with
    | Exc e => Ok (opened, Exc e)
    | Val t => match rows_of t with
               | None => Ok (opened, Exc AttributeError)
               | Some l => if (0 <=? j) && (j <=? Z.of_nat (length l)) then Ok (opened, Val (0%nat, RowAt l j)) else UB
               end
    end.
Proof.
  change (eval_part E pow_half (PIndex (PRows (PItem (OVar x) k i)) j) opened) with
    (r <- (r <- eval_part E pow_half (PItem (OVar x) k i) opened ;;
      let '(s, a) := r in
      match a with
      | Exc e => Ok (s, Exc e)
      | Val (h, p) => do deref h p s ;; Ok (s, match pointee_rows p with Val p => Val (h, p) | Exc e => Exc e end)
      end) ;;
      let '(s, a) := r in
      match a with
      | Exc e => Ok (s, Exc e)
      | Val (h, p) => do deref h p s ;; q <- pointee_item p j ;; Ok (s, match q with Val p => Val (h, p) | Exc e => Exc e end)
      end).
  rewrite item_opened. cbn [bind]. destruct (list_item (list_of k v) i) as [t|e]; [|reflexivity].
  unfold deref, the_cell. cbn [s_cells opened nth_error c_alive bind pointee_rows]. destruct (rows_of t) as [l|]; [|reflexivity].
  cbn [bind pointee_item]. rewrite Z.add_0_l. now destruct ((0 <=? j) && (j <=? Z.of_nat (length l))).
Qed.
Lemma show_row k i j a t l : list_item (list_of k v) i = Val t -> rows_of t = Some l ->
  exec E fmt pow_half (Show (PIndex (PRows (PItem (OVar x) k i)) j) a) opened
  = (r <- get l j ;; Ok (opened, show (or_attribute_error (row_attr a r)))).
Proof.
  intros H1 H2. cbn [exec]. rewrite index_opened, H1, H2. unfold get. destruct (Z.leb_spec 0 j) as [P|P]; cbn [andb].
  2:{ destruct (Z.ltb_spec j 0); [reflexivity|lia]. }
  destruct (Z.ltb_spec j 0); [lia|]. destruct (Z.leb_spec j (Z.of_nat (length l))) as [Q|Q]; cbn [bind].
  - unfold deref, the_cell. cbn [s_cells opened nth_error c_alive bind pointee_attr]. unfold get.
    destruct (Z.ltb_spec j 0); [lia|]. now destruct (nth_error l (Z.to_nat j)).
  - destruct (nth_error l (Z.to_nat j)) eqn:N; [|reflexivity].
    assert (K : nth_error l (Z.to_nat j) <> None) by congruence. apply nth_error_Some in K. lia.
Qed.

(** [table_shows] is what the script shows *)
Theorem table_shown k i a w :
  table_shows v i k a w <->
  exists s, run E fmt pow_half [Assign x (OOpen (Some file)); Show (PItem (OVar x) k i) a] d = Ok (s, [Nothing; Shown w]).
Proof.
  rewrite run_opened, show_table. cbn [bind fst snd].
  assert (G : forall ev, (exists s, @Ok (state * list event) (opened, [Nothing; ev]) = Ok (s, [Nothing; Shown w])) <-> ev = Shown w).
  { intros ev. split; [intros (s & H); now injection H|intros ->; eauto]. }
  rewrite G. split.
  - intros H. destruct H as [t H|t H|t H|t H|t H|t H|t H|t H|t H|t H|t H|t H|t H|t H|t H|t H|t H|t H|t H|t H|t H|t H|t H];
      cbn [list_of]; rewrite list_item_map; apply list_item_at in H; rewrite H; reflexivity.
  - destruct (list_item (list_of k v) i) as [t|e] eqn:Q; [|discriminate].
    destruct k; cbn [list_of] in Q; apply at_map in Q as (t0 & Q & ->); cbn [table_attr];
      destruct a; cbn [or_attribute_error show]; intros H; try discriminate; injection H as <-; econstructor; exact Q.
Qed.
Theorem table_missing k i a :
  (i < - number k v \/ number k v <= i) <->
  exists s, run E fmt pow_half [Assign x (OOpen (Some file)); Show (PItem (OVar x) k i) a] d = Ok (s, [Nothing; Raised IndexError]).
Proof.
  rewrite run_opened, show_table. cbn [bind fst snd].
  assert (L : number k v = Z.of_nat (length (list_of k v))) by (destruct k; cbn [number list_of]; now rewrite map_length).
  rewrite L, <- list_item_out. split.
  - intros ->. eauto.
  - intros (s & H). injection H as _ H. destruct (list_item_cases (list_of k v) i) as [(t & Q)|Q]; [|exact Q].
    rewrite Q in H. destruct (table_attr a t); discriminate.
Qed.
Theorem number_shown k :
  exists s, run E fmt pow_half [Assign x (OOpen (Some file)); Len (OVar x) k] d = Ok (s, [Nothing; Shown (PyInt (number k v))]).
Proof.
  rewrite run_opened. cbn [exec]. unfold showing, with_owner. cbn [eval_owner opened s_vars lookup]. rewrite str_eqb_refl.
  cbn [bind fst]. unfold list_member, the_cell. cbn [s_cells opened nth_error c_alive c_freed bind existsb c_val fst snd drop].
  exists opened. f_equal. f_equal. destruct k; cbn [number list_of]; now rewrite map_length.
Qed.
Theorem row_shown k i j a w :
  row_shows v i j k a w <->
  exists s, run E fmt pow_half [Assign x (OOpen (Some file)); Show (PIndex (PRows (PItem (OVar x) k i)) j) a] d
    = Ok (s, [Nothing; Shown w]).
Proof.
  rewrite run_opened. split.
  - intros H. destruct H as [t r H K|t r H K|t r H K|t r H K|t r H K|t r H K|t r b c H K Q|t r H K|t r H K|t r b c H K Q
      |t r H K|t r H K|t r b c e H K Q|t r H K|t r H K|t r H K]; apply list_item_at in H.
    all: erewrite show_row; [|cbn [list_of]; rewrite list_item_map, H; reflexivity|reflexivity].
    all: erewrite get_map by eassumption; cbn [bind fst snd row_attr or_attribute_error show map].
    all: try match goal with Q : _ = (_, _) |- _ => rewrite Q; cbn [fst snd] end; eauto.
  - intros (s & H). destruct (list_item (list_of k v) i) as [t|e] eqn:Q.
    2:{ exfalso. revert H. cbn [exec]. rewrite index_opened, Q. cbn [bind fst snd]. discriminate. }
    destruct (rows_of t) as [l|] eqn:L.
    2:{ exfalso. revert H. cbn [exec]. rewrite index_opened, Q, L. cbn [bind fst snd]. discriminate. }
    rewrite (show_row k i j a t l Q L) in H. destruct (get l j) as [r| |] eqn:G; cbn [bind fst snd] in H; try discriminate.
    apply (get_row l j r) in G.
    assert (H' : show (or_attribute_error (row_attr a r)) = Shown w) by (now injection H). clear H.
    destruct k; cbn [list_of] in Q; apply at_map in Q as (t0 & Q & ->); cbn [rows_of] in L; try discriminate; injection L as <-;
      apply row_map in G as (r0 & G & ->); cbn [row_attr] in H';
      destruct a; cbn [or_attribute_error show map] in H'; try discriminate; injection H' as <-.
    all: try (econstructor; [exact Q|exact G]).
    all: try (econstructor; [exact Q|exact G|apply surjective_pairing]).
    econstructor; [exact Q|exact G|]. destruct (t3_sta_index r0) as [[? ?] ?]. reflexivity.
Qed.
End Run.

Lemma shown_case : read_oi_fits e0 "a" t_disk 0 = Ok (Some t_a, 0)
  /\ number KVis t_a = 1 /\ number KWavelength t_a = 2
  /\ table_shows t_a (-1) KVis Numrec (PyInt 2) /\ table_shows t_a (-2) KWavelength Insname_ (PyStr "GRAVITY")
  /\ row_shows t_a 0 1 KVis Target_id_ (PyInt 9).
Proof.
  assert (R : read_oi_fits e0 "a" t_disk 0 = Ok (Some t_a, 0)) by (vm_compute; reflexivity).
  split; [exact R|]. split; [reflexivity|]. split; [reflexivity|]. split; [|split].
  - apply (table_shown e0 (fun _ _ => ""%string) sqrt64 "o" "a" t_disk t_a R). eexists. vm_compute. reflexivity.
  - apply (table_shown e0 (fun _ _ => ""%string) sqrt64 "o" "a" t_disk t_a R). eexists. vm_compute. reflexivity.
  - apply (row_shown e0 (fun _ _ => ""%string) sqrt64 "o" "a" t_disk t_a R). eexists. vm_compute. reflexivity.
Qed.
