(** Reading tables by name from a file written by write_oi_fits. *)
From Coq Require Import Lia.
From Verif Require Import BaseLemmas FileProofs FileModel ReadModel IOSpec FitsRows WriteTables WriteProofs WriteData IOClaims
  WriteVis ReadCells ReadProofs ReadVis ReadFile RoundTrip IOProofs.
Open Scope list_scope.
Open Scope Z_scope.

Section ByName.
Variable E : cfitsio.

(** ** Lists of tables *)

Definition all_tables (names : list string) (l : list hdu) : Prop :=
  Forall (fun h => exists name, is_table E name h /\ In name names) l.
Lemma numbered_tables {A} name (g : A -> Z -> hdu) l : (forall a v, is_table E name (g a v)) ->
  forall k, all_tables [name] (numbered g k l).
Proof.
  intros H. induction l as [|a l IH]; intros k; constructor; [|apply IH]. exists name. split; [apply H|now left].
Qed.
Lemma tables_app n1 n2 l1 l2 : all_tables n1 l1 -> all_tables n2 l2 -> all_tables (n1 ++ n2) (l1 ++ l2).
Proof.
  intros H1 H2. apply Forall_app. split.
  - eapply Forall_impl; [|exact H1]. intros h (n & Ht & Hi). exists n. split; [exact Ht|]. apply in_or_app. now left.
  - eapply Forall_impl; [|exact H2]. intros h (n & Ht & Hi). exists n. split; [exact Ht|]. apply in_or_app. now right.
Qed.
Lemma tables_binary names l : all_tables names l -> forallb is_binary l = true.
Proof. induction 1 as [|h l (n & [Hb _] & _) _ IH]; [reflexivity|]. cbn [forallb]. now rewrite Hb. Qed.
Lemma tables_other names l name keyword value : all_tables names l -> ~ In name names ->
  existsb (matches E name keyword value) l = false.
Proof.
  intros H Hn. induction H as [|h l (n & [_ Ht] & Hi) _ IH]; [reflexivity|]. cbn [existsb].
  rewrite IH, orb_false_r. unfold matches. rewrite Ht. destruct (key_text E h keyword); [|reflexivity].
  destruct (str_eqb n name) eqn:He; [|reflexivity]. apply str_eqb_eq in He. congruence.
Qed.

(** ** One kind of table *)

Section Kind.
Context {A B : Type}.
Variables (name keyword : string) (nm : A -> string) (g : A -> Z -> hdu)
  (r : string -> hdu -> rd (option B)) (stored : A -> B) (storable : A -> bool).
Hypothesis Hg : forall a v, is_table E name (g a v).
Hypothesis Hk : forall a v value, matches E name keyword value (g a v) = str_eqb (nm a) value.
Hypothesis Hr : forall a v, storable a = true -> returns (r (nm a) (g a v)) (Some (stored a)).

Lemma first_of l value a : find (fun a => str_eqb (nm a) value) l = Some a -> forall k,
  exists pre v post, numbered g k l = pre ++ g a v :: post /\ existsb (matches E name keyword value) pre = false.
Proof.
  induction l as [|b l IH]; intros H k; [discriminate|]. cbn [find] in H. cbn [numbered].
  destruct (str_eqb (nm b) value) eqn:He.
  - injection H as ->. exists [], k, (numbered g (k + 1) l). auto.
  - destruct (IH H (k + 1)) as (pre & v & post & -> & Hp). exists (g b k :: pre), v, post. split; [reflexivity|].
    cbn [existsb]. now rewrite Hk, He.
Qed.
Lemma none_of l value : find (fun a => str_eqb (nm a) value) l = None -> forall k,
  existsb (matches E name keyword value) (numbered g k l) = false.
Proof.
  induction l as [|b l IH]; intros H k; [reflexivity|]. cbn [find] in H. cbn [numbered existsb].
  rewrite Hk. destruct (str_eqb (nm b) value); [discriminate|]. now apply IH.
Qed.
Lemma kind_found names before l after value a p cur : all_tables names before -> ~ In name names ->
  find (fun a => str_eqb (nm a) value) l = Some a -> forallb storable l = true ->
  exists c, by_name E name keyword value (r value) (mk_file (p :: before ++ numbered g 1 l ++ after) cur, 0)
            = Ok (Some (stored a), (mk_file (p :: before ++ numbered g 1 l ++ after) c, 0)).
Proof.
  intros Hb Hn Hf Hs. destruct (first_of l value a Hf 1) as (pre & v & post & He & Hp).
  pose proof (numbered_tables name g l Hg 1) as Ht. rewrite He in Ht. apply Forall_app in Ht as [Ht _].
  rewrite He. apply find_some in Hf as [Hin Hm]. apply str_eqb_eq in Hm.
  eapply forallb_forall in Hs; [|exact Hin].
  replace (before ++ (pre ++ g a v :: post) ++ after) with ((before ++ pre) ++ g a v :: (post ++ after))
    by (rewrite <- !app_assoc; reflexivity).
  rewrite (by_name_at E name keyword value (r value) p (before ++ pre) (g a v) (post ++ after) cur _
             (specific_found E name keyword value (before ++ pre) (g a v) (post ++ after) 1
                ltac:(rewrite forallb_app, (tables_binary names before Hb), (tables_binary [name] pre Ht); reflexivity)
                ltac:(rewrite existsb_app, (tables_other names before name keyword value Hb Hn), Hp; reflexivity)
                (proj1 (Hg a v)) ltac:(rewrite Hk; now apply str_eqb_eq)) eq_refl).
  rewrite <- Hm. rewrite (Hr a v Hs), bind_Ok. cbn [fst snd]. eexists. reflexivity.
Qed.
End Kind.

Lemma array_matches a v value : matches E "OI_ARRAY" "ARRNAME" value (array_hdu E a v) = str_eqb (ar_arrname a) value.
Proof. now apply matches_table. Qed.
Lemma wavelength_matches a v value :
  matches E "OI_WAVELENGTH" "INSNAME" value (wavelength_hdu E a v) = str_eqb (wv_insname a) value.
Proof. now apply matches_table. Qed.
Lemma corr_matches a v value : matches E "OI_CORR" "CORRNAME" value (corr_hdu E a v) = str_eqb (co_corrname a) value.
Proof. now apply matches_table. Qed.

(** ** A whole file *)

Lemma target_tables o : all_tables ["OI_TARGET"%string] [target_hdu E (o_targets o)].
Proof. constructor; [|constructor]. eexists. split; [apply target_table|now left]. Qed.

Lemma in_file_array o n a cur : storable_fits E o = true ->
  find (fun a => str_eqb (ar_arrname a) n) (o_arrayList o) = Some a ->
  exists c, read_oi_array E n (mk_file (file_hdus E o) cur, 0)
            = Ok (Some (stored_array E a), (mk_file (file_hdus E o) c, 0)).
Proof.
  intros H Hf. unfold storable_fits in H. split_and.
  apply (kind_found "OI_ARRAY" "ARRNAME" ar_arrname (array_hdu E) (fun n h => read_oi_array_chdu E h (Some n))
           (stored_array E) (storable_array E) (array_table E) array_matches
           (fun a v Hs => read_array E a v (Some (ar_arrname a)) Hs eq_refl)
           ["OI_TARGET"%string] [target_hdu E (o_targets o)] (o_arrayList o) _ n a); try assumption.
  - apply target_tables.
  - intros [He|[]]. discriminate.
Qed.
Lemma in_file_wavelength o n a cur : storable_fits E o = true ->
  find (fun a => str_eqb (wv_insname a) n) (o_wavelengthList o) = Some a ->
  exists c, read_oi_wavelength E n (mk_file (file_hdus E o) cur, 0)
            = Ok (Some (stored_wavelength a), (mk_file (file_hdus E o) c, 0)).
Proof.
  intros H Hf. unfold storable_fits in H. split_and. unfold file_hdus.
  match goal with |- context [?t :: numbered ?ga ?k1 ?la ++ ?x] =>
    change (t :: numbered ga k1 la ++ x) with ([t] ++ numbered ga k1 la ++ x); rewrite (app_assoc [t]) end.
  apply (kind_found "OI_WAVELENGTH" "INSNAME" wv_insname (wavelength_hdu E) (fun n h => read_oi_wavelength_chdu E h (Some n))
           stored_wavelength storable_wavelength (wavelength_table E) wavelength_matches
           (fun a v Hs => read_wavelength E a v (Some (wv_insname a)) Hs eq_refl)
           (["OI_TARGET"%string] ++ ["OI_ARRAY"%string])) with (l := o_wavelengthList o) (value := n); try assumption.
  - apply tables_app; [apply target_tables|apply numbered_tables, array_table].
  - intros [He|[He|[]]]; discriminate.
Qed.
Lemma in_file_corr o n a cur : storable_fits E o = true ->
  find (fun a => str_eqb (co_corrname a) n) (o_corrList o) = Some a ->
  exists c, read_oi_corr E n (mk_file (file_hdus E o) cur, 0)
            = Ok (Some (stored_corr a), (mk_file (file_hdus E o) c, 0)).
Proof.
  intros H Hf. unfold storable_fits in H. split_and. unfold file_hdus.
  match goal with |- context [?t :: numbered ?ga ?k1 ?la ++ numbered ?gb ?k2 ?lb ++ ?x] =>
    change (t :: numbered ga k1 la ++ numbered gb k2 lb ++ x) with ([t] ++ numbered ga k1 la ++ numbered gb k2 lb ++ x);
    rewrite (app_assoc (numbered ga k1 la)), (app_assoc [t]) end.
  apply (kind_found "OI_CORR" "CORRNAME" co_corrname (corr_hdu E) (fun n h => read_oi_corr_chdu E h (Some n))
           stored_corr storable_corr (corr_table E) corr_matches
           (fun a v Hs => read_corr E a v (Some (co_corrname a)) Hs eq_refl)
           (["OI_TARGET"%string] ++ ["OI_ARRAY"%string] ++ ["OI_WAVELENGTH"%string])) with (l := o_corrList o) (value := n); try assumption.
  - apply tables_app; [apply target_tables|]. apply tables_app; apply numbered_tables; [apply array_table|apply wavelength_table].
  - intros [He|[He|[He|[]]]]; discriminate.
Qed.

(** every extension is a binary table *)
Lemma file_tables o : exists names, all_tables names (rest_hdus E o).
Proof.
  unfold rest_hdus, file_hdus. eexists.
  match goal with |- all_tables _ (?t :: ?x) => change (t :: x) with ([t] ++ x) end.
  apply tables_app; [apply target_tables|].
  apply tables_app; [apply (numbered_tables "OI_ARRAY"), array_table|].
  apply tables_app; [apply (numbered_tables "OI_WAVELENGTH"), wavelength_table|].
  apply tables_app; [apply (numbered_tables "OI_CORR"), corr_table|].
  apply tables_app; [apply (numbered_tables "OI_INSPOL"), inspol_table|].
  apply tables_app; [apply (numbered_tables "OI_VIS"), vis_table|].
  apply tables_app; [apply (numbered_tables "OI_VIS2"), vis2_table|].
  apply tables_app; [apply (numbered_tables "OI_T3"), t3_table|].
  apply (numbered_tables "OI_FLUX"), flux_table.
Qed.
End ByName.

(** ** After write_oi_fits *)

Section Written.
Variable E : cfitsio.
Lemma written_hdus o name d d' : storable_fits E o = true -> find_file name d = None ->
  write_oi_fits E name o d 0 = Ok (d', 0) -> find_file name d' = Some (file_hdus E o).
Proof.
  intros Hs Hd Hw. unfold write_oi_fits in Hw. cbn [Z.eqb negb] in Hw. rewrite Hd in Hw.
  destruct (write_tables_ok E o Hs) as (cur & Hx). rewrite Hx, bind_Ok in Hw. injection Hw as <-.
  cbn [fst f_hdus]. rewrite find_file_cons, (proj2 (str_eqb_eq name name) eq_refl). reflexivity.
Qed.
Lemma written_array o name d d' n a : storable_fits E o = true -> find_file name d = None ->
  write_oi_fits E name o d 0 = Ok (d', 0) -> find (fun a => str_eqb (ar_arrname a) n) (o_arrayList o) = Some a ->
  exists hdus, find_file name d' = Some hdus
    /\ forall cur, exists c, read_oi_array E n (mk_file hdus cur, 0) = Ok (Some (stored_array E a), (mk_file hdus c, 0)).
Proof. intros H1 H2 H3 H4. eexists. split; [eapply written_hdus; eassumption|]. intros cur. now apply in_file_array. Qed.
Lemma written_wavelength o name d d' n a : storable_fits E o = true -> find_file name d = None ->
  write_oi_fits E name o d 0 = Ok (d', 0) ->
  find (fun a => str_eqb (wv_insname a) n) (o_wavelengthList o) = Some a ->
  exists hdus, find_file name d' = Some hdus
    /\ forall cur, exists c, read_oi_wavelength E n (mk_file hdus cur, 0) = Ok (Some (stored_wavelength a), (mk_file hdus c, 0)).
Proof. intros H1 H2 H3 H4. eexists. split; [eapply written_hdus; eassumption|]. intros cur. now apply in_file_wavelength. Qed.
Lemma written_corr o name d d' n a : storable_fits E o = true -> find_file name d = None ->
  write_oi_fits E name o d 0 = Ok (d', 0) -> find (fun a => str_eqb (co_corrname a) n) (o_corrList o) = Some a ->
  exists hdus, find_file name d' = Some hdus
    /\ forall cur, exists c, read_oi_corr E n (mk_file hdus cur, 0) = Ok (Some (stored_corr a), (mk_file hdus c, 0)).
Proof. intros H1 H2 H3 H4. eexists. split; [eapply written_hdus; eassumption|]. intros cur. now apply in_file_corr. Qed.
End Written.
