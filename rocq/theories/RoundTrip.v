(** Writing a dataset to a file and reading it back. *)
From Coq Require Import Lia.
From Verif Require Import BaseLemmas FileProofs FileModel ReadModel IOSpec FitsRows WriteTables WriteProofs WriteData IOClaims
  WriteVis ReadCells ReadProofs ReadVis ReadFile.
Open Scope list_scope.
Open Scope Z_scope.

Section RoundTrip.
Variable E : cfitsio.

(** ** The HDUs of a file *)

Definition is_table (name : string) (h : hdu) : Prop :=
  is_binary h = true /\ key_text E h "EXTNAME" = Some name.
Lemma is_table_sums name l c n :
  lookup "EXTNAME" l = Some (KStr name) ->
  is_table name (sums E (mk_hdu BINARY_TBL (mkkeys l) c n)).
Proof.
  intros H. split.
  - unfold is_binary. destruct (sums_rest E (mk_hdu BINARY_TBL (mkkeys l) c n)) as (-> & _). reflexivity.
  - unfold key_text. rewrite find_keys by reflexivity. now rewrite H.
Qed.
Lemma array_table a v : is_table "OI_ARRAY" (array_hdu E a v).
Proof. now apply is_table_sums. Qed.
Lemma target_table t : is_table "OI_TARGET" (target_hdu E t).
Proof. now apply is_table_sums. Qed.
Lemma wavelength_table a v : is_table "OI_WAVELENGTH" (wavelength_hdu E a v).
Proof. now apply is_table_sums. Qed.
Lemma corr_table a v : is_table "OI_CORR" (corr_hdu E a v).
Proof. now apply is_table_sums. Qed.
Lemma inspol_table a v : is_table "OI_INSPOL" (inspol_hdu E a v).
Proof. now apply is_table_sums. Qed.
Lemma vis_table a v : is_table "OI_VIS" (vis_hdu E a v).
Proof. now apply is_table_sums. Qed.
Lemma vis2_table a v : is_table "OI_VIS2" (vis2_hdu E a v).
Proof. now apply is_table_sums. Qed.
Lemma t3_table a v : is_table "OI_T3" (t3_hdu E a v).
Proof. now apply is_table_sums. Qed.
Lemma flux_table a v : is_table "OI_FLUX" (flux_hdu E a v).
Proof. now apply is_table_sums. Qed.

Lemma table_named name name' h : is_table name h -> named E name' h = str_eqb name name'.
Proof. intros [H1 H2]. unfold named. now rewrite H1, H2. Qed.

(** ** Writing *)

Fixpoint numbered {A} (f : A -> Z -> hdu) (k : Z) (l : list A) : list hdu :=
  match l with [] => [] | a :: l' => f a k :: numbered f (k + 1) l' end.

Definition file_hdus (o : oi_fits) : list hdu :=
  header_hdu E (o_header o) :: target_hdu E (o_targets o)
  :: numbered (array_hdu E) 1 (o_arrayList o) ++ numbered (wavelength_hdu E) 1 (o_wavelengthList o)
  ++ numbered (corr_hdu E) 1 (o_corrList o) ++ numbered (inspol_hdu E) 1 (o_inspolList o)
  ++ numbered (vis_hdu E) 1 (o_visList o) ++ numbered (vis2_hdu E) 1 (o_vis2List o)
  ++ numbered (t3_hdu E) 1 (o_t3List o) ++ numbered (flux_hdu E) 1 (o_fluxList o).

(** a step that appends [l] to a file that has a primary HDU *)
Definition appends (a : wstate -> res wstate) (l : list hdu) : Prop :=
  forall f, f_hdus f <> [] -> exists cur, a (f, 0) = Ok (mk_file (f_hdus f ++ l) cur, 0).
Lemma appends_seq a b l l' : appends a l -> appends b l' -> appends (seq_ a b) (l ++ l').
Proof.
  intros Ha Hb f Hf. unfold seq_. destruct (Ha f Hf) as (cur & ->). rewrite bind_Ok.
  destruct (Hb (mk_file (f_hdus f ++ l) cur)) as (cur' & ->).
  - cbn [f_hdus]. destruct (f_hdus f); [congruence|discriminate].
  - cbn [f_hdus]. rewrite <- app_assoc. eauto.
Qed.
Lemma appends_writes a h : writes a h -> appends a [h].
Proof.
  intros H f Hf. rewrite H. unfold with_primary. destruct (f_hdus f) eqn:Hh; [congruence|].
  unfold append_hdu. rewrite Hh. eauto.
Qed.
Lemma appends_list {A} (w : A -> Z -> wstate -> res wstate) (g : A -> Z -> hdu) (st : A -> bool) l :
  (forall a v, st a = true -> writes (w a v) (g a v)) -> forallb st l = true ->
  forall k, appends (write_list w k l) (numbered g k l).
Proof.
  intros H Hl. induction l as [|a l IH]; intros k; cbn [write_list numbered].
  - intros f _. exists (f_cur f). rewrite app_nil_r. now destruct f.
  - cbn [forallb] in Hl. apply andb_true_iff in Hl as [Ha Hl].
    change (g a k :: numbered g (k + 1) l) with ([g a k] ++ numbered g (k + 1) l).
    apply appends_seq; [apply appends_writes; auto|auto].
Qed.

Lemma write_tables_ok o :
  storable_fits E o = true ->
  exists cur, write_tables E o (mk_file [] 0, 0) = Ok (mk_file (file_hdus o) cur, 0).
Proof.
  intros H. unfold storable_fits in H. split_and. unfold write_tables. unfold seq_ at 1.
  rewrite writes_header by assumption. rewrite bind_Ok. unfold append_hdu at 1. cbn [f_hdus app].
  unfold file_hdus.
  match goal with |- context [?a :: ?b :: ?l] => change (a :: b :: l) with ([a] ++ ([b] ++ l)) end.
  match goal with |- exists _, ?m (mk_file ?l ?c, 0) = Ok (mk_file (_ ++ ?l2) _, 0) =>
    assert (Ha : appends m l2) end.
  { repeat apply appends_seq.
    - apply appends_writes. now apply writes_target.
    - apply (appends_list _ _ (storable_array E)); [apply writes_array|assumption].
    - apply (appends_list _ _ storable_wavelength); [apply writes_wavelength|assumption].
    - apply (appends_list _ _ storable_corr); [apply writes_corr|assumption].
    - apply (appends_list _ _ storable_inspol); [apply writes_inspol|assumption].
    - apply (appends_list _ _ storable_vis); [apply writes_vis|assumption].
    - apply (appends_list _ _ storable_vis2); [apply writes_vis2|assumption].
    - apply (appends_list _ _ storable_t3); [apply writes_t3|assumption].
    - apply (appends_list _ _ (storable_flux E)); [apply writes_flux|assumption]. }
  apply Ha. discriminate.
Qed.

(** ** Reading *)

Lemma filter_numbered {A} (g : A -> Z -> hdu) name name' l :
  (forall a v, is_table name (g a v)) -> forall k,
  filter (named E name') (numbered g k l) = if str_eqb name name' then numbered g k l else [].
Proof.
  intros H. induction l as [|a l IH]; intros k; cbn [numbered filter].
  - now destruct (str_eqb name name').
  - rewrite (table_named name) by apply H. rewrite IH. now destruct (str_eqb name name').
Qed.
Definition rest_hdus (o : oi_fits) : list hdu :=
  match file_hdus o with [] => [] | _ :: l => l end.
Lemma named_hdus o name :
  filter (named E name) (rest_hdus o)
  = (if str_eqb "OI_TARGET" name then [target_hdu E (o_targets o)] else [])
    ++ (if str_eqb "OI_ARRAY" name then numbered (array_hdu E) 1 (o_arrayList o) else [])
    ++ (if str_eqb "OI_WAVELENGTH" name then numbered (wavelength_hdu E) 1 (o_wavelengthList o) else [])
    ++ (if str_eqb "OI_CORR" name then numbered (corr_hdu E) 1 (o_corrList o) else [])
    ++ (if str_eqb "OI_INSPOL" name then numbered (inspol_hdu E) 1 (o_inspolList o) else [])
    ++ (if str_eqb "OI_VIS" name then numbered (vis_hdu E) 1 (o_visList o) else [])
    ++ (if str_eqb "OI_VIS2" name then numbered (vis2_hdu E) 1 (o_vis2List o) else [])
    ++ (if str_eqb "OI_T3" name then numbered (t3_hdu E) 1 (o_t3List o) else [])
    ++ (if str_eqb "OI_FLUX" name then numbered (flux_hdu E) 1 (o_fluxList o) else []).
Proof.
  unfold rest_hdus, file_hdus. cbn [filter].
  rewrite (table_named "OI_TARGET") by apply target_table. rewrite !filter_app.
  rewrite (filter_numbered _ "OI_ARRAY") by apply array_table.
  rewrite (filter_numbered _ "OI_WAVELENGTH") by apply wavelength_table.
  rewrite (filter_numbered _ "OI_CORR") by apply corr_table.
  rewrite (filter_numbered _ "OI_INSPOL") by apply inspol_table.
  rewrite (filter_numbered _ "OI_VIS") by apply vis_table.
  rewrite (filter_numbered _ "OI_VIS2") by apply vis2_table.
  rewrite (filter_numbered _ "OI_T3") by apply t3_table.
  rewrite (filter_numbered _ "OI_FLUX") by apply flux_table.
  now destruct (str_eqb "OI_TARGET" name).
Qed.

Lemma collect_ok {A} skip (r : hdu -> rd (option A)) (g : A -> Z -> hdu) (stored : A -> A) (st : A -> bool) l :
  (forall a v, st a = true -> returns (r (g a v)) (Some (stored a))) -> forallb st l = true ->
  forall k, collect skip r (numbered g k l) = Ok (map stored l, 0).
Proof.
  intros H Hl. induction l as [|a l IH]; intros k; [reflexivity|].
  cbn [forallb] in Hl. apply andb_true_iff in Hl as [Ha Hl]. cbn [numbered collect map].
  rewrite (H a k Ha). rewrite bind_Ok. rewrite IH by exact Hl. reflexivity.
Qed.

Lemma read_all_ok {A} skip name (r : hdu -> rd (option A)) p hdus cur l st :
  (forall h, fine (r h)) -> (forall h, agrees (r h)) ->
  collect skip r (filter (named E name) hdus) = Ok (l, st) ->
  exists cur', read_all skip (read_next E name r) (mk_file (p :: hdus) cur, 0)
               = Ok (l, (mk_file (p :: hdus) cur', st)).
Proof.
  intros H1 H2 H3. pose proof (read_all_collect E name r skip p hdus cur H1 H2) as H.
  unfold loop_is in H. rewrite H3 in H. exact H.
Qed.

Ltac table_kind st rd_ :=
  rewrite named_hdus; cbn [str_eqb String.eqb Ascii.eqb Bool.eqb app]; rewrite ?app_nil_r;
  first [apply (collect_ok _ _ _ _ st); [intros; now apply rd_|assumption]].

Ltac phase l fin agr st rd_ :=
  match goal with |- context [read_all ?sk (read_next E ?n ?r) (mk_file (?p :: ?hs) ?c, 0)] =>
    destruct (read_all_ok sk n r p hs c l 0) as (? & ->);
    [intros; apply fin|intros; apply agr|table_kind st rd_|] end; rewrite bind_Ok.

Definition read_back (o : oi_fits) : res oi_fits :=
  assemble (stored_header E (o_header o)) (stored_target E (o_targets o))
    (map (stored_array E) (o_arrayList o)) (map stored_wavelength (o_wavelengthList o))
    (map stored_corr (o_corrList o)) (map (stored_inspol E) (o_inspolList o))
    (map (stored_vis E) (o_visList o)) (map (stored_vis2 E) (o_vis2List o))
    (map (stored_t3 E) (o_t3List o)) (map (stored_flux E) (o_fluxList o)).

Lemma read_tables_ok o cur :
  storable_fits E o = true ->
  read_tables E (mk_file (file_hdus o) cur, 0) = (o' <- read_back o ;; Ok (Some o', 0)).
Proof.
  intros H. unfold storable_fits in H. split_and. unfold read_tables.
  assert (Hf : file_hdus o = header_hdu E (o_header o) :: rest_hdus o) by reflexivity.
  (* header *)
  unfold read_oi_header at 1, guard_io. cbn [snd Z.eqb negb]. rewrite Hf.
  unfold fits_movabs_hdu, movabs. cbn [Z.eqb negb f_hdus List.length].
  destruct (Z.ltb_spec (Z.of_nat (Datatypes.S (List.length (rest_hdus o)))) 1); [lia|].
  cbn [Z.ltb Z.compare Pos.compare Pos.compare_cont orb]. rewrite bind_Ok. unfold at_chdu at 1. unfold chdu. cbn [fst snd f_cur f_hdus].
  change (nth_error _ _) with (Some (header_hdu E (o_header o))). cbn [Z.ltb Z.compare Pos.compare Pos.compare_cont].
  rewrite read_header by assumption. rewrite !bind_Ok. cbn [fst snd].
  (* targets *)
  unfold read_oi_target at 1, guard_io. cbn [snd Z.eqb negb].
  unfold fits_movnam_hdu. cbn [Z.eqb negb f_hdus movnam].
  assert (Hh : is_binary (header_hdu E (o_header o)) = false).
  { unfold is_binary, header_hdu. destruct (sums_rest E (mk_hdu IMAGE_HDU (mkkeys (header_keys E (o_header o))) [] 0))
      as (-> & _). reflexivity. }
  rewrite Hh. cbn [andb].
  assert (Hr : exists l, rest_hdus o = target_hdu E (o_targets o) :: l) by (eexists; reflexivity).
  destruct Hr as (l & Hr).
  assert (Hm : movnam E (rest_hdus o) (1 + 1) "OI_TARGET" = Some 2).
  { rewrite Hr. cbn [movnam]. destruct (target_table (o_targets o)) as [-> ->]. reflexivity. }
  rewrite Hm. unfold at_chdu at 1. unfold chdu. cbn [fst snd f_cur f_hdus].
  cbn [Z.ltb Z.compare Pos.compare Pos.compare_cont].
  assert (Hn : nth_error (header_hdu E (o_header o) :: rest_hdus o) (Z.to_nat (2 - 1))
               = Some (target_hdu E (o_targets o))) by (rewrite Hr; reflexivity).
  rewrite Hn.
  rewrite read_targets by assumption. rewrite !bind_Ok. cbn [fst snd].
  unfold ok_status at 1. cbn [snd Z.eqb negb].
  unfold read_next_oi_array, read_next_oi_wavelength, read_next_oi_corr, read_next_oi_inspol, read_next_oi_vis,
    read_next_oi_vis2, read_next_oi_t3, read_next_oi_flux.
  phase (map (stored_array E) (o_arrayList o)) fine_array agrees_array (storable_array E) read_array.
  unfold ok_status at 1; cbn [snd Z.eqb negb].
  phase (map stored_wavelength (o_wavelengthList o)) fine_wavelength agrees_wavelength storable_wavelength read_wavelength.
  unfold ok_status at 1; cbn [snd Z.eqb negb].
  phase (map stored_corr (o_corrList o)) fine_corr agrees_corr storable_corr read_corr.
  phase (map (stored_inspol E) (o_inspolList o)) fine_inspol agrees_inspol storable_inspol read_inspol.
  phase (map (stored_vis E) (o_visList o)) fine_vis agrees_vis storable_vis read_vis.
  phase (map (stored_vis2 E) (o_vis2List o)) fine_vis2 agrees_vis2 storable_vis2 read_vis2.
  phase (map (stored_t3 E) (o_t3List o)) fine_t3 agrees_t3 storable_t3 read_t3.
  phase (map (stored_flux E) (o_fluxList o)) fine_flux agrees_flux (storable_flux E) read_flux.
  reflexivity.
Qed.
End RoundTrip.
