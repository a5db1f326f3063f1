(** The file that demo_write makes. *)
From Coq Require Import Lia.
From Verif Require Import BaseLemmas FileProofs FileModel ReadModel IOSpec FitsRows WriteTables WriteProofs WriteData IOClaims
  WriteVis ReadCells ReadProofs ReadVis ReadFile RoundTrip IOProofs ByName DemoSpec DemoProofs DemoWhole DemoMain
  ScanSpec ScanWords ScanSteps ScanProofs ScanData.
Open Scope string_scope.
Open Scope list_scope.
Open Scope Z_scope.

Section File.
Variable E : cfitsio.

(** ** Its HDUs *)

Definition demo_rest (m : demo) : list hdu :=
  [target_hdu E (dm_targets m); vis_hdu E (dm_vis m) 1; vis2_hdu E (dm_vis2 m) 1; t3_hdu E (dm_t3 m) 1;
   flux_hdu E (dm_flux m) 1; array_hdu E (dm_array m) 1; wavelength_hdu E (dm_wave m) 1; corr_hdu E (dm_corr m) 1;
   inspol_hdu E (dm_inspol m) 1].
Definition demo_hdus (h : oi_header) (m : demo) : list hdu := header_hdu E h :: demo_rest m.

Lemma seq_appends a b c : appends a [b] -> appends c [] -> appends (seq_ a c) [b].
Proof. intros H1 H2. exact (appends_seq _ _ _ _ H1 H2). Qed.
Lemma demo_tables_written h m : storable_header h = true -> storable_demo E m = true ->
  exists cur, demo_write_tables E h m (mk_file [] 0, 0) = Ok (mk_file (demo_hdus h m) cur, 0).
Proof.
  intros Hh H. unfold storable_demo in H. split_and. unfold demo_write_tables. unfold seq_ at 1.
  rewrite writes_header by assumption. rewrite bind_Ok. unfold append_hdu at 1. cbn [f_hdus app].
  unfold demo_hdus. change (header_hdu E h :: demo_rest m) with ([header_hdu E h] ++ demo_rest m).
  match goal with |- exists _, ?a (mk_file ?l ?c, 0) = Ok (mk_file (_ ++ ?l2) _, 0) =>
    assert (Ha : appends a l2) end.
  { unfold demo_rest.
    repeat match goal with |- appends (seq_ _ _) (?x :: ?l) => change (x :: l) with ([x] ++ l); apply appends_seq end;
      apply appends_writes;
      auto using writes_target, writes_vis, writes_vis2, writes_t3, writes_flux, writes_array, writes_wavelength, writes_corr, writes_inspol. }
  apply Ha. discriminate.
Qed.

Lemma demo_named m name :
  filter (named E name) (demo_rest m)
  = (if str_eqb "OI_TARGET" name then [target_hdu E (dm_targets m)] else [])
    ++ (if str_eqb "OI_VIS" name then [vis_hdu E (dm_vis m) 1] else [])
    ++ (if str_eqb "OI_VIS2" name then [vis2_hdu E (dm_vis2 m) 1] else [])
    ++ (if str_eqb "OI_T3" name then [t3_hdu E (dm_t3 m) 1] else [])
    ++ (if str_eqb "OI_FLUX" name then [flux_hdu E (dm_flux m) 1] else [])
    ++ (if str_eqb "OI_ARRAY" name then [array_hdu E (dm_array m) 1] else [])
    ++ (if str_eqb "OI_WAVELENGTH" name then [wavelength_hdu E (dm_wave m) 1] else [])
    ++ (if str_eqb "OI_CORR" name then [corr_hdu E (dm_corr m) 1] else [])
    ++ (if str_eqb "OI_INSPOL" name then [inspol_hdu E (dm_inspol m) 1] else []).
Proof.
  assert (Hc : forall (b : bool) (x : hdu) l, (if b then x :: l else l) = (if b then [x] else []) ++ l) by now intros [].
  unfold demo_rest. cbn [filter].
  rewrite (table_named E "OI_TARGET") by apply target_table. rewrite (table_named E "OI_VIS") by apply vis_table.
  rewrite (table_named E "OI_VIS2") by apply vis2_table. rewrite (table_named E "OI_T3") by apply t3_table.
  rewrite (table_named E "OI_FLUX") by apply flux_table. rewrite (table_named E "OI_ARRAY") by apply array_table.
  rewrite (table_named E "OI_WAVELENGTH") by apply wavelength_table. rewrite (table_named E "OI_CORR") by apply corr_table.
  rewrite (table_named E "OI_INSPOL") by apply inspol_table.
  rewrite (Hc _ (target_hdu _ _)), (Hc _ (vis_hdu _ _ _)), (Hc _ (vis2_hdu _ _ _)), (Hc _ (t3_hdu _ _ _)), (Hc _ (flux_hdu _ _ _)),
    (Hc _ (array_hdu _ _ _)), (Hc _ (wavelength_hdu _ _ _)), (Hc _ (corr_hdu _ _ _)). reflexivity.
Qed.

(** ** Reading it *)

Lemma header_in h l cur : storable_header h = true ->
  read_oi_header E (mk_file (header_hdu E h :: l) cur, 0) = Ok (Some (stored_header E h), (mk_file (header_hdu E h :: l) 1, 0)).
Proof.
  intros H. unfold read_oi_header, guard_io. cbn [snd Z.eqb negb].
  unfold fits_movabs_hdu, movabs. cbn [Z.eqb negb f_hdus List.length].
  destruct (Z.ltb_spec (Z.of_nat (Datatypes.S (List.length l))) 1); [lia|].
  cbn [Z.ltb Z.compare Pos.compare Pos.compare_cont orb]. rewrite bind_Ok. unfold at_chdu, chdu. cbn [fst snd f_cur f_hdus].
  change (nth_error _ _) with (Some (header_hdu E h)). cbn [Z.ltb Z.compare Pos.compare Pos.compare_cont].
  rewrite read_header by assumption. reflexivity.
Qed.
Lemma target_in h t l cur : storable_target t = true ->
  read_oi_target E (mk_file (header_hdu E h :: target_hdu E t :: l) cur, 0)
  = Ok (Some (stored_target E t), (mk_file (header_hdu E h :: target_hdu E t :: l) 2, 0)).
Proof.
  intros H. unfold read_oi_target, guard_io. cbn [snd Z.eqb negb]. unfold fits_movnam_hdu. cbn [Z.eqb negb f_hdus movnam].
  assert (Hh : is_binary (header_hdu E h) = false).
  { unfold is_binary, header_hdu. destruct (sums_rest E (mk_hdu IMAGE_HDU (mkkeys (header_keys E h)) [] 0))
      as (-> & _). reflexivity. }
  rewrite Hh. cbn [andb]. destruct (target_table E t) as [-> ->].
  change (str_eqb (upper "OI_TARGET") (upper "OI_TARGET")) with true. cbn [andb].
  unfold at_chdu, chdu. cbn [fst snd f_cur f_hdus]. cbn [Z.ltb Z.compare Pos.compare Pos.compare_cont Z.add Pos.add Pos.succ].
  change (nth_error _ _) with (Some (target_hdu E t)). cbn [bind].
  rewrite read_targets by assumption. reflexivity.
Qed.

Lemma collect_one {A} skip (r : hdu -> rd (option A)) h a : returns (r h) (Some a) -> collect skip r [h] = Ok ([a], 0).
Proof. intros H. cbn [collect]. rewrite H. reflexivity. Qed.
Ltac one_kind rd_ :=
  rewrite demo_named; cbn [str_eqb String.eqb Ascii.eqb Bool.eqb app]; apply collect_one; now apply rd_.
Ltac phase l fin agr rd_ :=
  match goal with |- context [read_all ?sk (read_next E ?n ?r) (mk_file (?p :: ?hs) ?c, 0)] =>
    destruct (read_all_ok E sk n r p hs c l 0) as (? & ->);
    [intros; apply fin|intros; apply agr|one_kind rd_|] end; rewrite bind_Ok.

Lemma demo_read_tables h m cur : storable_header h = true -> storable_demo E m = true ->
  exists o, read_tables E (mk_file (demo_hdus h m) cur, 0) = Ok (Some o, 0)
    /\ has_tables o (stored_header E h) (stored_target E (dm_targets m))
         [stored_array E (dm_array m)] [stored_wavelength (dm_wave m)] [stored_corr (dm_corr m)]
         [stored_inspol E (dm_inspol m)] [stored_vis E (dm_vis m)] [stored_vis2 E (dm_vis2 m)]
         [stored_t3 E (dm_t3 m)] [stored_flux E (dm_flux m)].
Proof.
  intros Hh H. unfold storable_demo in H. split_and.
  destruct (assemble_two (stored_header E h) (stored_target E (dm_targets m))
         [stored_array E (dm_array m)] [stored_wavelength (dm_wave m)] [stored_corr (dm_corr m)]
         [stored_inspol E (dm_inspol m)] [stored_vis E (dm_vis m)] [stored_vis2 E (dm_vis2 m)]
         [stored_t3 E (dm_t3 m)] [stored_flux E (dm_flux m)] eq_refl) as (o & Ho & Ht).
  exists o. split; [|exact Ht]. unfold read_tables.
  assert (Hhd : forall c, read_oi_header E (mk_file (demo_hdus h m) c, 0)
                          = Ok (Some (stored_header E h), (mk_file (demo_hdus h m) 1, 0))).
  { intros c. exact (header_in h (demo_rest m) c Hh). }
  rewrite Hhd, bind_Ok. unfold demo_hdus, demo_rest. rewrite target_in by assumption. rewrite bind_Ok.
  match goal with |- context [header_hdu E h :: ?l] => change l with (demo_rest m) end.
  unfold ok_status at 1. cbn [snd Z.eqb negb].
  unfold read_next_oi_array, read_next_oi_wavelength, read_next_oi_corr, read_next_oi_inspol, read_next_oi_vis,
    read_next_oi_vis2, read_next_oi_t3, read_next_oi_flux.
  phase [stored_array E (dm_array m)] fine_array agrees_array read_array.
  unfold ok_status at 1; cbn [snd Z.eqb negb].
  phase [stored_wavelength (dm_wave m)] fine_wavelength agrees_wavelength read_wavelength.
  unfold ok_status at 1; cbn [snd Z.eqb negb].
  phase [stored_corr (dm_corr m)] fine_corr agrees_corr read_corr.
  phase [stored_inspol E (dm_inspol m)] fine_inspol agrees_inspol read_inspol.
  phase [stored_vis E (dm_vis m)] fine_vis agrees_vis read_vis.
  phase [stored_vis2 E (dm_vis2 m)] fine_vis2 agrees_vis2 read_vis2.
  phase [stored_t3 E (dm_t3 m)] fine_t3 agrees_t3 read_t3.
  phase [stored_flux E (dm_flux m)] fine_flux agrees_flux read_flux.
  cbn [snd fst Z.eqb negb ok_status]. unfold ok_status. cbn [snd Z.eqb negb]. rewrite Ho. reflexivity.
Qed.

(** ** Looking up tables by name *)

Lemma one_table name h : is_table E name h -> all_tables E [name] [h].
Proof. intros H. constructor; [|constructor]. exists name. split; [exact H|now left]. Qed.
Ltac tables l :=
  lazymatch l with
  | [?n] => apply (one_table n)
  | ?n :: ?l' => match goal with |- all_tables _ _ (?h :: ?t) => change (h :: t) with ([h] ++ t) end;
                 apply (tables_app E [n] l'); [apply (one_table n)|tables l']
  end.
Ltac table :=
  lazymatch goal with
  | |- is_table _ _ (target_hdu _ _) => apply target_table
  | |- is_table _ _ (vis_hdu _ _ _) => apply vis_table
  | |- is_table _ _ (vis2_hdu _ _ _) => apply vis2_table
  | |- is_table _ _ (t3_hdu _ _ _) => apply t3_table
  | |- is_table _ _ (flux_hdu _ _ _) => apply flux_table
  | |- is_table _ _ (array_hdu _ _ _) => apply array_table
  | |- is_table _ _ (wavelength_hdu _ _ _) => apply wavelength_table
  end.
Ltac absent := cbn [In]; intros Habs; repeat (destruct Habs as [Habs|Habs]; [discriminate|]); exact Habs.

Lemma demo_array h m : storable_demo E m = true -> present (read_oi_array E (ar_arrname (dm_array m))) (demo_hdus h m).
Proof.
  intros H. unfold storable_demo in H. split_and.
  destruct (kind_found E "OI_ARRAY" "ARRNAME" ar_arrname (array_hdu E) (fun n h => read_oi_array_chdu E h (Some n))
           (stored_array E) (storable_array E) (array_table E) (array_matches E)
           (fun a v Hs => read_array E a v (Some (ar_arrname a)) Hs eq_refl)
           ["OI_TARGET"; "OI_VIS"; "OI_VIS2"; "OI_T3"; "OI_FLUX"]
           [target_hdu E (dm_targets m); vis_hdu E (dm_vis m) 1; vis2_hdu E (dm_vis2 m) 1; t3_hdu E (dm_t3 m) 1;
            flux_hdu E (dm_flux m) 1]
           [dm_array m] [wavelength_hdu E (dm_wave m) 1; corr_hdu E (dm_corr m) 1; inspol_hdu E (dm_inspol m) 1]
           (ar_arrname (dm_array m)) (dm_array m) (header_hdu E h) 1) as (c & Hc).
  - tables ["OI_TARGET"; "OI_VIS"; "OI_VIS2"; "OI_T3"; "OI_FLUX"]; table.
  - absent.
  - cbn [find]. now rewrite str_eqb_refl.
  - cbn [forallb]. now rewrite andb_true_r.
  - eexists _, _. exact Hc.
Qed.
Lemma demo_wavelength h m : storable_demo E m = true ->
  present (read_oi_wavelength E (wv_insname (dm_wave m))) (demo_hdus h m).
Proof.
  intros H. unfold storable_demo in H. split_and.
  destruct (kind_found E "OI_WAVELENGTH" "INSNAME" wv_insname (wavelength_hdu E) (fun n h => read_oi_wavelength_chdu E h (Some n))
           stored_wavelength storable_wavelength (wavelength_table E) (wavelength_matches E)
           (fun a v Hs => read_wavelength E a v (Some (wv_insname a)) Hs eq_refl)
           ["OI_TARGET"; "OI_VIS"; "OI_VIS2"; "OI_T3"; "OI_FLUX"; "OI_ARRAY"]
           [target_hdu E (dm_targets m); vis_hdu E (dm_vis m) 1; vis2_hdu E (dm_vis2 m) 1; t3_hdu E (dm_t3 m) 1;
            flux_hdu E (dm_flux m) 1; array_hdu E (dm_array m) 1]
           [dm_wave m] [corr_hdu E (dm_corr m) 1; inspol_hdu E (dm_inspol m) 1]
           (wv_insname (dm_wave m)) (dm_wave m) (header_hdu E h) 1) as (c & Hc).
  - tables ["OI_TARGET"; "OI_VIS"; "OI_VIS2"; "OI_T3"; "OI_FLUX"; "OI_ARRAY"]; table.
  - absent.
  - cbn [find]. now rewrite str_eqb_refl.
  - cbn [forallb]. now rewrite andb_true_r.
  - eexists _, _. exact Hc.
Qed.
Lemma demo_corr h m : storable_demo E m = true -> present (read_oi_corr E (co_corrname (dm_corr m))) (demo_hdus h m).
Proof.
  intros H. unfold storable_demo in H. split_and.
  destruct (kind_found E "OI_CORR" "CORRNAME" co_corrname (corr_hdu E) (fun n h => read_oi_corr_chdu E h (Some n))
           stored_corr storable_corr (corr_table E) (corr_matches E)
           (fun a v Hs => read_corr E a v (Some (co_corrname a)) Hs eq_refl)
           ["OI_TARGET"; "OI_VIS"; "OI_VIS2"; "OI_T3"; "OI_FLUX"; "OI_ARRAY"; "OI_WAVELENGTH"]
           [target_hdu E (dm_targets m); vis_hdu E (dm_vis m) 1; vis2_hdu E (dm_vis2 m) 1; t3_hdu E (dm_t3 m) 1;
            flux_hdu E (dm_flux m) 1; array_hdu E (dm_array m) 1; wavelength_hdu E (dm_wave m) 1]
           [dm_corr m] [inspol_hdu E (dm_inspol m) 1]
           (co_corrname (dm_corr m)) (dm_corr m) (header_hdu E h) 1) as (c & Hc).
  - tables ["OI_TARGET"; "OI_VIS"; "OI_VIS2"; "OI_T3"; "OI_FLUX"; "OI_ARRAY"; "OI_WAVELENGTH"]; table.
  - absent.
  - cbn [find]. now rewrite str_eqb_refl.
  - cbn [forallb]. now rewrite andb_true_r.
  - eexists _, _. exact Hc.
Qed.

(** ** demo_read of it *)

Lemma refers_named {X R} (f : dtab X R -> dtab X R) h m (t : dtab X R) : storable_demo E m = true ->
  (forall t, tb_arrname (f t) = tb_arrname t /\ tb_corrname (f t) = tb_corrname t /\ tb_insname (f t) = tb_insname t) ->
  refers m t -> Forall (data_named E (demo_hdus h m)) [f t].
Proof.
  intros H Hf (H1 & H2 & H3). constructor; [|constructor]. destruct (Hf t) as (E1 & E2 & E3).
  unfold data_named. rewrite E1, E2, E3. split; [|split].
  - intros Hn. destruct H1 as [H1|H1]; [contradiction|]. rewrite H1. now apply demo_array.
  - intros Hn. destruct H2 as [H2|H2]; [contradiction|]. rewrite H2. now apply demo_corr.
  - rewrite H3. now apply demo_wavelength.
Qed.
Ltac the_kind agr rd_ :=
  apply tables_collect; [apply agr|];
  match goal with |- context [filter (named E ?n) ?l] =>
    assert (Hl : filter (named E n) l = filter (named E n) (demo_rest _));
    [|rewrite Hl; one_kind rd_] end.
Lemma demo_file_reads h m : storable_header h = true -> storable_demo E m = true -> all_refer m ->
  demo_reads E (demo_hdus h m) 2 [stored_vis E (dm_vis m)] [stored_vis2 E (dm_vis2 m)]
    [stored_t3 E (dm_t3 m)] [stored_flux E (dm_flux m)] [stored_inspol E (dm_inspol m)].
Proof.
  intros Hh H (R1 & R2 & R3 & R4 & R5). pose proof H as Hall. unfold storable_demo in H. split_and. split.
  - eexists _, _. exact (header_in h (demo_rest m) 1 Hh).
  - eexists. apply target_in. assumption.
  - apply tables_collect; [apply agrees_vis|]. change (skipn (Z.to_nat 2) (demo_hdus h m)) with (tl (demo_rest m)).
    assert (Hl : filter (named E "OI_VIS") (tl (demo_rest m)) = filter (named E "OI_VIS") (demo_rest m)).
    { unfold demo_rest at 2. cbn [filter]. rewrite (table_named E "OI_TARGET") by apply target_table. reflexivity. }
    rewrite Hl. one_kind (read_vis E).
  - apply tables_collect; [apply agrees_vis2|]. change (skipn 1 (demo_hdus h m)) with (demo_rest m). one_kind (read_vis2 E).
  - apply tables_collect; [apply agrees_t3|]. change (skipn 1 (demo_hdus h m)) with (demo_rest m). one_kind (read_t3 E).
  - apply tables_collect; [apply agrees_flux|]. change (skipn 1 (demo_hdus h m)) with (demo_rest m). one_kind (read_flux E).
  - apply tables_collect; [apply agrees_inspol|]. change (skipn 1 (demo_hdus h m)) with (demo_rest m). one_kind (read_inspol E).
  - split; [|split; [|split; [|split]]].
    + apply (refers_named (stored_vis E)); [exact Hall|auto|exact R1].
    + apply (refers_named (stored_vis2 E)); [exact Hall|auto|exact R2].
    + apply (refers_named (stored_t3 E)); [exact Hall|auto|exact R3].
    + apply (refers_named (stored_flux E)); [exact Hall|auto|exact R4].
    + constructor; [|constructor]. unfold inspol_named. change (is_arrname (stored_inspol E (dm_inspol m))) with (is_arrname (dm_inspol m)).
      rewrite R5. now apply demo_array.
Qed.

(** ** The whole program *)

Variable N : numbers.

Lemma typing_types n l rest : line n -> types (typing (n :: l) rest) n.
Proof. intros [H1 H2]. split; [exact H1|]. split; [exact H2|]. eexists. reflexivity. Qed.
Lemma after_line s more : forall n, all_chars (fun c => negb (Ascii.eqb c "010")) s = true -> (String.length s < n)%nat ->
  after_fgets n (s ++ String "010" more) = more.
Proof.
  induction s as [|c s IH]; intros n Hc Hn; cbn [String.length] in Hn; (destruct n; [lia|]); cbn [append after_fgets].
  - reflexivity.
  - cbn [all_chars] in Hc. apply andb_true_iff in Hc as [H1 H2]. destruct (Ascii.eqb c "010"); [discriminate|]. apply IH; [exact H2|lia].
Qed.
Lemma typing_after n l rest : line n -> after_name (typing (n :: l) rest) = typing l rest.
Proof. intros [H1 H2]. unfold after_name. cbn [typing]. apply after_line; [exact H1|]. unfold strlen in H2. cbn. lia. Qed.

Lemma text_scanned m s : plain (cf_junk_int E) m -> text_of N m s -> scan_all N (cf_junk_int E) s = Ok (m, EmptyString).
Proof. apply scan_text. Qed.
Lemma header_made m : storable_demo E m = true ->
  exists h, demo_header E m = Ok h /\ storable_header h = true /\ stored_header E h = demo_keywords E m (demo_object m).
Proof.
  intros H. unfold storable_demo in H. split_and. unfold demo_header, demo_object in *.
  destruct (ot_targ (dm_targets m)) as [|t l] eqn:Ht.
  - exfalso. match goal with H : storable_target _ = true |- _ => unfold storable_target, wf_targets in H; split_and end.
    rewrite Ht in *. unfold len_is in *. cbn [List.length] in *.
    match goal with H : (_ =? _) = true |- _ => apply Z.eqb_eq in H end. lia.
  - eexists. split; [reflexivity|]. split; [|reflexivity].
    unfold storable_header. cbn [h_origin h_date_obs h_telescop h_instrume h_observer h_insmode h_object h_referenc h_author h_prog_id
      h_procsoft h_obstech forallb].
    match goal with H : storable_vis _ = true |- _ => unfold storable_vis in H end.
    match goal with H : storable_array _ _ = true |- _ => unfold storable_array in H end.
    match goal with H : storable_wavelength _ = true |- _ => unfold storable_wavelength in H end. split_and.
    match goal with H : storable_dtab _ = true |- _ => unfold storable_dtab in H; cbn [forallb] in H end. split_and.
    repeat match goal with |- andb _ _ = true => apply andb_true_intro; split end; try assumption; reflexivity.
Qed.

Section Run.
Variables (text out : string) (m : demo) (s : string) (texts : list (string * string)) (d : disk).
Hypothesis Hl1 : line text.
Hypothesis Hl2 : line out.
Hypothesis Ht : find_text text texts = Some s.
Hypothesis Hp : plain (cf_junk_int E) m.
Hypothesis Hs : text_of N m s.
Hypothesis Hm : storable_demo E m = true.

Lemma demo_wrote rest : find_file out d = None ->
  exists h, storable_header h = true /\ stored_header E h = demo_keywords E m (demo_object m)
    /\ demo_write N E (typing [text; out] rest) texts d = Ok (None, (out, demo_hdus h m) :: d, rest).
Proof.
  intros Hd. destruct (header_made m Hm) as (h & Hh & Hsh & Hk). exists h. split; [exact Hsh|]. split; [exact Hk|].
  unfold demo_write. rewrite (typed _ text (typing_types text [out] rest Hl1)), bind_Ok, Ht.
  rewrite (text_scanned m s Hp Hs), bind_Ok. cbv zeta. cbn [fst]. rewrite Hh, bind_Ok.
  rewrite (typing_after text [out] rest Hl1), (typed _ out (typing_types out [] rest Hl2)), bind_Ok, Hd.
  destruct (demo_tables_written h m Hsh Hm) as (cur & Hw). rewrite Hw, bind_Ok. cbn [snd fst Z.eqb f_hdus].
  now rewrite (typing_after out [] rest Hl2).
Qed.
Theorem demo_written_file rest : find_file out d = None ->
  exists d' o,
    demo_write N E (typing [text; out] rest) texts d = Ok (None, d', rest)
    /\ (forall other, other <> out -> find_file other d' = find_file other d)
    /\ read_oi_fits E out d' 0 = Ok (Some o, 0) /\ keeps_demo E m o.
Proof.
  intros Hd. destruct (demo_wrote rest Hd) as (h & Hsh & Hk & Hw).
  destruct (demo_read_tables h m 1 Hsh Hm) as (o & Hr & Hot).
  exists ((out, demo_hdus h m) :: d), o. split; [exact Hw|]. split; [|split].
  - intros other Hn. rewrite find_file_cons. destruct (str_eqb out other) eqn:He; [|reflexivity].
    apply str_eqb_eq in He. congruence.
  - unfold read_oi_fits. cbn [Z.eqb negb]. rewrite find_file_cons, str_eqb_refl. exact Hr.
  - unfold keeps_demo. rewrite <- Hk. exact Hot.
Qed.
Theorem demo_exists rest hdus : find_file out d = Some hdus ->
  demo_main N E (typing [text; out] rest) texts d = Ok ([], 1, d).
Proof.
  intros Hd. destruct (header_made m Hm) as (h & Hh & _). unfold demo_main, demo_write.
  rewrite (typed _ text (typing_types text [out] rest Hl1)), bind_Ok, Ht.
  rewrite (text_scanned m s Hp Hs), bind_Ok. cbv zeta. cbn [fst]. rewrite Hh, bind_Ok.
  rewrite (typing_after text [out] rest Hl1), (typed _ out (typing_types out [] rest Hl2)), bind_Ok, Hd. reflexivity.
Qed.
Theorem demo_whole rest : find_file out d = None -> all_refer m ->
  exists d' o,
    demo_main N E (typing [text; out; out] rest) texts d
    = Ok (printed out [dm_vis m] [dm_vis2 m] [dm_t3 m] [dm_flux m] [dm_inspol m], 0, d')
    /\ (forall other, other <> out -> find_file other d' = find_file other d)
    /\ read_oi_fits E out d' 0 = Ok (Some o, 0) /\ keeps_demo E m o.
Proof.
  intros Hd Hr. destruct (demo_wrote (typing [out] rest) Hd) as (h & Hsh & Hk & Hw).
  destruct (demo_written_file (typing [out] rest) Hd) as (d' & o & Hw2 & H1 & H2 & H3). exists d', o.
  change (typing [text; out; out] rest) with (typing [text; out] (typing [out] rest)).
  split; [|now split]. unfold demo_main. rewrite Hw2 in Hw. rewrite Hw2, bind_Ok. injection Hw as ->.
  enough (Hx : demo_read E (typing [out] rest) ((out, demo_hdus h m) :: d)
               = Ok (printed out [dm_vis m] [dm_vis2 m] [dm_t3 m] [dm_flux m] [dm_inspol m], 0)) by (rewrite Hx; reflexivity).
  apply (demo_read_iff E _ out _ (header_hdu E h) (demo_rest m)).
  - now apply typing_types.
  - now rewrite find_file_cons, str_eqb_refl.
  - exists 2. do 5 eexists. split; [exact (demo_file_reads h m Hsh Hm Hr)|]. split; [right; discriminate|reflexivity].
Qed.
End Run.

(** ** What is left alone *)

Theorem demo_leaves input texts d st d' rest : demo_write N E input texts d = Ok (st, d', rest) ->
  (st = Some 1 /\ d' = d)
  \/ (st = None /\ exists out hdus, find_file out d = None /\ d' = (out, hdus) :: d /\ typed_name (after_name input) = Ok out).
Proof.
  unfold demo_write. intros H. apply bind_inv in H as (name & _ & H). destruct (find_text name texts); [|discriminate].
  apply bind_inv in H as (r & _ & H). cbv zeta in H. apply bind_inv in H as (h & _ & H). apply bind_inv in H as (out & Ho & H).
  destruct (find_file out d) eqn:Hf; [injection H as <- <- _; now left|].
  apply bind_inv in H as (x & _ & H). destruct (snd x =? 0); injection H as <- <- _; [right|now left].
  split; [reflexivity|]. eauto.
Qed.
Theorem demo_main_leaves input texts d lines st d' : demo_main N E input texts d = Ok (lines, st, d') ->
  forall name, find_file name d <> None -> find_file name d' = find_file name d.
Proof.
  unfold demo_main. intros H name Hn. apply bind_inv in H as (((s0, d0), i0) & Hw & H).
  assert (Hd : d' = d0). { destruct s0; [now injection H|]. apply bind_inv in H as (r & _ & H). now injection H. }
  subst d0. apply demo_leaves in Hw as [(_ & ->)|(_ & out & hdus & Hf & -> & _)]; [reflexivity|].
  rewrite find_file_cons. destruct (str_eqb out name) eqn:He; [|reflexivity]. apply str_eqb_eq in He. congruence.
Qed.
Theorem demo_no_text input texts d name : types input name -> find_text name texts = None ->
  demo_main N E input texts d = UB.
Proof. intros H Hf. unfold demo_main, demo_write. rewrite (typed _ _ H), bind_Ok, Hf. reflexivity. Qed.
End File.
