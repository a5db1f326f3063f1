(** demo_read on files written by write_oi_fits, and concrete cases. *)
From Coq Require Import Lia.
From Verif Require Import BaseLemmas FileProofs FileModel ReadFile IOSpec WriteProofs WriteTables WriteData WriteVis ReadCells
  ReadProofs ReadVis RoundTrip IOProofs ByName DemoSpec DemoProofs DemoWhole Sample IOMain FitsRows.
Open Scope list_scope.
Open Scope Z_scope.

Section Written.
Variable E : cfitsio.

Lemma header_of_file o : storable_header (o_header o) = true ->
  present (read_oi_header E) (file_hdus E o).
Proof.
  intros H. exists (stored_header E (o_header o)), (mk_file (file_hdus E o) 1).
  unfold read_oi_header, guard_io. cbn [snd Z.eqb negb].
  assert (Hf : file_hdus E o = header_hdu E (o_header o) :: rest_hdus E o) by reflexivity. rewrite Hf.
  unfold fits_movabs_hdu, movabs. cbn [Z.eqb negb f_hdus List.length].
  destruct (Z.ltb_spec (Z.of_nat (Datatypes.S (List.length (rest_hdus E o)))) 1); [lia|].
  cbn [Z.ltb Z.compare Pos.compare Pos.compare_cont orb]. rewrite bind_Ok. unfold at_chdu, chdu. cbn [fst snd f_cur f_hdus].
  change (nth_error _ _) with (Some (header_hdu E (o_header o))). cbn [Z.ltb Z.compare Pos.compare Pos.compare_cont].
  rewrite read_header by assumption. reflexivity.
Qed.
Lemma target_of_file o : storable_target (o_targets o) = true ->
  exists tg, read_oi_target E (mk_file (file_hdus E o) 1, 0) = Ok (Some tg, (mk_file (file_hdus E o) 2, 0)).
Proof.
  intros H. exists (stored_target E (o_targets o)).
  assert (Hr : exists l, file_hdus E o = header_hdu E (o_header o) :: target_hdu E (o_targets o) :: l) by (eexists; reflexivity).
  destruct Hr as (l & ->). unfold read_oi_target, guard_io. cbn [snd Z.eqb negb].
  unfold fits_movnam_hdu. cbn [Z.eqb negb f_hdus movnam].
  assert (Hh : is_binary (header_hdu E (o_header o)) = false).
  { unfold is_binary, header_hdu. destruct (sums_rest E (mk_hdu IMAGE_HDU (mkkeys (header_keys E (o_header o))) [] 0))
      as (-> & _). reflexivity. }
  rewrite Hh. cbn [andb]. destruct (target_table E (o_targets o)) as [-> ->].
  change (str_eqb (upper "OI_TARGET") (upper "OI_TARGET")) with true. cbn [andb].
  unfold at_chdu, chdu. cbn [fst snd f_cur f_hdus]. cbn [Z.ltb Z.compare Pos.compare Pos.compare_cont Z.add Pos.add Pos.succ].
  change (nth_error _ _) with (Some (target_hdu E (o_targets o))). cbn [bind].
  rewrite read_targets by assumption. reflexivity.
Qed.

Lemma after_target o name : name <> "OI_TARGET"%string ->
  filter (named E name) (skipn 2 (file_hdus E o)) = filter (named E name) (rest_hdus E o).
Proof.
  intros Hn. assert (Hr : exists l, file_hdus E o = header_hdu E (o_header o) :: target_hdu E (o_targets o) :: l)
    by (eexists; reflexivity). destruct Hr as (l & Hf). unfold rest_hdus. rewrite Hf. cbn [skipn filter].
  rewrite (table_named E "OI_TARGET") by apply target_table.
  destruct (str_eqb "OI_TARGET" name) eqn:He; [|reflexivity]. apply str_eqb_eq in He. congruence.
Qed.

Lemma named_in {A} (nm : A -> string) n l : In n (map nm l) -> exists a, find (fun a => str_eqb (nm a) n) l = Some a.
Proof.
  induction l as [|a l IH]; [intros []|]. cbn [map find In]. destruct (str_eqb (nm a) n) eqn:He; [eauto|].
  intros [H|H]; [|now apply IH]. apply str_eqb_neq in He. contradiction.
Qed.
Lemma array_present o n : storable_fits E o = true -> In n (map ar_arrname (o_arrayList o)) ->
  present (read_oi_array E n) (file_hdus E o).
Proof.
  intros H Hi. apply named_in in Hi as (a & Ha). destruct (in_file_array E o n a 1 H Ha) as (c & Hc).
  eexists _, _. exact Hc.
Qed.
Lemma wavelength_present o n : storable_fits E o = true -> In n (map wv_insname (o_wavelengthList o)) ->
  present (read_oi_wavelength E n) (file_hdus E o).
Proof.
  intros H Hi. apply named_in in Hi as (a & Ha). destruct (in_file_wavelength E o n a 1 H Ha) as (c & Hc).
  eexists _, _. exact Hc.
Qed.
Lemma corr_present o n : storable_fits E o = true -> In n (map co_corrname (o_corrList o)) ->
  present (read_oi_corr E n) (file_hdus E o).
Proof.
  intros H Hi. apply named_in in Hi as (a & Ha). destruct (in_file_corr E o n a 1 H Ha) as (c & Hc).
  eexists _, _. exact Hc.
Qed.
Lemma resolved_named o {X R} (f : dtab X R -> dtab X R) l : storable_fits E o = true ->
  (forall t, tb_arrname (f t) = tb_arrname t /\ tb_corrname (f t) = tb_corrname t /\ tb_insname (f t) = tb_insname t) ->
  Forall (resolved o) l -> Forall (data_named E (file_hdus E o)) (map f l).
Proof.
  intros H Hf Hl. apply Forall_forall. intros t Ht. apply in_map_iff in Ht as (t0 & <- & Hi).
  eapply Forall_forall in Hl; [|exact Hi]. destruct Hl as (H1 & H2 & H3). destruct (Hf t0) as (E1 & E2 & E3).
  unfold data_named. rewrite E1, E2, E3. split; [|split].
  - intros Hn. now apply array_present, H1.
  - intros Hn. now apply corr_present, H2.
  - now apply wavelength_present.
Qed.

Lemma written_reads o : storable_fits E o = true -> all_resolved o ->
  demo_reads E (file_hdus E o) 2 (map (stored_vis E) (o_visList o)) (map (stored_vis2 E) (o_vis2List o))
    (map (stored_t3 E) (o_t3List o)) (map (stored_flux E) (o_fluxList o)) (map (stored_inspol E) (o_inspolList o)).
Proof.
  intros H (R1 & R2 & R3 & R4 & R5). pose proof H as Hall. unfold storable_fits in H. split_and. split.
  - now apply header_of_file.
  - now apply target_of_file.
  - apply tables_collect; [apply agrees_vis|]. change (Z.to_nat 2) with 2%nat. rewrite after_target by discriminate.
    rewrite named_hdus. cbn [str_eqb String.eqb Ascii.eqb Bool.eqb app]; rewrite ?app_nil_r.
    apply (collect_ok _ _ _ _ storable_vis); [intros; now apply read_vis|assumption].
  - apply tables_collect; [apply agrees_vis2|]. change (skipn 1 (file_hdus E o)) with (rest_hdus E o).
    rewrite named_hdus. cbn [str_eqb String.eqb Ascii.eqb Bool.eqb app]; rewrite ?app_nil_r.
    apply (collect_ok _ _ _ _ storable_vis2); [intros; now apply read_vis2|assumption].
  - apply tables_collect; [apply agrees_t3|]. change (skipn 1 (file_hdus E o)) with (rest_hdus E o).
    rewrite named_hdus. cbn [str_eqb String.eqb Ascii.eqb Bool.eqb app]; rewrite ?app_nil_r.
    apply (collect_ok _ _ _ _ storable_t3); [intros; now apply read_t3|assumption].
  - apply tables_collect; [apply agrees_flux|]. change (skipn 1 (file_hdus E o)) with (rest_hdus E o).
    rewrite named_hdus. cbn [str_eqb String.eqb Ascii.eqb Bool.eqb app]; rewrite ?app_nil_r.
    apply (collect_ok _ _ _ _ (storable_flux E)); [intros; now apply read_flux|assumption].
  - apply tables_collect; [apply agrees_inspol|]. change (skipn 1 (file_hdus E o)) with (rest_hdus E o).
    rewrite named_hdus. cbn [str_eqb String.eqb Ascii.eqb Bool.eqb app]; rewrite ?app_nil_r.
    apply (collect_ok _ _ _ _ storable_inspol); [intros; now apply read_inspol|assumption].
  - split; [|split; [|split; [|split]]].
    + apply (resolved_named o (stored_vis E)); [exact Hall|auto|exact R1].
    + apply (resolved_named o (stored_vis2 E)); [exact Hall|auto|exact R2].
    + apply (resolved_named o (stored_t3 E)); [exact Hall|auto|exact R3].
    + apply (resolved_named o (stored_flux E)); [exact Hall|auto|exact R4].
    + apply Forall_forall. intros t Ht. apply in_map_iff in Ht as (t0 & <- & Hi).
      eapply Forall_forall in R5; [|exact Hi]. now apply array_present.
Qed.
Lemma printed_stored o name :
  printed name (map (stored_vis E) (o_visList o)) (map (stored_vis2 E) (o_vis2List o)) (map (stored_t3 E) (o_t3List o))
    (map (stored_flux E) (o_fluxList o)) (map (stored_inspol E) (o_inspolList o))
  = printed name (o_visList o) (o_vis2List o) (o_t3List o) (o_fluxList o) (o_inspolList o).
Proof. unfold printed, last_corrname. rewrite !map_map. reflexivity. Qed.

Theorem demo_read_iff input name d p l lines :
  types input name -> find_file name d = Some (p :: l) ->
  demo_read E input d = Ok (lines, 0) <->
  exists k vis vis2 t3 flux inspol,
    demo_reads E (p :: l) k vis vis2 t3 flux inspol /\ (vis2 = [] \/ vis <> [])
    /\ lines = printed name vis vis2 t3 flux inspol.
Proof.
  intros Ht Hf. unfold demo_read. rewrite (typed input name Ht), bind_Ok, Hf. split.
  - intros H. apply bind_inv in H as ((out, st) & H & [= <- ->]). cbn [fst snd].
    apply demo_iff in H as (k & v & v2 & t & x & i & H1 & H2 & H3). exists k, v, v2, t, x, i. split; [exact H1|]. split; [exact H2|]. apply H3.
  - intros (k & v & v2 & t & x & i & H1 & H2 & ->).
    assert (H : demo_tables E (p :: l) = Ok (tl (printed name v v2 t x i), 0)).
    { apply demo_iff. exists k, v, v2, t, x, i. repeat (split; [assumption|]). reflexivity. }
    rewrite H. reflexivity.
Qed.

Theorem demo_written o name d d' input : storable_fits E o = true -> all_resolved o ->
  (o_vis2List o = [] \/ o_visList o <> []) -> find_file name d = None ->
  write_oi_fits E name o d 0 = Ok (d', 0) -> types input name ->
  demo_read E input d'
  = Ok (printed name (o_visList o) (o_vis2List o) (o_t3List o) (o_fluxList o) (o_inspolList o), 0).
Proof.
  intros Hs Hr Hv Hd Hw Ht. rewrite <- printed_stored.
  assert (Hf : find_file name d' = Some (file_hdus E o)).
  { unfold write_oi_fits in Hw. cbn [Z.eqb negb] in Hw. rewrite Hd in Hw.
    destruct (write_tables_ok E o Hs) as (cur & Hx). rewrite Hx, bind_Ok in Hw. injection Hw as <-.
    cbn [fst f_hdus]. rewrite find_file_cons, (proj2 (str_eqb_eq name name) eq_refl). reflexivity. }
  apply (demo_read_iff input name d' (header_hdu E (o_header o)) (rest_hdus E o)); [exact Ht|exact Hf|].
  exists 2. do 5 eexists. split; [exact (written_reads o Hs Hr)|]. split; [|reflexivity].
  destruct Hv as [->|Hv]; [now left|]. right. intros He. apply map_eq_nil in He. contradiction.
Qed.

(** without any OI_VIS the CORRNAME printed for the first OI_VIS2 was never set *)
Theorem demo_undefined o name d d' input : storable_fits E o = true -> all_resolved o ->
  o_visList o = [] -> o_vis2List o <> [] -> find_file name d = None ->
  write_oi_fits E name o d 0 = Ok (d', 0) -> types input name ->
  demo_read E input d' = UB.
Proof.
  intros Hs Hr H1 H2 Hd Hw Ht.
  assert (Hf : find_file name d' = Some (file_hdus E o)).
  { unfold write_oi_fits in Hw. cbn [Z.eqb negb] in Hw. rewrite Hd in Hw.
    destruct (write_tables_ok E o Hs) as (cur & Hx). rewrite Hx, bind_Ok in Hw. injection Hw as <-.
    cbn [fst f_hdus]. rewrite find_file_cons, (proj2 (str_eqb_eq name name) eq_refl). reflexivity. }
  unfold demo_read. rewrite (typed input name Ht), bind_Ok, Hf. unfold demo_tables.
  pose proof (written_reads o Hs Hr) as [(hd & f0 & Hhd) (tg & Htg) T1 T2 _ _ _ (N1 & _)].
  pose proof (header_stays E (header_hdu E (o_header o)) (rest_hdus E o) _ _ Hhd) as Hs0. cbn [fst] in Hs0. subst f0.
  rewrite Hhd, bind_Ok. change (header_hdu E (o_header o) :: rest_hdus E o) with (file_hdus E o). rewrite Htg, bind_Ok.
  cbn [fst snd Z.eqb negb].
  set (hdus := file_hdus E o) in *.
  destruct (run_goes E (A:=oi_vis) "OI_VIS" (read_oi_vis_chdu E) (data_refs E) hdus (data_named E hdus) (fine_vis E) (agrees_vis E)
              (data_step E (header_hdu E (o_header o)) (rest_hdus E o))
              (fun t : oi_vis => Ok (data_line "OI_VIS      " t)) 2 1 []) as (c1 & c2 & R1).
  - unfold hdus, file_hdus. cbn [List.length]. lia.
  - rewrite H1 in T1. exact T1.
  - constructor.
  - constructor.
  - change (demo_run (read_next_oi_vis E) ?s ?r ?x) with (demo_run (read_next E "OI_VIS" (read_oi_vis_chdu E)) s r x).
    rewrite R1, bind_Ok. cbv zeta. cbn [demo_after Z.eqb END_OF_FILE Pos.eqb map last_of rev option_map].
    unfold hdus at 1. change (file_hdus E o) with (header_hdu E (o_header o) :: rest_hdus E o) at 1.
    rewrite start_at, bind_Ok. unfold demo_run, demo_loop. fold (@demo_loop oi_vis2).
    destruct (next_here E "OI_VIS2" (read_oi_vis2_chdu E) (header_hdu E (o_header o) :: rest_hdus E o)
                (fine_vis2 E) (agrees_vis2 E) [header_hdu E (o_header o)] (rest_hdus E o) eq_refl) as [(Hn & _)|(pre & h & post & Hr1 & Hf1 & Hx)].
    + exfalso. apply filter_none in Hn. rewrite named_hdus in Hn.
      cbn [str_eqb String.eqb Ascii.eqb Bool.eqb app] in Hn. rewrite ?app_nil_r in Hn.
      destruct (o_vis2List o); [congruence|discriminate].
    + change (Z.of_nat (List.length [header_hdu E (o_header o)])) with 1 in Hx.
      change (read_next_oi_vis2 E) with (read_next E "OI_VIS2" (read_oi_vis2_chdu E)). rewrite Hx. clear Hx.
      destruct T2 as [_ T2]. unfold hdus in T2. change (skipn 1 (file_hdus E o)) with (rest_hdus E o) in T2.
      assert (Hh : named E "OI_VIS2" h = true).
      { assert (Hi : In h (filter (named E "OI_VIS2") (rest_hdus E o))) by (rewrite Hf1; now left).
        now apply filter_In in Hi. }
      specialize (T2 h). rewrite Hr1 in T2. specialize (T2 ltac:(apply in_or_app; right; now left) Hh).
      unfold readable in T2. change (read_next_oi_vis2 E) with (read_next E "OI_VIS2" (read_oi_vis2_chdu E)) in T2.
      rewrite alone_named in T2 by exact Hh.
      destruct (read_oi_vis2_chdu E h 0) as [(a, st)| |] eqn:Hrd; [|now destruct T2|now destruct T2].
      rewrite bind_Ok in T2. cbn [fst snd] in T2. destruct a as [a|]; [|now destruct T2].
      pose proof (agrees_vis2 E h 0 _ _ Hrd) as Ha. destruct (Z.eq_dec st 0) as [->|Hn]; [|apply Ha in Hn; discriminate].
      reflexivity.
Qed.
End Written.

(** ** Which CORRNAME is shown *)

Lemma append_cancel a b c : (a ++ b = a ++ c)%string -> b = c.
Proof. induction a as [|x a IH]; cbn [append]; [auto|]. intros H. injection H as H. auto. Qed.
Lemma app_cancel {A} (a b c d : list A) : a ++ c = b ++ d -> List.length a = List.length b -> a = b.
Proof.
  revert b. induction a as [|x a IH]; intros [|y b]; cbn; try discriminate; [auto|].
  intros H Hl. injection H as -> H. f_equal. apply IH; [exact H|lia].
Qed.
Lemma shown_own name vis vis2 t3 flux inspol :
  printed name vis vis2 t3 flux inspol = meant name vis vis2 t3 flux inspol
  <-> Forall (fun t : oi_vis2 => tb_corrname t = last_corrname vis) vis2.
Proof.
  unfold printed, meant. split.
  - intros H. injection H as H. apply app_inv_head in H.
    set (g := fun t : oi_vis2 => names_line "OI_VIS2     " (tb_arrname t) (tb_insname t) (last_corrname vis)) in H.
    apply app_cancel in H; [|now rewrite !map_length].
    induction vis2 as [|t l IH]; constructor.
    + apply (f_equal (hd EmptyString)) in H. cbn [map hd] in H. unfold g, data_line, names_line in H.
      do 7 apply append_cancel in H. now symmetry.
    + apply IH. exact (f_equal (@tl _) H).
  - intros H. do 3 f_equal. apply map_ext_in. intros t Ht. eapply Forall_forall in H; [|exact Ht].
    unfold data_line. cbn beta in H. now rewrite H.
Qed.

(** ** The end of the input *)

Lemma fgets_all s : forall n, all_chars (fun c => negb (Ascii.eqb c "010")) s = true -> (String.length s <= n)%nat ->
  fgets n s = s.
Proof.
  induction s as [|c s IH]; intros n Hc Hn; [now destruct n|]. cbn [String.length] in Hn. destruct n; [lia|].
  cbn [fgets]. cbn [all_chars] in Hc. apply andb_true_iff in Hc as [H1 H2].
  destruct (Ascii.eqb c "010"); [discriminate|]. rewrite IH; [reflexivity|exact H2|lia].
Qed.
Lemma no_newline name c : all_chars (fun c => negb (Ascii.eqb c "010")) (name ++ String c EmptyString) = true ->
  strlen (name ++ String c EmptyString) <= 1024 ->
  typed_name (name ++ String c EmptyString) = Ok name.
Proof.
  intros Hc Hl. unfold typed_name. destruct (name ++ String c EmptyString)%string eqn:He; [now destruct name|].
  rewrite <- He in *. clear He. rewrite fgets_all; [now rewrite drop_newline|exact Hc|]. unfold strlen in Hl. cbn in *. lia.
Qed.

(** ** Concrete cases *)

Local Open Scope string_scope.
Definition nl : string := String "010" EmptyString.
Definition a_disk : disk := match write_oi_fits e0 "a" s_fits [] 0 with Ok (d, 0%Z) => d | _ => [] end.
Lemma a_disk_written : write_oi_fits e0 "a" s_fits [] 0 = Ok (a_disk, 0%Z).
Proof. vm_compute. reflexivity. Qed.
Lemma a_storable : storable_fits e0 s_fits = true.
Proof. vm_compute. reflexivity. Qed.
Lemma a_resolved : all_resolved s_fits.
Proof.
  unfold all_resolved, resolved. cbn. repeat split; repeat constructor; cbn; auto; congruence.
Qed.
Lemma a_typed : types ("a" ++ nl) "a".
Proof. split; [reflexivity|]. split; [vm_compute; discriminate|]. now exists "". Qed.
Lemma wrong_corrname : demo_read e0 ("a" ++ nl) a_disk
  = Ok (["Reading FITS file a...";
         "Read OI_VIS      with  ARRNAME=VLTI INSNAME=GRAVITY CORRNAME=CORR1";
         "Read OI_VIS2     with  ARRNAME=CHARA INSNAME=PIONIER CORRNAME=CORR1";
         "Read OI_T3       with  ARRNAME=VLTI INSNAME=GRAVITY CORRNAME=";
         "Read OI_FLUX     with  ARRNAME=VLTI INSNAME=GRAVITY CORRNAME=";
         "Read OI_INSPOL   with  ARRNAME=VLTI"], 0%Z).
Proof. vm_compute. reflexivity. Qed.

(** the same tables but OI_VIS2, with OI_TARGET last *)
Definition late_disk : disk :=
  match find_file "a" a_disk with
  | Some (h :: t :: l) => [("a", (h :: filter (fun x => negb (named e0 "OI_VIS2" x)) l ++ [t])%list)]
  | _ => []
  end.
Definition ok_fits (r : res (option oi_fits * Z)) : oi_fits := match r with Ok (Some o, 0%Z) => o | _ => s_v1 end.
Definition late_fits : oi_fits := ok_fits (read_oi_fits e0 "a" late_disk 0).
Lemma late_target :
  read_oi_fits e0 "a" late_disk 0 = Ok (Some late_fits, 0%Z) /\ map tb_insname (o_visList late_fits) = ["GRAVITY"]
  /\ demo_read e0 ("a" ++ nl) late_disk
     = Ok (["Reading FITS file a...";
            "Read OI_T3       with  ARRNAME=VLTI INSNAME=GRAVITY CORRNAME=";
            "Read OI_FLUX     with  ARRNAME=VLTI INSNAME=GRAVITY CORRNAME=";
            "Read OI_INSPOL   with  ARRNAME=VLTI"], 0%Z).
Proof. split; [|split]; vm_compute; reflexivity. Qed.

(** the sample without its OI_VIS *)
Definition no_vis : oi_fits := ok_fits (read_oi_fits e0 "a" (match find_file "a" a_disk with
  | Some l => [("a", filter (fun x => negb (named e0 "OI_VIS" x)) l)] | None => [] end) 0).
Lemma no_vis_storable : storable_fits e0 no_vis = true.
Proof. vm_compute. reflexivity. Qed.
Lemma no_vis_resolved : all_resolved no_vis.
Proof.
  unfold all_resolved, resolved. vm_compute. repeat split; repeat constructor; cbn; auto; congruence.
Qed.
Lemma no_vis_tables : o_visList no_vis = [] /\ o_vis2List no_vis <> [].
Proof. split; vm_compute; [reflexivity|discriminate]. Qed.
