(** Concrete runs of the programs in src/util. *)
From Coq Require Import Lia.
From Verif Require Import Sample FloatModel FilterMain FilterProofs MergeMain IOMain IOProofs WriteKeys ReadModel
  WriteModel ReadWf ToolModel ToolSpec ToolFilter ToolMerge ToolProofs ToolPrograms CheckModel BaseLemmas.
Open Scope list_scope.
Open Scope string_scope.

(** files "a" and "b", holding the datasets of Sample.v and MergeMain.v *)
Definition disk_of (r : res (disk * Z)) : disk := match r with Ok (d, 0%Z) => d | _ => [] end.
Definition fits_of (r : res (option oi_fits * Z)) : oi_fits := match r with Ok (Some o, 0%Z) => o | _ => s_v1 end.
Definition t_disk : disk := Eval vm_compute in
  disk_of (write_oi_fits e0 "b" m_fits (disk_of (write_oi_fits e0 "a" s_fits [] 0)) 0).
Definition t_a : oi_fits := Eval vm_compute in fits_of (read_oi_fits e0 "a" t_disk 0).
Definition t_b : oi_fits := Eval vm_compute in fits_of (read_oi_fits e0 "b" t_disk 0).
Lemma a_reads : reads e0 "a" t_disk t_a.
Proof. vm_compute. reflexivity. Qed.
Lemma b_reads : reads e0 "b" t_disk t_b.
Proof. vm_compute. reflexivity. Qed.
Lemma a_storable : storable_fits e0 t_a = true.
Proof. vm_compute. reflexivity. Qed.
Lemma b_storable : storable_fits e0 t_b = true.
Proof. vm_compute. reflexivity. Qed.
Lemma a_channels : channels_match t_a.
Proof.
  split.
  - cbn. repeat constructor.
  - cbn. repeat constructor; cbn; intuition discriminate.
  - intros t w [<-|[]] ([<-|[<-|[]]] & H); (reflexivity || discriminate H).
  - intros t w [<-|[]] ([<-|[<-|[]]] & H); (reflexivity || discriminate H).
  - intros t w [<-|[]] ([<-|[<-|[]]] & H); (reflexivity || discriminate H).
  - intros t w [<-|[]] ([<-|[<-|[]]] & H); (reflexivity || discriminate H).
  - intros t [<-|[]]. exists "GRAVITY". split; [intros r [<-|[]]; reflexivity|].
    intros w ([<-|[<-|[]]] & H); (reflexivity || discriminate H).
Qed.
Lemma ab_targets : targets_match [t_a; t_b].
Proof.
  split; [|vm_compute; lia]. repeat apply Forall_cons; try apply Forall_nil; split.
  - repeat split; cbn; all_of; cbn; all_of; cbn; auto.
  - exists (Some (2019, 12, 31)%Z). split; [lia|]. split; [reflexivity|]. exists "". reflexivity.
  - repeat split; cbn; all_of; cbn; all_of; cbn; auto.
  - exists (Some (2018, 2, 3)%Z). split; [lia|]. split; [reflexivity|]. exists "T12:00:00". reflexivity.
Qed.
Lemma ab_names : roomy_names [t_a; t_b].
Proof.
  split; [|split; [|split; [|split; [|split]]]]; try (vm_compute; reflexivity);
    intros d x [<-|[<-|[]]] Hx; cbn in Hx; decompose [or] Hx; try contradiction; subst x; vm_compute; discriminate.
Qed.
Lemma a_named : named_elsewhere t_a.
Proof.
  split.
  - intros t [<-|[]] _. split; [discriminate|]. left. eexists. split; [left; reflexivity|reflexivity].
  - intros t [<-|[]] H. now destruct H.
Qed.
Lemma a_checkable : checkable t_a.
Proof.
  split; left.
  - split; [discriminate|]. split; [discriminate|]. now left.
  - repeat constructor. discriminate.
Qed.

(** a version 1 file: "a" without what is new in version 2 *)
Definition old_keys (k : string * kval) : list (string * kval) :=
  if String.eqb (fst k) "OI_REVN" then [("OI_REVN", KInt 1)]
  else if existsb (String.eqb (fst k)) ["CONTENT"; "CORRNAME"; "INSMODE"; "OBSERVER"] then [] else [k].
Definition old_hdu (h : hdu) : list hdu :=
  let new := existsb (fun k => match snd k with KStr v => existsb (String.eqb v) ["OI_CORR"; "OI_INSPOL"; "OI_FLUX"] | _ => false end)
    (hd_keys h) in
  if new then [] else [mk_hdu (hd_type h) (flat_map old_keys (hd_keys h)) (hd_cols h) (hd_nrows h)].
Definition v_disk : disk := Eval vm_compute in
  [("v", match find_file "a" t_disk with Some hs => flat_map old_hdu hs | None => [] end)].
Definition t_v : oi_fits := Eval vm_compute in fits_of (read_oi_fits e0 "v" v_disk 0).
Lemma v_reads : reads e0 "v" v_disk t_v.
Proof. vm_compute. reflexivity. Qed.
Lemma v_storable : storable_fits e0 t_v = true.
Proof. vm_compute. reflexivity. Qed.
Lemma v_old : h_content (o_header t_v) = "" /\ List.length (o_arrayList t_v) = 2%nat
  /\ List.length (o_vis2List t_v) = 1%nat /\ ot_revision (o_targets t_v) = 1%Z.
Proof. vm_compute. repeat split; reflexivity. Qed.

(** a readable file with a station number that cannot be written: STA_INDEX is a 32-bit column *)
Definition y_wave : hdu :=
  mk_hdu BINARY_TBL [("EXTNAME", KStr "OI_WAVELENGTH"); ("OI_REVN", KInt 2); ("INSNAME", KStr "I")]
    [x_col "EFF_WAVE" Float 1 [VFlt (fl32 20 10000000); VFlt (fl32 21 10000000)];
     x_col "EFF_BAND" Float 1 [VFlt (fl32 1 100000000); VFlt (fl32 1 100000000)]] 2.
Definition y_vis2 : hdu :=
  mk_hdu BINARY_TBL (hd_keys (x_vis2 2))
    (filter (fun c => negb (String.eqb (c_name c) "STA_INDEX")) (hd_cols (x_vis2 2))
     ++ [x_col "STA_INDEX" Long 2 [VInt 4; VInt 40000; VInt 4; VInt 5]])%list 2.
Definition y_file : list hdu := [x_primary; x_target; y_wave; y_vis2; x_vis2 3].
Definition y_disk : disk := [("f", y_file)].
Definition t_y : oi_fits := Eval vm_compute in fits_of (read_oi_fits e0 "f" y_disk 0).
Lemma y_reads : reads e0 "f" y_disk t_y.
Proof. vm_compute. reflexivity. Qed.
Definition run_of (r : res outcome) : outcome := match r with Ok x => x | _ => mk_outcome 0 "" [] end.

Section Runs.
Variable fmt : string -> f64 -> string.

(** a failed run of oifits-merge leaves part of the output *)
Lemma merge_incomplete : exists d x hdus, List.length (o_vis2List t_y) = 2%nat
  /\ reads e0 "f" d t_y /\ find_file "o" d = None
  /\ oifits_merge e0 fmt ["o"; "f"; "f"] d = Ok x /\ x_status x = 1%Z
  /\ find_file "o" (x_disk x) = Some hdus /\ List.length hdus = 4%nat.
Proof.
  exists y_disk, (run_of (oifits_merge e0 fmt ["o"; "f"; "f"] y_disk)). eexists.
  split; [reflexivity|]. split; [exact y_reads|]. vm_compute. repeat split; reflexivity.
Qed.
(** four arguments are enough for oifits-upgrade; INSMODE is not from the command line then *)
Lemma upgrade_four : exists x o, oifits_upgrade e0 fmt ["v"; "o"; "me"; "you"] v_disk = Ok x /\ x_status x = 0%Z
  /\ reads e0 "o" (x_disk x) o /\ h_insmode (o_header o) = "UNKNOWN".
Proof.
  exists (run_of (oifits_upgrade e0 fmt ["v"; "o"; "me"; "you"] v_disk)).
  exists (fits_of (read_oi_fits e0 "o" (x_disk (run_of (oifits_upgrade e0 fmt ["v"; "o"; "me"; "you"] v_disk))) 0)).
  vm_compute. repeat split; reflexivity.
Qed.
(** with --clobber the old file is lost when the new one cannot be written; here it is the input *)
Lemma clobber_loses : exists d x,
  reads e0 "f" d t_y /\ channels_match t_y
  /\ filter_run e0 fmt sqrt64 (fun _ => true) true [] "f" "f" d = Ok x /\ x_status x = 1%Z
  /\ (exists hdus, find_file "f" d = Some hdus /\ List.length hdus = 5%nat)
  /\ (forall name hdus, find_file name (x_disk x) = Some hdus -> List.length hdus = 4%nat).
Proof.
  exists y_disk, (run_of (filter_run e0 fmt sqrt64 (fun _ => true) true [] "f" "f" y_disk)).
  split; [exact y_reads|]. split.
  { split.
    - cbn. repeat constructor.
    - cbn. repeat constructor; cbn; intuition discriminate.
    - intros t w [].
    - intros t w [<-|[<-|[]]] ([<-|[]] & H); (reflexivity || discriminate H).
    - intros t w [].
    - intros t w [].
    - intros t []. }
  split; [vm_compute; reflexivity|]. split; [vm_compute; reflexivity|].
  split; [eexists; split; reflexivity|].
  assert (D : exists h, x_disk (run_of (filter_run e0 fmt sqrt64 (fun _ => true) true [] "f" "f" y_disk)) = [("f", h)]
    /\ List.length h = 4%nat).
  { exists (match x_disk (run_of (filter_run e0 fmt sqrt64 (fun _ => true) true [] "f" "f" y_disk)) with (_, h) :: _ => h | [] => [] end).
    split; vm_compute; reflexivity. }
  destruct D as (h & D & Hh). rewrite D. intros name hdus. rewrite find_file_cons.
  destruct (str_eqb "f" name); [|discriminate]. intros [= <-]. exact Hh.
Qed.
(** a target that is not there: exit status 0, and the output cannot be read *)
Lemma absent_target : exists x, filter_run e0 fmt sqrt64 (fun _ => true) false [Target_id 99] "a" "o" t_disk = Ok x
  /\ x_status x = 0%Z /\ read_oi_fits e0 "o" (x_disk x) 0 = Abort.
Proof.
  exists (run_of (filter_run e0 fmt sqrt64 (fun _ => true) false [Target_id 99] "a" "o" t_disk)).
  vm_compute. repeat split; reflexivity.
Qed.
End Runs.

(** output names are cut to 1024 characters, so another file may be overwritten *)
Lemma strlcpy_longer n s t : String.length s = n -> strlcpy (Z.of_nat n + 1) (s ++ t) = s.
Proof.
  intros H. unfold strlcpy. replace (Z.to_nat (Z.of_nat n + 1 - 1)) with n by lia. subst n.
  induction s as [|c s IH]; cbn [String.append String.length substring]; [now destruct t|]. now rewrite IH.
Qed.
Lemma longer_run E fmt pow can clobber opts a n t d : String.length n = 1024%nat ->
  filter_run E fmt pow can clobber opts a (n ++ t) d = filter_run E fmt pow can clobber opts a n d.
Proof.
  intros L. unfold filter_run, oifits_filter. cbn [cl_args cl_options cl_clobber]. cbv zeta.
  assert (H1 : strlcpy FLEN_FILENAME (n ++ t) = n) by exact (strlcpy_longer 1024 n t L).
  assert (H2 : strlcpy FLEN_FILENAME n = n) by (apply short_name; lia).
  replace (strlcpy FLEN_FILENAME (n ++ t)) with n by exact (eq_sym H1).
  replace (strlcpy FLEN_FILENAME n) with n by exact (eq_sym H2). reflexivity.
Qed.
Lemma clobber_other fmt : exists d out x, find_file out d = None
  /\ filter_run e0 fmt sqrt64 (fun _ => true) true [] "a" out d = Ok x /\ x_status x = 0%Z
  /\ exists other hdus, other <> out /\ find_file other d = Some hdus /\ find_file other (x_disk x) <> Some hdus.
Proof.
  set (n := repeat_char "n" 1024). assert (L : String.length n = 1024%nat) by (vm_compute; reflexivity).
  set (d := (t_disk ++ [(n, x_file)])%list).
  set (x := run_of (filter_run e0 fmt sqrt64 (fun _ => true) true [] "a" n d)).
  exists d, (n ++ "x"), x. split; [vm_compute; reflexivity|]. split; [|split; [vm_compute; reflexivity|]].
  - rewrite (longer_run _ _ _ _ _ _ _ n "x" _ L). vm_compute. reflexivity.
  - exists n, x_file. split; [vm_compute; discriminate|]. split; [vm_compute; reflexivity|].
    intros F. apply (f_equal (option_map (fun l => List.length l))) in F. revert F. vm_compute. discriminate.
Qed.

(** a file on which oifits-check aborts *)
Definition z_file : list hdu :=
  [x_primary; mk_hdu BINARY_TBL [("EXTNAME", KStr "OI_TARGET"); ("OI_REVN", KInt 1)] (hd_cols x_target) 1; x_wave; x_vis2 2].
Lemma check_stops E fmt : exists o, reads E "z" [("z", z_file)] o /\ check_run E fmt "z" [("z", z_file)] = Abort.
Proof.
  destruct (seen_some (fun o => (h_content (o_header o), o_arrayList o, o_inspolList o, o_fluxList o, ot_revision (o_targets o)))
    (read_oi_fits E "z" [("z", z_file)] 0) ("OIFITS2", [], [], [], 1%Z) 0%Z) as (o & R & H); [vm_compute; reflexivity|].
  exists o. split; [exact R|]. injection H as Hc Ha Hi Hf Hr.
  apply (check_aborts E fmt "z" _ o); [cbn; lia|exact R| |left; split].
  - split; intros t Ht; [rewrite Hi in Ht|rewrite Hf in Ht]; destruct Ht.
  - intros (N & _). exact (N Hc Ha).
  - intros ((N & _) & _). specialize (N Hc). rewrite Hr in N. discriminate.
Qed.
