(** Properties of reading and writing files, with concrete cases. *)
From Coq Require Import Lia.
From Verif Require Import BaseLemmas FileProofs FileModel WriteKeys IOClaims ReadFile IOProofs IOSkip Sample.
Open Scope list_scope.
Open Scope Z_scope.

(** ** A table equal to what is read back *)

Lemma map_same {A} (f : A -> A) l : Forall (fun a => f a = a) l -> map f l = l.
Proof. induction 1 as [|a l Ha _ IH]; [reflexivity|]. cbn [map]. now rewrite Ha, IH. Qed.
Section Exact.
Variable E : cfitsio.
Lemma exact_array a :
  ar_revision a = 2 -> cf_key_double E (ar_arrayx a) = Some (ar_arrayx a) ->
  cf_key_double E (ar_arrayy a) = Some (ar_arrayy a) -> cf_key_double E (ar_arrayz a) = Some (ar_arrayz a) ->
  stored_array E a = a.
Proof. destruct a. unfold stored_array, kept_double. cbn. intros -> -> -> ->. reflexivity. Qed.
Lemma exact_target t : ot_revision t = 2 -> ot_usecategory t = true -> stored_target E t = t.
Proof.
  destruct t as [rv n l u]. unfold stored_target. cbn. intros -> ->. f_equal. apply map_same, Forall_forall.
  intros [] _. reflexivity.
Qed.
Lemma exact_wavelength w : wv_revision w = 2 -> stored_wavelength w = w.
Proof. destruct w. cbn. now intros ->. Qed.
Lemma exact_corr c : co_revision c = 1 -> stored_corr c = c.
Proof. destruct c. cbn. now intros ->. Qed.
Lemma exact_vis t :
  tb_revision t = 2 -> Forall (fun r => vr_time r = f64_zero) (tb_record t) ->
  nonempty (tb_corrname t) = true -> vx_usecomplex (tb_x t) = true ->
  -1 <= vx_amporder (tb_x t) -> -1 <= vx_phiorder (tb_x t) ->
  (vx_amptyp (tb_x t) = "correlated flux" \/ vx_ampunit (tb_x t) = "")%string ->
  stored_vis E t = t.
Proof.
  destruct t as [rv dt ar ins co x n w l]. cbn. intros -> Hl Hc Hu Ha Hp Hx.
  unfold stored_vis, stored_dtab. cbn. f_equal.
  - destruct x as [at_ pt ao po um uc cu au]. unfold stored_vis_extra. cbn in *. rewrite Hu.
    assert (Ho : forall i, -1 <= i -> order_if_any i = i).
    { intros i Hi. unfold order_if_any. destruct (Z.leb_spec 0 i); lia. }
    rewrite !Ho by assumption. f_equal. destruct (str_eqb at_ "correlated flux") eqn:He; [reflexivity|].
    apply str_eqb_neq in He. destruct Hx as [Hx|Hx]; [contradiction|now symmetry].
  - apply map_same. eapply Forall_impl; [|exact Hl]. intros [] Ht. cbn in Ht. unfold stored_vis_record. cbn.
    rewrite Hc, Hu. cbn. now rewrite Ht.
Qed.
Lemma exact_vis2 t :
  tb_revision t = 2 -> Forall (fun r => v2_time r = f64_zero) (tb_record t) ->
  nonempty (tb_corrname t) = true -> stored_vis2 E t = t.
Proof.
  destruct t as [rv dt ar ins co [] n w l]. cbn. intros -> Hl Hc. unfold stored_vis2, stored_dtab. cbn. f_equal.
  apply map_same. eapply Forall_impl; [|exact Hl]. intros [] Ht. cbn in Ht. unfold stored_vis2_record. cbn.
  rewrite Hc. cbn. now rewrite Ht.
Qed.
Lemma exact_t3 t :
  tb_revision t = 2 -> Forall (fun r => t3_time r = f64_zero) (tb_record t) ->
  nonempty (tb_corrname t) = true -> stored_t3 E t = t.
Proof.
  destruct t as [rv dt ar ins co [] n w l]. cbn. intros -> Hl Hc. unfold stored_t3, stored_dtab. cbn. f_equal.
  apply map_same. eapply Forall_impl; [|exact Hl]. intros [] Ht. cbn in Ht. unfold stored_t3_record. cbn.
  rewrite Hc. cbn. now rewrite Ht.
Qed.
Lemma exact_flux t :
  tb_revision t = 1 -> nonempty (tb_corrname t) = true -> nonempty (tb_arrname t) = true ->
  nonempty (fx_fovtype (tb_x t)) = true -> cf_key_double E (fx_fov (tb_x t)) = Some (fx_fov (tb_x t)) ->
  stored_flux E t = t.
Proof.
  destruct t as [rv dt ar ins co [fov ft cs un] n w l]. cbn. intros -> Hc Ha Hf Hk.
  unfold stored_flux, stored_dtab, stored_flux_extra. cbn. rewrite Hf. unfold kept_double. rewrite Hk. f_equal.
  apply map_same, Forall_forall. intros [] _. unfold stored_flux_record. cbn. now rewrite Hc, Ha.
Qed.
End Exact.

(** ** Whole files *)

Section Files.
Variable E : cfitsio.
Lemma fits_inv name d p rest r st :
  find_file name d = Some (p :: rest) -> read_oi_fits E name d 0 = Ok (Some r, st) ->
  st = 0
  /\ o_arrayList r = flat_map (readable (read_next_oi_array E)) rest
  /\ o_wavelengthList r = flat_map (readable (read_next_oi_wavelength E)) rest
  /\ o_corrList r = flat_map (readable (read_next_oi_corr E)) rest
  /\ o_inspolList r = flat_map (readable (read_next_oi_inspol E)) rest
  /\ o_visList r = flat_map (readable (read_next_oi_vis E)) rest
  /\ o_vis2List r = flat_map (readable (read_next_oi_vis2 E)) rest
  /\ o_t3List r = flat_map (readable (read_next_oi_t3 E)) rest
  /\ o_fluxList r = flat_map (readable (read_next_oi_flux E)) rest
  /\ all_readable E (read_next_oi_array E) "OI_ARRAY" rest
  /\ all_readable E (read_next_oi_wavelength E) "OI_WAVELENGTH" rest.
Proof.
  intros Hf H. unfold read_oi_fits in H. cbn [Z.eqb negb] in H. rewrite Hf in H.
  apply read_tables_inv in H. exact H.
Qed.
Lemma fits_succeeds name d p rest h s tg s' :
  find_file name d = Some (p :: rest) ->
  read_oi_header E (mk_file (p :: rest) 1, 0) = Ok (Some h, s) -> h_content h = "OIFITS2"%string ->
  read_oi_target E (mk_file (p :: rest) 1, 0) = Ok (Some tg, s') ->
  all_readable E (read_next_oi_array E) "OI_ARRAY" rest ->
  all_readable E (read_next_oi_wavelength E) "OI_WAVELENGTH" rest ->
  (forall h, In h rest ->
     returns_something (alone (read_next_oi_corr E) h)
     /\ returns_something (alone (read_next_oi_inspol E) h)
     /\ returns_something (alone (read_next_oi_vis E) h)
     /\ returns_something (alone (read_next_oi_vis2 E) h)
     /\ returns_something (alone (read_next_oi_t3 E) h)
     /\ returns_something (alone (read_next_oi_flux E) h)) ->
  exists o, read_oi_fits E name d 0 = Ok (Some o, 0) /\ o_header o = h /\ o_targets o = tg.
Proof.
  intros Hf H1 H2 H3 H4 H5 H6. unfold read_oi_fits. cbn [Z.eqb negb]. rewrite Hf.
  exact (read_tables_succeeds E p rest h s tg s' H1 H2 H3 H4 H5 H6).
Qed.

(** a table lacking something required is not readable *)
Lemma vis_malformed h c :
  In c vis_columns /\ lacks_column h c \/ In c data_keywords /\ lacks_keyword h c ->
  readable (read_next_oi_vis E) h = [].
Proof.
  intros H. apply unreadable; [apply agrees_vis|].
  destruct H as [[H1 H2]|[H1 H2]]; [exact (vis_lacks_column E h c H1 H2)|exact (vis_lacks_keyword E h c H1 H2)].
Qed.
Lemma vis2_malformed h c :
  In c vis2_columns /\ lacks_column h c \/ In c data_keywords /\ lacks_keyword h c ->
  readable (read_next_oi_vis2 E) h = [].
Proof.
  intros H. apply unreadable; [apply agrees_vis2|].
  destruct H as [[H1 H2]|[H1 H2]]; [exact (vis2_lacks_column E h c H1 H2)|exact (vis2_lacks_keyword E h c H1 H2)].
Qed.
Lemma t3_malformed h c :
  In c t3_columns /\ lacks_column h c \/ In c data_keywords /\ lacks_keyword h c ->
  readable (read_next_oi_t3 E) h = [].
Proof.
  intros H. apply unreadable; [apply agrees_t3|].
  destruct H as [[H1 H2]|[H1 H2]]; [exact (t3_lacks_column E h c H1 H2)|exact (t3_lacks_keyword E h c H1 H2)].
Qed.
Lemma inspol_malformed h c :
  In c inspol_columns /\ lacks_column h c \/ In c inspol_keywords /\ lacks_keyword h c ->
  readable (read_next_oi_inspol E) h = [].
Proof.
  intros H. apply unreadable; [apply agrees_inspol|].
  destruct H as [[H1 H2]|[H1 H2]];
    [exact (inspol_lacks_column E h c H1 H2)|exact (inspol_lacks_keyword E h c H1 H2)].
Qed.
Lemma corr_malformed h c :
  In c corr_columns /\ lacks_column h c \/ In c corr_keywords /\ lacks_keyword h c ->
  readable (read_next_oi_corr E) h = [].
Proof.
  intros H. apply unreadable; [intros; apply agrees_corr|].
  destruct H as [[H1 H2]|[H1 H2]];
    [exact (corr_lacks_column E h c H1 H2)|exact (corr_lacks_keyword E h c H1 H2)].
Qed.
Lemma flux_malformed h c :
  c = "FLUXDATA"%string /\ lacks_column h c \/ In c flux_keywords /\ lacks_keyword h c ->
  readable (read_next_oi_flux E) h = [].
Proof.
  intros H. apply unreadable; [apply agrees_flux|].
  destruct H as [[-> H2]|[H1 H2]]; [exact (flux_lacks_data E h H2)|exact (flux_lacks_keyword E h c H1 H2)].
Qed.

(** ** By name *)

Local Notation finds := (finds E).
Local Notation not_found := (not_found E).
Lemma array_finds name : finds (read_oi_array E name) "OI_ARRAY" "ARRNAME" name.
Proof. exact (by_name_found E "OI_ARRAY" "ARRNAME" name (fun h => read_oi_array_chdu E h (Some name))). Qed.
Lemma wavelength_finds name : finds (read_oi_wavelength E name) "OI_WAVELENGTH" "INSNAME" name.
Proof. exact (by_name_found E "OI_WAVELENGTH" "INSNAME" name (fun h => read_oi_wavelength_chdu E h (Some name))). Qed.
Lemma corr_finds name : finds (read_oi_corr E name) "OI_CORR" "CORRNAME" name.
Proof. exact (by_name_found E "OI_CORR" "CORRNAME" name (fun h => read_oi_corr_chdu E h (Some name))). Qed.
Lemma array_not_found name : not_found (read_oi_array E name) "OI_ARRAY" "ARRNAME" name.
Proof.
  intros p l cur. apply (by_name_none E "OI_ARRAY" "ARRNAME" name (fun h => read_oi_array_chdu E h (Some name))).
  - intros h. apply agrees_array.
  - intros h st Hst. now apply unless_set.
Qed.
Lemma wavelength_not_found name : not_found (read_oi_wavelength E name) "OI_WAVELENGTH" "INSNAME" name.
Proof.
  intros p l cur.
  apply (by_name_none E "OI_WAVELENGTH" "INSNAME" name (fun h => read_oi_wavelength_chdu E h (Some name))).
  - intros h. apply agrees_wavelength.
  - intros h st Hst. now apply unless_set.
Qed.
Lemma corr_not_found name : not_found (read_oi_corr E name) "OI_CORR" "CORRNAME" name.
Proof.
  intros p l cur. apply (by_name_none E "OI_CORR" "CORRNAME" name (fun h => read_oi_corr_chdu E h (Some name))).
  - intros h. apply agrees_corr.
  - intros h st Hst. now apply unless_set.
Qed.
(** a table written by the library is found by its name, and is what is read *)
Lemma alone_by_name {A} name keyword value (r : hdu -> rd (option A)) h a st :
  is_binary h = true -> matches E name keyword value h = true -> r h 0 = Ok (a, st) ->
  alone (by_name E name keyword value r) h = Ok (a, (mk_file [null_primary; h] 2, st)).
Proof.
  intros Hb Hm Hr. unfold alone, by_name, guard_io, specific_named_hdu. cbn [snd Z.eqb negb f_hdus skipn specific_named].
  rewrite Hb. unfold matches in Hm.
  destruct (key_text E h "EXTNAME"); [|discriminate]. destruct (key_text E h keyword); [|discriminate].
  rewrite Hm. unfold at_chdu. cbn -[Z.add]. change (chdu _) with (Some h). cbn iota. now rewrite Hr.
Qed.

(** ** Once an error is set *)

Lemma guarded_set w f st : st <> 0 -> guarded w (f, st) = Ok (f, st).
Proof. intros H. unfold guarded. cbn [snd]. now destruct (Z.eqb_spec st 0). Qed.
Lemma guard_io_set {A} (k : io A) f st : st <> 0 -> guard_io k (f, st) = Ok (None, (f, st)).
Proof. intros H. unfold guard_io. cbn [snd]. now destruct (Z.eqb_spec st 0). Qed.
Lemma perform_set c f st : st <> 0 -> perform E c (f, st) = Ok (Nothing, (f, st)).
Proof.
  intros H. destruct c; cbn [perform];
    unfold write_oi_header, write_oi_array, write_oi_target, write_oi_wavelength, write_oi_corr, write_oi_inspol,
      write_oi_vis, write_oi_vis2, write_oi_t3, write_oi_flux, read_oi_header, read_oi_target, read_oi_array,
      read_oi_wavelength, read_oi_corr, read_next_oi_array, read_next_oi_wavelength, read_next_oi_corr,
      read_next_oi_inspol, read_next_oi_vis, read_next_oi_vis2, read_next_oi_t3, read_next_oi_flux, read_next;
    first [rewrite guarded_set by exact H|rewrite guard_io_set by exact H]; reflexivity.
Qed.
Lemma perform_all_set l f st : st <> 0 ->
  perform_all E l (f, st) = Ok (repeat Nothing (List.length l), (f, st)).
Proof.
  intros H. induction l as [|c l IH]; [reflexivity|]. cbn [perform_all]. rewrite perform_set by exact H.
  rewrite bind_Ok. cbn [snd fst]. now rewrite IH.
Qed.
(** the first error ends a sequence of calls *)
Lemma perform_all_app l1 l2 s o1 s1 : perform_all E l1 s = Ok (o1, s1) -> snd s1 <> 0 ->
  perform_all E (l1 ++ l2) s = Ok (o1 ++ repeat Nothing (List.length l2), s1).
Proof.
  revert s o1. induction l1 as [|c l1 IH]; intros s o1.
  - intros [= <- <-] Hs. destruct s as (f, st). now apply perform_all_set.
  - cbn [perform_all app]. intros H Hs. apply bind_inv in H as (r & H1 & H).
    apply bind_inv in H as ((o, s') & H2 & H). cbn [fst snd] in H. injection H as <- <-.
    rewrite H1, bind_Ok. rewrite (IH _ _ H2 Hs), bind_Ok. reflexivity.
Qed.
Lemma files_set name o d st : st <> 0 ->
  write_oi_fits E name o d st = Ok (d, st) /\ read_oi_fits E name d st = Ok (None, st).
Proof. intros H. unfold write_oi_fits, read_oi_fits. now destruct (Z.eqb_spec st 0). Qed.
End Files.

(** ** Concrete cases *)

Local Open Scope string_scope.
(** a cfitsio that keeps every double, with arbitrary other values *)
Definition e0 : cfitsio :=
  mk_cfitsio (fun x => Some x) (fun _ => None) (fun _ => None) (fun _ => "?") "2026-11-16"
    (fun _ => (KStr "sum", KInt 7)) 77 "junk" f64_zero (S754_zero false) true
    (fun _ => (S754_zero false, S754_zero false)).
Lemma s_storable : storable_fits e0 s_fits = true.
Proof. vm_compute. reflexivity. Qed.
(** a dataset without numbers in keywords, hence the same for any cfitsio *)
Definition x_jones (second : f32) : oi_inspol :=
  mk_inspol 1 "2019-12-31" 2 "VLTI" "NORTH" "M" 1 2
    [mk_inspol_record 4 "GRAVITY" (fl 58848 1) (fl 58849 1)
       [(fl32 1 1, fl32 0 1); (second, fl32 0 1)] [(fl32 1 1, fl32 0 1); (fl32 1 1, fl32 0 1)]
       [(fl32 0 1, fl32 0 1); (fl32 0 1, fl32 0 1)] [(fl32 0 1, fl32 0 1); (fl32 0 1, fl32 0 1)] 1].
Definition x_fits (second : f32) : oi_fits :=
  mk_fits s_header s_targets 0 2 1 1 1 1 1 0 [] [s_wave1; s_wave2] [s_corr] [x_jones second]
    [s_vis] [s_vis2] [s_t3] [] [] [("PIONIER", Some s_wave2); ("GRAVITY", Some s_wave1)]
    [("CORR1", Some s_corr)].
Lemma x_storable E second : storable_fits E (x_fits second) = true.
Proof. reflexivity. Qed.
(** the Jones matrices of the later channels do not come back *)
Lemma x_differ : o_inspolList (x_fits (fl32 1 1)) <> o_inspolList (x_fits (fl32 0 1)).
Proof.
  intros H. cbn [x_fits o_inspolList] in H. apply (f_equal (map (fun t => map ip_jxx (is_record t)))) in H.
  revert H. vm_compute. discriminate.
Qed.
Lemma inspol_lost E name d : find_file name d = None ->
  exists o1 o2 d1 d2 r1 r2,
    storable_fits E o1 = true /\ storable_fits E o2 = true /\ o_inspolList o1 <> o_inspolList o2
    /\ write_oi_fits E name o1 d 0 = Ok (d1, 0) /\ write_oi_fits E name o2 d 0 = Ok (d2, 0)
    /\ read_oi_fits E name d1 0 = Ok (Some r1, 0) /\ read_oi_fits E name d2 0 = Ok (Some r2, 0)
    /\ o_inspolList r1 = o_inspolList r2.
Proof.
  intros Hd.
  destruct (file_round_trip E (x_fits (fl32 1 1)) name d (x_storable E _) Hd) as (d1 & r1 & W1 & _ & R1 & H1).
  destruct (file_round_trip E (x_fits (fl32 0 1)) name d (x_storable E _) Hd) as (d2 & r2 & W2 & _ & R2 & H2).
  exists (x_fits (fl32 1 1)), (x_fits (fl32 0 1)), d1, d2, r1, r2.
  do 2 (split; [apply x_storable|]). split; [exact x_differ|].
  do 4 (split; [assumption|]). destruct H1 as (_&_&_&_&_&H1&_), H2 as (_&_&_&_&_&H2&_).
  rewrite H1, H2. reflexivity.
Qed.

(** files made by hand *)
Definition num (z : Z) : f64 := f64_of_Z z.
Definition x_col (name : string) (k : kind) (n : Z) (data : list value) : column :=
  mk_column name (mk_form k n) None None data.
Definition x_primary : hdu := mk_hdu IMAGE_HDU [("CONTENT", KStr "OIFITS2"); ("ORIGIN", KStr "ESO")] [] 0.
Definition x_target : hdu :=
  mk_hdu BINARY_TBL [("EXTNAME", KStr "OI_TARGET"); ("OI_REVN", KInt 2)]
    ([x_col "TARGET_ID" Short 1 [VInt 1]; x_col "TARGET" Chars 16 [VStr "alpha"];
      x_col "VELTYP" Chars 8 [VStr "LSR"]; x_col "VELDEF" Chars 8 [VStr "OPTICAL"];
      x_col "SPECTYP" Chars 16 [VStr "A0V"]]
     ++ map (fun n => x_col n Double 1 [VDbl (num 3)])
          ["RAEP0"; "DECEP0"; "RA_ERR"; "DEC_ERR"; "SYSVEL"; "PMRA"; "PMDEC"; "PMRA_ERR"; "PMDEC_ERR"]
     ++ map (fun n => x_col n Float 1 [VFlt (S754_zero false)]) ["EQUINOX"; "PARALLAX"; "PARA_ERR"])%list 1.
Definition data_keys (name : string) : list (string * kval) :=
  [("EXTNAME", KStr name); ("OI_REVN", KInt 2); ("DATE-OBS", KStr "2020-01-01"); ("INSNAME", KStr "I")].
(** an OI_VIS2 table of [n] rows and two channels *)
Definition x_vis2 (n : nat) : hdu :=
  mk_hdu BINARY_TBL (data_keys "OI_VIS2")
    ([x_col "TARGET_ID" Short 1 (repeat (VInt 1) n)]
     ++ map (fun c => x_col c Double 1 (repeat (VDbl (num 5)) n)) ["TIME"; "MJD"; "INT_TIME"; "UCOORD"; "VCOORD"]
     ++ map (fun c => x_col c Double 2 (repeat (VDbl (num 1)) (2 * n))) ["VIS2DATA"; "VIS2ERR"]
     ++ [x_col "STA_INDEX" Short 2 (repeat (VInt 4) (2 * n)); x_col "FLAG" Logical 2 (repeat (VLog false) (2 * n))])%list
    (Z.of_nat n).
(** the same without VIS2ERR *)
Definition x_bad : hdu :=
  mk_hdu BINARY_TBL (data_keys "OI_VIS2")
    (filter (fun c => negb (str_eqb (c_name c) "VIS2ERR")) (hd_cols (x_vis2 2))) 2.
Definition x_flux : hdu :=
  mk_hdu BINARY_TBL (data_keys "OI_FLUX" ++ [("CALSTAT", KStr "C")])
    [mk_column "FLUXDATA" (mk_form Double 2) (Some "Jy") None [VDbl (num 1); VDbl (num 2)]] 1.
Definition x_wave : hdu :=
  mk_hdu BINARY_TBL [("EXTNAME", KStr "OI_WAVELENGTH"); ("OI_REVN", KInt 2); ("INSNAME", KStr "I")]
    [x_col "EFF_WAVE" Float 1 [VFlt (S754_zero false); VFlt (S754_zero false)];
     x_col "EFF_BAND" Float 1 [VFlt (S754_zero false); VFlt (S754_zero false)]] 2.
Definition x_image : hdu := mk_hdu IMAGE_HDU [("EXTNAME", KStr "IMAGE")] [] 0.
Definition x_file : list hdu := [x_primary; x_bad; x_target; x_vis2 2; x_wave; x_image; x_bad; x_vis2 3].

Definition seen {A B S} (g : A -> B) (r : res (option A * S)) : option (option B * S) :=
  match r with Ok (o, s) => Some (option_map g o, s) | _ => None end.
Lemma seen_some {A B S} (g : A -> B) (r : res (option A * S)) b s :
  seen g r = Some (Some b, s) -> exists a, r = Ok (Some a, s) /\ g a = b.
Proof. destruct r as [([a|], s')| |]; cbn; try discriminate. intros [= <- <-]. eauto. Qed.

(** the two complete OI_VIS2 tables are read *)
Lemma x_read E : exists o, read_oi_fits E "f" [("f", x_file)] 0 = Ok (Some o, 0)
  /\ (map tb_numrec (o_vis2List o), o_numVis2 o, map wv_insname (o_wavelengthList o)) = ([2; 3]%Z, 2%Z, ["I"]).
Proof. apply (seen_some (fun o => (map tb_numrec (o_vis2List o), o_numVis2 o, map wv_insname (o_wavelengthList o)))).
  vm_compute. reflexivity. Qed.
Lemma x_bad_lacks : In "VIS2ERR" vis2_columns /\ lacks_column x_bad "VIS2ERR".
Proof. split; [cbn; tauto|]. unfold lacks_column. vm_compute. discriminate. Qed.
(** one table without rows, and the whole file cannot be read *)
Lemma empty_table E :
  read_oi_fits E "f" [("f", x_file ++ [x_vis2 0])%list] 0 = Abort
  /\ exists o, read_oi_fits E "f" [("f", x_file)] 0 = Ok (Some o, 0).
Proof. split; [vm_compute; reflexivity|]. destruct (x_read E) as (o & H & _). eauto. Qed.
(** an OI_FLUX table without five of its columns is accepted *)
Lemma flux_accepted E :
  Forall (lacks_column x_flux) ["TARGET_ID"; "MJD"; "INT_TIME"; "FLUXERR"; "FLAG"]
  /\ exists o, read_oi_fits E "f" [("f", x_file ++ [x_flux])%list] 0 = Ok (Some o, 0)
       /\ (map (fun t => map fr_target_id (tb_record t)) (o_fluxList o),
           map (fun t => map fr_fluxerr (tb_record t)) (o_fluxList o))
          = ([[cf_junk_int E]], [[[cf_junk_dbl E; cf_junk_dbl E]]]).
Proof.
  split; [repeat constructor; unfold lacks_column; vm_compute; discriminate|].
  apply (seen_some (fun o => (map (fun t => map fr_target_id (tb_record t)) (o_fluxList o),
           map (fun t => map fr_fluxerr (tb_record t)) (o_fluxList o)))).
  vm_compute. reflexivity.
Qed.
(** an image before the table hides it *)
Lemma hidden_by_image E :
  matches E "OI_WAVELENGTH" "INSNAME" "I" x_wave = true
  /\ (exists w, read_oi_wavelength E "I" (mk_file [x_primary; x_wave; x_image] 1, 0%Z)
                = Ok (Some w, (mk_file [x_primary; x_wave; x_image] 2, 0%Z)))
  /\ read_oi_wavelength E "I" (mk_file [x_primary; x_image; x_wave] 1, 0%Z)
     = Ok (None, (mk_file [x_primary; x_image; x_wave] 2, KEY_NO_EXIST)).
Proof.
  split; [reflexivity|]. split; [|vm_compute; reflexivity].
  destruct (seen_some wv_insname (read_oi_wavelength E "I" (mk_file [x_primary; x_wave; x_image] 1, 0%Z))
    "I" (mk_file [x_primary; x_wave; x_image] 2, 0%Z)) as (w & H & _); [vm_compute; reflexivity|]. eauto.
Qed.
