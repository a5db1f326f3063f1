(** Proofs about scripts: attributes of Filter objects; scripts that do what oifits-filter and
    oifits-merge do. *)
From Verif Require Import Base BaseLemmas FilterSpec ToolModel ToolSpec ToolPrograms PyModel PySpec PyProofs.
From Coq Require Import Lia.
Open Scope list_scope.
Open Scope Z_scope.

(** ** Attributes *)

Lemma chars_val v s : convert_chars v = Val s <-> v = PyStr s /\ strlen s <= 71.
Proof.
  unfold convert_chars. split.
  - destruct v; try discriminate. destruct (Z.leb_spec (strlen s0) FLEN_VALUE) as [L|]; [|discriminate].
    intros H. injection H as ->. split; [reflexivity|exact L].
  - intros [-> L]. apply Z.leb_le in L. change FLEN_VALUE with 71. now rewrite L.
Qed.
Lemma int_val v z : convert_int v = Val z <-> (v = PyInt z \/ v = PyLong z) /\ -2147483648 <= z <= 2147483647.
Proof.
  unfold convert_int. split.
  - destruct v as [y|y|x|s|l|]; try discriminate; (destruct (FitsModel.in_int y) eqn:B; [|discriminate]);
      unfold FitsModel.in_int in B; apply andb_prop in B as [B1 B2]; apply Z.leb_le in B1; apply Z.leb_le in B2;
      intros H; injection H as ->; auto.
  - assert (B : -2147483648 <= z <= 2147483647 -> FitsModel.in_int z = true).
    { intros [B1 B2]. unfold FitsModel.in_int. apply andb_true_intro. split; now apply Z.leb_le. }
    intros [[-> | ->] L]; now rewrite (B L).
Qed.
Lemma float_val v l : convert_float_array 2 v = Val l <-> exists lo hi, v = PySeq [PyFloat lo; PyFloat hi] /\ l = [to_f32 lo; to_f32 hi].
Proof.
  unfold convert_float_array, convert_array. split.
  - destruct v as [y|y|x|s|r|]; cbn [sequence]; try discriminate.
    + destruct s as [|a s]; cbn -[Nat.eqb]; [discriminate|]. destruct (Nat.eqb _ 2); discriminate.
    + destruct r as [|a [|b [|c r]]]; cbn; try discriminate; destruct a; try discriminate. destruct b; try discriminate.
      intros H. injection H as <-. eauto.
  - intros (lo & hi & -> & ->). reflexivity.
Qed.
Lemma double_val v l : convert_double_array 2 v = Val l <-> exists lo hi, v = PySeq [PyFloat lo; PyFloat hi] /\ l = [lo; hi].
Proof.
  unfold convert_double_array, convert_array. split.
  - destruct v as [y|y|x|s|r|]; cbn [sequence]; try discriminate.
    + destruct s as [|a s]; cbn -[Nat.eqb]; [discriminate|]. destruct (Nat.eqb _ 2); discriminate.
    + destruct r as [|a [|b [|c r]]]; cbn; try discriminate; destruct a; try discriminate. destruct b; try discriminate.
      intros H. injection H as <-. eauto.
  - intros (lo & hi & -> & ->). reflexivity.
Qed.

Lemma attr_accepted a v f : (exists f', set_filter_attr a v f = Val f') <-> accepted a v.
Proof.
  unfold set_filter_attr. split.
  - intros [f' H]. destruct a; cbv zeta in H; cbn [accepted];
      lazymatch type of H with
      | match convert_chars _ with _ => _ end = _ =>
          destruct (convert_chars v) as [s|] eqn:C; [|discriminate H]; apply chars_val in C; eauto
      | match convert_int _ with _ => _ end = _ =>
          destruct (convert_int v) as [z|] eqn:C; [|discriminate H]; apply int_val in C; eauto
      | match convert_float_array _ _ with _ => _ end = _ =>
          destruct (convert_float_array 2 v) as [l|] eqn:C; [|discriminate H]; apply float_val in C as (lo & hi & -> & _); eauto
      | match convert_double_array _ _ with _ => _ end = _ =>
          destruct (convert_double_array 2 v) as [l|] eqn:C; [|discriminate H]; apply double_val in C as (lo & hi & -> & _); eauto
      end.
  - intros H. destruct a; cbv zeta; cbn [accepted] in H;
      lazymatch goal with
      | |- context [convert_chars] => destruct H as (s & H); apply chars_val in H; rewrite H; eauto
      | |- context [convert_int] => destruct H as (z & H); apply int_val in H; rewrite H; eauto
      | |- context [convert_float_array] => destruct H as (lo & hi & ->); cbn; eauto
      | |- context [convert_double_array] => destruct H as (lo & hi & ->); cbn; eauto
      end.
Qed.

Lemma attr_stored a v f f' : set_filter_attr a v f = Val f' ->
  get_filter_attr a f' = match stored a v with Some w => Ok w | None => UB end
  /\ (forall b, b <> a -> get_filter_attr b f' = get_filter_attr b f)
  /\ f_uvrad_lo f' = f_uvrad_lo f /\ f_uvrad_hi f' = f_uvrad_hi f.
Proof.
  intros H. unfold set_filter_attr in H. destruct a; cbv zeta in H;
    lazymatch type of H with
    | match convert_chars _ with _ => _ end = _ =>
        destruct (convert_chars v) as [s|] eqn:C; [|discriminate H]; apply chars_val in C as [-> C]; injection H as <-;
        split; [|split; [intros [] N; try reflexivity; congruence|split; reflexivity]];
        cbn [get_filter_attr stored f_arrname f_insname f_corrname]; change FLEN_VALUE with 71;
        destruct (Z.ltb_spec (strlen s) 71), (Z.leb_spec (strlen s) 70); try reflexivity; lia
    | match convert_int _ with _ => _ end = _ =>
        destruct (convert_int v) as [z|] eqn:C; [|discriminate H]; apply int_val in C as [C _]; injection H as <-;
        split; [|split; [intros [] N; try reflexivity; congruence|split; reflexivity]];
        destruct C as [-> | ->]; cbn; try reflexivity; destruct (z =? 0); reflexivity
    | match convert_float_array _ _ with _ => _ end = _ =>
        destruct (convert_float_array 2 v) as [l|] eqn:C; [|discriminate H]; apply float_val in C as (lo & hi & -> & ->); injection H as <-;
        split; [reflexivity|split; [intros [] N; try reflexivity; congruence|split; reflexivity]]
    | match convert_double_array _ _ with _ => _ end = _ =>
        destruct (convert_double_array 2 v) as [l|] eqn:C; [|discriminate H]; apply double_val in C as (lo & hi & -> & ->); injection H as <-;
        split; [reflexivity|split; [intros [] N; try reflexivity; congruence|split; reflexivity]]
    end.
Qed.

(** ** The programs *)

Fixpoint set_all (l : list (filter_attr * pyval)) (f : filter_spec) : answer filter_spec :=
  match l with
  | [] => Val f
  | (a, v) :: l' => match set_filter_attr a v f with Val f => set_all l' f | Exc e => Exc e end
  end.

(** The settings that give the filter of a command line *)
Definition settings_of (opts : list filter_option) : list (filter_attr * pyval) :=
  let f := user_filter opts in
  let int z := PyInt z in
  let flag (b : bool) := PyInt (if b then 1 else 0) in
  let range lo hi := PySeq [PyFloat lo; PyFloat hi] in
  let nm := f64_mul (f64_ratio 1 (10 ^ 9)) in
  [ (ArrnameA, PyStr (f_arrname f)); (InsnameA, PyStr (f_insname f)); (CorrnameA, PyStr (f_corrname f));
    (TargetIdA, int (f_target_id f)); (MjdRangeA, range (f_mjd_lo f) (f_mjd_hi f));
    (WaveRangeA, range
       (or_else nm (f64_of_Z 0) (latest (fun op => match op with Wave_min x => Some x | _ => None end) opts))
       (or_else nm (f64_ratio 1 (10 ^ 4)) (latest (fun op => match op with Wave_max x => Some x | _ => None end) opts)));
    (BasRangeA, range (f_bas_lo f) (f_bas_hi f));
    (SnrRangeA, range
       (or_else (fun x => x) (f64_of_Z (-5)) (latest (fun op => match op with Snr_min x => Some x | _ => None end) opts))
       (or_else (fun x => x) (f64_of_Z (10 ^ 10)) (latest (fun op => match op with Snr_max x => Some x | _ => None end) opts)));
    (AcceptVisA, flag (f_accept_vis f)); (AcceptVis2A, flag (f_accept_vis2 f)); (AcceptT3ampA, flag (f_accept_t3amp f));
    (AcceptT3phiA, flag (f_accept_t3phi f)); (AcceptFluxA, flag (f_accept_flux f)); (AcceptFlaggedA, flag (f_accept_flagged f)) ].

Lemma cut_short s : strlen (cut s) <= 70.
Proof.
  unfold cut, strlen. assert (H : forall n s, (String.length (substring 0 n s) <= n)%nat).
  { clear. induction n as [|n IH]; intros [|c s]; cbn; try lia. specialize (IH s). lia. }
  specialize (H 70%nat s). lia.
Qed.
Lemma name_short o : strlen (or_else cut "*"%string o) <= 70.
Proof. destruct o as [s|]; [apply cut_short|cbn; lia]. Qed.

Lemma latest_none {A} (pick : filter_option -> option A) opts : (forall op, In op opts -> pick op = None) -> latest pick opts = None.
Proof.
  induction opts as [|op opts IH]; intros H; [reflexivity|]. cbn. rewrite IH; [apply H; now left|]. intros op' H'. apply H. now right.
Qed.

Lemma or_else_metres d o : to_f32 (or_else (f64_mul (f64_ratio 1 (10 ^ 9))) d o) = or_else metres (to_f32 d) o.
Proof. destruct o; reflexivity. Qed.
Lemma or_else_same d o : to_f32 (or_else (fun x => x) d o) = or_else to_f32 (to_f32 d) o.
Proof. destruct o; reflexivity. Qed.

Lemma set_step a v l f f1 : set_filter_attr a v f = Val f1 -> set_all ((a, v) :: l) f = set_all l f1.
Proof. intros H. cbn [set_all]. now rewrite H. Qed.
Ltac projections :=
  cbn [f_arrname f_insname f_corrname f_target_id f_mjd_lo f_mjd_hi f_wave_lo f_wave_hi f_bas_lo f_bas_hi f_uvrad_lo f_uvrad_hi
       f_snr_lo f_snr_hi f_accept_vis f_accept_vis2 f_accept_t3amp f_accept_t3phi f_accept_flux f_accept_flagged
       f_arrname_pttn f_insname_pttn f_corrname_pttn].
Lemma set_everything g a i c z ml mh wl wh bl bh sl sh (v v2 ta tp fx fg : bool) :
  strlen a <= 70 -> strlen i <= 70 -> strlen c <= 70 -> FitsModel.in_int z = true ->
  set_all [(ArrnameA, PyStr a); (InsnameA, PyStr i); (CorrnameA, PyStr c); (TargetIdA, PyInt z);
           (MjdRangeA, PySeq [PyFloat ml; PyFloat mh]); (WaveRangeA, PySeq [PyFloat wl; PyFloat wh]);
           (BasRangeA, PySeq [PyFloat bl; PyFloat bh]); (SnrRangeA, PySeq [PyFloat sl; PyFloat sh]);
           (AcceptVisA, PyInt (if v then 1 else 0)); (AcceptVis2A, PyInt (if v2 then 1 else 0));
           (AcceptT3ampA, PyInt (if ta then 1 else 0)); (AcceptT3phiA, PyInt (if tp then 1 else 0));
           (AcceptFluxA, PyInt (if fx then 1 else 0)); (AcceptFlaggedA, PyInt (if fg then 1 else 0))] g
  = Val (mk_filter a i c z ml mh (to_f32 wl) (to_f32 wh) bl bh (f_uvrad_lo g) (f_uvrad_hi g) (to_f32 sl) (to_f32 sh)
           v v2 ta tp fx fg (f_arrname_pttn g) (f_insname_pttn g) (f_corrname_pttn g)).
Proof.
  intros A I C T.
  assert (N : forall s, strlen s <= 70 -> convert_chars (PyStr s) = Val s).
  { intros s L. apply chars_val. split; [reflexivity|lia]. }
  assert (G : forall b : bool, convert_int (PyInt (if b then 1 else 0)) = Val (if b then 1 else 0)) by (intros []; reflexivity).
  assert (Gb : forall b : bool, negb ((if b then 1 else 0) =? 0) = b) by (intros []; reflexivity).
  assert (T' : convert_int (PyInt z) = Val z) by (unfold convert_int; now rewrite T).
  assert (D : forall lo hi, convert_double_array 2 (PySeq [PyFloat lo; PyFloat hi]) = Val [lo; hi]) by reflexivity.
  assert (F : forall lo hi, convert_float_array 2 (PySeq [PyFloat lo; PyFloat hi]) = Val [to_f32 lo; to_f32 hi]) by reflexivity.
  destruct g as [g1 g2 g3 g4 g5 g6 g7 g8 g9 g10 g11 g12 g13 g14 g15 g16 g17 g18 g19 g20 g21 g22 g23]. cbn [f_uvrad_lo f_uvrad_hi f_arrname_pttn f_insname_pttn f_corrname_pttn].
  erewrite set_step by (unfold set_filter_attr; cbv zeta; rewrite (N a A); projections; reflexivity).
  erewrite set_step by (unfold set_filter_attr; cbv zeta; rewrite (N i I); projections; reflexivity).
  erewrite set_step by (unfold set_filter_attr; cbv zeta; rewrite (N c C); projections; reflexivity).
  erewrite set_step by (unfold set_filter_attr; cbv zeta; rewrite T'; projections; reflexivity).
  erewrite set_step by (unfold set_filter_attr; cbv zeta; rewrite D; projections; reflexivity).
  erewrite set_step by (unfold set_filter_attr; cbv zeta; rewrite F; projections; reflexivity).
  erewrite set_step by (unfold set_filter_attr; cbv zeta; rewrite D; projections; reflexivity).
  erewrite set_step by (unfold set_filter_attr; cbv zeta; rewrite F; projections; reflexivity).
  erewrite set_step by (unfold set_filter_attr; cbv zeta; rewrite G, Gb; projections; reflexivity).
  erewrite set_step by (unfold set_filter_attr; cbv zeta; rewrite G, Gb; projections; reflexivity).
  erewrite set_step by (unfold set_filter_attr; cbv zeta; rewrite G, Gb; projections; reflexivity).
  erewrite set_step by (unfold set_filter_attr; cbv zeta; rewrite G, Gb; projections; reflexivity).
  erewrite set_step by (unfold set_filter_attr; cbv zeta; rewrite G, Gb; projections; reflexivity).
  erewrite set_step by (unfold set_filter_attr; cbv zeta; rewrite G, Gb; projections; reflexivity).
  reflexivity.
Qed.
Lemma filter_eta f : f = mk_filter (f_arrname f) (f_insname f) (f_corrname f) (f_target_id f) (f_mjd_lo f) (f_mjd_hi f)
  (f_wave_lo f) (f_wave_hi f) (f_bas_lo f) (f_bas_hi f) (f_uvrad_lo f) (f_uvrad_hi f) (f_snr_lo f) (f_snr_hi f)
  (f_accept_vis f) (f_accept_vis2 f) (f_accept_t3amp f) (f_accept_t3phi f) (f_accept_flux f) (f_accept_flagged f)
  (f_arrname_pttn f) (f_insname_pttn f) (f_corrname_pttn f).
Proof. now destruct f. Qed.

Lemma settings_give opts : FitsModel.in_int (f_target_id (user_filter opts)) = true -> ~ uvrad_given opts ->
  set_all (settings_of opts) init_oi_filter = Val (user_filter opts) /\ terminated (user_filter opts) = true.
Proof.
  intros T U. pose proof (user_filter_ok opts) as F. destruct F.
  assert (N1 : strlen (f_arrname (user_filter opts)) <= 70) by (rewrite fo_arrname; apply name_short).
  assert (N2 : strlen (f_insname (user_filter opts)) <= 70) by (rewrite fo_insname; apply name_short).
  assert (N3 : strlen (f_corrname (user_filter opts)) <= 70) by (rewrite fo_corrname; apply name_short).
  rewrite (latest_none _ opts) in fo_uvrad_lo by (intros [] Hin; try reflexivity; destruct U; eexists; left; exact Hin).
  rewrite (latest_none _ opts) in fo_uvrad_hi by (intros [] Hin; try reflexivity; destruct U; eexists; right; exact Hin).
  cbn [or_else] in fo_uvrad_lo, fo_uvrad_hi.
  assert (W1 : to_f32 (or_else (f64_mul (f64_ratio 1 (10 ^ 9))) (f64_of_Z 0)
     (latest (fun op => match op with Wave_min x => Some x | _ => None end) opts)) = f_wave_lo (user_filter opts)).
  { rewrite fo_wave_lo. apply or_else_metres. }
  assert (W2 : to_f32 (or_else (f64_mul (f64_ratio 1 (10 ^ 9))) (f64_ratio 1 (10 ^ 4))
     (latest (fun op => match op with Wave_max x => Some x | _ => None end) opts)) = f_wave_hi (user_filter opts)).
  { rewrite fo_wave_hi. apply or_else_metres. }
  assert (S1 : to_f32 (or_else (fun x => x) (f64_of_Z (-5))
     (latest (fun op => match op with Snr_min x => Some x | _ => None end) opts)) = f_snr_lo (user_filter opts)).
  { rewrite fo_snr_lo. apply or_else_same. }
  assert (S2 : to_f32 (or_else (fun x => x) (f64_of_Z (10 ^ 10))
     (latest (fun op => match op with Snr_max x => Some x | _ => None end) opts)) = f_snr_hi (user_filter opts)).
  { rewrite fo_snr_hi. apply or_else_same. }
  split.
  2: { unfold terminated. change FLEN_VALUE with 71. rewrite (proj2 (Z.ltb_lt _ 71)), (proj2 (Z.ltb_lt _ 71)), (proj2 (Z.ltb_lt _ 71)) by lia. reflexivity. }
  unfold settings_of. cbv zeta. rewrite set_everything by assumption. rewrite W1, W2, S1, S2.
  apply (f_equal Val). symmetry. etransitivity; [apply filter_eta|]. rewrite fo_uvrad_lo, fo_uvrad_hi. destruct fo_fresh as (P1 & P2 & P3). rewrite P1, P2, P3.
  reflexivity.
Qed.

Section Programs.
Variable E : cfitsio.
Variable fmt : string -> f64 -> string.
Variable pow_half : f64 -> f64.
Variable can_remove : string -> bool.

(** A run of the script, by its values *)
Definition value_of (l : list stmt) (d : disk) : res (disk * list event) := script_value E fmt pow_half l [] d.

Lemma script_settings settings rest f vars d g : lookup "f" vars = Some (VFilter f) -> set_all settings f = Val g ->
  exists vars', lookup "f" vars' = Some (VFilter g)
    /\ script_value E fmt pow_half (map (fun s => SetAttr "f" (fst s) (snd s)) settings ++ rest) vars d
       = (q <- script_value E fmt pow_half rest vars' d ;; Ok (fst q, repeat Nothing (List.length settings) ++ snd q)).
Proof.
  revert f vars. induction settings as [|[a v] l IH]; intros f vars L H; cbn [set_all] in H.
  - injection H as <-. exists vars. split; [exact L|]. cbn [map app List.length repeat].
    destruct (script_value E fmt pow_half rest vars d) as [[]| |]; reflexivity.
  - destruct (set_filter_attr a v f) as [f1|] eqn:S; [|discriminate].
    destruct (IH f1 (("f"%string, VFilter f1) :: unbind "f" vars) eq_refl H) as (vars' & L' & H').
    exists vars'. split; [exact L'|]. cbn [map app List.length repeat script_value stmt_value fst snd]. rewrite L, S. cbn [bind].
    rewrite H'. destruct (script_value E fmt pow_half rest vars' d) as [[]| |]; reflexivity.
Qed.

Lemma keeps_settings settings rest L : keeps_all rest (fold_left (fun L _ => forget "f" L) settings L) = true ->
  keeps_all (map (fun s : filter_attr * pyval => SetAttr "f" (fst s) (snd s)) settings ++ rest) L = true.
Proof. revert L. induction settings as [|s l IH]; intros L H; [exact H|]. cbn. now apply IH. Qed.
Lemma filter_script_keeps settings inName out : keeps_datasets (filter_script settings inName out).
Proof. unfold keeps_datasets, filter_script. cbn [keeps_all keeps forget filter]. now apply keeps_settings. Qed.
Lemma merge_script_keeps out names : keeps_datasets (merge_script out names).
Proof. reflexivity. Qed.

Lemma filter_same opts inName out d x :
  FitsModel.in_int (f_target_id (user_filter opts)) = true -> ~ uvrad_given opts ->
  (String.length inName <= 1024)%nat -> (String.length out <= 1024)%nat ->
  filter_run E fmt pow_half can_remove false opts inName out d = Ok x ->
  exists s, run E fmt pow_half (filter_script (settings_of opts) inName out) d
            = Ok (s, quietly 15 (if x_status x =? 0 then Nothing else Raised IOError))
    /\ s_disk s = x_disk x.
Proof.
  intros T U L1 L2 H. destruct (settings_give opts T U) as [Hs Ht].
  pose proof (run_means E fmt pow_half _ d (filter_script_keeps (settings_of opts) inName out)) as R.
  assert (V : script_value E fmt pow_half (filter_script (settings_of opts) inName out) [] d
              = Ok (x_disk x, quietly 15 (if x_status x =? 0 then Nothing else Raised IOError))).
  2: { rewrite V in R. apply bind_inv in R as ([s evs] & R1 & R2). cbn [fst snd] in R2. injection R2 as R2 R3. subst evs. exists s. auto. }
  unfold filter_script. cbn [script_value stmt_value bind].
  destruct (script_settings (settings_of opts) [Write (OApply "f" (OOpen (Some inName))) out] init_oi_filter
              [("f"%string, VFilter init_oi_filter)] d (user_filter opts) eq_refl Hs) as (vars & Lf & Hv).
  cbn [unbind filter]. rewrite Hv. cbn [script_value stmt_value owner_value]. rewrite Lf.
  unfold filter_run, oifits_filter in H. cbn [cl_args cl_options cl_clobber] in H.
  rewrite (short_name _ L1), (short_name _ L2) in H. unfold reading in H.
  destruct (read_oi_fits E inName d 0) as [[o st]| |]; cbn [bind fst snd] in H |- *; try discriminate.
  change EXIT_FAILURE with 1 in *. change EXIT_SUCCESS with 0 in *.
  destruct (negb (st =? 0)); [injection H as <-; reflexivity|]. destruct o as [o|]; [|discriminate].
  destruct (format_oi_fits_summary fmt o) as [t1| |]; cbn [bind] in H; try discriminate. cbn [bind]. rewrite Ht.
  destruct (apply_oi_filter pow_half o (user_filter opts)) as [[f' o']| |]; cbn [bind fst snd] in H |- *; try discriminate.
  destruct (format_oi_fits_summary fmt o') as [t2| |]; cbn [bind] in H; try discriminate. cbv zeta in H.
  destruct (find_file out d) as [hdus|] eqn:Hf.
  - cbn [negb] in H. injection H as <-. unfold write_oi_fits. rewrite Hf. reflexivity.
  - unfold writing in H. destruct (write_oi_fits E out o' d 0) as [[d' st']| |]; cbn [bind fst snd] in H |- *; try discriminate.
    change EXIT_FAILURE with 1 in *. change EXIT_SUCCESS with 0 in *. injection H as <-. cbn [x_status x_disk].
    destruct (st' =? 0); reflexivity.
Qed.

Lemma opens_read names d : 
  owner_values E pow_half [] d (map (fun n => OOpen (Some n)) names)
  = (r <- read_files E names d ;; Ok match r with Some l => Val l | None => Exc IOError end).
Proof.
  induction names as [|n names IH]; [reflexivity|]. cbn [map owner_values read_files owner_value]. fold (owner_values E pow_half [] d).
  destruct (read_oi_fits E n d 0) as [[o st]| |]; cbn [bind fst snd]; try reflexivity.
  destruct (negb (st =? 0)); [reflexivity|]. destruct o as [o|]; [|reflexivity]. cbn [bind]. rewrite IH.
  destruct (read_files E names d) as [[l|]| |]; reflexivity.
Qed.
Lemma merge_same out names d x : (2 <= List.length names)%nat -> oifits_merge E fmt (out :: names) d = Ok x ->
  exists s, run E fmt pow_half (merge_script out names) d = Ok (s, [if x_status x =? 0 then Nothing else Raised IOError])
    /\ s_disk s = x_disk x.
Proof.
  clear can_remove. intros L H. pose proof (run_means E fmt pow_half _ d (merge_script_keeps out names)) as R.
  assert (V : script_value E fmt pow_half (merge_script out names) [] d
              = Ok (x_disk x, [if x_status x =? 0 then Nothing else Raised IOError])).
  2: { rewrite V in R. apply bind_inv in R as ([s evs] & R1 & R2). cbn [fst snd] in R2. injection R2 as R2 R3. subst evs. exists s. auto. }
  unfold merge_script. cbn [script_value stmt_value].
  change (owner_value E pow_half (OMerge (map (fun n => OOpen (Some n)) names)) [] d) with
    (a <- owner_values E pow_half [] d (map (fun n => OOpen (Some n)) names) ;;
     match a with Exc e => Ok (Exc e) | Val vs => v <- merge_oi_fits_list vs ;; Ok (Val v) end).
  rewrite opens_read. destruct names as [|a [|b names]]; try (cbn in L; lia).
  unfold oifits_merge in H. destruct (read_files E (a :: b :: names) d) as [[ins|]| |]; cbn [bind] in H |- *; try discriminate.
  2: { injection H as <-. reflexivity. }
  destruct (merge_oi_fits_list ins) as [o| |]; cbn [bind] in H |- *; try discriminate.
  destruct (format_oi_fits_summary fmt o) as [t| |]; cbn [bind] in H; try discriminate.
  unfold writing in H. destruct (write_oi_fits E out o d 0) as [[d' st']| |]; cbn [bind fst snd] in H |- *; try discriminate.
  change EXIT_FAILURE with 1 in *. change EXIT_SUCCESS with 0 in *. injection H as <-. cbn [x_status x_disk].
  destruct (st' =? 0); reflexivity.
Qed.
End Programs.

Lemma filter_scripts opts : FitsModel.in_int (f_target_id (user_filter opts)) = true -> ~ uvrad_given opts ->
  exists settings, forall E fmt pow_half can_remove inName out d x,
    (String.length inName <= 1024)%nat -> (String.length out <= 1024)%nat ->
    filter_run E fmt pow_half can_remove false opts inName out d = Ok x ->
    exists s, run E fmt pow_half (filter_script settings inName out) d
              = Ok (s, quietly (S (List.length settings)) (if x_status x =? 0 then Nothing else Raised IOError))
      /\ s_disk s = x_disk x.
Proof.
  intros T U. exists (settings_of opts). intros E fmt pow_half can_remove inName out d x L1 L2 H.
  exact (filter_same E fmt pow_half can_remove opts inName out d x T U L1 L2 H).
Qed.
