(** More cases in which the code does something other than one would like. *)
From Coq Require Import Lia.
From Verif Require Import Base Sample FloatModel Types FileModel FileSpec FilterMain MergeModel MergeSpec MergeMain
  FitsModel ReadModel WriteModel IOMain IOClaims IOProofs FindingMain LayoutMain.
Open Scope string_scope.
Open Scope list_scope.
Open Scope Z_scope.

(** ** Merging: which arrays match *)

(** One target, one OI_VIS2 and the array *)
Definition one_array (h : oi_header) (a : oi_array) : oi_fits :=
  mk_fits h (mk_oi_target 2 1 [s_target 1 "alpha"] false) 1 1 0 0 0 1 0 0 [a] [s_wave2] [] [] []
    [mk_dtab 2 "2019-12-30" (ar_arrname a) "PIONIER" "" tt 1 2 [s_vis2_record 1 58847 [false; false]]] [] []
    [(ar_arrname a, Some a)] [("PIONIER", Some s_wave2)] [].
Definition array_at (n frame : string) (x : f64) : oi_array :=
  mk_array 2 n frame x (fl 2 1) (fl 3 1) 2 [s_element "E1" 1 40; s_element "W2" 5 50].
Definition no_array (n : string) : oi_array := mk_array 2 n "GEOCENTRIC" (fl 1 1) (fl 2 1) (fl 3 1) 0 [].

Definition seen_arrays (o : oi_fits) :=
  (map (fun a => (ar_arrname a, ar_frame a, ar_arrayx a)) (o_arrayList o), map tb_arrname (o_vis2List o)).
Lemma distinct_of out a w c : map ar_arrname (o_arrayList out) = a -> map wv_insname (o_wavelengthList out) = w ->
  map co_corrname (o_corrList out) = c -> NoDup a -> NoDup w -> NoDup c -> distinct_names out.
Proof. intros <- <- <-. repeat split; assumption. Qed.
Lemma nan_array : let a := one_array s_header (array_at "BROKEN" "GEOCENTRIC" S754_nan) in
  let b := one_array s_header (array_at "CHARA" "GEOCENTRIC" (fl 7 1)) in
  exists out, Forall (fun d => wf_fits d = true) [a; b] /\ Forall names_fit [a; b]
    /\ merge_oi_fits_list [a; b] = Ok out /\ distinct_names out
    /\ seen_arrays b = ([("CHARA", "GEOCENTRIC", fl 7 1)], ["CHARA"])
    /\ seen_arrays out = ([("BROKEN", "GEOCENTRIC", S754_nan)], ["BROKEN"; "BROKEN"]).
Proof.
  intros a b.
  destruct (result_some (fun o => (seen_arrays o, names_of o)) (merge_oi_fits_list [a; b])
    (([("BROKEN", "GEOCENTRIC", S754_nan)], ["BROKEN"; "BROKEN"]), (["BROKEN"], ["PIONIER"], []))) as (o & E & F);
    [vm_compute; reflexivity|].
  apply pair_equal_spec in F as [F F2]. unfold names_of in F2. injection F2 as F2 F3 F4.
  exists o. split; [repeat constructor|]. split; [all_of; (split; [|split]); cbn; all_of; reflexivity|].
  split; [exact E|]. split; [|auto].
  eapply distinct_of; [exact F2|exact F3|exact F4| | |]; repeat constructor; intros [].
Qed.
Lemma frame_ignored : let a := one_array s_header (array_at "SKY" "SKY" (fl 7 1)) in
  let b := one_array s_header (array_at "CHARA" "GEOCENTRIC" (fl 7 1)) in
  exists out, Forall (fun d => wf_fits d = true) [a; b] /\ Forall names_fit [a; b]
    /\ merge_oi_fits_list [a; b] = Ok out /\ distinct_names out
    /\ seen_arrays b = ([("CHARA", "GEOCENTRIC", fl 7 1)], ["CHARA"])
    /\ seen_arrays out = ([("SKY", "SKY", fl 7 1)], ["SKY"; "SKY"]).
Proof.
  intros a b.
  destruct (result_some (fun o => (seen_arrays o, names_of o)) (merge_oi_fits_list [a; b])
    (([("SKY", "SKY", fl 7 1)], ["SKY"; "SKY"]), (["SKY"], ["PIONIER"], []))) as (o & E & F);
    [vm_compute; reflexivity|].
  apply pair_equal_spec in F as [F F2]. unfold names_of in F2. injection F2 as F2 F3 F4.
  exists o. split; [repeat constructor|]. split; [all_of; (split; [|split]); cbn; all_of; reflexivity|].
  split; [exact E|]. split; [|auto].
  eapply distinct_of; [exact F2|exact F3|exact F4| | |]; repeat constructor; intros [].
Qed.
(** An array without stations takes any array at its place; alone it cannot be copied. *)
Lemma no_stations : let a := one_array s_header (array_at "SKY" "SKY" (fl 1 1)) in
  let b := one_array s_header (no_array "CHARA") in
  Forall (fun d => wf_fits d = true) [a; b] /\ merge_oi_fits_list [b] = Abort /\ merge_oi_fits_list [b; a] = Abort
  /\ exists out, merge_oi_fits_list [a; b] = Ok out
       /\ seen_arrays b = ([("CHARA", "GEOCENTRIC", fl 1 1)], ["CHARA"])
       /\ seen_arrays out = ([("SKY", "SKY", fl 1 1)], ["SKY"; "SKY"]).
Proof.
  intros a b. split; [repeat constructor|]. split; [vm_compute; reflexivity|]. split; [vm_compute; reflexivity|].
  destruct (result_some seen_arrays (merge_oi_fits_list [a; b]) ([("SKY", "SKY", fl 1 1)], ["SKY"; "SKY"]))
    as (o & E & F); [vm_compute; reflexivity|].
  exists o. auto.
Qed.

(** ** Reading: tables of revision 0 *)

Definition keys_of (name : string) (r : Z) : list (string * kval) :=
  [("EXTNAME", KStr name); ("OI_REVN", KInt r); ("DATE-OBS", KStr "2020-01-01"); ("INSNAME", KStr "I"); ("CORRNAME", KStr "C")].
Definition with_keys (k : list (string * kval)) (h : hdu) : hdu := mk_hdu BINARY_TBL k (hd_cols h) (hd_nrows h).
Definition x_old : list hdu :=
  [x_primary; x_target; x_wave; with_keys (keys_of "OI_VIS" 0) x_vis; with_keys (keys_of "OI_VIS2" 0) (x_vis2 1)].
Definition seen_corr (o : oi_fits) :=
  (map (fun t => (tb_revision t, tb_corrname t)) (o_visList o), map (fun t => (tb_revision t, tb_corrname t)) (o_vis2List o)).
Lemma revision_zero E : exists o, read_oi_fits E "f" [("f", x_old)] 0 = Ok (Some o, 0)
  /\ seen_corr o = ([(0, "C")], [(0, "")]).
Proof. apply (seen_some seen_corr). vm_compute. reflexivity. Qed.

(** ** Reading: a column name that occurs twice *)

Definition twice (name : string) (h : hdu) : hdu :=
  mk_hdu (hd_type h) (hd_keys h) (hd_cols h ++ filter (fun c => str_eqb (c_name c) name) (hd_cols h)) (hd_nrows h).
Lemma column_twice E :
  read_oi_fits E "f" [("f", [x_primary; twice "TARGET" x_target; x_wave; x_vis2 2])] 0 = UB
  /\ (exists o, read_oi_fits E "f" [("f", [x_primary; x_target; x_wave; x_vis2 2])] 0 = Ok (Some o, 0)).
Proof.
  split; [vm_compute; reflexivity|].
  destruct (seen_some (fun _ => tt) (read_oi_fits E "f" [("f", [x_primary; x_target; x_wave; x_vis2 2])] 0) tt 0)
    as (o & H & _); [vm_compute; reflexivity|eauto].
Qed.
(** a column of numbers that occurs twice does no harm but to its table *)
Lemma number_twice E :
  exists o, read_oi_fits E "f" [("f", [x_primary; x_target; x_wave; twice "MJD" (x_vis2 2); x_vis2 3])] 0 = Ok (Some o, 0)
    /\ map tb_numrec (o_vis2List o) = [3].
Proof. apply (seen_some (fun o => map tb_numrec (o_vis2List o))). vm_compute. reflexivity. Qed.

(** ** Writing: the order of the optional columns of OI_VIS *)

Definition picked (r : res (disk * Z)) (k : nat) : option (string * Z * option (string * list string * Z)) :=
  match r with Ok ([(n, hdus)], st) => Some (n, st, option_map shape (nth_error hdus k)) | _ => None end.
Lemma picked_inv r k n st v : picked r k = Some (n, st, Some v) ->
  exists hdus h, r = Ok ([(n, hdus)], st) /\ In h hdus /\ shape h = v.
Proof.
  destruct r as [[[|[m hdus] [|x l]] st']| |]; cbn; try discriminate.
  destruct (nth_error hdus k) as [h|] eqn:N; cbn; [|discriminate]. intros [= -> -> <-].
  exists hdus, h. split; [reflexivity|]. split; [eapply nth_error_In, N|reflexivity].
Qed.
Lemma column_order : exists d hdus h rows, wf_fits d = true
  /\ write_oi_fits e0 "f" d [] 0 = Ok ([("f", hdus)], 0) /\ In h hdus
  /\ shape h = ("OI_VIS", ["TARGET_ID"; "TIME"; "MJD"; "INT_TIME"; "VISAMP"; "VISAMPERR"; "CORRINDX_VISAMP"; "VISPHI";
          "RVIS"; "RVISERR"; "CORRINDX_RVIS"; "IVIS"; "IVISERR"; "CORRINDX_IVIS"; "VISPHIERR";
          "CORRINDX_VISPHI"; "VISREFMAP"; "UCOORD"; "VCOORD"; "STA_INDEX"; "FLAG"], rows).
Proof.
  destruct (picked_inv (write_oi_fits e0 "f" s_fits [] 0) 8 "f" 0
    ("OI_VIS", ["TARGET_ID"; "TIME"; "MJD"; "INT_TIME"; "VISAMP"; "VISAMPERR"; "CORRINDX_VISAMP"; "VISPHI";
          "RVIS"; "RVISERR"; "CORRINDX_RVIS"; "IVIS"; "IVISERR"; "CORRINDX_IVIS"; "VISPHIERR";
          "CORRINDX_VISPHI"; "VISREFMAP"; "UCOORD"; "VCOORD"; "STA_INDEX"; "FLAG"], 2)) as (hdus & h & W & N & E).
  { vm_compute. reflexivity. }
  exists s_fits, hdus, h, 2. split; [reflexivity|]. split; [exact W|]. split; [exact N|exact E].
Qed.
