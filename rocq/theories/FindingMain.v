(** Cases in which the code does something other than one would like. *)
From Coq Require Import Lia.
From Verif Require Import Base Sample FloatModel Types FileModel FileSpec FilterMain MergeModel MergeSpec MergeMain IOMain IOClaims IOProofs ReadModel
  WriteModel FitsModel ToolModel ToolSpec ToolMerge ToolProofs ToolPrograms ToolMain.
Open Scope string_scope.
Open Scope list_scope.

(** ** Reading: an OI_VIS with CORRNAME but without the columns that go with it *)

Definition x_vis : hdu :=
  mk_hdu BINARY_TBL (data_keys "OI_VIS" ++ [("CORRNAME", KStr "C")])
    ([x_col "TARGET_ID" Short 1 [VInt 1]]
     ++ map (fun c => x_col c Double 1 [VDbl (IOMain.num 5)]) ["TIME"; "MJD"; "INT_TIME"; "UCOORD"; "VCOORD"]
     ++ map (fun c => x_col c Double 2 [VDbl (IOMain.num 1); VDbl (IOMain.num 2)]) ["VISAMP"; "VISAMPERR"; "VISPHI"; "VISPHIERR"]
     ++ [x_col "STA_INDEX" Short 2 [VInt 4; VInt 5]; x_col "FLAG" Logical 2 [VLog false; VLog true]])%list 1.
Lemma vis_accepted E :
  Forall (lacks_column x_vis) ["CORRINDX_VISAMP"; "CORRINDX_VISPHI"]
  /\ exists o, read_oi_fits E "f" [("f", x_file ++ [x_vis])%list] 0 = Ok (Some o, 0%Z)
       /\ map (fun t => (tb_corrname t, map (fun r => (vr_corrindx_visamp r, vr_corrindx_visphi r)) (tb_record t)))
            (o_visList o) = [("C", [(cf_junk_int E, cf_junk_int E)])].
Proof.
  split; [repeat constructor; unfold lacks_column; vm_compute; discriminate|].
  apply (seen_some (fun o => map (fun t => (tb_corrname t, map (fun r => (vr_corrindx_visamp r, vr_corrindx_visphi r)) (tb_record t)))
            (o_visList o))).
  vm_compute. reflexivity.
Qed.

(** ** Merging: wavelengths that are not numbers *)

(** One target and one OI_VIS2 of two channels *)
Definition one_instrument (ins : string) (w : list f32) : oi_fits :=
  let wave := mk_wavelength 2 ins 2 w [fl32 1 100000000; fl32 1 100000000] in
  mk_fits s_header (mk_oi_target 2 1 [s_target 1 "alpha"] false) 1 1 0 0 0 1 0 0 [s_array1] [wave] [] [] []
    [mk_dtab 2 "2019-12-30" "VLTI" ins "" tt 1 2 [s_vis2_record 1 58847 [false; false]]] [] []
    [("VLTI", Some s_array1)] [(ins, Some wave)] [].
Definition no_numbers : oi_fits := one_instrument "BROKEN" [S754_nan; S754_nan].
Definition numbers : oi_fits := one_instrument "PIONIER" [fl32 16 10000000; fl32 17 10000000].
Lemma nan_wavelengths : exists out,
  Forall (fun d => wf_fits d = true) [no_numbers; numbers] /\ Forall names_fit [no_numbers; numbers]
  /\ merge_oi_fits_list [no_numbers; numbers] = Ok out /\ distinct_names out
  /\ map (fun w => (wv_insname w, wv_eff_wave w)) (o_wavelengthList numbers)
     = [("PIONIER", [fl32 16 10000000; fl32 17 10000000])]
  /\ map (fun w => (wv_insname w, wv_eff_wave w)) (o_wavelengthList out) = [("BROKEN", [S754_nan; S754_nan])]
  /\ map tb_insname (o_vis2List out) = ["BROKEN"; "BROKEN"].
Proof.
  destruct (result_some (fun o => (map (fun w => (wv_insname w, wv_eff_wave w)) (o_wavelengthList o), map tb_insname (o_vis2List o),
      (map ar_arrname (o_arrayList o), map wv_insname (o_wavelengthList o), map co_corrname (o_corrList o))))
    (merge_oi_fits_list [no_numbers; numbers]) ([("BROKEN", [S754_nan; S754_nan])], ["BROKEN"; "BROKEN"], (["VLTI"], ["BROKEN"], [])))
    as (o & E & F); [vm_compute; reflexivity|].
  injection F as F1 F2 F3 F4 F5. exists o. split; [repeat constructor|].
  split; [all_of; (split; [|split]); cbn; all_of; reflexivity|]. split; [exact E|].
  split; [unfold distinct_names; rewrite F3, F4, F5; repeat constructor; intros []|]. split; [reflexivity|]. auto.
Qed.

(** ** oifits-merge: names too long for a header *)

Definition long_name : string := "A1234567890123456789012345678901234567890123456789012345678901234".
Definition l_file (z : Z) : oi_fits := one_instrument long_name [fl32 z 10000000; fl32 (z + 1) 10000000].
Definition l_disk : disk := Eval vm_compute in
  disk_of (write_oi_fits e0 "c" (l_file 40)
    (disk_of (write_oi_fits e0 "b" (l_file 30) (disk_of (write_oi_fits e0 "a" (l_file 20) [] 0)) 0)) 0).
Definition l_a : oi_fits := Eval vm_compute in fits_of (read_oi_fits e0 "a" l_disk 0).
Definition l_b : oi_fits := Eval vm_compute in fits_of (read_oi_fits e0 "b" l_disk 0).
Definition l_c : oi_fits := Eval vm_compute in fits_of (read_oi_fits e0 "c" l_disk 0).
Definition l_ins : list oi_fits := [l_a; l_b; l_c].
Lemma l_reads : Forall2 (fun n o => reads e0 n l_disk o) ["a"; "b"; "c"] l_ins.
Proof. repeat constructor; vm_compute; reflexivity. Qed.
Lemma l_storable : Forall (fun o => storable_fits e0 o = true) l_ins.
Proof. repeat constructor; vm_compute; reflexivity. Qed.
Lemma l_targets : targets_match l_ins.
Proof.
  split; [|vm_compute; lia]. repeat apply Forall_cons; try apply Forall_nil; split;
    try (repeat split; cbn; all_of; cbn; all_of; cbn; auto);
    exists (Some (2019, 12, 31)%Z); (split; [lia|]); (split; [reflexivity|]); exists ""; reflexivity.
Qed.
Section Run.
Variable fmt : string -> f64 -> string.
Definition l_run : outcome := run_of (oifits_merge e0 fmt ["o"; "a"; "b"; "c"] l_disk).
Definition waves_seen (o : oi_fits) : list (option (list f32)) :=
  map (fun t => option_map wv_eff_wave (oi_fits_lookup_wavelength o (tb_insname t))) (o_vis2List o).
Definition two_waves (z : Z) : option (list f32) := Some [fl32 z 10000000; fl32 (z + 1) 10000000].
Lemma long_names : exists names d ins o x o', Forall2 (fun n o => reads e0 n d o) names ins
  /\ targets_match ins /\ Forall (fun o => storable_fits e0 o = true) ins /\ find_file "o" d = None
  /\ merge_oi_fits_list ins = Ok o /\ distinct_names o
  /\ oifits_merge e0 fmt ("o" :: names) d = Ok x /\ x_status x = 0%Z /\ reads e0 "o" (x_disk x) o'
  /\ waves_seen o = [two_waves 20; two_waves 30; two_waves 40]
  /\ waves_seen o' = [two_waves 20; two_waves 30; two_waves 30].
Proof.
  exists ["a"; "b"; "c"], l_disk, l_ins.
  destruct (result_some (fun o => (waves_seen o,
      (map ar_arrname (o_arrayList o), map wv_insname (o_wavelengthList o), map co_corrname (o_corrList o))))
    (merge_oi_fits_list l_ins) ([two_waves 20; two_waves 30; two_waves 40],
      (["VLTI"], [long_name; (long_name ++ "_002")%string; (long_name ++ "_003")%string], []))) as (o & E & F); [vm_compute; reflexivity|].
  apply pair_equal_spec in F as [F1 F]. apply pair_equal_spec in F as [F F4]. apply pair_equal_spec in F as [F2 F3].
  destruct (seen_some waves_seen (read_oi_fits e0 "o" (x_disk l_run) 0) [two_waves 20; two_waves 30; two_waves 30] 0%Z)
    as (o' & E' & F'); [vm_compute; reflexivity|].
  exists o, l_run, o'. split; [exact l_reads|]. split; [exact l_targets|]. split; [exact l_storable|].
  split; [reflexivity|]. split; [exact E|].
  split. { unfold distinct_names. rewrite F2, F3, F4. split; [repeat constructor; intros []|]. split; [|constructor].
    repeat constructor; cbn; intuition discriminate. }
  split; [vm_compute; reflexivity|]. split; [vm_compute; reflexivity|]. split; [exact E'|].
  split; [exact F1|exact F'].
Qed.
End Run.
