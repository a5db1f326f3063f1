(** Concrete runs of oifits-filter in turn. *)
From Coq Require Import Lia.
From Verif Require Import Base Sample FloatModel FilterMain FilterModel FilterProofs MergeMain IOMain IOProofs ReadModel
  WriteModel ToolModel ToolSpec ToolMain ToolPrograms TwiceMain FilterThenMain PipeSpec PipeOptions PipeWhole.
Open Scope list_scope.
Open Scope string_scope.
Open Scope Z_scope.

Definition p_first : list filter_option := [Target_id 9].
Definition p_second : list filter_option := [Wave_min (fl 2050 1)].
Definition p_fits1 : oi_fits := Eval vm_compute in
  match apply_oi_filter sqrt64 t_a (user_filter p_first) with Ok (_, o) => o | _ => t_a end.

Lemma p_narrows_target z : narrows (Target_id z).
Proof. split; intros x; split; intros H; exact H. Qed.
Lemma p_narrows_wave : narrows (Wave_min (fl 2050 1)).
Proof.
  assert (W : forall x, SFltb x (f_wave_lo (user_filter [])) = true -> SFltb x (f_wave_lo (user_filter [Wave_min (fl 2050 1)])) = true).
  { assert (J : joint_range (f_wave_lo (user_filter [])) (f_wave_hi (user_filter []))
        (f_wave_lo (user_filter [Wave_min (fl 2050 1)])) (f_wave_hi (user_filter []))
        (f_wave_lo (user_filter [Wave_min (fl 2050 1)])) (f_wave_hi (user_filter [])))
      by (apply joint_narrower; [right; vm_compute; reflexivity|left; reflexivity]).
    intros x H. apply (proj1 (J x)). now left. }
  split; intros x; split; intros H; try exact H. exact (W x H).
Qed.
Lemma p_separate : separate p_first p_second.
Proof.
  split.
  - intros a b [<-|[]] [<-|[]] H. inversion H.
  - apply Forall_cons; [apply p_narrows_target|]. apply Forall_cons; [exact p_narrows_wave|apply Forall_nil].
  - intros z [H|[]]. discriminate.
  - right. right. split; [auto|reflexivity].
Qed.
Lemma p_case : settled e0 /\ reads e0 "a" t_disk t_a /\ channels_match t_a /\ storable_fits e0 t_a = true
  /\ separate p_first p_second
  /\ (exists t, In t (ot_targ (o_targets t_a)) /\ tg_target_id t = f_target_id (user_filter (p_first ++ p_second)))
  /\ apply_oi_filter sqrt64 t_a (user_filter p_first) = Ok (user_filter p_first, p_fits1)
  /\ o_inspolList p_fits1 = []
  /\ find_file "m" t_disk = None /\ find_file "n" t_disk = None /\ find_file "o" t_disk = None /\ "n" <> "m"
  /\ map (fun t => (tb_numrec t, tb_nwave t)) (o_visList t_a) = [(2, 3)]
  /\ map (fun t => (tb_numrec t, tb_nwave t)) (o_visList p_fits1) = [(1, 3)].
Proof.
  split; [exact e0_settled|]. split; [exact a_reads|]. split; [exact a_channels|]. split; [exact a_storable|].
  split; [exact p_separate|]. split; [eexists; split; [right; left; reflexivity|reflexivity]|].
  split; [vm_compute; reflexivity|]. split; [reflexivity|]. split; [reflexivity|]. split; [reflexivity|].
  split; [reflexivity|]. split; [discriminate|]. split; reflexivity.
Qed.

(** ** Why the conditions are needed *)

(** the two halves of a double, on a little-endian machine *)
Definition bits64 (x : f64) : Z :=
  match x with
  | S754_zero s => if s then 2 ^ 63 else 0
  | S754_infinity s => (if s then 2 ^ 63 else 0) + 2047 * 2 ^ 52
  | S754_nan => 2047 * 2 ^ 52 + 2 ^ 51
  | S754_finite s m e => (if s then 2 ^ 63 else 0)
      + (if Z.pos m <? 2 ^ 52 then Z.pos m else (e + 1075) * 2 ^ 52 + (Z.pos m - 2 ^ 52))
  end.
Definition float_of_bits (n : Z) : f32 :=
  let s := 2 ^ 31 <=? n in
  let ex := n / 2 ^ 23 mod 256 in
  let fr := n mod 2 ^ 23 in
  if ex =? 255 then if fr =? 0 then S754_infinity s else S754_nan
  else match (if ex =? 0 then fr else fr + 2 ^ 23) with
       | Zpos m => S754_finite s m (Z.max ex 1 - 150)
       | _ => S754_zero s
       end.
Definition pun (x : f64) : cplx := (float_of_bits (bits64 x mod 2 ^ 32), float_of_bits (bits64 x / 2 ^ 32)).
Lemma pun_one : pun (fl 1 1) = (S754_zero false, fl32 15 8).
Proof. vm_compute. reflexivity. Qed.
Definition e_pun : cfitsio :=
  mk_cfitsio (fun x => Some x) (fun _ => None) (fun _ => None) (fun _ => "?") "2026-11-16"
    (fun _ => (KStr "sum", KInt 7)) 77 "junk" f64_zero (S754_zero false) true pun.
Definition p_disk : disk := Eval vm_compute in disk_of (write_oi_fits e_pun "a" s_fits [] 0).

(** polarisation data are damaged by the intermediate file *)
Lemma pipe_inspol fmt : exists opts1 opts2 x1 x2 x3, settled e_pun /\ separate opts1 opts2
  /\ filter_run e_pun fmt sqrt64 (fun _ => true) false opts1 "a" "m" p_disk = Ok x1 /\ x_status x1 = 0
  /\ filter_run e_pun fmt sqrt64 (fun _ => true) false opts2 "m" "n" (x_disk x1) = Ok x2 /\ x_status x2 = 0
  /\ filter_run e_pun fmt sqrt64 (fun _ => true) false (opts1 ++ opts2) "a" "o" p_disk = Ok x3 /\ x_status x3 = 0
  /\ find_file "n" (x_disk x2) <> find_file "o" (x_disk x3).
Proof.
  exists [Target_id 4], []. eexists _, _, _. split; [intros x y H; reflexivity|]. split.
  { split; [intros a b _ []|repeat constructor; try (intros H; exact H)|intros z [H|[]]; discriminate|right; right; split; auto]. }
  split; [vm_compute; reflexivity|]. split; [reflexivity|]. split; [vm_compute; reflexivity|]. split; [reflexivity|].
  split; [vm_compute; reflexivity|]. split; [reflexivity|]. vm_compute. intros H. discriminate H.
Qed.
(** the last of two options for the same thing counts *)
Lemma pipe_repeated fmt : exists opts1 opts2 x1 x2 x3,
  Forall narrows (opts1 ++ opts2) /\ (forall z, ~ In (Accept_flagged z) opts1)
  /\ agree_t3 (user_filter opts1) (user_filter opts2)
  /\ filter_run e0 fmt sqrt64 (fun _ => true) false opts1 "a" "m" t_disk = Ok x1 /\ x_status x1 = 0
  /\ filter_run e0 fmt sqrt64 (fun _ => true) false opts2 "m" "n" (x_disk x1) = Ok x2 /\ x_status x2 = 0
  /\ filter_run e0 fmt sqrt64 (fun _ => true) false (opts1 ++ opts2) "a" "o" t_disk = Ok x3 /\ x_status x3 = 0
  /\ find_file "n" (x_disk x2) <> find_file "o" (x_disk x3).
Proof.
  exists [Accept_vis 0; Target_id 9], [Accept_vis 1]. eexists _, _, _. split.
  { repeat constructor; try (intros H; exact H). }
  split; [intros z [H|[H|[]]]; discriminate|]. split; [right; right; split; auto|].
  split; [vm_compute; reflexivity|]. split; [reflexivity|]. split; [vm_compute; reflexivity|]. split; [reflexivity|].
  split; [vm_compute; reflexivity|]. split; [reflexivity|]. vm_compute. intros H. discriminate H.
Qed.

(** ** A copy *)

Definition p_plain : oi_fits := set_inspols [] s_fits.
Definition p_copied : disk := Eval vm_compute in disk_of (write_oi_fits e0 "a" p_plain [] 0).
Lemma p_plain_consistent : consistent p_plain.
Proof.
  destruct s_fits_consistent as [H1 H2 H3 H4 H5 H6 H7 H8 H9 H10 H11 H12].
  split; try assumption; try (intros t []); exact eq_refl.
Qed.
Lemma p_plain_within : within sqrt64 init_oi_filter p_plain.
Proof. destruct s_fits_within as [H1 H2 H3 H4 H5 H6]. split; try assumption. intros t r []. Qed.
Lemma p_plain_case : consistent p_plain /\ storable_fits e0 p_plain = true /\ o_inspolList p_plain = []
  /\ within sqrt64 init_oi_filter p_plain
  /\ (forall t, In t (o_arrayList p_plain) -> uses_arrname p_plain (ar_arrname t))
  /\ (forall t, In t (o_wavelengthList p_plain) -> uses_insname p_plain (wv_insname t))
  /\ (forall t, In t (o_corrList p_plain) -> uses_corrname p_plain (co_corrname t))
  /\ write_oi_fits e0 "a" p_plain [] 0 = Ok (p_copied, 0) /\ find_file "b" p_copied = None.
Proof.
  split; [exact p_plain_consistent|]. split; [vm_compute; reflexivity|]. split; [reflexivity|].
  split; [exact p_plain_within|].
  split; [|split; [|split; [|split; [vm_compute; reflexivity|reflexivity]]]].
  - intros t [<-|[<-|[]]]; (split; [discriminate|]); [left|right; left]; eexists; (split; [left; reflexivity|reflexivity]).
  - intros t [<-|[<-|[]]]; [left|right; left]; eexists; (split; [left; reflexivity|reflexivity]).
  - intros t [<-|[]]. split; [discriminate|]. left. eexists. split; [left; reflexivity|reflexivity].
Qed.
