(** Property C66: demo_write of oitable-demo.c, from a text to a file and back.
    [N] stands for how the C library reads floating point numbers, [E] for cfitsio and for the
    contents of uninitialised storage. *)
From Verif Require Import FileModel ReadModel IOSpec IOClaims IOMain DemoSpec ScanModel ScanSpec ScanData ScanFile ScanWhole ScanMain.
Open Scope string_scope.
Open Scope list_scope.
Open Scope Z_scope.

(** ** A text in the format of the program *)

(** every table is read as it was meant, and to the end of the text *)
Theorem C66_scan : forall N junk m s, plain junk m -> text_of N m s -> scan_all N junk s = Ok (m, EmptyString).
Proof. exact scan_text. Qed.
Print Assumptions C66_scan.
Example C66_scan_case : plain 77 k_one /\ text_of n0 k_one (text_for k_one).
Proof. split; [exact k_plain|exact k_text]. Qed.
(** AMPORDER or PHIORDER may be there without the types, in a file but not in a text *)
Theorem C66_orders_refuted : exists m1 m2,
  storable_demo e0 m1 = true /\ vx_amporder (tb_x (dm_vis m1)) = 3
  /\ text_of n0 m1 (text_for m1) /\ scan_all n0 77 (text_for m1) = UB
  /\ storable_demo e0 m2 = true /\ vx_phiorder (tb_x (dm_vis m2)) = 2
  /\ text_of n0 m2 (text_for m2) /\ scan_all n0 77 (text_for m2) = UB.
Proof. exact orders_undefined. Qed.
Print Assumptions C66_orders_refuted.
(** the fovtype of a station has room for 6 characters, and is read without a limit *)
Theorem C66_fovtype_refuted : exists m,
  text_of n0 m (text_for m) /\ map (fun e => strlen (el_fovtype e)) (ar_elem (dm_array m)) = [4; 8]
  /\ scan_all n0 77 (text_for m) = UB.
Proof. exact fovtype_undefined. Qed.
Print Assumptions C66_fovtype_refuted.

(** ** Its file *)

Theorem C66_written : forall E N text out m s texts d, line text -> line out -> find_text text texts = Some s ->
  plain (cf_junk_int E) m -> text_of N m s -> storable_demo E m = true -> forall rest, find_file out d = None ->
  exists d' o,
    demo_write N E (typing [text; out] rest) texts d = Ok (None, d', rest)
    /\ (forall other, other <> out -> find_file other d' = find_file other d)
    /\ read_oi_fits E out d' 0 = Ok (Some o, 0) /\ keeps_demo E m o.
Proof. exact demo_written_file. Qed.
Print Assumptions C66_written.
(** the program from end to end: the file just written is read, and its tables are reported *)
Theorem C66_main : forall E N text out m s texts d, line text -> line out -> find_text text texts = Some s ->
  plain (cf_junk_int E) m -> text_of N m s -> storable_demo E m = true -> forall rest, find_file out d = None -> all_refer m ->
  exists d' o,
    demo_main N E (typing [text; out; out] rest) texts d
    = Ok (printed out [dm_vis m] [dm_vis2 m] [dm_t3 m] [dm_flux m] [dm_inspol m], 0, d')
    /\ (forall other, other <> out -> find_file other d' = find_file other d)
    /\ read_oi_fits E out d' 0 = Ok (Some o, 0) /\ keeps_demo E m o.
Proof. exact demo_whole. Qed.
Print Assumptions C66_main.
Example C66_main_case : line "one.txt" /\ line "one.fits" /\ find_text "one.txt" k_texts = Some (text_for k_one)
  /\ plain (cf_junk_int e0) k_one /\ text_of n0 k_one (text_for k_one) /\ storable_demo e0 k_one = true
  /\ find_file "one.fits" [] = None /\ all_refer k_one.
Proof.
  repeat (split; [first [split; [reflexivity|discriminate]|reflexivity|exact k_plain|exact k_text|exact k_storable]|]).
  exact k_refers.
Qed.
(** a file that exists is not touched *)
Theorem C66_exists : forall E N text out m s texts d, line text -> line out -> find_text text texts = Some s ->
  plain (cf_junk_int E) m -> text_of N m s -> storable_demo E m = true -> forall rest hdus, find_file out d = Some hdus ->
  demo_main N E (typing [text; out] rest) texts d = Ok ([], 1, d).
Proof. exact demo_exists. Qed.
Print Assumptions C66_exists.

(** ** Any text and any input *)

Theorem C66_files : forall E N input texts d lines st d', demo_main N E input texts d = Ok (lines, st, d') ->
  forall name, find_file name d <> None -> find_file name d' = find_file name d.
Proof. exact demo_main_leaves. Qed.
Print Assumptions C66_files.
(** whatever could be read has the shape of a dataset *)
Theorem C66_shape : forall N junk s m s', scan_all N junk s = Ok (m, s') -> shaped m.
Proof. exact scan_shape. Qed.
Print Assumptions C66_shape.
(** and is then written; or, if an index or a keyword cannot be, nothing is left; or, with
    10000 channels or more, the program is aborted *)
Theorem C66_ends : forall N E text out rest texts d s m s', line text -> line out -> find_text text texts = Some s ->
  scan_all N (cf_junk_int E) s = Ok (m, s') -> find_file out d = None ->
  let w := demo_write N E (typing [text; out] rest) texts d in
  let n := wv_nwave (dm_wave m) in
  (w = Abort <-> writable_target (dm_targets m) = true /\ 9999 < n)
  /\ (w = Ok (Some 1, d, rest) <-> writable_demo E m = false /\ (n <= 9999 \/ writable_target (dm_targets m) = false))
  /\ ((exists hdus, w = Ok (None, (out, hdus) :: d, rest)) <-> writable_demo E m = true /\ n <= 9999).
Proof. exact demo_ends. Qed.
Print Assumptions C66_ends.
Example C66_ends_case :
  (scan_all n0 (cf_junk_int e0) (text_for k_one) = Ok (k_one, EmptyString)
   /\ writable_demo e0 k_one = true /\ wv_nwave (dm_wave k_one) <= 9999)
  /\ (scan_all n0 (cf_junk_int e0) (text_for k_far) = Ok (k_far, EmptyString)
      /\ writable_demo e0 k_far = false /\ wv_nwave (dm_wave k_far) <= 9999).
Proof. split; (split; [first [exact k_one_scans|exact k_far_scans]|]); [exact k_one_writes|exact k_far_fails]. Qed.
(** AMPTYP is never "correlated flux", and AMPUNIT never set *)
Theorem C66_no_unit : forall N junk s m s', scan_all N junk s = Ok (m, s') -> vx_ampunit (tb_x (dm_vis m)) = EmptyString.
Proof. exact scan_no_unit. Qed.
Print Assumptions C66_no_unit.
(** a text that cannot be opened is read all the same *)
Theorem C66_no_text : forall E N input texts d name, types input name -> find_text name texts = None ->
  demo_main N E input texts d = UB.
Proof. exact demo_no_text. Qed.
Print Assumptions C66_no_text.
Example C66_no_text_case : types (typing ["two.txt"] "") "two.txt" /\ find_text "two.txt" k_texts = None.
Proof. split; [|reflexivity]. apply typing_types. split; [reflexivity|discriminate]. Qed.
