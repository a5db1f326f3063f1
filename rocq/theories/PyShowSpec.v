(** Specification: what a Python script sees of a dataset.  Written member by member from the class
    definitions of oifits.i and the structs of exchange.h, without the functions of PyModel. *)
From Verif Require Export Types PyModel.
Open Scope list_scope.
Open Scope Z_scope.

(** Item [i] of a Python list: -1 is the last *)
Inductive at_position {A} (l : list A) : Z -> A -> Prop :=
| from_start before a after : l = before ++ a :: after -> at_position l (Z.of_nat (length before)) a
| from_end before a after : l = before ++ a :: after -> at_position l (- Z.of_nat (length after) - 1) a.
(** Row [j] of an array in C *)
Definition at_row {A} (l : list A) (j : Z) (r : A) : Prop :=
  exists before after, l = before ++ r :: after /\ j = Z.of_nat (length before).

(** [o.<k>List[i].<a>] is [v] *)
Inductive table_shows (o : oi_fits) (i : Z) : kind -> attr -> pyval -> Prop :=
| ar_n t : at_position (o_arrayList o) i t -> table_shows o i KArray Nelement (PyInt (ar_nelement t))
| ar_a t : at_position (o_arrayList o) i t -> table_shows o i KArray Arrname_ (PyStr (ar_arrname t))
| wv_n t : at_position (o_wavelengthList o) i t -> table_shows o i KWavelength Nwave (PyInt (wv_nwave t))
| wv_i t : at_position (o_wavelengthList o) i t -> table_shows o i KWavelength Insname_ (PyStr (wv_insname t))
| is_n t : at_position (o_inspolList o) i t -> table_shows o i KInspol Numrec (PyInt (is_numrec t))
| is_w t : at_position (o_inspolList o) i t -> table_shows o i KInspol Nwave (PyInt (is_nwave t))
| is_a t : at_position (o_inspolList o) i t -> table_shows o i KInspol Arrname_ (PyStr (is_arrname t))
| vis_n t : at_position (o_visList o) i t -> table_shows o i KVis Numrec (PyInt (tb_numrec t))
| vis_w t : at_position (o_visList o) i t -> table_shows o i KVis Nwave (PyInt (tb_nwave t))
| vis_a t : at_position (o_visList o) i t -> table_shows o i KVis Arrname_ (PyStr (tb_arrname t))
| vis_i t : at_position (o_visList o) i t -> table_shows o i KVis Insname_ (PyStr (tb_insname t))
| vis2_n t : at_position (o_vis2List o) i t -> table_shows o i KVis2 Numrec (PyInt (tb_numrec t))
| vis2_w t : at_position (o_vis2List o) i t -> table_shows o i KVis2 Nwave (PyInt (tb_nwave t))
| vis2_a t : at_position (o_vis2List o) i t -> table_shows o i KVis2 Arrname_ (PyStr (tb_arrname t))
| vis2_i t : at_position (o_vis2List o) i t -> table_shows o i KVis2 Insname_ (PyStr (tb_insname t))
| t3_n t : at_position (o_t3List o) i t -> table_shows o i KT3 Numrec (PyInt (tb_numrec t))
| t3_w t : at_position (o_t3List o) i t -> table_shows o i KT3 Nwave (PyInt (tb_nwave t))
| t3_a t : at_position (o_t3List o) i t -> table_shows o i KT3 Arrname_ (PyStr (tb_arrname t))
| t3_i t : at_position (o_t3List o) i t -> table_shows o i KT3 Insname_ (PyStr (tb_insname t))
| flux_n t : at_position (o_fluxList o) i t -> table_shows o i KFlux Numrec (PyInt (tb_numrec t))
| flux_w t : at_position (o_fluxList o) i t -> table_shows o i KFlux Nwave (PyInt (tb_nwave t))
| flux_a t : at_position (o_fluxList o) i t -> table_shows o i KFlux Arrname_ (PyStr (tb_arrname t))
| flux_i t : at_position (o_fluxList o) i t -> table_shows o i KFlux Insname_ (PyStr (tb_insname t)).

(** [o.<k>List[i].record[j].<a>] is [v] ([elem] for OI_ARRAY) *)
Inductive row_shows (o : oi_fits) (i j : Z) : kind -> attr -> pyval -> Prop :=
| el_s t r : at_position (o_arrayList o) i t -> at_row (ar_elem t) j r ->
    row_shows o i j KArray Sta_index (PyInt (el_sta_index r))
| el_n t r : at_position (o_arrayList o) i t -> at_row (ar_elem t) j r ->
    row_shows o i j KArray Name (PyStr (el_sta_name r))
| ip_t t r : at_position (o_inspolList o) i t -> at_row (is_record t) j r ->
    row_shows o i j KInspol Target_id_ (PyInt (ip_target_id r))
| ip_i t r : at_position (o_inspolList o) i t -> at_row (is_record t) j r ->
    row_shows o i j KInspol Insname_ (PyStr (ip_insname r))
| vr_t t r : at_position (o_visList o) i t -> at_row (tb_record t) j r ->
    row_shows o i j KVis Target_id_ (PyInt (vr_target_id r))
| vr_m t r : at_position (o_visList o) i t -> at_row (tb_record t) j r ->
    row_shows o i j KVis Mjd (PyFloat (vr_mjd r))
| vr_s t r a b : at_position (o_visList o) i t -> at_row (tb_record t) j r -> vr_sta_index r = (a, b) ->
    row_shows o i j KVis Sta_index (PySeq [PyInt a; PyInt b])
| v2_t t r : at_position (o_vis2List o) i t -> at_row (tb_record t) j r ->
    row_shows o i j KVis2 Target_id_ (PyInt (v2_target_id r))
| v2_m t r : at_position (o_vis2List o) i t -> at_row (tb_record t) j r ->
    row_shows o i j KVis2 Mjd (PyFloat (v2_mjd r))
| v2_s t r a b : at_position (o_vis2List o) i t -> at_row (tb_record t) j r -> v2_sta_index r = (a, b) ->
    row_shows o i j KVis2 Sta_index (PySeq [PyInt a; PyInt b])
| t3_t t r : at_position (o_t3List o) i t -> at_row (tb_record t) j r ->
    row_shows o i j KT3 Target_id_ (PyInt (t3_target_id r))
| t3_m t r : at_position (o_t3List o) i t -> at_row (tb_record t) j r ->
    row_shows o i j KT3 Mjd (PyFloat (t3_mjd r))
| t3_s t r a b c : at_position (o_t3List o) i t -> at_row (tb_record t) j r -> t3_sta_index r = (a, b, c) ->
    row_shows o i j KT3 Sta_index (PySeq [PyInt a; PyInt b; PyInt c])
| fr_t t r : at_position (o_fluxList o) i t -> at_row (tb_record t) j r ->
    row_shows o i j KFlux Target_id_ (PyInt (fr_target_id r))
| fr_m t r : at_position (o_fluxList o) i t -> at_row (tb_record t) j r ->
    row_shows o i j KFlux Mjd (PyFloat (fr_mjd r))
| fr_s t r : at_position (o_fluxList o) i t -> at_row (tb_record t) j r ->
    row_shows o i j KFlux Sta_index (PyInt (fr_sta_index r)).

(** The number of tables of a kind *)
Definition number (k : kind) (o : oi_fits) : Z :=
  match k with
  | KArray => Z.of_nat (length (o_arrayList o)) | KWavelength => Z.of_nat (length (o_wavelengthList o))
  | KCorr => Z.of_nat (length (o_corrList o)) | KInspol => Z.of_nat (length (o_inspolList o))
  | KVis => Z.of_nat (length (o_visList o)) | KVis2 => Z.of_nat (length (o_vis2List o))
  | KT3 => Z.of_nat (length (o_t3List o)) | KFlux => Z.of_nat (length (o_fluxList o))
  end.
