(** C46: the layout of every table written, one function at a time and for a file. *)
From Verif Require Import WriteModel WriteTables WriteKeys LayoutSpec LayoutProofs LayoutTables LayoutFile Sample IOMain.
Open Scope string_scope.
Open Scope list_scope.
Open Scope Z_scope.

(** a call on a file with HDUs adds one after them *)
Definition adds (a : wstate -> res wstate) (Q : hdu -> Prop) : Prop :=
  forall f st f', a (f, st) = Ok (f', 0) -> f_hdus f <> [] ->
    st = 0 /\ exists h, f_hdus f' = f_hdus f ++ [h] /\ Q h.
Lemma appends_adds a Q : appends_one a Q -> adds a Q.
Proof.
  intros H f st f' Ha Hf. destruct (H _ _ _ _ Ha eq_refl) as (Hs & h & Hh & HQ). split; [exact Hs|].
  exists h. split; [|exact HQ]. rewrite Hh. unfold with_primary. destruct (f_hdus f) eqn:He; [congruence|].
  now rewrite He.
Qed.
Lemma target_adds E t : adds (write_oi_target E t) (target_table E t).
Proof. apply appends_adds, target_layout. Qed.
Lemma array_adds E t ev : adds (write_oi_array E t ev) (array_table E t ev).
Proof. apply appends_adds, array_layout. Qed.
Lemma wavelength_adds E t ev : adds (write_oi_wavelength E t ev) (wavelength_table E t ev).
Proof. apply appends_adds, wavelength_layout. Qed.
Lemma corr_adds E t ev : adds (write_oi_corr E t ev) (corr_table E t ev).
Proof. apply appends_adds, corr_layout. Qed.
Lemma inspol_adds E t ev : adds (write_oi_inspol E t ev) (inspol_table E t ev).
Proof. apply appends_adds, inspol_layout. Qed.
Lemma vis_adds E t ev : adds (write_oi_vis E t ev) (vis_table E t ev).
Proof. apply appends_adds, vis_layout. Qed.
Lemma vis2_adds E t ev : adds (write_oi_vis2 E t ev) (vis2_table E t ev).
Proof. apply appends_adds, vis2_layout. Qed.
Lemma t3_adds E t ev : adds (write_oi_t3 E t ev) (t3_table E t ev).
Proof. apply appends_adds, t3_layout. Qed.
Lemma flux_adds E t ev : adds (write_oi_flux E t ev) (flux_table E t ev).
Proof. apply appends_adds, flux_layout. Qed.

(** ** A concrete file *)
Definition shape (h : hdu) : string * list string * Z :=
  (match find_key "EXTNAME" (hd_keys h) with Some (KStr s) => s | _ => "" end,
   map c_name (hd_cols h), hd_nrows h).
(** a name too long for its column: not storable *)
Definition l_fits : oi_fits :=
  mk_fits s_header (mk_oi_target 2 1 [s_target 1 "a name of more than thirty-two characters"] true)
    0 1 1 0 1 0 0 1 [] [s_wave1] [s_corr] [] [s_vis] [] [] [s_flux] [] [] [].
