(** Specification: filtering what was merged, and merging what was filtered. *)
From Verif Require Export FilterSpec MergeSpec.
From Verif Require Import FileModel FilterModel MergeModel.
Open Scope list_scope.
Open Scope Z_scope.

(** No criterion refers to names or to a TARGET_ID, which merging may change *)
Definition by_data (f : filter_spec) : Prop :=
  f_arrname f = "*"%string /\ f_insname f = "*"%string /\ f_corrname f = "*"%string /\ f_target_id f < 0.

(** Every table that is referred to is there *)
Definition complete (d : oi_fits) : Prop :=
  (forall n, uses_insname d n -> In n (map wv_insname (o_wavelengthList d)))
  /\ (forall n, uses_arrname d n -> In n (map ar_arrname (o_arrayList d)))
  /\ (forall n, uses_corrname d n -> In n (map co_corrname (o_corrList d)))
  /\ (forall t r, In t (o_inspolList d) -> In r (is_record t) -> In (ip_insname r) (map wv_insname (o_wavelengthList d))).

(** No OI_ARRAY or OI_CORR has the empty name, which stands for no reference *)
Definition named (d : oi_fits) : Prop :=
  (forall a, In a (o_arrayList d) -> ar_arrname a <> ""%string)
  /\ (forall c, In c (o_corrList d) -> co_corrname c <> ""%string).

(** Numbers in a column of OI_WAVELENGTH that matching takes for the same are the same *)
Definition exact (col : oi_wavelength -> list f32) (ins : list oi_fits) : Prop :=
  forall d w x d' w' x', In d ins -> In w (o_wavelengthList d) -> In x (col w) ->
    In d' ins -> In w' (o_wavelengthList d') -> In x' (col w') -> close_wave x x' -> x = x'.

(** The tables are equal but for the names they refer to; TARGET_IDs are equal. *)
Definition nameless {X R} (t : dtab X R) : dtab X R := set_arrname "" (set_insname "" (set_corrname "" t)).
Definition same_but_names {X R} (t t' : dtab X R) : Prop := nameless t = nameless t'.

(** What the names in [t] refer to in [o], and those in [t'] in [o'] *)
Definition same_channels (o o' : oi_fits) (n n' : string) : Prop :=
  exists w w', oi_fits_lookup_wavelength o n = Some w /\ oi_fits_lookup_wavelength o' n' = Some w'
    /\ wv_nwave w = wv_nwave w' /\ wv_eff_wave w = wv_eff_wave w' /\ wv_eff_band w = wv_eff_band w'.
(** [a] and [a'] both have the stations of an array in [ins] *)
Definition same_array (ins : list oi_fits) (o o' : oi_fits) (n n' : string) : Prop :=
  (n = ""%string /\ n' = ""%string)
  \/ exists d a0 a a', In d ins /\ In a0 (o_arrayList d)
       /\ oi_fits_lookup_array o n = Some a /\ oi_fits_lookup_array o' n' = Some a'
       /\ same_stations a0 a /\ same_stations a0 a'.
Definition same_corr (o o' : oi_fits) (n n' : string) : Prop :=
  (n = ""%string /\ n' = ""%string)
  \/ exists c c', oi_fits_lookup_corr o n = Some c /\ oi_fits_lookup_corr o' n' = Some c'
       /\ co_set_corrname "" c = co_set_corrname "" c'.
Definition same_references {X R} (ins : list oi_fits) (o o' : oi_fits) (t t' : dtab X R) : Prop :=
  same_channels o o' (tb_insname t) (tb_insname t') /\ same_array ins o o' (tb_arrname t) (tb_arrname t')
  /\ same_corr o o' (tb_corrname t) (tb_corrname t').

(** A dataset whose tables can be told apart and found by name *)
Definition suitable (d : oi_fits) : Prop :=
  consistent d /\ names_fit d /\ distinct_names d /\ complete d /\ named d.

(** The data tables of a kind, in order *)
Definition same_tables {X R} (ins : list oi_fits) (o o' : oi_fits) (tabs : oi_fits -> list (dtab X R)) : Prop :=
  Forall2 (fun t t' => same_but_names t t' /\ same_references ins o o' t t') (tabs o) (tabs o').
(** The datasets have the same header, targets and data. *)
Definition same_data (ins : list oi_fits) (o o' : oi_fits) : Prop :=
  o_header o = o_header o' /\ o_targets o = o_targets o'
  /\ same_tables ins o o' o_visList /\ same_tables ins o o' o_vis2List
  /\ same_tables ins o o' o_t3List /\ same_tables ins o o' o_fluxList.

(** Merging the datasets and filtering the result; filtering each and merging the results *)
Definition merged_then_filtered (pow_half : f64 -> f64) (ins : list oi_fits) (f : filter_spec) (out : oi_fits) : Prop :=
  exists m f', merge_oi_fits_list ins = Ok m /\ apply_oi_filter pow_half m f = Ok (f', out).
Definition filtered_then_merged (pow_half : f64 -> f64) (ins : list oi_fits) (f : filter_spec) (out : oi_fits) : Prop :=
  exists ins', Forall2 (fun d d' => exists f', apply_oi_filter pow_half d f = Ok (f', d')) ins ins'
    /\ merge_oi_fits_list ins' = Ok out.
