(** Specification of merging in steps (C61). *)
From Verif Require Import Base Types FileModel FileSpec MergeSpec.

(** Two datasets have the same tables, name tables and counts: they differ at most in
    the primary header. *)
Definition same_contents (o p : oi_fits) : Prop :=
  o_targets o = o_targets p
  /\ o_arrayList o = o_arrayList p /\ o_wavelengthList o = o_wavelengthList p
  /\ o_corrList o = o_corrList p /\ o_inspolList o = o_inspolList p
  /\ o_visList o = o_visList p /\ o_vis2List o = o_vis2List p
  /\ o_t3List o = o_t3List p /\ o_fluxList o = o_fluxList p
  /\ o_numArray o = o_numArray p /\ o_numWavelength o = o_numWavelength p
  /\ o_numCorr o = o_numCorr p /\ o_numInspol o = o_numInspol p
  /\ o_numVis o = o_numVis p /\ o_numVis2 o = o_numVis2 p
  /\ o_numT3 o = o_numT3 p /\ o_numFlux o = o_numFlux p
  /\ o_arrayHash o = o_arrayHash p /\ o_wavelengthHash o = o_wavelengthHash p
  /\ o_corrHash o = o_corrHash p.

(** Keywords that a merged file must have, and those that it may lack *)
Definition required_keys : list (oi_header -> string) :=
  [h_origin; h_telescop; h_instrume; h_observer; h_insmode; h_object].
Definition optional_keys : list (oi_header -> string) :=
  [h_referenc; h_author; h_prog_id; h_procsoft; h_obstech].

Definition has_key (key : oi_header -> string) (d : oi_fits) : Prop :=
  key (o_header d) <> ""%string.

(** Some input is dated. *)
Definition some_dated (ins : list oi_fits) : Prop :=
  exists d ymd, In d ins /\ observed_on d (Some ymd).
