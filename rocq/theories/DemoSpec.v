(** What the claims about demo_read are stated with. *)
From Verif Require Export DemoModel IOClaims.
Open Scope list_scope.
Open Scope Z_scope.

Section Spec.
Variable E : cfitsio.

(** [input] is one line holding [name], followed by anything *)
Definition types (input name : string) : Prop :=
  all_chars (fun c => negb (Ascii.eqb c "010")) name = true /\ strlen name <= 1023
  /\ exists more, input = (name ++ String "010" more)%string.

(** a reader of one table finds what it looks for *)
Definition present {A} (rd : io A) (hdus : list hdu) : Prop :=
  exists t f, rd (mk_file hdus 1, 0) = Ok (Some t, (f, 0)).
(** the tables a data table names can be read *)
Definition data_named (hdus : list hdu) {X R} (t : dtab X R) : Prop :=
  (tb_arrname t <> EmptyString -> present (read_oi_array E (tb_arrname t)) hdus)
  /\ (tb_corrname t <> EmptyString -> present (read_oi_corr E (tb_corrname t)) hdus)
  /\ present (read_oi_wavelength E (tb_insname t)) hdus.
Definition inspol_named (hdus : list hdu) (t : oi_inspol) : Prop :=
  present (read_oi_array E (is_arrname t)) hdus.

(** [ts] are the OI_xxx tables in [l], and none is unreadable *)
Definition tables_in {A} (rd : io A) (name : string) (l : list hdu) (ts : list A) : Prop :=
  ts = flat_map (readable rd) l /\ all_readable E rd name l.

(** the CORRNAME of the last OI_VIS *)
Definition last_corrname (vis : list oi_vis) : string :=
  List.last (map tb_corrname vis) EmptyString.

(** the lines of a run, as the code prints them *)
Definition printed (name : string) (vis : list oi_vis) (vis2 : list oi_vis2) (t3 : list oi_t3)
  (flux : list oi_flux) (inspol : list oi_inspol) : list string :=
  (("Reading FITS file " ++ name ++ "...")%string
   :: map (data_line "OI_VIS      ") vis
   ++ map (fun t : oi_vis2 => names_line "OI_VIS2     " (tb_arrname t) (tb_insname t) (last_corrname vis)) vis2
   ++ map (data_line "OI_T3       ") t3
   ++ map (data_line "OI_FLUX     ") flux
   ++ map inspol_line inspol)%list.
(** the lines as they are meant: each with the names of its own table *)
Definition meant (name : string) (vis : list oi_vis) (vis2 : list oi_vis2) (t3 : list oi_t3)
  (flux : list oi_flux) (inspol : list oi_inspol) : list string :=
  (("Reading FITS file " ++ name ++ "...")%string
   :: map (data_line "OI_VIS      ") vis ++ map (data_line "OI_VIS2     ") vis2
   ++ map (data_line "OI_T3       ") t3 ++ map (data_line "OI_FLUX     ") flux
   ++ map inspol_line inspol)%list.

(** the program reads the whole of a file, whose OI_TARGET is HDU number [k], and succeeds *)
Record demo_reads (hdus : list hdu) (k : Z) (vis : list oi_vis) (vis2 : list oi_vis2) (t3 : list oi_t3)
  (flux : list oi_flux) (inspol : list oi_inspol) : Prop := {
  dr_header : present (read_oi_header E) hdus;
  dr_target : exists tg, read_oi_target E (mk_file hdus 1, 0) = Ok (Some tg, (mk_file hdus k, 0));
  dr_vis : tables_in (read_next_oi_vis E) "OI_VIS" (skipn (Z.to_nat k) hdus) vis;
  dr_vis2 : tables_in (read_next_oi_vis2 E) "OI_VIS2" (skipn 1 hdus) vis2;
  dr_t3 : tables_in (read_next_oi_t3 E) "OI_T3" (skipn 1 hdus) t3;
  dr_flux : tables_in (read_next_oi_flux E) "OI_FLUX" (skipn 1 hdus) flux;
  dr_inspol : tables_in (read_next_oi_inspol E) "OI_INSPOL" (skipn 1 hdus) inspol;
  dr_named : Forall (data_named hdus) vis /\ Forall (data_named hdus) vis2
    /\ Forall (data_named hdus) t3 /\ Forall (data_named hdus) flux /\ Forall (inspol_named hdus) inspol }.

(** every name used in a dataset is the name of a table in it *)
Definition resolved {X R} (o : oi_fits) (t : dtab X R) : Prop :=
  (tb_arrname t <> EmptyString -> In (tb_arrname t) (map ar_arrname (o_arrayList o)))
  /\ (tb_corrname t <> EmptyString -> In (tb_corrname t) (map co_corrname (o_corrList o)))
  /\ In (tb_insname t) (map wv_insname (o_wavelengthList o)).
Definition all_resolved (o : oi_fits) : Prop :=
  Forall (resolved o) (o_visList o) /\ Forall (resolved o) (o_vis2List o)
  /\ Forall (resolved o) (o_t3List o) /\ Forall (resolved o) (o_fluxList o)
  /\ Forall (fun t => In (is_arrname t) (map ar_arrname (o_arrayList o))) (o_inspolList o).
End Spec.
