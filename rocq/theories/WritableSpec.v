(** When a dataset can be written to a file, in terms of its contents alone. *)
From Verif Require Export IOSpec.

Section Spec.
Variable E : cfitsio.

(** TARGET_ID and STA_INDEX are put into 16 bits.  OI_CORR indices are put into 32 bits, which
    any int fits.  A double in a header must have a decimal representation. *)
Definition indexed (corrname : string) (l : list Z) : bool := is_empty corrname || forallb long l.
Definition writable_array (a : oi_array) : bool :=
  key_double E (ar_arrayx a) && key_double E (ar_arrayy a) && key_double E (ar_arrayz a)
  && forallb (fun e => short (el_sta_index e)) (ar_elem a).
Definition writable_target (t : oi_target) : bool :=
  forallb (fun x => short (tg_target_id x)) (ot_targ t).
Definition writable_corr (c : oi_corr) : bool := forallb long (co_iindx c) && forallb long (co_jindx c).
Definition writable_inspol (t : oi_inspol) : bool :=
  forallb (fun r => short (ip_target_id r) && short (ip_sta_index r)) (is_record t).
Definition writable_vis (t : oi_vis) : bool :=
  forallb (fun r => short (vr_target_id r) && short (fst (vr_sta_index r)) && short (snd (vr_sta_index r))
                    && indexed (tb_corrname t) [vr_corrindx_visamp r; vr_corrindx_visphi r]
                    && (negb (vx_usecomplex (tb_x t))
                        || indexed (tb_corrname t) [vr_corrindx_rvis r; vr_corrindx_ivis r]))
    (tb_record t).
Definition writable_vis2 (t : oi_vis2) : bool :=
  forallb (fun r => short (v2_target_id r) && short (fst (v2_sta_index r)) && short (snd (v2_sta_index r))
                    && indexed (tb_corrname t) [v2_corrindx_vis2data r]) (tb_record t).
Definition writable_t3 (t : oi_t3) : bool :=
  forallb (fun r => short (t3_target_id r) && short (fst (fst (t3_sta_index r)))
                    && short (snd (fst (t3_sta_index r))) && short (snd (t3_sta_index r))
                    && indexed (tb_corrname t) [t3_corrindx_t3amp r; t3_corrindx_t3phi r]) (tb_record t).
Definition writable_flux (t : oi_flux) : bool :=
  (is_empty (fx_fovtype (tb_x t)) || key_double E (fx_fov (tb_x t)))
  && forallb (fun r => short (fr_target_id r)
                       && (is_empty (tb_arrname t) || short (fr_sta_index r))
                       && indexed (tb_corrname t) [fr_corrindx_fluxdata r]) (tb_record t).

(** One entry for each table in the order of the file: whether it has at most 9999 channels,
    and whether its contents can be written. *)
Definition verdicts (o : oi_fits) : list (bool * bool) :=
  (true, writable_target (o_targets o))
  :: map (fun a => (true, writable_array a)) (o_arrayList o)
  ++ map (fun _ => (true, true)) (o_wavelengthList o)
  ++ map (fun c => (true, writable_corr c)) (o_corrList o)
  ++ map (fun t => (is_nwave t <=? 9999, writable_inspol t)) (o_inspolList o)
  ++ map (fun t => (tb_nwave t <=? 9999, writable_vis t)) (o_visList o)
  ++ map (fun t => (tb_nwave t <=? 9999, writable_vis2 t)) (o_vis2List o)
  ++ map (fun t => (tb_nwave t <=? 9999, writable_t3 t)) (o_t3List o)
  ++ map (fun t => (tb_nwave t <=? 9999, writable_flux t)) (o_fluxList o).
Definition good (v : bool * bool) : Prop := v = (true, true).
(** there is a table with too many channels, and all before it are written *)
Definition stuck (o : oi_fits) : Prop :=
  exists before after v, verdicts o = before ++ v :: after /\ Forall good before /\ fst v = false.
Definition channels_counted (o : oi_fits) : Prop := Forall (fun t => 0 <= is_nwave t) (o_inspolList o).
End Spec.
