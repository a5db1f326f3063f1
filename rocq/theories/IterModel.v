(** Model of oiiter.c. *)
From Verif Require Export FilterModel.

(** Struct _oi_iter, oiiter.h 50-61.  [it_link] is the GList from the current link
    on: NULL is [], link->data the head and link->next the tail. *)
Record oi_iter (T : Type) := mk_iter {
  it_data : oi_fits;
  it_filter : filter_spec;
  it_link : list T;
  it_wave : option oi_wavelength;
  it_extver : Z;
  it_irec : Z;
  it_iwave : Z }.
Arguments it_data {T}. Arguments it_filter {T}. Arguments it_link {T}. Arguments it_wave {T}.
Arguments it_extver {T}. Arguments it_irec {T}. Arguments it_iwave {T}. Arguments mk_iter {T}.

(** What oi_*_iter_next stores through its arguments: EXTVER, table, record index,
    record, channel index.  NULL arguments are not modelled. *)
Definition datum (X R : Type) : Type := Z * dtab X R * Z * R * Z.

Definition set_filter {T} (f : filter_spec) (it : oi_iter T) : oi_iter T :=
  mk_iter (it_data it) f (it_link it) (it_wave it) (it_extver it) (it_irec it) (it_iwave it).

(** oi_vis_iter_init 272-296, oi_vis2_iter_init 305-329, oi_t3_iter_init 338-362; [l]
    is the list of tables of the kind.  pFilter = NULL is init_oi_filter. *)
Definition iter_init {X R} (l : list (dtab X R)) (d : oi_fits) (pf : option filter_spec)
  : oi_iter (dtab X R) :=
  mk_iter d (match pf with Some f => f | None => init_oi_filter end) l
    (match l with t :: _ => oi_fits_lookup_wavelength d (tb_insname t) | [] => None end)
    1 0 (-1).
(** oiiter.c 272-296 *)
Definition oi_vis_iter_init (d : oi_fits) := iter_init (o_visList d) d.
(** oiiter.c 305-329 *)
Definition oi_vis2_iter_init (d : oi_fits) := iter_init (o_vis2List d) d.
(** oiiter.c 338-362 *)
Definition oi_t3_iter_init (d : oi_fits) := iter_init (o_t3List d) d.

(** NEXT_CHANNEL || NEXT_RECORD || NEXT_TABLE, oiiter.c 364-379; [None]: all false *)
Definition advance {X R} (it : oi_iter (dtab X R)) : option (oi_iter (dtab X R)) :=
  match it_link it with
  | [] => None
  | t :: rest =>
      if it_iwave it <? tb_nwave t - 1 then
        Some (mk_iter (it_data it) (it_filter it) (it_link it) (it_wave it) (it_extver it)
                (it_irec it) (it_iwave it + 1))
      else if it_irec it <? tb_numrec t - 1 then
        Some (mk_iter (it_data it) (it_filter it) (it_link it) (it_wave it) (it_extver it)
                (it_irec it + 1) 0)
      else match rest with
      | [] => None
      | t' :: _ =>
          Some (mk_iter (it_data it) (it_filter it) rest
                  (oi_fits_lookup_wavelength (it_data it) (tb_insname t')) (it_extver it + 1) 0 0)
      end
  end.

(** oi_vis_iter_accept_table 231-237, vis2 242-248, t3 253-259 *)
Definition accept_table {X R} (f : filter_spec) (t : dtab X R) : bool :=
  accept_arrname f (tb_arrname t) && accept_insname f (tb_insname t) && accept_corrname f (tb_corrname t).

Section Next.
(** The parts that differ between the three kinds: whether the filter accepts the
    kind at all, accept_record and accept_channel. *)
Context {X R : Type} (accept_kind : filter_spec -> bool)
  (accept_record : filter_spec -> R -> bool)
  (accept_channel : filter_spec -> oi_wavelength -> R -> Z -> res bool).

(** accept_table && accept_record && accept_channel; also the current record *)
Definition accept_current (it : oi_iter (dtab X R)) : res (option (datum X R)) :=
  match it_link it with
  | [] => UB
  | t :: _ =>
      if accept_table (it_filter it) t then
        r <- get (tb_record t) (it_irec it) ;;
        if accept_record (it_filter it) r then
          match it_wave it with
          | None => UB
          | Some w =>
              ok <- accept_channel (it_filter it) w r (it_iwave it) ;;
              Ok (if ok : bool then Some (it_extver it, t, it_irec it, r, it_iwave it) else None)
          end
        else Ok None
      else Ok None
  end.

(** The do-while loop, e.g. 414-421.  Running out of fuel would be [UB]; each turn
    advances the iterator, so [fuel_of] is enough. *)
Fixpoint next_loop (fuel : nat) (it : oi_iter (dtab X R)) : res (oi_iter (dtab X R) * option (datum X R)) :=
  match fuel with
  | O => UB
  | S fuel' =>
      match advance it with
      | None => Ok (it, None)
      | Some it' =>
          c <- accept_current it' ;;
          match c with
          | Some x => Ok (it', Some x)
          | None => next_loop fuel' it'
          end
      end
  end.
Definition table_turns (t : dtab X R) : nat :=
  (Z.to_nat (tb_numrec t) + 1) * (Z.to_nat (tb_nwave t) + 1).
Definition fuel_of (it : oi_iter (dtab X R)) : nat :=
  S (fold_right (fun t n => (table_turns t + n)%nat) O (it_link it)).

Definition compile (p : option string) (s : string) : option string :=
  match p with None => Some s | Some _ => p end.

(** oi_vis_iter_next 392-441, oi_vis2_iter_next 454-503, oi_t3_iter_next 516-564:
    compile the patterns, search, free the patterns.  Result: the iterator, and the
    datum if true is returned. *)
Definition iter_next (it : oi_iter (dtab X R)) : res (oi_iter (dtab X R) * option (datum X R)) :=
  let f := it_filter it in
  if negb (accept_kind f) then Ok (it, None)
  else
    let f' := set_pttns (compile (f_arrname_pttn f) (f_arrname f))
                (compile (f_insname_pttn f) (f_insname f))
                (compile (f_corrname_pttn f) (f_corrname f)) f in
    r <- next_loop (fuel_of it) (set_filter f' it) ;;
    let '(it', x) := r in
    Ok (set_filter (set_pttns None None None f') it', x).
End Next.

(** ** The three kinds *)

Section Pow.
Variable pow_half : f64 -> f64. (* pow(x, 0.5) *)

(** Tests of the wavelength, e.g. 46-48 *)
Definition iter_wave_ok (f : filter_spec) (w : oi_wavelength) (j : Z) : res bool :=
  x <- get (wv_eff_wave w) j ;; Ok (negb (outside (f_wave_lo f) (f_wave_hi f) x)).
Definition iter_uvrad_ok (f : filter_spec) (w : oi_wavelength) (bas : f64) (j : Z) : res bool :=
  x <- uv_radius w bas j ;; Ok (negb (outside_uvrad f x)).
Definition iter_flag_ok (f : filter_spec) (flag : list bool) (j : Z) : res bool :=
  fl <- get flag j ;; Ok (negb (fl && negb (f_accept_flagged f))).
(** [if (!a) return false; ...] *)
Definition and_then (a b : res bool) : res bool := x <- a ;; if x : bool then b else Ok false.

Definition snr_ok (f : filter_spec) (value err : list f64) (j : Z) : res bool :=
  a <- get value j ;; e <- get err j ;; Ok (negb (outside_snr f (ratio_f32 a e))).
Definition phase_snr_ok (f : filter_spec) (err : list f64) (j : Z) : res bool :=
  e <- get err j ;; Ok (negb (outside_snr f (ratio_f32 c_rad2deg e))).

(** oiiter.c 39-65 *)
Definition vis_iter_accept_channel (f : filter_spec) (w : oi_wavelength) (r : vis_record) (j : Z)
  : res bool :=
  and_then (iter_wave_ok f w j)
  (and_then (snr_ok f (vr_visamp r) (vr_visamperr r) j)
  (and_then (phase_snr_ok f (vr_visphierr r) j)
  (and_then (iter_uvrad_ok f w (baseline pow_half (vr_ucoord r) (vr_vcoord r)) j)
            (iter_flag_ok f (vr_flag r) j)))).
(** oiiter.c 70-91 *)
Definition vis2_iter_accept_channel (f : filter_spec) (w : oi_wavelength) (r : vis2_record) (j : Z)
  : res bool :=
  and_then (iter_wave_ok f w j)
  (and_then (snr_ok f (v2_vis2data r) (v2_vis2err r) j)
  (and_then (iter_uvrad_ok f w (baseline pow_half (v2_ucoord r) (v2_vcoord r)) j)
            (iter_flag_ok f (v2_flag r) j))).
(** oiiter.c 96-138 *)
Definition t3_iter_accept_channel (f : filter_spec) (w : oi_wavelength) (r : t3_record) (j : Z)
  : res bool :=
  and_then (iter_wave_ok f w j)
  (and_then (if f_accept_t3amp f then snr_ok f (t3_t3amp r) (t3_t3amperr r) j else Ok true)
  (and_then (if f_accept_t3phi f then phase_snr_ok f (t3_t3phierr r) j else Ok true)
  (and_then (b <- t3_bad_uvrad pow_half f w r j ;; Ok (negb b))
            (iter_flag_ok f (t3_flag r) j)))).

(** oiiter.c 143-160 *)
Definition vis_iter_accept_record (f : filter_spec) (r : vis_record) : bool :=
  negb (skip_target f (vr_target_id r)) && negb (skip_mjd f (vr_mjd r))
  && negb (skip_bas f (baseline pow_half (vr_ucoord r) (vr_vcoord r))).
(** oiiter.c 165-182 *)
Definition vis2_iter_accept_record (f : filter_spec) (r : vis2_record) : bool :=
  negb (skip_target f (v2_target_id r)) && negb (skip_mjd f (v2_mjd r))
  && negb (skip_bas f (baseline pow_half (v2_ucoord r) (v2_vcoord r))).
(** oiiter.c 187-214 *)
Definition t3_iter_accept_record (f : filter_spec) (r : t3_record) : bool :=
  negb (skip_target f (t3_target_id r)) && negb (skip_mjd f (t3_mjd r))
  && negb (skip_bas f (t3_ab pow_half r)) && negb (skip_bas f (t3_bc pow_half r))
  && negb (skip_bas f (t3_ac pow_half r)).

(** oiiter.c 392-441 *)
Definition oi_vis_iter_next : oi_iter oi_vis -> res (oi_iter oi_vis * option (datum vis_extra vis_record)) :=
  iter_next f_accept_vis vis_iter_accept_record vis_iter_accept_channel.
(** oiiter.c 454-503 *)
Definition oi_vis2_iter_next : oi_iter oi_vis2 -> res (oi_iter oi_vis2 * option (datum unit vis2_record)) :=
  iter_next f_accept_vis2 vis2_iter_accept_record vis2_iter_accept_channel.
(** oiiter.c 516-564: [!amp && !phi] *)
Definition oi_t3_iter_next : oi_iter oi_t3 -> res (oi_iter oi_t3 * option (datum unit t3_record)) :=
  iter_next (fun f => negb (negb (f_accept_t3amp f) && negb (f_accept_t3phi f)))
    t3_iter_accept_record t3_iter_accept_channel.
End Pow.

(** ** uv coordinates *)

(** Current record and effective wavelength; no accepted datum need be current *)
Definition iter_current {X R} (it : oi_iter (dtab X R)) : res (R * f64) :=
  match it_link it with
  | [] => UB
  | t :: _ =>
      r <- get (tb_record t) (it_irec it) ;;
      match it_wave it with
      | None => UB
      | Some w => x <- get (wv_eff_wave w) (it_iwave it) ;; Ok (r, to_f64 x)
      end
  end.
(** oiiter.c 574-586: wavelength, u, v *)
Definition oi_vis_iter_get_uv (it : oi_iter oi_vis) : res (f64 * f64 * f64) :=
  c <- iter_current it ;;
  let '(r, x) := c in Ok (x, f64_div (vr_ucoord r) x, f64_div (vr_vcoord r) x).
(** oiiter.c 596-607 *)
Definition oi_vis2_iter_get_uv (it : oi_iter oi_vis2) : res (f64 * f64 * f64) :=
  c <- iter_current it ;;
  let '(r, x) := c in Ok (x, f64_div (v2_ucoord r) x, f64_div (v2_vcoord r) x).
(** oiiter.c 623-637: wavelength, u1, v1, u2, v2 *)
Definition oi_t3_iter_get_uv (it : oi_iter oi_t3) : res (f64 * f64 * f64 * f64 * f64) :=
  c <- iter_current it ;;
  let '(r, x) := c in
  Ok (x, f64_div (t3_u1coord r) x, f64_div (t3_v1coord r) x,
      f64_div (t3_u2coord r) x, f64_div (t3_v2coord r) x).
