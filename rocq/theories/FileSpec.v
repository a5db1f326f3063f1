(** Specifications for oifile.c, independent of how the functions compute. *)
From Verif Require Export Types.
From Verif Require Import DateSpec.
From Coq Require Export QArith Qround.
Open Scope Z_scope.

(** [a] is the first element of [l] satisfying [p]. *)
Definition first_match {A} (p : A -> Prop) (l : list A) (a : A) : Prop :=
  exists before after, l = before ++ a :: after /\ p a /\ forall b, In b before -> ~ p b.

(** Outcome of a lookup: the first match, or nothing iff there is none. *)
Definition lookup_result {A} (p : A -> Prop) (l : list A) (r : option A) : Prop :=
  match r with
  | Some a => first_match p l a
  | None => forall a, In a l -> ~ p a
  end.

(** ** Upgrades: what changes and what does not *)

Definition same_but_time_vis (r r' : vis_record) : Prop :=
  vr_target_id r' = vr_target_id r /\ vr_mjd r' = vr_mjd r /\ vr_int_time r' = vr_int_time r
  /\ vr_visamp r' = vr_visamp r /\ vr_visamperr r' = vr_visamperr r
  /\ vr_corrindx_visamp r' = vr_corrindx_visamp r
  /\ vr_visphi r' = vr_visphi r /\ vr_visphierr r' = vr_visphierr r
  /\ vr_corrindx_visphi r' = vr_corrindx_visphi r /\ vr_visrefmap r' = vr_visrefmap r
  /\ vr_rvis r' = vr_rvis r /\ vr_rviserr r' = vr_rviserr r
  /\ vr_corrindx_rvis r' = vr_corrindx_rvis r /\ vr_ivis r' = vr_ivis r
  /\ vr_iviserr r' = vr_iviserr r /\ vr_corrindx_ivis r' = vr_corrindx_ivis r
  /\ vr_ucoord r' = vr_ucoord r /\ vr_vcoord r' = vr_vcoord r
  /\ vr_sta_index r' = vr_sta_index r /\ vr_flag r' = vr_flag r.
Definition same_but_time_vis2 (r r' : vis2_record) : Prop :=
  v2_target_id r' = v2_target_id r /\ v2_mjd r' = v2_mjd r /\ v2_int_time r' = v2_int_time r
  /\ v2_vis2data r' = v2_vis2data r /\ v2_vis2err r' = v2_vis2err r
  /\ v2_corrindx_vis2data r' = v2_corrindx_vis2data r
  /\ v2_ucoord r' = v2_ucoord r /\ v2_vcoord r' = v2_vcoord r
  /\ v2_sta_index r' = v2_sta_index r /\ v2_flag r' = v2_flag r.
Definition same_but_time_t3 (r r' : t3_record) : Prop :=
  t3_target_id r' = t3_target_id r /\ t3_mjd r' = t3_mjd r /\ t3_int_time r' = t3_int_time r
  /\ t3_t3amp r' = t3_t3amp r /\ t3_t3amperr r' = t3_t3amperr r
  /\ t3_corrindx_t3amp r' = t3_corrindx_t3amp r
  /\ t3_t3phi r' = t3_t3phi r /\ t3_t3phierr r' = t3_t3phierr r
  /\ t3_corrindx_t3phi r' = t3_corrindx_t3phi r
  /\ t3_u1coord r' = t3_u1coord r /\ t3_v1coord r' = t3_v1coord r
  /\ t3_u2coord r' = t3_u2coord r /\ t3_v2coord r' = t3_v2coord r
  /\ t3_sta_index r' = t3_sta_index r /\ t3_flag r' = t3_flag r.

(** Every attribute of the table other than revision and rows is unchanged. *)
Definition same_attributes {X R} (t t' : dtab X R) : Prop :=
  tb_date_obs t' = tb_date_obs t /\ tb_arrname t' = tb_arrname t /\ tb_insname t' = tb_insname t
  /\ tb_corrname t' = tb_corrname t /\ tb_x t' = tb_x t /\ tb_numrec t' = tb_numrec t
  /\ tb_nwave t' = tb_nwave t.

(** [t'] is the OIFITS v2 version of data table [t]. *)
Definition upgraded {X R} (time : R -> f64) (same_but_time : R -> R -> Prop) (t t' : dtab X R)
  : Prop :=
  (tb_revision t = 1 /\ tb_revision t' = 2 /\ same_attributes t t'
   /\ Forall2 (fun r r' => time r' = f64_zero /\ same_but_time r r') (tb_record t) (tb_record t'))
  \/ (tb_revision t <> 1 /\ t' = t).

(** ** Counting *)

(** Number of unflagged points of a table / list of tables *)
Definition unflagged (fl : list bool) : nat := List.length (filter negb fl).
Definition total_unflagged {X R} (flag : R -> list bool) (l : list (dtab X R)) : nat :=
  list_sum (map (fun t => list_sum (map (fun r => unflagged (flag r)) (tb_record t))) l).

(** ** Observation times *)

(** All MJD values of OI_VIS, OI_VIS2, OI_T3, OI_FLUX records *)
Definition all_mjd (o : oi_fits) : list f64 :=
  flat_map (fun t => map vr_mjd (tb_record t)) (o_visList o)
  ++ flat_map (fun t => map v2_mjd (tb_record t)) (o_vis2List o)
  ++ flat_map (fun t => map t3_mjd (tb_record t)) (o_t3List o)
  ++ flat_map (fun t => map fr_mjd (tb_record t)) (o_fluxList o).

Definition earliest (l : list f64) (m : f64) : Prop :=
  In m l /\ forall x, In x l -> SFleb m x = true.
Definition latest (l : list f64) (m : f64) : Prop :=
  In m l /\ forall x, In x l -> SFleb x m = true.

(** A C double (canonical representation, always true of a value in memory) with MJD
    strictly between 0 (1858-11-17) and 100000 (2132-09-01) *)
Definition mjd_in_range (x : f64) : bool :=
  valid_binary 53 1024 x && SFltb f64_zero x && SFltb x (f64_of_Z 100000).

(** Names fit the fixed-size buffers *)
Definition fits_value (s : string) : bool := strlen s <? FLEN_VALUE.

(** ** Header *)

(** Exact value of a finite float as a rational *)
Definition float_value (x : f64) : option Q :=
  match x with
  | S754_zero _ => Some 0%Q
  | S754_finite s m e =>
      let z := if s then Zneg m else Zpos m in
      Some (if e <? 0 then Qmake z (2 ^ Z.to_pos (- e))%positive else inject_Z (z * 2 ^ e))
  | _ => None
  end.

Definition digit (n : Z) : ascii := ascii_of_nat (48 + Z.to_nat (n mod 10)).
(** "YYYY-MM-DD" *)
Definition iso_date (y m d : Z) : string :=
  String (digit (y / 1000)) (String (digit (y / 100)) (String (digit (y / 10)) (String (digit y)
  (String "-" (String (digit (m / 10)) (String (digit m)
  (String "-" (String (digit (d / 10)) (String (digit d) EmptyString))))))))).

(** The value of a keyword naming the only member of a list *)
Definition only_name {A} (name : A -> string) (if_none : string) (l : list A) : string :=
  match l with [] => if_none | [a] => name a | _ => "MULTIPLE" end.

(** [h'] is header [h] updated from the tables of [o]. *)
Definition header_from_tables (o : oi_fits) (h h' : oi_header) : Prop :=
  h_telescop h' = only_name ar_arrname "UNKNOWN" (o_arrayList o)
  /\ h_instrume h' = only_name wv_insname "MULTIPLE" (o_wavelengthList o)
  /\ h_object h' = only_name tg_target "MULTIPLE" (ot_targ (o_targets o))
  /\ (exists m q y mo d, earliest (all_mjd o) m /\ float_value m = Some q
        /\ is_date_of_mjd (Qfloor q) (y, mo, d) /\ valid_date y mo d = true
        /\ h_date_obs h' = iso_date y mo d)
  /\ h_origin h' = "UNKNOWN"%string /\ h_observer h' = "UNKNOWN"%string
  /\ h_insmode h' = "UNKNOWN"%string
  /\ h_date h' = h_date h /\ h_content h' = h_content h /\ h_referenc h' = h_referenc h
  /\ h_author h' = h_author h /\ h_prog_id h' = h_prog_id h /\ h_procsoft h' = h_procsoft h
  /\ h_obstech h' = h_obstech h.
