(** Which warnings about checksums a file gives. *)
From Verif Require Export IOClaims ChksumModel.
Open Scope string_scope.
Open Scope list_scope.
Open Scope Z_scope.

(** what is computed, without the text printed *)
Definition silenced {A} (x : pr A) : res A :=
  match x with Ok (_, a) => Ok a | Abort => Abort | UB => UB end.

Section Spec.
Variable E : cfitsio.
Variable V : hdu -> verdict.

Definition wrong (o : option Z) : bool := match o with Some z => z =? -1 | None => false end.
Definition wrong_data (h : hdu) : bool := wrong (v_dataok (V h)).
Definition wrong_hdu (h : hdu) : bool := wrong (v_hduok (V h)).

(** EXTNAME and EXTVER as they are printed *)
Definition shown_name (h : hdu) : string :=
  match key_text E h "EXTNAME" with Some s => s | None => "" end.
Definition shown_version (h : hdu) : Z :=
  match find_key "EXTNAME" (hd_keys h), find_key "EXTVER" (hd_keys h) with
  | Some _, Some (KInt z) => z
  | Some _, Some v => match cf_conv_int E v with Some z => z | None => 0 end
  | _, _ => 0
  end.
(** the warnings about HDU number [n] *)
Definition warning (what : string) (n : Z) (h : hdu) : string :=
  "WARNING! " ++ what ++ " checksum verification failed for HDU #" ++ fmt_d n ++ " (EXTNAME='"
  ++ shown_name h ++ "' EXTVER=" ++ fmt_d (shown_version h) ++ ")
"%string.
Definition warnings (nh : Z * hdu) : list string :=
  (if wrong_data (snd nh) then [warning "Data" (fst nh) (snd nh)] else [])
  ++ (if wrong_hdu (snd nh) then [warning "HDU" (fst nh) (snd nh)] else []).

(** fits_verify_chksum works on the HDU and, if it finds something wrong, EXTVER is a number *)
Definition verifiable (h : hdu) : Prop :=
  v_status (V h) = 0 /\ v_dataok (V h) <> None /\ v_hduok (V h) <> None
  /\ (wrong_data h = true \/ wrong_hdu h = true -> find_key "EXTNAME" (hd_keys h) <> None ->
      match find_key "EXTVER" (hd_keys h) with
      | None => True
      | Some (KInt _) => True
      | Some v => cf_conv_int E v <> None
      end).

(** HDUs with their numbers *)
Fixpoint numbered (n : Z) (l : list hdu) : list (Z * hdu) :=
  match l with [] => [] | h :: l' => (n, h) :: numbered (n + 1) l' end.
Definition table_names : list string :=
  ["OI_ARRAY"; "OI_WAVELENGTH"; "OI_CORR"; "OI_INSPOL"; "OI_VIS"; "OI_VIS2"; "OI_T3"; "OI_FLUX"].
(** the HDUs in the order in which they are verified: the primary one, the first OI_TARGET, and
    the tables of each kind *)
Definition first_target (l : list (Z * hdu)) : list (Z * hdu) :=
  match find (fun nh => target_like E (snd nh)) l with Some nh => [nh] | None => [] end.
Definition of_name (name : string) (l : list (Z * hdu)) : list (Z * hdu) :=
  filter (fun nh => named E name (snd nh)) l.
Definition seen (p : hdu) (rest : list hdu) : list (Z * hdu) :=
  (1, p) :: first_target (numbered 1 (p :: rest))
  ++ flat_map (fun name => of_name name (numbered 2 rest)) table_names.

(** HDU number [n] of a file is [h] *)
Definition hdu_at (hdus : list hdu) (n : Z) (h : hdu) : Prop :=
  1 <= n /\ nth_error hdus (Z.to_nat (n - 1)) = Some h.
(** HDUs that are verified: the first one, the first OI_TARGET (whatever the case of the
    letters) and the tables of the other kinds *)
Definition relevant (hdus : list hdu) (n : Z) (h : hdu) : Prop :=
  n = 1
  \/ (target_like E h = true /\ forall i h', hdu_at hdus i h' -> target_like E h' = true -> n <= i)
  \/ exists name, In name table_names /\ named E name h = true.
(** [v], which prints, does what [r] does, and what it prints is about HDUs of the file *)
Definition about_file (hdus : list hdu) (m : list string) : Prop :=
  forall t, In t m -> exists n h, hdu_at hdus n h /\ In t (warnings (n, h)).
Definition only_warns {A} (v : pio A) (r : io A) : Prop :=
  forall f st, (forall h, In h (f_hdus f) -> verifiable h) ->
    silenced (v (f, st)) = r (f, st) /\ forall m a, v (f, st) = Ok (m, a) -> about_file (f_hdus f) m.
End Spec.
(** an HDU as fits_write_chksum leaves it *)
Definition signed (E : cfitsio) (h : hdu) : Prop :=
  exists before f, fits_write_chksum E (mk_file [before] 1, 0) = Ok (f, 0) /\ f_hdus f = [h].
(** the checksums are verified to be right, for every HDU as fits_write_chksum leaves it *)
Definition sound (E : cfitsio) (V : hdu -> verdict) : Prop :=
  forall h, signed E h -> V h = mk_verdict (Some 1) (Some 1) 0.
