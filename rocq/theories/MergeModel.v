(** Model of oimerge.c.

    The input list is a list of datasets; pOutput is threaded through the
    functions.  Lists of hash tables are lists of [hash].  The values of the
    per-input hash tables are pointers to names of output tables; those names do
    not change after insertion, so the model stores the names. *)
From Verif Require Export FileModel.

(** ** Matching tables *)

(** oimerge.c 45-55 *)
Definition lookup_element (a : oi_array) (staIndex : Z) : res (option element) :=
  search (ar_nelement a) (ar_elem a) (fun e => el_sta_index e =? staIndex).

(** "for (i = i0; i < i0+n; i++) if (!ok(i)) break;" and whether the end was reached *)
Fixpoint all_from (n : nat) (i : Z) (ok : Z -> res bool) : res bool :=
  match n with
  | O => Ok true
  | S n' => b <- ok i ;; if (b : bool) then all_from n' (i + 1) ok else Ok false
  end.
(** The same from 0, followed by the test i == n: for negative n the loop ends
    with i = 0. *)
Definition for_all (n : Z) (ok : Z -> res bool) : res bool :=
  if n <? 0 then Ok false else all_from (Z.to_nat n) 0 ok.

(** "fabs(x - y) > tol", double and float; a float difference is converted to
    double for fabs and the comparison, exactly. *)
Definition apart (x y tol : f64) : bool := fgt (fabs (f64_sub x y)) tol.
Definition apart_f (x y tol : f32) : bool := fgt (fabs (to_f64 (f32_sub x y))) (to_f64 tol).

(** oimerge.c 88-97: the tests on one pair of stations *)
Definition element_ok (use_fov : bool) (e c : element) : bool :=
  let '(x, y, z) := el_staxyz e in
  let '(x', y', z') := el_staxyz c in
  if apart x x' c_1em10 then false
  else if apart y y' c_1em10 then false
  else if apart z z' c_1em10 then false
  else if apart_f (el_diameter e) (el_diameter c) c_1em3f then false
  else if use_fov then
    if apart (el_fov e) (el_fov c) c_1em10 then false
    else str_eqb (el_fovtype e) (el_fovtype c)
  else true.

(** oimerge.c 65-102 *)
Fixpoint match_oi_array (a : oi_array) (l : list oi_array) : res (option oi_array) :=
  match l with
  | [] => Ok None
  | c :: l' =>
      if apart (ar_arrayx a) (ar_arrayx c) c_1em10 then match_oi_array a l'
      else if apart (ar_arrayy a) (ar_arrayy c) c_1em10 then match_oi_array a l'
      else if apart (ar_arrayz a) (ar_arrayz c) c_1em10 then match_oi_array a l'
      else
        b <- for_all (ar_nelement a) (fun i =>
          e <- get (ar_elem a) i ;;
          m <- lookup_element c (el_sta_index e) ;;
          match m with
          | None => Ok false
          | Some c' => Ok (element_ok ((2 <=? ar_revision a) && (2 <=? ar_revision c)) e c')
          end) ;;
        if (b : bool) then Ok (Some c) else match_oi_array a l'
  end.

(** "fabs(x - y) >= tol" with float operands *)
Definition far_f (x y : f32) : bool := fge (fabs (to_f64 (f32_sub x y))) c_1em10.

(** oimerge.c 108-133 *)
Fixpoint match_oi_wavelength (w : oi_wavelength) (l : list oi_wavelength)
  : res (option oi_wavelength) :=
  match l with
  | [] => Ok None
  | c :: l' =>
      if wv_nwave c =? wv_nwave w then
        b <- for_all (wv_nwave w) (fun i =>
          cw <- get (wv_eff_wave c) i ;; ww <- get (wv_eff_wave w) i ;;
          if far_f cw ww then Ok false
          else
            cb <- get (wv_eff_band c) i ;; wb <- get (wv_eff_band w) i ;;
            Ok (negb (far_f cb wb))) ;;
        if (b : bool) then Ok (Some c) else match_oi_wavelength w l'
      else match_oi_wavelength w l'
  end.

(** ** Primary header *)

(** isspace() in the C locale *)
Definition is_space (c : ascii) : bool :=
  let n := nat_of_ascii c in Nat.eqb n 32 || (Nat.leb 9 n && Nat.leb n 13).
Fixpoint skip_space (s : string) : string :=
  match s with
  | String c s' => if is_space c then skip_space s' else s
  | EmptyString => s
  end.
Definition digit_value (c : ascii) : option Z :=
  let n := nat_of_ascii c in
  if Nat.leb 48 n && Nat.leb n 57 then Some (Z.of_nat n - 48) else None.
(** Up to [w] decimal digits: value so far, number of digits, rest *)
Fixpoint scan_digits (w : nat) (acc : Z) (n : nat) (s : string) : Z * nat * string :=
  match w, s with
  | S w', String c s' =>
      match digit_value c with
      | Some d => scan_digits w' (acc * 10 + d) (S n) s'
      | None => (acc, n, s)
      end
  | _, _ => (acc, n, s)
  end.
(** sscanf conversion "%<w>ld" (C11 7.21.6.2): skip white space, then at most [w]
    characters: optional sign, digits.  [None]: matching or input failure. *)
Definition scan_ld (w : nat) (s : string) : option (Z * string) :=
  let s := skip_space s in
  let '(neg, w, s) :=
    match w, s with
    | S w', String c s' =>
        if Ascii.eqb c "-" then (true, w', s')
        else if Ascii.eqb c "+" then (false, w', s') else (false, w, s)
    | _, _ => (false, w, s)
    end in
  let '(v, n, rest) := scan_digits w 0 0 s in
  match n with O => None | S _ => Some (if (neg : bool) then - v else v, rest) end.
(** A literal character of the format *)
Definition scan_char (c : ascii) (s : string) : option string :=
  match s with
  | String c' s' => if Ascii.eqb c' c then Some s' else None
  | EmptyString => None
  end.
(** sscanf(s, "%4ld-%2ld-%2ld", ...) == 3 *)
Definition scan_date (s : string) : option (Z * Z * Z) :=
  match scan_ld 4 s with
  | None => None
  | Some (y, s) =>
      match scan_char "-" s with
      | None => None
      | Some s =>
          match scan_ld 2 s with
          | None => None
          | Some (m, s) =>
              match scan_char "-" s with
              | None => None
              | Some s =>
                  match scan_ld 2 s with
                  | None => None
                  | Some (d, _) => Some (y, m, d)
                  end
              end
          end
      end
  end.

(** oimerge.c 138-157 *)
Definition files_min_mjd (ins : list oi_fits) : res Z :=
  foreach ins (fun d minMjd =>
    match scan_date (h_date_obs (o_header d)) with
    | None => Ok minMjd
    | Some (y, m, dd) =>
        mjd <- date2mjd y m dd ;; Ok (if mjd <? minMjd then mjd else minMjd)
    end) 100000.

(** The loop of MERGE_HEADER_KEY, oimerge.c 171-181: [cur] is the output keyword *)
Fixpoint merge_key_loop (vals : list string) (cur : string) (nuniq : Z) : string * Z :=
  match vals with
  | [] => (cur, nuniq)
  | v :: vals' =>
      if (0 <? strlen v) && negb (str_eqb v cur) then
        let nuniq := nuniq + 1 in
        if 1 <? nuniq then (cur, nuniq)
        else merge_key_loop vals' (strlcpy FLEN_VALUE v) nuniq
      else merge_key_loop vals' cur nuniq
  end.
(** MERGE_HEADER_KEY, oimerge.c 164-186 *)
Definition merge_key (ins : list oi_fits) (key : oi_header -> string) (required : bool)
  (o : oi_fits) : string :=
  let '(cur, nuniq) :=
    merge_key_loop (map (fun d => key (o_header d)) ins) (key (o_header o)) 0 in
  if (nuniq =? 0) && required then "UNKNOWN"%string
  else if 1 <? nuniq then "MULTIPLE"%string
  else cur.

(** oimerge.c 194-220 *)
Definition merge_oi_header (ins : list oi_fits) (o : oi_fits) : res oi_fits :=
  do assert_ (strlen (h_origin (o_header o)) =? 0) ;;
  mjd <- files_min_mjd ins ;;
  Ok (set_header
    (mk_header (merge_key ins h_origin true o) "[unset]"
       (strlcpy FLEN_VALUE (format_date (mjd2date mjd))) "OIFITS2"
       (merge_key ins h_telescop true o) (merge_key ins h_instrume true o)
       (merge_key ins h_observer true o) (merge_key ins h_insmode true o)
       (merge_key ins h_object true o) (merge_key ins h_referenc false o)
       (merge_key ins h_author false o) (merge_key ins h_prog_id false o)
       (merge_key ins h_procsoft false o) (merge_key ins h_obstech false o)) o).

(** ** Targets *)

Definition MAX_TARGET : Z := 100.

(** State of merge_oi_target: revision, rows written so far (ntarget is their
    number), hash table from name to new TARGET_ID *)
Definition target_state := (Z * list target * hash Z)%type.

(** oimerge.c 251-260: one input row *)
Definition merge_target_row (t : target) (s : target_state) : res target_state :=
  let '(rev, rows, h) := s in
  match hash_lookup h (tg_target t) with
  | Some _ => Ok s
  | None =>
      let n := Z.of_nat (List.length rows) + 1 in
      do assert_ (n <? MAX_TARGET) ;;
      Ok (rev, rows ++ [tg_set_target_id n t], hash_insert h (tg_target t) (Some n))
  end.

Definition set_targets (t : oi_target) (o : oi_fits) : oi_fits :=
  mk_fits (o_header o) t (o_numArray o) (o_numWavelength o) (o_numCorr o) (o_numInspol o)
    (o_numVis o) (o_numVis2 o) (o_numT3 o) (o_numFlux o) (o_arrayList o) (o_wavelengthList o)
    (o_corrList o) (o_inspolList o) (o_visList o) (o_vis2List o) (o_t3List o) (o_fluxList o)
    (o_arrayHash o) (o_wavelengthHash o) (o_corrHash o).

(** oimerge.c 246-262: one input dataset *)
Definition merge_target_table (d : oi_fits) (s : target_state) : res target_state :=
  let tab := o_targets d in
  let '(rev, rows, h) := s in
  let rev := if rev <? ot_revision tab then ot_revision tab else rev in
  for_ (ot_ntarget tab) (fun i s => t <- get (ot_targ tab) i ;; merge_target_row t s)
    (rev, rows, h).

(** oimerge.c 230-266.  The final realloc to the exact size (to zero bytes if
    there are no targets) is not modelled. *)
Definition merge_oi_target (ins : list oi_fits) (o : oi_fits) : res (hash Z * oi_fits) :=
  s <- foreach ins merge_target_table (2, [], hash_new) ;;
  let '(rev, rows, h) := s in
  Ok (h, set_targets (mk_oi_target rev (Z.of_nat (List.length rows)) rows
                        (ot_usecategory (o_targets o))) o).

(** ** Tables that are referred to by name *)

(** The output tables of one kind: list, hash table by name, counter *)
Record tables (A : Type) := mk_tables { tl_list : list A; tl_hash : hash A; tl_num : Z }.
Arguments mk_tables {A}. Arguments tl_list {A}. Arguments tl_hash {A}. Arguments tl_num {A}.

(** New name of a table whose name is taken, oimerge.c 310-315, 372-378, 432-437.
    The literal is "array" for OI_ARRAY and "ins" for OI_WAVELENGTH and OI_CORR. *)
Definition new_name (literal name : string) (num : Z) : string :=
  strlcpy FLEN_VALUE
    (if strlen name <? FLEN_VALUE - 5
     then strlcpy FLEN_VALUE (name ++ "_" ++ fmt_0wd 3 (num + 1))
     else strlcpy FLEN_VALUE (literal ++ fmt_0wd 3 (num + 1))).

Section NamedTables.
Context {A : Type}.
Variables (name : A -> string) (set_name : string -> A -> A) (literal : string).
(** search in the output list; copy and upgrade *)
Variables (matching : A -> list A -> res (option A)) (copy : A -> res A).

(** Body of the inner loop, oimerge.c 300-321, 361-385, 425-443 *)
Definition merge_table (a : A) (s : hash string * tables A) : res (hash string * tables A) :=
  let '(h, out) := s in
  m <- matching a (tl_list out) ;;
  match m with
  | Some c => Ok (hash_insert h (name a) (Some (name c)), out)
  | None =>
      c <- copy a ;;
      let c := match hash_lookup (tl_hash out) (name c) with
               | Some _ => set_name (new_name literal (name c) (tl_num out)) c
               | None => c
               end in
      Ok (hash_insert h (name a) (Some (name c)),
          mk_tables (tl_list out ++ [c]) (hash_insert (tl_hash out) (name c) (Some c))
            (tl_num out + 1))
  end.

(** The outer loop: [lists] are the table lists of the inputs *)
Definition merge_tables (lists : list (list A)) (out : tables A)
  : res (list (hash string) * tables A) :=
  do assert_ (match tl_list out with [] => true | _ => false end) ;;
  foreach lists (fun l s =>
    let '(hashes, out) := s in
    r <- foreach l merge_table (hash_new, out) ;;
    let '(h, out) := r in Ok (hashes ++ [h], out)) ([], out).
End NamedTables.

Definition set_arrays (t : tables oi_array) (o : oi_fits) : oi_fits :=
  mk_fits (o_header o) (o_targets o) (tl_num t) (o_numWavelength o) (o_numCorr o)
    (o_numInspol o) (o_numVis o) (o_numVis2 o) (o_numT3 o) (o_numFlux o) (tl_list t)
    (o_wavelengthList o) (o_corrList o) (o_inspolList o) (o_visList o) (o_vis2List o)
    (o_t3List o) (o_fluxList o) (tl_hash t) (o_wavelengthHash o) (o_corrHash o).
Definition set_wavelengths (t : tables oi_wavelength) (o : oi_fits) : oi_fits :=
  mk_fits (o_header o) (o_targets o) (o_numArray o) (tl_num t) (o_numCorr o)
    (o_numInspol o) (o_numVis o) (o_numVis2 o) (o_numT3 o) (o_numFlux o) (o_arrayList o)
    (tl_list t) (o_corrList o) (o_inspolList o) (o_visList o) (o_vis2List o)
    (o_t3List o) (o_fluxList o) (o_arrayHash o) (tl_hash t) (o_corrHash o).
Definition set_corrs (t : tables oi_corr) (o : oi_fits) : oi_fits :=
  mk_fits (o_header o) (o_targets o) (o_numArray o) (o_numWavelength o) (tl_num t)
    (o_numInspol o) (o_numVis o) (o_numVis2 o) (o_numT3 o) (o_numFlux o) (o_arrayList o)
    (o_wavelengthList o) (tl_list t) (o_inspolList o) (o_visList o) (o_vis2List o)
    (o_t3List o) (o_fluxList o) (o_arrayHash o) (o_wavelengthHash o) (tl_hash t).

(** oimerge.c 305-306, 366-367, 428 *)
Definition copy_oi_array (a : oi_array) : res oi_array :=
  c <- dup_oi_array a ;; Ok (upgrade_oi_array c).
Definition copy_oi_wavelength (w : oi_wavelength) : res oi_wavelength :=
  c <- dup_oi_wavelength w ;; Ok (upgrade_oi_wavelength c).

(** oimerge.c 277-327 *)
Definition merge_all_oi_array (ins : list oi_fits) (o : oi_fits)
  : res (list (hash string) * oi_fits) :=
  r <- merge_tables ar_arrname ar_set_arrname "array" match_oi_array copy_oi_array
         (map o_arrayList ins) (mk_tables (o_arrayList o) (o_arrayHash o) (o_numArray o)) ;;
  let '(hs, t) := r in Ok (hs, set_arrays t o).
(** oimerge.c 338-391 *)
Definition merge_all_oi_wavelength (ins : list oi_fits) (o : oi_fits)
  : res (list (hash string) * oi_fits) :=
  r <- merge_tables wv_insname wv_set_insname "ins" match_oi_wavelength copy_oi_wavelength
         (map o_wavelengthList ins)
         (mk_tables (o_wavelengthList o) (o_wavelengthHash o) (o_numWavelength o)) ;;
  let '(hs, t) := r in Ok (hs, set_wavelengths t o).
(** oimerge.c 402-449: every table is copied *)
Definition merge_all_oi_corr (ins : list oi_fits) (o : oi_fits)
  : res (list (hash string) * oi_fits) :=
  r <- merge_tables co_corrname co_set_corrname "ins" (fun _ _ => Ok None) dup_oi_corr
         (map o_corrList ins) (mk_tables (o_corrList o) (o_corrHash o) (o_numCorr o)) ;;
  let '(hs, t) := r in Ok (hs, set_corrs t o).

(** ** Data tables *)

(** g_strlcpy(dst, g_hash_table_lookup(h, old), FLEN_VALUE) where dst holds [old]
    (REPLACE_INSNAME, oimerge.c 464-466): for a NULL source g_strlcpy emits a
    warning and leaves dst alone. *)
Definition replace_name (h : hash string) (old : string) : string :=
  match hash_lookup h old with
  | Some new => strlcpy FLEN_VALUE new
  | None => old
  end.
(** REPLACE_ARRNAME, REPLACE_CORRNAME, oimerge.c 452-461, 469-478 *)
Definition replace_optional (h : hash string) (old : string) : string :=
  if 0 <? strlen old then replace_name h old else old.

(** REPLACE_TARGET_ID, oimerge.c 481-493, for one TARGET_ID of input [d] *)
Definition replace_target_id (d : oi_fits) (ids : hash Z) (id : Z) : res Z :=
  t <- oi_fits_lookup_target d id ;;
  match t with
  | None => UB (* NULL->target *)
  | Some t =>
      match hash_lookup ids (tg_target t) with
      | None => UB (* *NULL *)
      | Some n => Ok n
      end
  end.

(** The loop over inputs shared by merge_all_oi_vis, vis2, t3, flux and inspol:
    the lists of hash tables are traversed in parallel; link->data of an exhausted
    list is a NULL dereference. *)
Fixpoint for_inputs {S} (ins : list oi_fits) (ha hi hc : list (hash string))
  (body : oi_fits -> hash string -> hash string -> hash string -> S -> res S) (s : S) : res S :=
  match ins with
  | [] => Ok s
  | d :: ins' =>
      match ha, hi, hc with
      | a :: ha', i :: hi', c :: hc' => s' <- body d a i c s ;; for_inputs ins' ha' hi' hc' body s'
      | _, _, _ => UB
      end
  end.

Section DataTables.
Context {X R : Type}.
Variables (copy : dtab X R -> res (dtab X R)) (target_id : R -> Z) (set_id : Z -> R -> R)
  (tabs : oi_fits -> list (dtab X R)).

(** Lines 593-598 (vis), 652-657 (vis2), 710-715 (t3), 768-772 (flux) *)
Definition merge_data_table (ids : hash Z) (d : oi_fits) (ha hi hc : hash string)
  (t : dtab X R) : res (dtab X R) :=
  t1 <- copy t ;;
  let t2 := set_arrname (replace_optional ha (tb_arrname t1)) t1 in
  let t3 := set_insname (replace_name hi (tb_insname t2)) t2 in
  let t4 := set_corrname (replace_optional hc (tb_corrname t3)) t3 in
  rec <- update_records (tb_numrec t4) (fun r =>
    n <- replace_target_id d ids (target_id r) ;; Ok (set_id n r)) (tb_record t4) ;;
  Ok (set_record rec t4).

Definition merge_data_tables (ids : hash Z) (ins : list oi_fits) (ha hi hc : list (hash string))
  (s : list (dtab X R) * Z) : res (list (dtab X R) * Z) :=
  for_inputs ins ha hi hc (fun d a i c s =>
    foreach (tabs d) (fun t s =>
      t' <- merge_data_table ids d a i c t ;; Ok (fst s ++ [t'], snd s + 1)) s) s.
End DataTables.

Definition copy_oi_vis (t : oi_vis) : res oi_vis := c <- dup_oi_vis t ;; upgrade_oi_vis c.
Definition copy_oi_vis2 (t : oi_vis2) : res oi_vis2 := c <- dup_oi_vis2 t ;; upgrade_oi_vis2 c.
Definition copy_oi_t3 (t : oi_t3) : res oi_t3 := c <- dup_oi_t3 t ;; upgrade_oi_t3 c.

(** oimerge.c 568-609, 627-668, 686-726, 743-783 *)
Definition merge_all_oi_vis (ids : hash Z) (ins : list oi_fits) (ha hi hc : list (hash string))
  (s : list oi_vis * Z) : res (list oi_vis * Z) :=
  merge_data_tables copy_oi_vis vr_target_id vr_set_target_id o_visList ids ins ha hi hc s.
Definition merge_all_oi_vis2 (ids : hash Z) (ins : list oi_fits) (ha hi hc : list (hash string))
  (s : list oi_vis2 * Z) : res (list oi_vis2 * Z) :=
  merge_data_tables copy_oi_vis2 v2_target_id v2_set_target_id o_vis2List ids ins ha hi hc s.
Definition merge_all_oi_t3 (ids : hash Z) (ins : list oi_fits) (ha hi hc : list (hash string))
  (s : list oi_t3 * Z) : res (list oi_t3 * Z) :=
  merge_data_tables copy_oi_t3 t3_target_id t3_set_target_id o_t3List ids ins ha hi hc s.
Definition merge_all_oi_flux (ids : hash Z) (ins : list oi_fits) (ha hi hc : list (hash string))
  (s : list oi_flux * Z) : res (list oi_flux * Z) :=
  merge_data_tables dup_oi_flux fr_target_id fr_set_target_id o_fluxList ids ins ha hi hc s.

(** oimerge.c 532-540 *)
Definition merge_inspol_table (ids : hash Z) (d : oi_fits) (ha hi : hash string) (t : oi_inspol)
  : res oi_inspol :=
  t1 <- dup_oi_inspol t ;;
  let t2 := is_set_arrname (replace_optional ha (is_arrname t1)) t1 in
  rec <- update_records (is_numrec t2) (fun r =>
    n <- replace_target_id d ids (ip_target_id r) ;; Ok (ip_set_target_id n r)) (is_record t2) ;;
  rec' <- update_records (is_numrec t2) (fun r =>
    Ok (ip_set_insname (replace_name hi (ip_insname r)) r)) rec ;;
  Ok (is_set_record rec' t2).
(** oimerge.c 509-550.  There is no list of CORRNAME tables; the list of INSNAME
    tables is passed twice. *)
Definition merge_all_oi_inspol (ids : hash Z) (ins : list oi_fits) (ha hi : list (hash string))
  (s : list oi_inspol * Z) : res (list oi_inspol * Z) :=
  for_inputs ins ha hi hi (fun d a i _ s =>
    foreach (o_inspolList d) (fun t s =>
      t' <- merge_inspol_table ids d a i t ;; Ok (fst s ++ [t'], snd s + 1)) s) s.

(** oimerge.c 793-837; freeing the temporary hash tables is not modelled. *)
Definition merge_oi_fits_list (ins : list oi_fits) : res oi_fits :=
  let o := init_oi_fits in
  o <- merge_oi_header ins o ;;
  ro <- merge_oi_target ins o ;; let '(ids, o) := ro in
  ro <- merge_all_oi_array ins o ;; let '(ha, o) := ro in
  ro <- merge_all_oi_wavelength ins o ;; let '(hi, o) := ro in
  ro <- merge_all_oi_corr ins o ;; let '(hc, o) := ro in
  ip <- merge_all_oi_inspol ids ins ha hi (o_inspolList o, o_numInspol o) ;;
  v <- merge_all_oi_vis ids ins ha hi hc (o_visList o, o_numVis o) ;;
  v2 <- merge_all_oi_vis2 ids ins ha hi hc (o_vis2List o, o_numVis2 o) ;;
  t3 <- merge_all_oi_t3 ids ins ha hi hc (o_t3List o, o_numT3 o) ;;
  fl <- merge_all_oi_flux ids ins ha hi hc (o_fluxList o, o_numFlux o) ;;
  Ok (mk_fits (o_header o) (o_targets o) (o_numArray o) (o_numWavelength o) (o_numCorr o)
        (snd ip) (snd v) (snd v2) (snd t3) (snd fl) (o_arrayList o) (o_wavelengthList o)
        (o_corrList o) (fst ip) (fst v) (fst v2) (fst t3) (fst fl)
        (o_arrayHash o) (o_wavelengthHash o) (o_corrHash o)).

(** oimerge.c 850-869: the arguments up to the terminating NULL *)
Definition merge_oi_fits (d1 d2 : oi_fits) (more : list oi_fits) : res oi_fits :=
  merge_oi_fits_list ([d1] ++ [d2] ++ more).
