(** An abstract FITS file and the cfitsio calls the library makes on it.

    cfitsio is not part of /repo.  This file states what its routines are assumed to
    do, from memory: neither its source nor its documentation was at hand.  It belongs to
    the trusted base. A file is the
    list of its header-data units; the structural keywords (XTENSION, NAXISn, TFIELDS,
    TTYPEn, TFORMn, TUNITn, TDIMn) are represented by the fields of [hdu] and [column],
    all others by [hd_keys].  Comments, HISTORY and CONTINUE records, extended file name
    syntax, scaling (TSCALn, TZEROn), null values, variable-length and bit columns and
    the 'rAw' form of string columns are left out. *)
From Verif Require Export Types.

(** ** Status codes (fitsio.h) *)
Definition FILE_NOT_OPENED : Z := 104.
Definition FILE_NOT_CREATED : Z := 105.
Definition END_OF_FILE : Z := 107.
Definition KEY_NO_EXIST : Z := 202.
Definition COL_NOT_FOUND : Z := 219.
Definition NOT_TABLE : Z := 235.
Definition COL_NOT_UNIQUE : Z := 237.
Definition BAD_BTABLE_FORMAT : Z := 261.
Definition BAD_HDU_NUM : Z := 301.
Definition BAD_COL_NUM : Z := 302.
Definition BAD_ROW_NUM : Z := 307.
Definition NOT_LOGICAL_COL : Z := 310.
Definition BAD_F2C : Z := 402.
Definition BAD_INTKEY : Z := 403.
Definition BAD_DOUBLEKEY : Z := 406.
Definition BAD_DATATYPE : Z := 410.
Definition NUM_OVERFLOW : Z := 412.

(** ** Files *)

Inductive kval := KStr (s : string) | KInt (z : Z) | KDbl (x : f64).

(** TFORM letters I, J, E, D, L, C, A *)
Inductive kind := Short | Long | Float | Double | Logical | Complex | Chars.
Record form := mk_form { fm_kind : kind; fm_repeat : Z }.

Inductive value := VInt (z : Z) | VFlt (x : f32) | VDbl (x : f64) | VLog (b : bool) | VStr (s : string).

(** [c_data]: the elements of all rows, in order.  A complex element is two [VFlt]. *)
Record column := mk_column {
  c_name : string; c_form : form; c_unit : option string; c_dim : option string;
  c_data : list value }.

Inductive hdutype := IMAGE_HDU | ASCII_TBL | BINARY_TBL.

Record hdu := mk_hdu {
  hd_type : hdutype; hd_keys : list (string * kval); hd_cols : list column; hd_nrows : Z }.

(** [f_cur]: number of the current HDU, from 1 *)
Record fitsfile := mk_file { f_hdus : list hdu; f_cur : Z }.

(** What a theorem may not depend on: results of cfitsio and contents of storage that
    was never written. *)
Record cfitsio := mk_cfitsio {
  (** the value of a TDOUBLE keyword after fits_write_key (15 significant digits), or
      [None] when it cannot be written (NaN, infinity) *)
  cf_key_double : f64 -> option f64;
  (** conversions of a keyword value of another type *)
  cf_conv_int : kval -> option Z;
  cf_conv_double : kval -> option f64;
  cf_conv_text : kval -> string;
  (** current date, CHECKSUM and DATASUM *)
  cf_today : string;
  cf_sums : hdu -> kval * kval;
  (** contents of storage allocated but never written; the same everywhere, as no
      theorem says anything about them *)
  cf_junk_int : Z;
  cf_junk_str : string;
  cf_junk_dbl : f64;
  cf_junk_flt : f32;
  cf_junk_bool : bool;
  (** the 8 bytes of a double read as a float complex *)
  cf_pun : f64 -> cplx }.

(** ** Character strings in FITS *)

Definition printable (c : ascii) : bool :=
  let n := Z.of_nat (nat_of_ascii c) in (32 <=? n) && (n <=? 126).
Definition blank : ascii := " "%char.
Definition quote : ascii := "'"%char.
Fixpoint rtrim (s : string) : string :=
  match s with
  | EmptyString => EmptyString
  | String c s' =>
      let t := rtrim s' in
      if Ascii.eqb c blank && is_empty t then EmptyString else String c t
  end.
(** at most [n] characters between the quotes of a header card, a quote counting twice *)
Fixpoint fit_card (n : Z) (s : string) : string :=
  match s with
  | EmptyString => EmptyString
  | String c s' =>
      let w := if Ascii.eqb c quote then 2 else 1 in
      if w <=? n then String c (fit_card (n - w) s') else EmptyString
  end.
Fixpoint sanitize (s : string) : string :=
  match s with
  | EmptyString => EmptyString
  | String c s' => String (if printable c then c else blank) (sanitize s')
  end.
(** a string keyword as read back after fits_write_key *)
Definition card (s : string) : string := rtrim (sanitize (fit_card 68 s)).
(** a string table element of [w] characters as read back *)
Definition cell (w : Z) (s : string) : string := rtrim (substring 0 (Z.to_nat w) s).

Definition upper_char (c : ascii) : ascii :=
  let n := nat_of_ascii c in
  if (Nat.leb 97 n && Nat.leb n 122)%bool then ascii_of_nat (n - 32) else c.
Fixpoint upper (s : string) : string :=
  match s with EmptyString => EmptyString | String c s' => String (upper_char c) (upper s') end.

(** ** Header and table access within one HDU *)

(** the first keyword of that name; cfitsio starts searching at its current position in
    the header, so this is exact when the name occurs once *)
Fixpoint find_key (k : string) (l : list (string * kval)) : option kval :=
  match l with
  | [] => None
  | (k', v) :: l' => if str_eqb k' k then Some v else find_key k l'
  end.
Definition with_keys (keys : list (string * kval)) (h : hdu) : hdu :=
  mk_hdu (hd_type h) keys (hd_cols h) (hd_nrows h).
Definition add_key (k : string) (v : kval) (h : hdu) : hdu := with_keys (hd_keys h ++ [(k, v)]) h.
(** fits_update_key *)
Definition update_key (k : string) (v : kval) (h : hdu) : hdu :=
  match find_key k (hd_keys h) with
  | None => add_key k v h
  | Some _ => with_keys (map (fun kv => if str_eqb (fst kv) k then (k, v) else kv) (hd_keys h)) h
  end.

(** positions (from 1) of the columns of that name, ignoring case *)
Fixpoint find_cols (name : string) (i : Z) (l : list column) : list Z :=
  match l with
  | [] => []
  | c :: l' => let r := find_cols name (i + 1) l' in
               if str_eqb (upper (c_name c)) (upper name) then i :: r else r
  end.

Definition per_row (f : form) : Z :=
  match fm_kind f with Chars => 1 | Complex => 2 * fm_repeat f | _ => fm_repeat f end.
Definition zero_value (k : kind) : value :=
  match k with
  | Short | Long => VInt 0
  | Float | Complex => VFlt (S754_zero false)
  | Double => VDbl f64_zero
  | Logical => VLog false
  | Chars => VStr ""
  end.
Definition zeros (f : form) (nrows : Z) : list value :=
  repeat (zero_value (fm_kind f)) (Z.to_nat (nrows * per_row f)).
Definition with_data (d : list value) (c : column) : column :=
  mk_column (c_name c) (c_form c) (c_unit c) (c_dim c) d.

(** range of the integer columns *)
Definition in_short (z : Z) : bool := (-32768 <=? z) && (z <=? 32767).
Definition in_int (z : Z) : bool := (-2147483648 <=? z) && (z <=? 2147483647).
Definition clip (lo hi z : Z) : Z := if z <? lo then lo else if hi <? z then hi else z.
(** A value put into a column: the element stored and whether it overflowed.  The code
    only writes a type into a column of the corresponding kind. *)
Definition store (f : form) (v : value) : value * bool :=
  match fm_kind f, v with
  | Short, VInt z => (VInt (clip (-32768) 32767 z), negb (in_short z))
  | Long, VInt z => (VInt (clip (-2147483648) 2147483647 z), negb (in_int z))
  | Chars, VStr s => (VStr (cell (fm_repeat f) s), false)
  | _, _ => (v, false)
  end.

(** add rows of zeros up to [n] rows *)
Definition extend_col (n : Z) (nrows : Z) (c : column) : column :=
  with_data (c_data c ++ zeros (c_form c) (n - nrows)) c.
Definition extend_rows (n : Z) (h : hdu) : hdu :=
  if n <=? hd_nrows h then h
  else mk_hdu (hd_type h) (hd_keys h) (map (extend_col n (hd_nrows h)) (hd_cols h)) n.
Definition put_values (off : Z) (vs data : list value) : list value :=
  let o := Z.to_nat off in
  firstn o data ++ vs ++ skipn (o + List.length vs) data.
Fixpoint at_nth {A} (n : nat) (f : A -> A) (l : list A) : list A :=
  match l, n with
  | [], _ => []
  | a :: l', O => f a :: l'
  | a :: l', Datatypes.S n' => a :: at_nth n' f l'
  end.
Definition nth_col (k : Z) (h : hdu) : option column :=
  if k <? 1 then None else nth_error (hd_cols h) (Z.to_nat (k - 1)).

(** last row touched by [n] elements from the start of row [irow] *)
Definition last_row (f : form) (irow n : Z) : Z := irow + (n - 1) / per_row f.
(** fits_write_col(fptr, type, k, irow, 1, n, values): new contents and error code *)
Definition write_col (k irow : Z) (vs : list value) (h : hdu) : hdu * Z :=
  match nth_col k h with
  | None => (h, BAD_COL_NUM)
  | Some c =>
      match vs with
      | [] => (h, 0)
      | _ =>
          if per_row (c_form c) <? 1 then (h, BAD_ROW_NUM)
          else
            let h' := extend_rows (last_row (c_form c) irow (Z.of_nat (List.length vs))) h in
            let stored := map (store (c_form c)) vs in
            let write c := with_data (put_values ((irow - 1) * per_row (c_form c)) (map fst stored)
                                        (c_data c)) c in
            (mk_hdu (hd_type h') (hd_keys h') (at_nth (Z.to_nat (k - 1)) write (hd_cols h'))
                    (hd_nrows h'),
             if existsb snd stored then NUM_OVERFLOW else 0)
      end
  end.

Definition new_column (name : string) (f : form) (nrows : Z) : column :=
  mk_column name f None None (zeros f nrows).
(** fits_insert_col, fits_insert_cols: TUNITn and TDIMn of later columns move along *)
Definition insert_cols (k : Z) (l : list (string * form)) (h : hdu) : hdu * Z :=
  if (k <? 1) || (Z.of_nat (List.length (hd_cols h)) + 1 <? k) then (h, BAD_COL_NUM)
  else
    let n := Z.to_nat (k - 1) in
    (mk_hdu (hd_type h) (hd_keys h)
       (firstn n (hd_cols h) ++ map (fun nf => new_column (fst nf) (snd nf) (hd_nrows h)) l
        ++ skipn n (hd_cols h)) (hd_nrows h), 0).
(** fits_write_key of "TUNIT<k>", "TDIM<k>".  A second record of the same name would not
    be seen by a reader; writing one for a column that does not exist has no effect. *)
Definition set_unit (s : string) (c : column) : column :=
  mk_column (c_name c) (c_form c)
    (match c_unit c with Some u => Some u | None => Some (card s) end) (c_dim c) (c_data c).
Definition set_dim (s : string) (c : column) : column :=
  mk_column (c_name c) (c_form c) (c_unit c)
    (match c_dim c with Some u => Some u | None => Some (card s) end) (c_data c).
Definition on_col (k : Z) (f : column -> column) (h : hdu) : hdu :=
  mk_hdu (hd_type h) (hd_keys h)
    (if k <? 1 then hd_cols h else at_nth (Z.to_nat (k - 1)) f (hd_cols h)) (hd_nrows h).

(** ** Calls that change a file: every one does nothing once the status is set *)

(** the open file and *pStatus *)
Definition wstate := (fitsfile * Z)%type.
Definition put_hdu (n : Z) (h : hdu) (f : fitsfile) : fitsfile :=
  mk_file (at_nth (Z.to_nat (n - 1)) (fun _ => h) (f_hdus f)) (f_cur f).
Definition chdu (f : fitsfile) : option hdu :=
  if f_cur f <? 1 then None else nth_error (f_hdus f) (Z.to_nat (f_cur f - 1)).
(** A call acting on the current HDU.  (There is always one when the code gets here.) *)
Definition on_chdu (op : hdu -> hdu * Z) (s : wstate) : res wstate :=
  let '(f, st) := s in
  if negb (st =? 0) then Ok s
  else match chdu f with
       | None => Ok (f, BAD_HDU_NUM)
       | Some h => let '(h', e) := op h in Ok (put_hdu (f_cur f) h' f, e)
       end.

Definition null_primary : hdu := mk_hdu IMAGE_HDU [] [] 0.
Definition append_hdu (h : hdu) (f : fitsfile) : fitsfile :=
  mk_file (f_hdus f ++ [h]) (Z.of_nat (List.length (f_hdus f)) + 1).

(** name, TFORM, TUNIT ("" for none) *)
Definition coldef := (string * form * string)%type.
Definition make_column (d : coldef) : column :=
  let '(name, f, u) := d in
  mk_column name f (if is_empty u then None else Some u) None [].
(** fits_create_tbl(fptr, BINARY_TBL, 0, ...); an empty file first gets a primary HDU *)
Definition fits_create_tbl (cols : list coldef) (extname : string) (s : wstate) : res wstate :=
  let '(f, st) := s in
  if negb (st =? 0) then Ok s
  else
    let f := match f_hdus f with [] => append_hdu null_primary f | _ => f end in
    Ok (append_hdu (mk_hdu BINARY_TBL [("EXTNAME"%string, KStr extname)] (map make_column cols) 0) f,
        0).
(** fits_get_num_hdus and fits_create_img(fptr, 16, 0, NULL) or fits_movabs_hdu(fptr, 1) *)
Definition fits_create_img (s : wstate) : res wstate :=
  let '(f, st) := s in
  if negb (st =? 0) then Ok s else Ok (append_hdu null_primary f, 0).
Definition movabs (n : Z) (f : fitsfile) : fitsfile * Z :=
  if (n <? 1) || (Z.of_nat (List.length (f_hdus f)) <? n)
  then (f, if n <? 1 then BAD_HDU_NUM else END_OF_FILE)
  else (mk_file (f_hdus f) n, 0).
Definition fits_movabs_hdu (n : Z) (s : wstate) : res wstate :=
  let '(f, st) := s in
  if negb (st =? 0) then Ok s else Ok (movabs n f).

Definition write_key_str (k : string) (v : string) : wstate -> res wstate :=
  on_chdu (fun h => (add_key k (KStr (card v)) h, 0)).
Definition write_key_int (k : string) (v : Z) : wstate -> res wstate :=
  on_chdu (fun h => (add_key k (KInt v) h, 0)).
Definition write_key_double (E : cfitsio) (k : string) (v : f64) : wstate -> res wstate :=
  on_chdu (fun h => match cf_key_double E v with
                    | Some y => (add_key k (KDbl y) h, 0)
                    | None => (h, BAD_F2C)
                    end).
Definition fits_write_date (E : cfitsio) : wstate -> res wstate :=
  on_chdu (fun h => (update_key "DATE" (KStr (cf_today E)) h, 0)).
Definition fits_write_chksum (E : cfitsio) : wstate -> res wstate :=
  on_chdu (fun h => let '(c, d) := cf_sums E h in
                    (update_key "DATASUM" d (update_key "CHECKSUM" c h), 0)).
Definition write_tunit (k : Z) (u : string) : wstate -> res wstate :=
  on_chdu (fun h => (on_col k (set_unit u) h, 0)).
Definition write_tdim (k : Z) (u : string) : wstate -> res wstate :=
  on_chdu (fun h => (on_col k (set_dim u) h, 0)).
Definition fits_write_col (k irow : Z) (vs : list value) : wstate -> res wstate :=
  on_chdu (write_col k irow vs).
Definition fits_insert_cols (k : Z) (l : list (string * form)) : wstate -> res wstate :=
  on_chdu (insert_cols k l).

(** ** Calls that read: the file position is not changed by these *)

(** a computation reading and setting *pStatus *)
Definition rd (A : Type) := Z -> res (A * Z).
Definition rret {A} (a : A) : rd A := fun st => Ok (a, st).
Definition rbind {A B} (x : rd A) (k : A -> rd B) : rd B :=
  fun st => p <- x st ;; k (fst p) (snd p).
Notation "x <~ e ;~ k" := (rbind e (fun x => k))
  (at level 61, e at next level, right associativity).
(** *pStatus and an assignment to it *)
Definition get_status : rd Z := fun st => Ok (st, st).
Definition set_status (v : Z) : rd unit := fun _ => Ok (tt, v).
Definition lift {A} (x : res A) : rd A := fun st => a <- x ;; Ok (a, st).

(** A call with one result: [None] when the destination is not written. *)
Definition call {A} (r : A + Z) : rd (option A) :=
  fun st => if negb (st =? 0) then Ok (None, st)
            else match r with inl a => Ok (Some a, 0) | inr e => Ok (None, e) end.

Definition of_option {A} (o : option A) (e : Z) : A + Z :=
  match o with Some a => inl a | None => inr e end.

(** fits_read_key(fptr, TSTRING/TINT/TDOUBLE, ...) *)
Definition read_key_str (E : cfitsio) (h : hdu) (k : string) : rd (option string) :=
  call (match find_key k (hd_keys h) with
        | None => inr KEY_NO_EXIST
        | Some (KStr s) => inl s
        | Some v => inl (cf_conv_text E v)
        end).
Definition read_key_int (E : cfitsio) (h : hdu) (k : string) : rd (option Z) :=
  call (match find_key k (hd_keys h) with
        | None => inr KEY_NO_EXIST
        | Some (KInt z) => inl z
        | Some v => of_option (cf_conv_int E v) BAD_INTKEY
        end).
Definition read_key_double (E : cfitsio) (h : hdu) (k : string) : rd (option f64) :=
  call (match find_key k (hd_keys h) with
        | None => inr KEY_NO_EXIST
        | Some (KDbl x) => inl x
        | Some v => of_option (cf_conv_double E v) BAD_DOUBLEKEY
        end).
(** fits_read_key(fptr, TSTRING, "TUNIT<k>", ...) *)
Definition read_tunit (h : hdu) (k : Z) : rd (option string) :=
  call (match nth_col k h with
        | Some c => of_option (c_unit c) KEY_NO_EXIST
        | None => inr KEY_NO_EXIST
        end).
(** fits_get_num_rows, fits_get_colnum(CASEINSEN), fits_get_coltype: type code and repeat *)
Definition get_num_rows (h : hdu) : rd (option Z) :=
  call (match hd_type h with IMAGE_HDU => inr NOT_TABLE | _ => inl (hd_nrows h) end).
Definition get_colnum (h : hdu) (name : string) : rd (option Z) :=
  call (match find_cols name 1 (hd_cols h) with
        | [] => inr COL_NOT_FOUND
        | [k] => inl k
        | _ => inr COL_NOT_UNIQUE
        end).
Definition get_coltype (h : hdu) (k : option Z) : rd (option (kind * Z)) :=
  call (match k with
        | None => inr BAD_COL_NUM
        | Some k =>
            match nth_col k h with
            | Some c => inl (fm_kind (c_form c), fm_repeat (c_form c))
            | None => inr BAD_COL_NUM
            end
        end).

(** element conversions of fits_read_col; [inr]: error code *)
Definition trunc_Z (x : f64) : option Z :=
  match x with
  | S754_finite true m e => option_map Z.opp (floor_Z (S754_finite false m e))
  | _ => floor_Z x
  end.
Definition as_int (v : value) : Z + Z :=
  match v with
  | VInt z => inl z
  | VFlt x | VDbl x => of_option (trunc_Z x) NUM_OVERFLOW
  | _ => inr BAD_DATATYPE
  end.
Definition as_double (v : value) : f64 + Z :=
  match v with
  | VDbl x => inl x
  | VFlt x => inl (to_f64 x)
  | VInt z => inl (f64_of_Z z)
  | _ => inr BAD_DATATYPE
  end.
Definition as_float (v : value) : f32 + Z :=
  match v with
  | VFlt x => inl x
  | VDbl x => inl (to_f32 x)
  | VInt z => inl (to_f32 (f64_of_Z z))
  | _ => inr BAD_DATATYPE
  end.
Definition as_bool (v : value) : bool + Z :=
  match v with VLog b => inl b | _ => inr NOT_LOGICAL_COL end.
Definition as_str (v : value) : string + Z :=
  match v with VStr s => inl s | _ => inr BAD_DATATYPE end.

Fixpoint convert_all {A} (conv : value -> A + Z) (l : list value) : list A + Z :=
  match l with
  | [] => inl []
  | v :: l' =>
      match conv v with
      | inr e => inr e
      | inl a => match convert_all conv l' with inl r => inl (a :: r) | inr e => inr e end
      end
  end.
(** fits_read_col(fptr, type, k, irow, 1, n, NULL, ...) *)
Definition read_col {A} (conv : value -> A + Z) (h : hdu) (k : option Z) (irow n : Z)
  : rd (option (list A)) :=
  call (match k with
        | None => inr BAD_COL_NUM
        | Some k =>
            match nth_col k h with
            | None => inr BAD_COL_NUM
            | Some c =>
                let off := Z.to_nat ((irow - 1) * per_row (c_form c)) in
                if (irow <? 1) || (n <? 0)
                   || (Z.of_nat (List.length (c_data c)) <? Z.of_nat off + n)
                then inr BAD_ROW_NUM
                else convert_all conv (firstn (Z.to_nat n) (skipn off (c_data c)))
            end
        end).
