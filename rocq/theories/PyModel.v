(** Model of the Python interface (src/python-oifits), built for Python 2 by SWIG.

    A script is a list of statements, and ends with the first exception.  Variables hold OiFits objects, Filter objects, and references to parts
    of a dataset (a table, a record, a target, a station).

    What SWIG and CPython are taken to do, apart from the text of the .i files:
    - a returned pointer becomes a new Python object that does not own what it points to, except
      the result of a constructor, which does; NULL becomes None;
    - an object is destroyed as soon as nothing refers to it, and its destructor is called if it
      is the owner; an object made within a statement is destroyed when it has been used;
    - assigning to a member of array type copies the elements, and to one of pointer type the
      pointer, after which the "freearg" typemap is run; assigning to a char array copies the
      string if it fits (also without its null), and to an int member an int in range;
    - a returned [const char *] is copied into a Python string.

    Simplified: a wrong kind of object always gives TypeError; attributes are those listed; parts
    of a dataset are only read; the neighbours of what get_target() and get_element() return are
    out of reach; stored results of checks, and the storage of the structs themselves, are left out.
    File names are plain, as in ToolModel; no string contains a null character. *)
From Verif Require Export ToolModel.
Open Scope list_scope.
Open Scope Z_scope.

(** ** Python values given and shown *)

(** [PyInt]: a Python int, in the range of long *)
Inductive pyval :=
| PyInt (z : Z) | PyLong (z : Z) | PyFloat (x : f64) | PyStr (s : string) | PySeq (l : list pyval) | PyNone.
Inductive exception := IOError | TypeError | ValueError | OverflowError | IndexError | AttributeError | NameError.
(** The value of an expression, or an exception *)
Inductive answer (A : Type) := Val (a : A) | Exc (e : exception).
Arguments Val {A}. Arguments Exc {A}.

(** ** oifits_typemaps.i *)

(** The items of what PySequence_Check() accepts *)
Definition sequence (v : pyval) : option (list pyval) :=
  match v with
  | PySeq l => Some l
  | PyStr s => Some (map (fun c => PyStr (String c EmptyString)) (list_ascii_of_string s))
  | _ => None
  end.
(** The loops over the items *)
Fixpoint convert_items {A} (item : pyval -> option A) (l : list pyval) : answer (list A) :=
  match l with
  | [] => Val []
  | v :: l' =>
      match item v with
      | None => Exc ValueError
      | Some a => match convert_items item l' with Val r => Val (a :: r) | Exc e => Exc e end
      end
  end.
(** The shape of convert_int_array 9-36, convert_float_array 38-65 and convert_double_array 67-94.
    That [result] is not released if an item is wrong is left out. *)
Definition convert_array {A} (item : pyval -> option A) (dim : nat) (input : pyval) : answer (list A) :=
  match sequence input with
  | None => Exc TypeError
  | Some l => if Nat.eqb (List.length l) dim then convert_items item l else Exc ValueError
  end.
(** (int) of a long: modulo 2^32, as GCC defines it *)
Definition to_int (z : Z) : Z := (z + 2147483648) mod 4294967296 - 2147483648.
Definition convert_int_array : nat -> pyval -> answer (list Z) :=
  convert_array (fun v => match v with PyInt z => Some (to_int z) | _ => None end).
Definition convert_float_array : nat -> pyval -> answer (list f32) :=
  convert_array (fun v => match v with PyFloat x => Some (to_f32 x) | _ => None end).
Definition convert_double_array : nat -> pyval -> answer (list f64) :=
  convert_array (fun v => match v with PyFloat x => Some x | _ => None end).

(** SWIG: an int argument, and a string for char[FLEN_VALUE]; [None]: no room for the null *)
Definition convert_int (v : pyval) : answer Z :=
  match v with
  | PyInt z | PyLong z => if FitsModel.in_int z then Val z else Exc OverflowError
  | _ => Exc TypeError
  end.
Definition convert_chars (v : pyval) : answer string :=
  match v with
  | PyStr s => if strlen s <=? FLEN_VALUE then Val s else Exc TypeError
  | _ => Exc TypeError
  end.

(** ** Attributes of Filter objects: oifilter.i 112-133 *)

Inductive filter_attr :=
| ArrnameA | InsnameA | CorrnameA | TargetIdA | MjdRangeA | WaveRangeA | BasRangeA | SnrRangeA
| AcceptVisA | AcceptVis2A | AcceptT3ampA | AcceptT3phiA | AcceptFluxA | AcceptFlaggedA.

Definition set_filter_attr (a : filter_attr) (v : pyval) (f : filter_spec) : answer filter_spec :=
  let spec arrname insname corrname ti ml mh wl wh bl bh sl sh vis vis2 t3amp t3phi flux flagged :=
    mk_filter arrname insname corrname ti ml mh wl wh bl bh (f_uvrad_lo f) (f_uvrad_hi f) sl sh
      vis vis2 t3amp t3phi flux flagged (f_arrname_pttn f) (f_insname_pttn f) (f_corrname_pttn f) in
  let an := f_arrname f in let im := f_insname f in let cn := f_corrname f in let ti := f_target_id f in
  let ml := f_mjd_lo f in let mh := f_mjd_hi f in let wl := f_wave_lo f in let wh := f_wave_hi f in
  let bl := f_bas_lo f in let bh := f_bas_hi f in let sl := f_snr_lo f in let sh := f_snr_hi f in
  let vi := f_accept_vis f in let v2 := f_accept_vis2 f in let ta := f_accept_t3amp f in
  let tp := f_accept_t3phi f in let fx := f_accept_flux f in let fg := f_accept_flagged f in
  let chars k := match convert_chars v with Val s => Val (k s) | Exc e => Exc e end in
  let int k := match convert_int v with Val z => Val (k z) | Exc e => Exc e end in
  let flag k := int (fun z => k (negb (z =? 0))) in
  let floats k := match convert_float_array 2 v with
                  | Val [lo; hi] => Val (k lo hi) | Val _ => Exc ValueError | Exc e => Exc e end in
  let doubles k := match convert_double_array 2 v with
                   | Val [lo; hi] => Val (k lo hi) | Val _ => Exc ValueError | Exc e => Exc e end in
  match a with
  | ArrnameA => chars (fun s => spec s im cn ti ml mh wl wh bl bh sl sh vi v2 ta tp fx fg)
  | InsnameA => chars (fun s => spec an s cn ti ml mh wl wh bl bh sl sh vi v2 ta tp fx fg)
  | CorrnameA => chars (fun s => spec an im s ti ml mh wl wh bl bh sl sh vi v2 ta tp fx fg)
  | TargetIdA => int (fun z => spec an im cn z ml mh wl wh bl bh sl sh vi v2 ta tp fx fg)
  | MjdRangeA => doubles (fun lo hi => spec an im cn ti lo hi wl wh bl bh sl sh vi v2 ta tp fx fg)
  | WaveRangeA => floats (fun lo hi => spec an im cn ti ml mh lo hi bl bh sl sh vi v2 ta tp fx fg)
  | BasRangeA => doubles (fun lo hi => spec an im cn ti ml mh wl wh lo hi sl sh vi v2 ta tp fx fg)
  | SnrRangeA => floats (fun lo hi => spec an im cn ti ml mh wl wh bl bh lo hi vi v2 ta tp fx fg)
  | AcceptVisA => flag (fun b => spec an im cn ti ml mh wl wh bl bh sl sh b v2 ta tp fx fg)
  | AcceptVis2A => flag (fun b => spec an im cn ti ml mh wl wh bl bh sl sh vi b ta tp fx fg)
  | AcceptT3ampA => flag (fun b => spec an im cn ti ml mh wl wh bl bh sl sh vi v2 b tp fx fg)
  | AcceptT3phiA => flag (fun b => spec an im cn ti ml mh wl wh bl bh sl sh vi v2 ta b fx fg)
  | AcceptFluxA => flag (fun b => spec an im cn ti ml mh wl wh bl bh sl sh vi v2 ta tp b fg)
  | AcceptFlaggedA => flag (fun b => spec an im cn ti ml mh wl wh bl bh sl sh vi v2 ta tp fx b)
  end.

(** A char array that has no null cannot be read (typemap 99-101: SWIG_FromCharPtr).  The accept_*
    members are booleans here, so that 1 stands for any other number. *)
Definition get_filter_attr (a : filter_attr) (f : filter_spec) : res pyval :=
  let chars s := if strlen s <? FLEN_VALUE then Ok (PyStr s) else UB in
  let flag (b : bool) := Ok (PyInt (if b then 1 else 0)) in
  let floats (lo hi : f32) := Ok (PySeq [PyFloat (to_f64 lo); PyFloat (to_f64 hi)]) in
  let doubles (lo hi : f64) := Ok (PySeq [PyFloat lo; PyFloat hi]) in
  match a with
  | ArrnameA => chars (f_arrname f) | InsnameA => chars (f_insname f) | CorrnameA => chars (f_corrname f)
  | TargetIdA => Ok (PyInt (f_target_id f))
  | MjdRangeA => doubles (f_mjd_lo f) (f_mjd_hi f) | WaveRangeA => floats (f_wave_lo f) (f_wave_hi f)
  | BasRangeA => doubles (f_bas_lo f) (f_bas_hi f) | SnrRangeA => floats (f_snr_lo f) (f_snr_hi f)
  | AcceptVisA => flag (f_accept_vis f) | AcceptVis2A => flag (f_accept_vis2 f)
  | AcceptT3ampA => flag (f_accept_t3amp f) | AcceptT3phiA => flag (f_accept_t3phi f)
  | AcceptFluxA => flag (f_accept_flux f) | AcceptFlaggedA => flag (f_accept_flagged f)
  end.
(** Whether the name patterns of a filter end with a null *)
Definition terminated (f : filter_spec) : bool :=
  (strlen (f_arrname f) <? FLEN_VALUE) && (strlen (f_insname f) <? FLEN_VALUE)
  && (strlen (f_corrname f) <? FLEN_VALUE).

(** ** Parts of a dataset *)

Inductive kind := KArray | KWavelength | KCorr | KInspol | KVis | KVis2 | KT3 | KFlux.
Definition kind_eqb (a b : kind) : bool :=
  match a, b with
  | KArray, KArray | KWavelength, KWavelength | KCorr, KCorr | KInspol, KInspol
  | KVis, KVis | KVis2, KVis2 | KT3, KT3 | KFlux, KFlux => true
  | _, _ => false
  end.
Inductive table :=
| TArray (t : oi_array) | TWavelength (t : oi_wavelength) | TCorr (t : oi_corr) | TInspol (t : oi_inspol)
| TVis (t : oi_vis) | TVis2 (t : oi_vis2) | TT3 (t : oi_t3) | TFlux (t : oi_flux).
Inductive row :=
| RElement (r : element) | RInspol (r : inspol_record) | RVis (r : vis_record) | RVis2 (r : vis2_record)
| RT3 (r : t3_record) | RFlux (r : flux_record) | RTarget (r : target).
(** oifits.i 119-134 with oifits_typemaps.i 259-271: the list members as Python lists *)
Definition list_of (k : kind) (o : oi_fits) : list table :=
  match k with
  | KArray => map TArray (o_arrayList o) | KWavelength => map TWavelength (o_wavelengthList o)
  | KCorr => map TCorr (o_corrList o) | KInspol => map TInspol (o_inspolList o)
  | KVis => map TVis (o_visList o) | KVis2 => map TVis2 (o_vis2List o)
  | KT3 => map TT3 (o_t3List o) | KFlux => map TFlux (o_fluxList o)
  end.
(** [t.record], or [t.elem] of an OI_ARRAY *)
Definition rows_of (t : table) : option (list row) :=
  match t with
  | TArray t => Some (map RElement (ar_elem t)) | TInspol t => Some (map RInspol (is_record t))
  | TVis t => Some (map RVis (tb_record t)) | TVis2 t => Some (map RVis2 (tb_record t))
  | TT3 t => Some (map RT3 (tb_record t)) | TFlux t => Some (map RFlux (tb_record t))
  | TWavelength _ | TCorr _ => None
  end.

(** What is at the address a reference holds: a table, or position [j] of an array *)
Inductive pointee := TableAt (t : table) | RowAt (l : list row) (j : Z) | Null.

Inductive attr := Numrec | Nwave | Nelement | Arrname_ | Insname_ | Target_id_ | Mjd | Sta_index | Name.
Definition table_attr (a : attr) (t : table) : option pyval :=
  let dtab {X R} (t : dtab X R) :=
    match a with
    | Numrec => Some (PyInt (tb_numrec t)) | Nwave => Some (PyInt (tb_nwave t))
    | Arrname_ => Some (PyStr (tb_arrname t)) | Insname_ => Some (PyStr (tb_insname t))
    | _ => None
    end in
  match t with
  | TArray t => match a with Nelement => Some (PyInt (ar_nelement t)) | Arrname_ => Some (PyStr (ar_arrname t)) | _ => None end
  | TWavelength t => match a with Nwave => Some (PyInt (wv_nwave t)) | Insname_ => Some (PyStr (wv_insname t)) | _ => None end
  | TCorr t => None
  | TInspol t => match a with Numrec => Some (PyInt (is_numrec t)) | Nwave => Some (PyInt (is_nwave t))
                 | Arrname_ => Some (PyStr (is_arrname t)) | _ => None end
  | TVis t => dtab t | TVis2 t => dtab t | TT3 t => dtab t | TFlux t => dtab t
  end.
(** oifits_typemaps.i 104-112: STA_INDEX as a tuple *)
Definition row_attr (a : attr) (r : row) : option pyval :=
  match r, a with
  | RElement r, Sta_index => Some (PyInt (el_sta_index r)) | RElement r, Name => Some (PyStr (el_sta_name r))
  | RInspol r, Target_id_ => Some (PyInt (ip_target_id r)) | RInspol r, Insname_ => Some (PyStr (ip_insname r))
  | RVis r, Target_id_ => Some (PyInt (vr_target_id r)) | RVis r, Mjd => Some (PyFloat (vr_mjd r))
  | RVis r, Sta_index => Some (PySeq [PyInt (fst (vr_sta_index r)); PyInt (snd (vr_sta_index r))])
  | RVis2 r, Target_id_ => Some (PyInt (v2_target_id r)) | RVis2 r, Mjd => Some (PyFloat (v2_mjd r))
  | RVis2 r, Sta_index => Some (PySeq [PyInt (fst (v2_sta_index r)); PyInt (snd (v2_sta_index r))])
  | RT3 r, Target_id_ => Some (PyInt (t3_target_id r)) | RT3 r, Mjd => Some (PyFloat (t3_mjd r))
  | RT3 r, Sta_index => Some (PySeq (map PyInt [fst (fst (t3_sta_index r)); snd (fst (t3_sta_index r)); snd (t3_sta_index r)]))
  | RFlux r, Target_id_ => Some (PyInt (fr_target_id r)) | RFlux r, Mjd => Some (PyFloat (fr_mjd r))
  | RFlux r, Sta_index => Some (PyInt (fr_sta_index r))
  | RTarget r, Target_id_ => Some (PyInt (tg_target_id r)) | RTarget r, Name => Some (PyStr (tg_target r))
  | _, _ => None
  end.
Definition or_attribute_error {A} (a : option A) : answer A :=
  match a with Some a => Val a | None => Exc AttributeError end.
Definition pointee_attr (a : attr) (p : pointee) : res (answer pyval) :=
  match p with
  | Null => Ok (Exc AttributeError)
  | TableAt t => Ok (or_attribute_error (table_attr a t))
  | RowAt l j => r <- get l j ;; Ok (or_attribute_error (row_attr a r))
  end.
(** [p.record] *)
Definition pointee_rows (p : pointee) : answer pointee :=
  match p with
  | TableAt t => match rows_of t with Some l => Val (RowAt l 0) | None => Exc AttributeError end
  | _ => Exc AttributeError
  end.
(** oifits.i 88-97, %add_array_access: [self+i].  Making a pointer outside the array (but for its
    end) is undefined, as is using it. *)
Definition pointee_item (p : pointee) (i : Z) : res (answer pointee) :=
  match p with
  | RowAt l j =>
      if (0 <=? j + i) && (j + i <=? Z.of_nat (List.length l)) then Ok (Val (RowAt l (j + i))) else UB
  | _ => Ok (Exc TypeError)
  end.
(** An item of a Python list: negative positions count from the end *)
Definition list_item {A} (l : list A) (i : Z) : answer A :=
  let i := if i <? 0 then i + Z.of_nat (List.length l) else i in
  if i <? 0 then Exc IndexError
  else match nth_error l (Z.to_nat i) with Some a => Val a | None => Exc IndexError end.

(** ** Scripts *)

(** Expressions for an OiFits: a variable, [OiFits(filename)], [f.apply(o)], [merge(o, ...)] *)
Inductive owner :=
| OVar (x : string) | OOpen (filename : option string) | OApply (f : string) (o : owner) | OMerge (l : list owner).
(** Expressions for a part: a variable, [o.visList[i]], [o.get_target(id)],
    [o.get_element(arrname, staIndex)], [p.record], [p[i]] *)
Inductive part :=
| PVar (y : string) | PItem (o : owner) (k : kind) (i : Z) | PTarget (o : owner) (id : Z)
| PElement (o : owner) (arrname : string) (sta : Z) | PRows (p : part) | PIndex (p : part) (i : Z).
Inductive stmt :=
| Assign (x : string) (o : owner) | Keep (y : string) (p : part) | Del (x : string)
| NewFilter (x : string) | SetAttr (x : string) (a : filter_attr) (v : pyval) | GetAttr (x : string) (a : filter_attr)
| StrFilter (x : string) | Show (p : part) (a : attr) | Str (o : owner) | Write (o : owner) (filename : string)
| Check (n : nat) (o : owner) | Len (o : owner) (k : kind) | NumTargets (o : owner)
| GetNelement (o : owner) (arrname : string) | GetNwave (o : owner) (insname : string)
| GetEffWave (o : owner) (insname : string) (i : Z)
| SetList (o : owner) (k : kind) (l : list part).

(** What a statement shows *)
Inductive event := Nothing | Shown (v : pyval) | Raised (e : exception).

(** A dataset in memory.  [c_owned]: its Python object was made by the constructor; [c_alive]: not
    yet destroyed; [c_pinned]: a reference to that object is never released; [c_freed]: the lists
    whose nodes were released. *)
Record cell := mk_cell {
  c_val : oi_fits; c_owned : bool; c_alive : bool; c_pinned : bool; c_freed : list kind }.
Inductive binding := BData (h : nat) | BPart (h : nat) (p : pointee) | BFilter (f : filter_spec).
Record state := mk_state { s_cells : list cell; s_vars : list (string * binding); s_disk : disk }.
Definition start (d : disk) : state := mk_state [] [] d.

Fixpoint lookup {A} (x : string) (l : list (string * A)) : option A :=
  match l with [] => None | (y, a) :: l' => if str_eqb y x then Some a else lookup x l' end.
Fixpoint update {A} (x : string) (a : A) (l : list (string * A)) : list (string * A) :=
  match l with [] => [] | (y, b) :: l' => if str_eqb y x then (y, a) :: l' else (y, b) :: update x a l' end.
Definition unbind {A} (x : string) (l : list (string * A)) : list (string * A) :=
  filter (fun b => negb (str_eqb (fst b) x)) l.

Definition set_cell (h : nat) (f : cell -> cell) (l : list cell) : list cell :=
  firstn h l ++ match skipn h l with [] => [] | c :: r => f c :: r end.
Definition new_cell (o : oi_fits) (owned : bool) (s : state) : nat * state :=
  (List.length (s_cells s), mk_state (s_cells s ++ [mk_cell o owned true false []]) (s_vars s) (s_disk s)).
(** the destructor ~oi_fits (oifits.i 206-209), called for the owner only *)
Definition destroyed (c : cell) : cell :=
  if c_owned c && negb (c_pinned c) then mk_cell (c_val c) (c_owned c) false (c_pinned c) (c_freed c) else c.
Definition destroy (h : nat) (s : state) : state :=
  mk_state (set_cell h destroyed (s_cells s)) (s_vars s) (s_disk s).
Definition pinned (c : cell) : cell := mk_cell (c_val c) (c_owned c) (c_alive c) true (c_freed c).
Definition pin (h : nat) (s : state) : state :=
  mk_state (set_cell h pinned (s_cells s)) (s_vars s) (s_disk s).
(** a temporary object has been used *)
Definition drop (t : nat * bool) (s : state) : state := if snd t then destroy (fst t) s else s.

Definition refers (h : nat) (b : string * binding) : bool :=
  match snd b with BData h' => Nat.eqb h' h | _ => false end.
(** a variable gets a new value, or is deleted *)
Definition rebind (x : string) (new : list (string * binding)) (s : state) : state :=
  let vars := new ++ unbind x (s_vars s) in
  let s' := mk_state (s_cells s) vars (s_disk s) in
  match lookup x (s_vars s) with
  | Some (BData h) => if existsb (refers h) vars then s' else destroy h s'
  | _ => s'
  end.

(** Access to a dataset through its object, and to its lists *)
Definition the_cell (h : nat) (s : state) : res cell :=
  match nth_error (s_cells s) h with
  | Some c => if c_alive c then Ok c else UB
  | None => UB
  end.
Definition whole (h : nat) (s : state) : res oi_fits :=
  c <- the_cell h s ;; match c_freed c with [] => Ok (c_val c) | _ => UB end.
Fixpoint wholes (l : list nat) (s : state) : res (list oi_fits) :=
  match l with
  | [] => Ok []
  | h :: l' => o <- whole h s ;; r <- wholes l' s ;; Ok (o :: r)
  end.
Definition list_member (k : kind) (h : nat) (s : state) : res (list table) :=
  c <- the_cell h s ;; if existsb (kind_eqb k) (c_freed c) then UB else Ok (list_of k (c_val c)).
(** a part is there as long as the dataset is *)
Definition deref (h : nat) (p : pointee) (s : state) : res unit :=
  match p with Null => Ok tt | _ => do the_cell h s ;; Ok tt end.

(** A list member is replaced by the empty list; the tables are not released *)
Definition set_empty (k : kind) (o : oi_fits) : oi_fits :=
  let e {A} (k' : kind) (l : list A) := if kind_eqb k k' then [] else l in
  mk_fits (o_header o) (o_targets o) (o_numArray o) (o_numWavelength o) (o_numCorr o) (o_numInspol o)
    (o_numVis o) (o_numVis2 o) (o_numT3 o) (o_numFlux o)
    (e KArray (o_arrayList o)) (e KWavelength (o_wavelengthList o)) (e KCorr (o_corrList o))
    (e KInspol (o_inspolList o)) (e KVis (o_visList o)) (e KVis2 (o_vis2List o)) (e KT3 (o_t3List o))
    (e KFlux (o_fluxList o)) (o_arrayHash o) (o_wavelengthHash o) (o_corrHash o).

Section Script.
Variable E : cfitsio.
Variable fmt : string -> f64 -> string.
Variable pow_half : f64 -> f64.

(** The result: the dataset, and whether its object is a temporary one *)
Fixpoint eval_owner (o : owner) (s : state) {struct o} : res (state * answer (nat * bool)) :=
  match o with
  | OVar x =>
      Ok (s, match lookup x (s_vars s) with
             | Some (BData h) => Val (h, false)
             | Some _ => Exc TypeError
             | None => Exc NameError
             end)
  | OOpen None =>                                   (* oifits.i 184-204 *)
      let '(h, s) := new_cell init_oi_fits true s in Ok (s, Val (h, true))
  | OOpen (Some filename) =>
      r <- read_oi_fits E filename (s_disk s) 0 ;;
      if negb (snd r =? 0) then Ok (s, Exc IOError)
      else match fst r with
           | Some v => let '(h, s) := new_cell v true s in Ok (s, Val (h, true))
           | None => UB
           end
  | OApply f o =>                                   (* oifilter.i 156-161 *)
      match lookup f (s_vars s) with
      | Some (BFilter spec) =>
          r <- eval_owner o s ;;
          let '(s, a) := r in
          match a with
          | Exc e => Ok (s, Exc e)
          | Val t =>
              v <- whole (fst t) s ;;
              r <- (if terminated spec then apply_oi_filter pow_half v spec else UB) ;;
              let s := mk_state (s_cells s) (update f (BFilter (fst r)) (s_vars s)) (s_disk s) in
              let '(h, s) := new_cell (snd r) false s in
              Ok (drop t s, Val (h, true))
          end
      | Some _ => Ok (s, Exc TypeError)
      | None => Ok (s, Exc NameError)
      end
  | OMerge l =>                                     (* oimerge.i 62-78, oifits_typemaps.i 227-254 *)
      r <- (fix eval_owners (l : list owner) (s : state) : res (state * answer (list (nat * bool))) :=
              match l with
              | [] => Ok (s, Val [])
              | o :: l' =>
                  r <- eval_owner o s ;;
                  let '(s, a) := r in
                  match a with
                  | Exc e => Ok (s, Exc e)
                  | Val t =>
                      r <- eval_owners l' s ;;
                      let '(s, a) := r in
                      match a with
                      | Exc e => Ok (drop t s, Exc e)
                      | Val ts => Ok (s, Val (t :: ts))
                      end
                  end
              end) l s ;;
      let '(s, a) := r in
      match a with
      | Exc e => Ok (s, Exc e)
      | Val ts =>
          vs <- wholes (map fst ts) s ;;
          v <- merge_oi_fits_list vs ;;
          let s := fold_left (fun s t => pin (fst t) s) ts s in
          let '(h, s) := new_cell v false s in Ok (s, Val (h, true))
      end
  end.

(** Use of an OiFits: [body] gets the dataset's number *)
Definition with_owner {A} (o : owner) (s : state) (body : nat -> state -> res (answer A)) : res (state * answer A) :=
  r <- eval_owner o s ;;
  let '(s, a) := r in
  match a with
  | Exc e => Ok (s, Exc e)
  | Val t => a <- body (fst t) s ;; Ok (drop t s, a)
  end.

Definition row_or_null (r : option row) : pointee := match r with Some r => RowAt [r] 0 | None => Null end.
(** The result: the dataset the part belongs to, and what is there *)
Fixpoint eval_part (p : part) (s : state) : res (state * answer (nat * pointee)) :=
  match p with
  | PVar y =>
      Ok (s, match lookup y (s_vars s) with
             | Some (BPart h p) => Val (h, p)
             | Some _ => Exc TypeError
             | None => Exc NameError
             end)
  | PItem o k i =>
      with_owner o s (fun h s =>
        l <- list_member k h s ;;
        Ok (match list_item l i with Val t => Val (h, TableAt t) | Exc e => Exc e end))
  | PTarget o id =>                                 (* oifits.i 225-228 *)
      with_owner o s (fun h s =>
        c <- the_cell h s ;; t <- oi_fits_lookup_target (c_val c) id ;;
        Ok (Val (h, row_or_null (option_map RTarget t))))
  | PElement o arrname sta =>                       (* oifits.i 235-238 *)
      with_owner o s (fun h s =>
        c <- the_cell h s ;; e <- oi_fits_lookup_element (c_val c) arrname sta ;;
        Ok (Val (h, row_or_null (option_map RElement e))))
  | PRows p =>
      r <- eval_part p s ;;
      let '(s, a) := r in
      match a with
      | Exc e => Ok (s, Exc e)
      | Val (h, p) =>
          do deref h p s ;;
          Ok (s, match pointee_rows p with Val p => Val (h, p) | Exc e => Exc e end)
      end
  | PIndex p i =>
      r <- eval_part p s ;;
      let '(s, a) := r in
      match a with
      | Exc e => Ok (s, Exc e)
      | Val (h, p) =>
          do deref h p s ;;
          q <- pointee_item p i ;;
          Ok (s, match q with Val p => Val (h, p) | Exc e => Exc e end)
      end
  end.
Fixpoint eval_parts (l : list part) (s : state) : res (state * answer (list (nat * pointee))) :=
  match l with
  | [] => Ok (s, Val [])
  | p :: l' =>
      r <- eval_part p s ;;
      let '(s, a) := r in
      match a with
      | Exc e => Ok (s, Exc e)
      | Val t =>
          r <- eval_parts l' s ;;
          let '(s, a) := r in
          Ok (s, match a with Val ts => Val (t :: ts) | Exc e => Exc e end)
      end
  end.

Definition show (a : answer pyval) : event := match a with Val v => Shown v | Exc e => Raised e end.
Definition showing (o : owner) (s : state) (body : nat -> state -> res (answer pyval)) : res (state * event) :=
  r <- with_owner o s body ;; Ok (fst r, show (snd r)).
Definition with_cell (h : nat) (s : state) (body : oi_fits -> res pyval) : res (answer pyval) :=
  c <- the_cell h s ;; v <- body (c_val c) ;; Ok (Val v).
Definition non_null {A} (p : option A) : res A := match p with Some a => Ok a | None => UB end.

Definition exec (c : stmt) (s : state) : res (state * event) :=
  match c with
  | Assign x o =>
      r <- eval_owner o s ;;
      let '(s, a) := r in
      Ok (match a with Val t => (rebind x [(x, BData (fst t))] s, Nothing) | Exc e => (s, Raised e) end)
  | Keep y p =>
      r <- eval_part p s ;;
      let '(s, a) := r in
      Ok (match a with Val (h, p) => (rebind y [(y, BPart h p)] s, Nothing) | Exc e => (s, Raised e) end)
  | Del x =>
      Ok (match lookup x (s_vars s) with
          | Some _ => (rebind x [] s, Nothing) | None => (s, Raised NameError) end)
  | NewFilter x =>                                  (* oifilter.i 138-144 *)
      Ok (rebind x [(x, BFilter init_oi_filter)] s, Nothing)
  | SetAttr x a v =>
      Ok (match lookup x (s_vars s) with
          | Some (BFilter f) =>
              match set_filter_attr a v f with
              | Val f => (rebind x [(x, BFilter f)] s, Nothing)
              | Exc e => (s, Raised e)
              end
          | Some _ => (s, Raised AttributeError)
          | None => (s, Raised NameError)
          end)
  | GetAttr x a =>
      match lookup x (s_vars s) with
      | Some (BFilter f) => v <- get_filter_attr a f ;; Ok (s, Shown v)
      | Some _ => Ok (s, Raised AttributeError)
      | None => Ok (s, Raised NameError)
      end
  | StrFilter x =>                                  (* oifilter.i 151-154 *)
      match lookup x (s_vars s) with
      | Some (BFilter f) => if terminated f then Ok (s, Shown (PyStr (format_oi_filter fmt f))) else UB
      | Some _ => Ok (s, Raised TypeError)
      | None => Ok (s, Raised NameError)
      end
  | Show p a =>
      r <- eval_part p s ;;
      let '(s, q) := r in
      match q with
      | Exc e => Ok (s, Raised e)
      | Val (h, p) => do deref h p s ;; v <- pointee_attr a p ;; Ok (s, show v)
      end
  | Str o =>                                        (* oifits.i 211-214 *)
      showing o s (fun h s => v <- whole h s ;; t <- format_oi_fits_summary fmt v ;; Ok (Val (PyStr t)))
  | Write o filename =>                             (* oifits.i 216-220; typemap 205-221 *)
      r <- eval_owner o s ;;
      let '(s, a) := r in
      match a with
      | Exc e => Ok (s, Raised e)
      | Val t =>
          v <- whole (fst t) s ;; w <- write_oi_fits E filename v (s_disk s) 0 ;;
          Ok (drop t (mk_state (s_cells s) (s_vars s) (fst w)),
              if snd w =? 0 then Nothing else Raised IOError)
      end
  | Check n o =>                                    (* oicheck.i 66-108; the tuple (level, str(result)) *)
      showing o s (fun h s =>
        v <- whole h s ;;
        match nth_error checks n with
        | None => Ok (Exc NameError)
        | Some check =>
            r <- check v ;; t <- format_check_result r ;;
            Ok (Val (PySeq [PyInt (cr_level r);
                            PyStr (match t with Some t => t | None => "Check passed" ++ newline end)]))
        end)
  | Len o k => showing o s (fun h s => l <- list_member k h s ;; Ok (Val (PyInt (Z.of_nat (List.length l)))))
  | NumTargets o =>                                 (* oifits.i 259-262 *)
      showing o s (fun h s => with_cell h s (fun v => Ok (PyInt (ot_ntarget (o_targets v)))))
  | GetNelement o arrname =>                        (* oifits.i 230-233 *)
      showing o s (fun h s => with_cell h s (fun v =>
        a <- non_null (oi_fits_lookup_array v arrname) ;; Ok (PyInt (ar_nelement a))))
  | GetNwave o insname =>                           (* oifits.i 240-243 *)
      showing o s (fun h s => with_cell h s (fun v =>
        w <- non_null (oi_fits_lookup_wavelength v insname) ;; Ok (PyInt (wv_nwave w))))
  | GetEffWave o insname i =>                       (* oifits.i 245-249, [i] of the result *)
      showing o s (fun h s => with_cell h s (fun v =>
        w <- non_null (oi_fits_lookup_wavelength v insname) ;;
        x <- get (wv_eff_wave w) i ;; Ok (PyFloat (to_f64 x))))
  | SetList o k l =>                                (* oifits_typemaps.i 227-254 *)
      r <- eval_owner o s ;;
      let '(s, a) := r in
      match a with
      | Exc e => Ok (s, Raised e)
      | Val t =>
          r <- eval_parts l s ;;
          let '(s, b) := r in
          match b with
          | Exc e => Ok (drop t s, Raised e)
          | Val ps =>
              do the_cell (fst t) s ;;
              (** the pointer to the new nodes, which the "freearg" typemap releases *)
              let cells := set_cell (fst t) (fun c => mk_cell (c_val c) (c_owned c) (c_alive c) (c_pinned c)
                match ps with [] => c_freed c | _ => k :: c_freed c end) (s_cells s) in
              let cells := match ps with
                | [] => set_cell (fst t) (fun c => mk_cell (set_empty k (c_val c)) (c_owned c) (c_alive c)
                          (c_pinned c) (filter (fun k' => negb (kind_eqb k k')) (c_freed c))) cells
                | _ => cells
                end in
              Ok (drop t (mk_state cells (s_vars s) (s_disk s)), Nothing)
          end
      end
  end.

(** The state at the end and what was shown, in order *)
Fixpoint run_from (l : list stmt) (s : state) : res (state * list event) :=
  match l with
  | [] => Ok (s, [])
  | c :: l' =>
      r <- exec c s ;;
      match snd r with
      | Raised e => Ok (fst r, [Raised e])
      | ev => q <- run_from l' (fst r) ;; Ok (fst q, ev :: snd q)
      end
  end.
Definition run (l : list stmt) (d : disk) : res (state * list event) := run_from l (start d).
End Script.
