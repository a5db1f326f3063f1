(** Specification: what a script does if its variables simply hold values, and which scripts keep
    the datasets whose parts they use. *)
From Verif Require Export PyModel.
Open Scope list_scope.
Open Scope Z_scope.

Inductive value := VData (o : oi_fits) | VPart (p : pointee) | VFilter (f : filter_spec).
Definition env := list (string * value).

Section Values.
Variable E : cfitsio.
Variable fmt : string -> f64 -> string.
Variable pow_half : f64 -> f64.

Fixpoint owner_value (o : owner) (vars : env) (d : disk) {struct o} : res (answer oi_fits) :=
  match o with
  | OVar x =>
      Ok match lookup x vars with
         | Some (VData v) => Val v | Some _ => Exc TypeError | None => Exc NameError end
  | OOpen None => Ok (Val init_oi_fits)
  | OOpen (Some filename) =>
      r <- read_oi_fits E filename d 0 ;;
      if negb (snd r =? 0) then Ok (Exc IOError)
      else match fst r with Some v => Ok (Val v) | None => UB end
  | OApply f o =>
      match lookup f vars with
      | Some (VFilter spec) =>
          a <- owner_value o vars d ;;
          match a with
          | Exc e => Ok (Exc e)
          | Val v => if terminated spec then r <- apply_oi_filter pow_half v spec ;; Ok (Val (snd r)) else UB
          end
      | Some _ => Ok (Exc TypeError)
      | None => Ok (Exc NameError)
      end
  | OMerge l =>
      a <- (fix owner_values (l : list owner) : res (answer (list oi_fits)) :=
              match l with
              | [] => Ok (Val [])
              | o :: l' =>
                  a <- owner_value o vars d ;;
                  match a with
                  | Exc e => Ok (Exc e)
                  | Val v =>
                      a <- owner_values l' ;;
                      Ok match a with Val vs => Val (v :: vs) | Exc e => Exc e end
                  end
              end) l ;;
      match a with
      | Exc e => Ok (Exc e)
      | Val vs => v <- merge_oi_fits_list vs ;; Ok (Val v)
      end
  end.
(** [body] of the value of [o] *)
Definition of_owner {A} (o : owner) (vars : env) (d : disk) (body : oi_fits -> res (answer A)) : res (answer A) :=
  a <- owner_value o vars d ;;
  match a with Exc e => Ok (Exc e) | Val v => body v end.

Fixpoint part_value (p : part) (vars : env) (d : disk) : res (answer pointee) :=
  match p with
  | PVar y =>
      Ok match lookup y vars with
         | Some (VPart p) => Val p | Some _ => Exc TypeError | None => Exc NameError end
  | PItem o k i =>
      of_owner o vars d (fun v => Ok match list_item (list_of k v) i with Val t => Val (TableAt t) | Exc e => Exc e end)
  | PTarget o id =>
      of_owner o vars d (fun v => t <- oi_fits_lookup_target v id ;; Ok (Val (row_or_null (option_map RTarget t))))
  | PElement o arrname sta =>
      of_owner o vars d (fun v =>
        e <- oi_fits_lookup_element v arrname sta ;; Ok (Val (row_or_null (option_map RElement e))))
  | PRows p =>
      a <- part_value p vars d ;;
      Ok match a with Exc e => Exc e | Val p => pointee_rows p end
  | PIndex p i =>
      a <- part_value p vars d ;;
      match a with Exc e => Ok (Exc e) | Val p => pointee_item p i end
  end.

Definition shown (vars : env) (d : disk) (a : res (answer pyval)) : res (env * disk * event) :=
  a <- a ;; Ok (vars, d, show a).
Definition stmt_value (c : stmt) (vars : env) (d : disk) : res (env * disk * event) :=
  match c with
  | Assign x o =>
      a <- owner_value o vars d ;;
      Ok match a with Val v => ((x, VData v) :: unbind x vars, d, Nothing) | Exc e => (vars, d, Raised e) end
  | Keep y p =>
      a <- part_value p vars d ;;
      Ok match a with Val p => ((y, VPart p) :: unbind y vars, d, Nothing) | Exc e => (vars, d, Raised e) end
  | Del x =>
      Ok match lookup x vars with
         | Some _ => (unbind x vars, d, Nothing) | None => (vars, d, Raised NameError) end
  | NewFilter x => Ok ((x, VFilter init_oi_filter) :: unbind x vars, d, Nothing)
  | SetAttr x a v =>
      Ok match lookup x vars with
         | Some (VFilter f) =>
             match set_filter_attr a v f with
             | Val f => ((x, VFilter f) :: unbind x vars, d, Nothing) | Exc e => (vars, d, Raised e) end
         | Some _ => (vars, d, Raised AttributeError)
         | None => (vars, d, Raised NameError)
         end
  | GetAttr x a =>
      match lookup x vars with
      | Some (VFilter f) => v <- get_filter_attr a f ;; Ok (vars, d, Shown v)
      | Some _ => Ok (vars, d, Raised AttributeError)
      | None => Ok (vars, d, Raised NameError)
      end
  | StrFilter x =>
      match lookup x vars with
      | Some (VFilter f) => if terminated f then Ok (vars, d, Shown (PyStr (format_oi_filter fmt f))) else UB
      | Some _ => Ok (vars, d, Raised TypeError)
      | None => Ok (vars, d, Raised NameError)
      end
  | Show p a =>
      q <- part_value p vars d ;;
      match q with
      | Exc e => Ok (vars, d, Raised e)
      | Val p => shown vars d (pointee_attr a p)
      end
  | Str o =>
      shown vars d (of_owner o vars d (fun v => t <- format_oi_fits_summary fmt v ;; Ok (Val (PyStr t))))
  | Write o filename =>
      a <- owner_value o vars d ;;
      match a with
      | Exc e => Ok (vars, d, Raised e)
      | Val v =>
          w <- write_oi_fits E filename v d 0 ;;
          Ok (vars, fst w, if snd w =? 0 then Nothing else Raised IOError)
      end
  | Check n o =>
      shown vars d (of_owner o vars d (fun v =>
        match nth_error checks n with
        | None => Ok (Exc NameError)
        | Some check =>
            r <- check v ;; t <- format_check_result r ;;
            Ok (Val (PySeq [PyInt (cr_level r);
                            PyStr (match t with Some t => t | None => "Check passed" ++ newline end)]))
        end))
  | Len o k => shown vars d (of_owner o vars d (fun v => Ok (Val (PyInt (Z.of_nat (List.length (list_of k v)))))))
  | NumTargets o => shown vars d (of_owner o vars d (fun v => Ok (Val (PyInt (ot_ntarget (o_targets v))))))
  | GetNelement o arrname =>
      shown vars d (of_owner o vars d (fun v =>
        a <- non_null (oi_fits_lookup_array v arrname) ;; Ok (Val (PyInt (ar_nelement a)))))
  | GetNwave o insname =>
      shown vars d (of_owner o vars d (fun v =>
        w <- non_null (oi_fits_lookup_wavelength v insname) ;; Ok (Val (PyInt (wv_nwave w)))))
  | GetEffWave o insname i =>
      shown vars d (of_owner o vars d (fun v =>
        w <- non_null (oi_fits_lookup_wavelength v insname) ;;
        x <- get (wv_eff_wave w) i ;; Ok (Val (PyFloat (to_f64 x)))))
  | SetList _ _ _ => UB
  end.

(** The files at the end and what was shown *)
Fixpoint script_value (l : list stmt) (vars : env) (d : disk) : res (disk * list event) :=
  match l with
  | [] => Ok (d, [])
  | c :: l' =>
      r <- stmt_value c vars d ;;
      let '(vars, d, ev) := r in
      match ev with
      | Raised e => Ok (d, [Raised e])
      | ev => q <- script_value l' vars d ;; Ok (fst q, ev :: snd q)
      end
  end.
End Values.

(** ** Scripts that keep the datasets whose parts they use *)

(** The variables that hold a part that may be used, each with the variable that holds its dataset;
    [None]: the dataset is a result of apply() or merge(), which are never destroyed *)
Definition parts := list (string * option string).
(** [x] gets another value *)
Definition forget (x : string) (L : parts) : parts :=
  filter (fun b => negb (str_eqb (fst b) x)
                   && negb (match snd b with Some x' => str_eqb x' x | None => false end)) L.
Definition root_owner (o : owner) : option (option string) :=
  match o with
  | OVar x => Some (Some x)
  | OOpen _ => None
  | OApply _ _ | OMerge _ => Some None
  end.
Fixpoint root (L : parts) (p : part) : option (option string) :=
  match p with
  | PVar y => lookup y L
  | PItem o _ _ | PTarget o _ | PElement o _ _ => root_owner o
  | PRows p | PIndex p _ => root L p
  end.
Definition keeps (c : stmt) (L : parts) : option parts :=
  match c with
  | Assign x _ | Del x | NewFilter x | SetAttr x _ _ => Some (forget x L)
  | Keep y p =>
      match root L p with
      | None => None
      | Some r => Some (if match r with Some x => str_eqb x y | None => false end then forget y L
                        else (y, r) :: forget y L)
      end
  | Show p _ => match root L p with None => None | Some _ => Some L end
  | SetList _ _ _ => None
  | _ => Some L
  end.
(** Parts are taken from variables, or from results of apply() or merge(), and used only while the
    variable holds the dataset; no list of tables is assigned to *)
Fixpoint keeps_all (l : list stmt) (L : parts) : bool :=
  match l with
  | [] => true
  | c :: l' => match keeps c L with None => false | Some L => keeps_all l' L end
  end.
Definition keeps_datasets (l : list stmt) : Prop := keeps_all l [] = true.

(** ** Scripts that only open files: no apply(), no merge() *)
Definition opens (o : owner) : bool := match o with OVar _ | OOpen _ => true | OApply _ _ | OMerge _ => false end.
Fixpoint opens_part (p : part) : bool :=
  match p with
  | PVar _ => true
  | PItem o _ _ | PTarget o _ | PElement o _ _ => opens o
  | PRows p | PIndex p _ => opens_part p
  end.
Definition opens_stmt (c : stmt) : bool :=
  match c with
  | Assign _ o | Str o | Write o _ | Check _ o | Len o _ | NumTargets o | GetNelement o _ | GetNwave o _
  | GetEffWave o _ _ => opens o
  | Keep _ p | Show p _ => opens_part p
  | SetList o _ l => opens o && forallb opens_part l
  | Del _ | NewFilter _ | SetAttr _ _ _ | GetAttr _ _ | StrFilter _ => true
  end.

(** ** Attributes of a filter *)

(** The values each attribute takes.  Names of 71 characters are taken too; see below. *)
Definition accepted (a : filter_attr) (v : pyval) : Prop :=
  match a with
  | ArrnameA | InsnameA | CorrnameA => exists s, v = PyStr s /\ strlen s <= 71
  | TargetIdA | AcceptVisA | AcceptVis2A | AcceptT3ampA | AcceptT3phiA | AcceptFluxA | AcceptFlaggedA =>
      exists z, (v = PyInt z \/ v = PyLong z) /\ -2147483648 <= z <= 2147483647
  | MjdRangeA | WaveRangeA | BasRangeA | SnrRangeA => exists lo hi, v = PySeq [PyFloat lo; PyFloat hi]
  end.
(** What is read after [v] was assigned; [None]: a name with no room for its null *)
Definition stored (a : filter_attr) (v : pyval) : option pyval :=
  let single x := PyFloat (to_f64 (to_f32 x)) in
  match a, v with
  | (ArrnameA | InsnameA | CorrnameA), PyStr s => if strlen s <=? 70 then Some (PyStr s) else None
  | TargetIdA, (PyInt z | PyLong z) => Some (PyInt z)
  | (AcceptVisA | AcceptVis2A | AcceptT3ampA | AcceptT3phiA | AcceptFluxA | AcceptFlaggedA), (PyInt z | PyLong z) =>
      Some (PyInt (if z =? 0 then 0 else 1))
  | (WaveRangeA | SnrRangeA), PySeq [PyFloat lo; PyFloat hi] => Some (PySeq [single lo; single hi])
  | (MjdRangeA | BasRangeA), PySeq [PyFloat lo; PyFloat hi] => Some v
  | _, _ => None
  end.

(** ** Scripts that do what the command-line programs do *)

Definition filter_script (settings : list (filter_attr * pyval)) (inName out : string) : list stmt :=
  NewFilter "f" :: map (fun s => SetAttr "f" (fst s) (snd s)) settings
  ++ [Write (OApply "f" (OOpen (Some inName))) out].
Definition merge_script (out : string) (names : list string) : list stmt :=
  [Write (OMerge (map (fun n => OOpen (Some n)) names)) out].
(** An event for each statement, [ev] for the last *)
Definition quietly (n : nat) (ev : event) : list event := repeat Nothing n ++ [ev].
(** Python has no attribute for the range of UV radii *)
Definition uvrad_given (opts : list filter_option) : Prop := exists x, In (Uvrad_min x) opts \/ In (Uvrad_max x) opts.
