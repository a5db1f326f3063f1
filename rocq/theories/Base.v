(** Shared vocabulary of the model: outcomes of C code, array access, loops,
    C strings, decimal formatting, hash tables. *)
From Coq Require Export String Ascii List ZArith Bool.
From Coq Require Import DecimalString Decimal.
Export ListNotations.
Open Scope Z_scope.

(** Outcome of running a piece of C code.
    [Abort]: a failed assert()/g_assert() (glib) or an abort() in chkmalloc.c.
    [UB]: out-of-bounds access, NULL dereference or use of storage that was
    never written. *)
Inductive res (A : Type) : Type :=
| Ok (a : A)
| Abort
| UB.
Arguments Ok {A} a.
Arguments Abort {A}.
Arguments UB {A}.

Definition bind {A B} (x : res A) (f : A -> res B) : res B :=
  match x with Ok a => f a | Abort => Abort | UB => UB end.
Notation "x <- e ;; k" := (bind e (fun x => k))
  (at level 61, e at next level, right associativity).
Notation "'do' e ;; k" := (bind e (fun _ => k))
  (at level 61, e at next level, right associativity).

Definition is_ok {A} (x : res A) : bool :=
  match x with Ok _ => true | _ => false end.

(** [a[i]] for an array of which [l] is the whole storage. *)
Definition get {A} (l : list A) (i : Z) : res A :=
  if i <? 0 then UB
  else match nth_error l (Z.to_nat i) with Some a => Ok a | None => UB end.

(** [assert(b)] *)
Definition assert_ (b : bool) : res unit := if b then Ok tt else Abort.

(** chkmalloc(n * size), chkrealloc: abort on a zero-size request
    (chkmalloc.c 30-71). A negative count converts to a huge size_t, for which
    malloc fails, and the code aborts too.  Exhaustion of memory is not
    modelled otherwise. *)
Definition chkmalloc (n : Z) : res unit := if 0 <? n then Ok tt else Abort.

(** [for (i = i0; i < i0 + n; i++) body] over a state. *)
Fixpoint for_from {S} (n : nat) (i : Z) (body : Z -> S -> res S) (s : S)
  : res S :=
  match n with
  | O => Ok s
  | Datatypes.S n' => s' <- body i s ;; for_from n' (i + 1) body s'
  end.
(** [for (i = 0; i < n; i++) body] *)
Definition for_ {S} (n : Z) (body : Z -> S -> res S) (s : S) : res S :=
  for_from (Z.to_nat n) 0 body s.

(** [while (link != NULL) { body(link->data); link = link->next; }] *)
Fixpoint foreach {A S} (l : list A) (body : A -> S -> res S) (s : S) : res S :=
  match l with
  | [] => Ok s
  | a :: l' => s' <- body a s ;; foreach l' body s'
  end.

(** ** C strings *)

Definition str_eqb := String.eqb.
Definition strlen (s : string) : Z := Z.of_nat (String.length s).
Definition is_empty (s : string) : bool :=
  match s with EmptyString => true | _ => false end.
(** strlen(s) > 0 *)
Definition nonempty (s : string) : bool := negb (is_empty s).

(** FLEN_VALUE from fitsio.h *)
Definition FLEN_VALUE : Z := 71.

(** g_strlcpy(dst, src, n) / g_snprintf(dst, n, "%s", src): at most n-1
    characters. *)
Definition strlcpy (n : Z) (src : string) : string :=
  substring 0 (Z.to_nat (n - 1)) src.

(** ** printf conversions for integers *)

Definition string_of_Z (z : Z) : string :=
  NilZero.string_of_int (Z.to_int z).

Fixpoint repeat_char (c : ascii) (n : nat) : string :=
  match n with O => EmptyString | S n' => String c (repeat_char c n') end.

(** "%d" *)
Definition fmt_d (z : Z) : string := string_of_Z z.
(** "%<w>d": pad with blanks on the left *)
Definition fmt_wd (w : nat) (z : Z) : string :=
  let s := string_of_Z z in
  (repeat_char " "%char (w - String.length s) ++ s)%string.
(** "%0<w>d": pad with zeros between sign and digits *)
Definition fmt_0wd (w : nat) (z : Z) : string :=
  if z <? 0 then
    let s := string_of_Z (- z) in
    ("-" ++ repeat_char "0"%char (w - 1 - String.length s) ++ s)%string
  else
    let s := string_of_Z z in
    (repeat_char "0"%char (w - String.length s) ++ s)%string.

(** ** GHashTable with string keys (glib documentation)
    g_hash_table_insert replaces the value of an existing key. The values are
    pointers; [None] is a stored NULL. *)

Definition hash (V : Type) := list (string * option V).

Definition hash_new {V} : hash V := [].
Definition hash_remove {V} (h : hash V) (k : string) : hash V :=
  filter (fun kv => negb (str_eqb (fst kv) k)) h.
Definition hash_insert {V} (h : hash V) (k : string) (v : option V) : hash V :=
  (k, v) :: hash_remove h k.
Fixpoint hash_find {V} (h : hash V) (k : string) : option (option V) :=
  match h with
  | [] => None
  | (k', v) :: h' => if str_eqb k' k then Some v else hash_find h' k
  end.
(** g_hash_table_lookup: NULL for an absent key and for a stored NULL *)
Definition hash_lookup {V} (h : hash V) (k : string) : option V :=
  match hash_find h k with Some v => v | None => None end.
(** g_hash_table_contains *)
Definition hash_contains {V} (h : hash V) (k : string) : bool :=
  match hash_find h k with Some _ => true | None => false end.
