(** Model of the storage behind check results and of the string shared by the functions that
    format text (oicheck.c 34, 48-125; oifile.c 37, 1147-1193; oifilter.c 34, 523-582).

    CheckModel.v has the same functions with the strings kept in the struct itself.

    Simplified: a GStringChunk is a list of strings, named by the order in which it was made; a
    released one is never reused, so a pointer into it stays recognisable.  The GString has one
    block; numBreach does not overflow. *)
From Verif Require Export ToolModel.
Open Scope list_scope.
Open Scope Z_scope.

(** oicheck.h 96-104: a [char *] is the position of the string in [rs_chunk] *)
Record struct := mk_struct {
  rs_level : Z; rs_description : option nat; rs_numBreach : Z; rs_location : list (option nat);
  rs_chunk : nat }.
(** the GString pGStr: the number of texts it has held, its block of memory, and its string *)
Record gstring := mk_gstring { gs_texts : nat; gs_block : nat; gs_str : string }.
(** [m_chunks]: the chunks made so far, [None] once released; [m_results]: the structs of the
    caller, [None] until they are initialised *)
Record memory := mk_memory {
  m_chunks : list (option (list string)); m_results : nat -> option struct; m_pGStr : option gstring }.
Definition m_start : memory := mk_memory [] (fun _ => None) None.

(** ** GLib *)

Definition set_nth {A} (i : nat) (a : A) (l : list A) : list A := firstn i l ++ a :: skipn (S i) l.
Definition chunk (c : nat) (m : memory) : res (list string) :=
  match nth_error (m_chunks m) c with Some (Some l) => Ok l | _ => UB end.
(** g_string_chunk_insert *)
Definition chunk_insert (c : nat) (s : string) (m : memory) : res (nat * memory) :=
  l <- chunk c m ;;
  Ok (List.length l, mk_memory (set_nth c (Some (l ++ [s])) (m_chunks m)) (m_results m) (m_pGStr m)).
(** the string at a pointer into a chunk *)
Definition chunk_string (c : nat) (p : option nat) (m : memory) : res string :=
  match p with
  | None => UB
  | Some p => l <- chunk c m ;; match nth_error l p with Some s => Ok s | None => UB end
  end.

(** ** oicheck.c *)

Definition the_result (k : nat) (m : memory) : res struct :=
  match m_results m k with Some s => Ok s | None => UB end.
Definition put_result (k : nat) (s : struct) (m : memory) : memory :=
  mk_memory (m_chunks m) (fun j => if Nat.eqb j k then Some s else m_results m j) (m_pGStr m).

(** oicheck.c 48-58 *)
Definition store_init (k : nat) (m : memory) : memory :=
  let s := mk_struct OI_BREACH_NONE None 0 (repeat None (Z.to_nat MAX_REPORT)) (List.length (m_chunks m)) in
  put_result k s (mk_memory (m_chunks m ++ [Some []]) (m_results m) (m_pGStr m)).

(** oicheck.c 61-79 *)
Definition store_set (k : nat) (level : Z) (description location : string) (m : memory) : res memory :=
  s <- the_result k m ;;
  let level' := if level >? rs_level s then level else rs_level s in
  r <- match rs_description s with
       | None => r <- chunk_insert (rs_chunk s) description m ;; Ok (Some (fst r), snd r)
       | Some p =>
           d <- chunk_string (rs_chunk s) (Some p) m ;;
           do assert_ (str_eqb description d) ;; Ok (Some p, m)
       end ;;
  let '(description', m) := r in
  let n := rs_numBreach s + 1 in
  r <- (if n <? MAX_REPORT then
          r <- chunk_insert (rs_chunk s) location m ;;
          l <- put (rs_location s) (n - 1) (Some (fst r)) ;; Ok (l, snd r)
        else if n =? MAX_REPORT then
          r <- chunk_insert (rs_chunk s) "[List truncated]" m ;;
          l <- put (rs_location s) (MAX_REPORT - 1) (Some (fst r)) ;; Ok (l, snd r)
        else Ok (rs_location s, m)) ;;
  let '(location', m) := r in
  Ok (put_result k (mk_struct level' description' n location' (rs_chunk s)) m).

(** oicheck.c 86-89 *)
Definition store_free (k : nat) (m : memory) : res memory :=
  s <- the_result k m ;;
  _ <- chunk (rs_chunk s) m ;;
  Ok (mk_memory (set_nth (rs_chunk s) None (m_chunks m)) (m_results m) (m_pGStr m)).

Section Shared.
(** whether the nth text makes GLib move the block of the GString when enlarging it *)
Variable moves : nat -> bool.

(** [if (pGStr == NULL) pGStr = g_string_sized_new(...)], g_string_printf and
    g_string_append_printf; the result is [pGStr->str], as the number of the block *)
Definition write_text (text : string) (m : memory) : nat * memory :=
  let g := match m_pGStr m with
           | None => mk_gstring 1 0 text
           | Some g => mk_gstring (S (gs_texts g)) (if moves (gs_texts g) then S (gs_block g) else gs_block g) text
           end in
  (gs_block g, mk_memory (m_chunks m) (m_results m) (Some g)).

(** oicheck.c 98-115 *)
Definition store_format (k : nat) (m : memory) : res (option nat * memory) :=
  s <- the_result k m ;;
  if rs_level s =? OI_BREACH_NONE then Ok (None, m)
  else
    level <- get oi_breach_level_desc (rs_level s) ;;
    description <- chunk_string (rs_chunk s) (rs_description s) m ;;
    let head := ("*** " ++ level ++ ":" ++ newline ++ description ++ ", "
                 ++ fmt_d (rs_numBreach s) ++ " occurrences:-" ++ newline)%string in
    let n := if rs_numBreach s <? MAX_REPORT then rs_numBreach s else MAX_REPORT in
    text <- for_ n (fun i t =>
      p <- get (rs_location s) i ;; l <- chunk_string (rs_chunk s) p m ;;
      Ok (t ++ "    " ++ l ++ newline)%string) head ;;
    let '(p, m) := write_text text m in Ok (Some p, m).

(** printf("%s", p): p is NULL, or points to the block of the GString or where it once was *)
Definition print_at (p : option nat) (m : memory) : res string :=
  match p, m_pGStr m with
  | Some b, Some g => if Nat.eqb b (gs_block g) then Ok (gs_str g) else UB
  | _, _ => UB
  end.

(** ** Calls made by a program

    [CInit], [CSet]: what a check does with the struct [k]; [CPrint i]: prints the string
    returned by the formatting call number [i], counted from 0. *)
(** as in ToolModel.v: printf with one number *)
Variable fmt : string -> f64 -> string.
Inductive api_call :=
| CInit (k : nat) | CSet (k : nat) (level : Z) (description location : string) | CFree (k : nat)
| CFormat (k : nat) | CSummary (o : oi_fits) | CCriteria (f : filter_spec) | CPrint (i : nat).
(** the memory, the pointers returned so far, and the texts printed *)
Definition session := (memory * list (option nat) * list string)%type.
Definition call_step (c : api_call) (s : session) : res session :=
  let '(m, ps, out) := s in
  match c with
  | CInit k => Ok (store_init k m, ps, out)
  | CSet k level description location => m <- store_set k level description location m ;; Ok (m, ps, out)
  | CFree k => m <- store_free k m ;; Ok (m, ps, out)
  | CFormat k => r <- store_format k m ;; Ok (snd r, ps ++ [fst r], out)
  | CSummary o =>
      text <- format_oi_fits_summary fmt o ;;
      let '(p, m) := write_text text m in Ok (m, ps ++ [Some p], out)
  | CCriteria f => let '(p, m) := write_text (format_oi_filter fmt f) m in Ok (m, ps ++ [Some p], out)
  | CPrint i =>
      match nth_error ps i with
      | None => UB
      | Some p => t <- print_at p m ;; Ok (m, ps, out ++ [t])
      end
  end.
Definition run_calls (l : list api_call) : res session := foreach l call_step (m_start, [], []).
End Shared.
