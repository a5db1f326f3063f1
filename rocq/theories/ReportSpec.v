(** Specifications for the storage of check results and for the shared string: what a sequence
    of calls may do, told from the calls alone. *)
From Verif Require Export CheckSpec ToolSpec.
From Verif Require Import ReportModel.
Open Scope list_scope.

Section Calls.
Variable fmt : string -> f64 -> string.

(** ** One struct *)

(** never initialised; holding these breaches; released while holding these *)
Inductive status := Never | Holding (vs : list violation) | Released (vs : list violation).
Definition next_status (k : nat) (s : status) (c : api_call) : status :=
  match c with
  | CInit j => if (j =? k)%nat then Holding [] else s
  | CSet j level description location =>
      match s with
      | Holding vs => if (j =? k)%nat then Holding (vs ++ [mk_violation level description location]) else s
      | _ => s
      end
  | CFree j => match s with Holding vs => if (j =? k)%nat then Released vs else s | _ => s end
  | _ => s
  end.
Definition status_of (k : nat) (l : list api_call) : status := fold_left (next_status k) l Never.

(** ** The strings returned *)

Definition report_of (s : status) : option string :=
  match s with Holding (v :: vs) => Some (finding_text (v :: vs)) | _ => None end.
(** what the call [c], made after [before], returns: nothing, or a string, or NULL *)
Definition answer (before : list api_call) (c : api_call) : list (option string) :=
  match c with
  | CFormat k => [report_of (status_of k before)]
  | CSummary o => match format_oi_fits_summary fmt o with Ok t => [Some t] | _ => [] end
  | CCriteria f => [Some (format_oi_filter fmt f)]
  | _ => []
  end.
Fixpoint answers_after (before l : list api_call) : list (option string) :=
  match l with [] => [] | c :: l' => answer before c ++ answers_after (before ++ [c]) l' end.
Definition answers (l : list api_call) : list (option string) := answers_after [] l.

(** the answer number [i] is a text, and every later one is NULL *)
Definition newest (l : list (option string)) (i : nat) (t : string) : Prop :=
  exists l1 n, l = l1 ++ Some t :: repeat None n /\ List.length l1 = i.

(** ** What may be called *)

Definition may_call (before : list api_call) (c : api_call) : Prop :=
  match c with
  | CInit k => True
  | CSet k level description location =>
      (level = 1 \/ level = 2)%Z
      /\ exists vs, status_of k before = Holding vs /\ Forall (fun v => v_desc v = description) vs
  | CFree k => exists vs, status_of k before = Holding vs
  | CFormat k => (exists vs, status_of k before = Holding vs) \/ status_of k before = Released []
  | CSummary o => exists t, format_oi_fits_summary fmt o = Ok t
  | CCriteria f => True
  | CPrint i => exists t, newest (answers before) i t
  end.
Definition proper (l : list api_call) : Prop := forall before c after, l = before ++ c :: after -> may_call before c.

(** ** What is printed *)

Definition shows (before : list api_call) (c : api_call) : list string :=
  match c with
  | CPrint i => match nth_error (answers before) i with Some (Some t) => [t] | _ => [] end
  | _ => []
  end.
Fixpoint shown_after (before l : list api_call) : list string :=
  match l with [] => [] | c :: l' => shows before c ++ shown_after (before ++ [c]) l' end.
Definition shown (l : list api_call) : list string := shown_after [] l.

(** ** Chunks that have not been released *)

Definition live (m : memory) : nat :=
  List.length (filter (fun c => match c with Some _ => true | None => false end) (m_chunks m)).
Definition inits (l : list api_call) : nat :=
  List.length (filter (fun c => match c with CInit _ => true | _ => false end) l).
Definition frees (l : list api_call) : nat :=
  List.length (filter (fun c => match c with CFree _ => true | _ => false end) l).

(** ** The calls made by oifits-check.c 70-81, for what the checks find

    [n]: the number of strings returned before *)
Definition set_calls (k : nat) (vs : list violation) : list api_call :=
  map (fun v => CSet k (v_level v) (v_desc v) (v_text v)) vs.
Fixpoint check_calls (n : nat) (vss : list (list violation)) : list api_call :=
  match vss with
  | [] => []
  | vs :: vss' =>
      CInit 0 :: set_calls 0 vs
      ++ match vs with
         | [] => CFree 0 :: check_calls n vss'
         | _ => CFormat 0 :: CPrint n :: CFree 0 :: check_calls (S n) vss'
         end
  end.
Definition program_calls (o : oi_fits) : list api_call := CSummary o :: CPrint 0 :: check_calls 1 (findings o).
(** what follows the reports *)
Definition passed (o : oi_fits) : string :=
  if forallb (fun vs => match vs with [] => true | _ => false end) (findings o) then ("All checks passed" ++ nl)%string else ""%string.
End Calls.
