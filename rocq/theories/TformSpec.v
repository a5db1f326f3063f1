(** Specification: storage of the column formats (C74). *)
From Coq Require Import Ascii.
From Verif Require WriteModel.
From Verif Require Export TformModel.
Open Scope Z_scope.

(** malloc returns storage that is not in use. *)
Definition fresh (malloc : heap -> addr) : Prop := forall h, lookup h (malloc h) = None.
(** The text of a format: an initial '?' stands for the value. *)
Definition format_text (value : Z) (t : string) : string :=
  match t with String "?" rest => fmt_d value ++ rest | _ => t end.
(** The value has at most four digits, or is not needed. *)
Definition roomy (value : Z) (t : string) : Prop :=
  String.get 0 t = Some "?"%char -> (String.length (fmt_d value) <= 4)%nat.
(** A string, with what follows it in the same block not written yet *)
Definition text_at (h : heap) (p : addr) (s : string) : Prop :=
  exists k, lookup h p = Some (map Ch (list_ascii_of_string s) ++ Ch "000"%char :: repeat Raw k).
(** An array of pointers to the strings, no two blocks being the same *)
Definition strings_at (h : heap) (a : addr) (ps : list addr) (texts : list string) : Prop :=
  lookup h a = Some (map Pt ps) /\ NoDup (a :: ps) /\ Forall2 (text_at h) ps texts.

(** ** Agreement with WriteModel.v *)

(** FITS standard 7.3.1: a repeat count, which may be left out if it is 1, and a letter *)
Definition letter (k : FitsModel.kind) : string :=
  match k with
  | FitsModel.Short => "I" | FitsModel.Long => "J" | FitsModel.Float => "E" | FitsModel.Double => "D"
  | FitsModel.Logical => "L" | FitsModel.Complex => "C" | FitsModel.Chars => "A"
  end.
Definition denotes (s : string) (f : FitsModel.form) : Prop :=
  s = (fmt_d (FitsModel.fm_repeat f) ++ letter (FitsModel.fm_kind f))%string
  \/ FitsModel.fm_repeat f = 1 /\ s = letter (FitsModel.fm_kind f).
(** For every number of channels, both models abort or both make the same formats. *)
Definition same_formats {A} (cols : list (A * WriteModel.tmpl)) (template : list string) : Prop :=
  forall malloc value h, fresh malloc ->
    let made := make_tform malloc template (Z.of_nat (List.length template)) value h in
    (WriteModel.make_tform value cols = Abort /\ made = Abort)
    \/ exists l a ps h', WriteModel.make_tform value cols = Ok l /\ made = Ok (a, h')
        /\ strings_at h' a ps (map (format_text value) template)
        /\ Forall2 (fun s c => denotes s (snd c)) (map (format_text value) template) l.
