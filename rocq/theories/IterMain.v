(** Concrete cases for the iterators. *)
From Verif Require Import Base BaseLemmas FloatModel Types FileModel FileSpec FilterModel FilterSpec FilterMain FilterFinal IterModel IterSpec IterProofs IterKinds IterAgree Sample.
From Coq Require Import Lia.
Local Open Scope string_scope.
Local Open Scope Z_scope.

(** EXTVER, record and channel found by call number [n] *)
Definition where_ {S X R} (r : res (S * option (datum X R))) : option (option (Z * Z * Z)) :=
  match r with
  | Ok (_, Some (n, _, i, _, j)) => Some (Some (n, i, j))
  | Ok (_, None) => Some None
  | _ => None
  end.

Definition s_noins : oi_fits :=
  mk_fits (o_header s_fits) (o_targets s_fits) 0 0 0 0 0 1 0 0 [] [] [] [] []
    (map (fun t => mk_dtab (tb_revision t) (tb_date_obs t) "" "NONE" "" (tb_x t) (tb_numrec t) (tb_nwave t) (tb_record t))
       (firstn 1 (o_vis2List s_fits))) [] [] [] [] [].

Lemma s_noins_consistent : consistent s_noins.
Proof.
  split; try (intros ? []); try reflexivity.
  - constructor.
  - subst. split; [reflexivity|]. intros w [[] _].
  - contradiction.
Qed.
Lemma noins_counterexample : exists d, consistent d
  /\ oi_vis2_iter_next sqrt64 (oi_vis2_iter_init d None) = UB.
Proof. exists s_noins. split; [exact s_noins_consistent|]. vm_compute. reflexivity. Qed.

Lemma s_fits_instruments : instruments_present s_fits (o_visList s_fits)
  /\ instruments_present s_fits (o_vis2List s_fits) /\ instruments_present s_fits (o_t3List s_fits).
Proof.
  repeat split; intros t [<-|[]].
  - exists s_wave1. split; [now left|reflexivity].
  - exists s_wave2. split; [right; now left|reflexivity].
  - exists s_wave1. split; [now left|reflexivity].
Qed.
