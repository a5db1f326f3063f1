(** C61: merging in steps. *)
From Verif Require Import BaseLemmas FileModel FileSpec MergeModel MergeSpec MergeProofs Sample MergeMain
  MergeStepsSpec MergeStepsHeader MergeStepsMain.
Open Scope Z_scope.

(** Merging some inputs, and then the result with further ones, gives the same targets, tables,
    names, counts and date as merging all of them at once. *)
Theorem C61_steps : forall ia ib d1 out3,
  Forall (fun d => wf_fits d = true) (ia ++ ib) -> Forall names_fit ia ->
  Forall dated ia -> some_dated ia -> merge_oi_fits_list ia = Ok d1 -> distinct_names d1 ->
  merge_oi_fits_list (ia ++ ib) = Ok out3 ->
  exists out2, merge_oi_fits_list (d1 :: ib) = Ok out2 /\ same_contents out2 out3
    /\ h_date_obs (o_header out2) = h_date_obs (o_header out3).
Proof. exact merge_in_steps. Qed.
Print Assumptions C61_steps.
(** Inputs that can be merged can be merged both ways. *)
Theorem C61_defined : forall ia ib,
  mergeable (ia ++ ib) -> Forall names_fit ia -> plain_names ia -> some_dated ia ->
  exists d1 out2 out3, merge_oi_fits_list ia = Ok d1 /\ merge_oi_fits_list (d1 :: ib) = Ok out2
    /\ merge_oi_fits_list (ia ++ ib) = Ok out3 /\ same_contents out2 out3
    /\ h_date_obs (o_header out2) = h_date_obs (o_header out3).
Proof. exact mergeable_in_steps. Qed.
Print Assumptions C61_defined.
(** The keywords agree too, but for a required one that only later inputs have. *)
Theorem C61_header : forall ia ib d1 out2 out3, Forall header_fits (ia ++ ib) ->
  merge_oi_fits_list ia = Ok d1 -> merge_oi_fits_list (ia ++ ib) = Ok out3 ->
  merge_oi_fits_list (d1 :: ib) = Ok out2 ->
  (forall key, In key optional_keys -> key (o_header out2) = key (o_header out3))
  /\ (forall key, In key required_keys ->
        (exists d, In d ia /\ has_key key d) \/ (forall d, In d ib -> ~ has_key key d) ->
        key (o_header out2) = key (o_header out3))
  /\ h_date (o_header out2) = h_date (o_header out3)
  /\ h_content (o_header out2) = h_content (o_header out3).
Proof. exact header_in_steps. Qed.
Print Assumptions C61_header.
(** Such a keyword becomes "UNKNOWN" first and "MULTIPLE" then. *)
Theorem C61_header_unknown : forall ia ib d1 out2 out3 key x, Forall header_fits (ia ++ ib) ->
  merge_oi_fits_list ia = Ok d1 -> merge_oi_fits_list (ia ++ ib) = Ok out3 ->
  merge_oi_fits_list (d1 :: ib) = Ok out2 ->
  In key required_keys -> (forall d, In d ia -> ~ has_key key d) ->
  (exists d, In d ib /\ has_key key d) -> (forall d, In d ib -> has_key key d -> key (o_header d) = x) ->
  x <> "UNKNOWN"%string ->
  key (o_header out3) = x /\ key (o_header out2) = "MULTIPLE"%string.
Proof. exact header_unknown. Qed.
Print Assumptions C61_header_unknown.
(** Merging the result of a merge alone gives it back. *)
Theorem C61_again : forall ia d1,
  Forall (fun d => wf_fits d = true) ia -> Forall names_fit ia -> Forall header_fits ia ->
  Forall dated ia -> some_dated ia -> merge_oi_fits_list ia = Ok d1 -> distinct_names d1 ->
  merge_oi_fits_list [d1] = Ok d1.
Proof. exact merge_again. Qed.
Print Assumptions C61_again.
(** The result of merging inputs none of which is dated cannot be merged with anything. *)
Theorem C61_undated : forall ia ib d1,
  Forall (fun d => observed_on d None) ia -> merge_oi_fits_list ia = Ok d1 ->
  merge_oi_fits_list (d1 :: ib) = Abort.
Proof. exact undated_aborts. Qed.
Print Assumptions C61_undated.
(** If two tables of the result have one name, then merging it alone changes a name. *)
Theorem C61_names_needed : exists ia d1 out2,
  Forall (fun d => wf_fits d = true) ia /\ Forall names_fit ia
  /\ Forall dated ia /\ some_dated ia /\ merge_oi_fits_list ia = Ok d1 /\ ~ distinct_names d1
  /\ merge_oi_fits_list [d1] = Ok out2 /\ ~ same_contents out2 d1.
Proof. exact names_needed. Qed.
Print Assumptions C61_names_needed.
(** Merging the later inputs first gives other names. *)
Theorem C61_later_first : exists a b c bc out2 out3,
  Forall (fun d => wf_fits d = true) [a; b; c] /\ plain_names [a; b; c]
  /\ Forall names_fit [a; b; c] /\ merge_oi_fits_list [b; c] = Ok bc /\ merge_oi_fits_list [a; bc] = Ok out2
  /\ merge_oi_fits_list [a; b; c] = Ok out3
  /\ map wv_insname (o_wavelengthList out3) = ["GRAVITY"; "PIONIER"; "GRAVITY_003"; "GRAVITY_004"]%string
  /\ map wv_insname (o_wavelengthList out2) = ["GRAVITY"; "PIONIER"; "GRAVITY_003"; "GRAVITY_002"]%string.
Proof. exact later_first. Qed.
Print Assumptions C61_later_first.

(** Two inputs and a third: every hypothesis of the first three theorems and of C61_again *)
Example C61_case : Forall (fun d => wf_fits d = true) (m_ins ++ [st_more]) /\ Forall names_fit m_ins
  /\ plain_names m_ins /\ Forall header_fits (m_ins ++ [st_more]) /\ Forall dated m_ins /\ some_dated m_ins
  /\ exists d1 out3, merge_oi_fits_list m_ins = Ok d1 /\ distinct_names d1
  /\ merge_oi_fits_list (m_ins ++ [st_more]) = Ok out3
  /\ names_of d1 = (["VLTI"; "CHARA"; "VLTI_003"], ["GRAVITY"; "PIONIER"; "GRAVITY_003"], ["CORR1"; "CORR1_002"])%string
  /\ names_of out3 = (["VLTI"; "CHARA"; "VLTI_003"], ["GRAVITY"; "PIONIER"; "GRAVITY_003"; "GRAVITY_004"],
       ["CORR1"; "CORR1_002"])%string
  /\ h_date_obs (o_header out3) = "2017-05-06"%string.
Proof.
  split; [exact st_wf|]. split; [exact m_fit|]. split; [exact m_plain|]. split; [exact st_header_fits|].
  split; [exact st_dated|]. split; [exact st_some_dated|]. exact steps_case.
Qed.
(** TELESCOP in the second input only *)
Example C61_unknown_case : exists d1 out2 out3, Forall header_fits ([no_tel] ++ [st_more])
  /\ merge_oi_fits_list [no_tel] = Ok d1 /\ merge_oi_fits_list ([no_tel] ++ [st_more]) = Ok out3
  /\ merge_oi_fits_list [d1; st_more] = Ok out2
  /\ h_telescop (o_header d1) = "UNKNOWN"%string /\ h_telescop (o_header out3) = "VLTI"%string
  /\ h_telescop (o_header out2) = "MULTIPLE"%string.
Proof. exact unknown_case. Qed.
(** A file without DATE-OBS *)
Example C61_undated_case : exists d1, Forall (fun d => observed_on d None) [no_date] /\ wf_fits no_date = true
  /\ merge_oi_fits_list [no_date] = Ok d1.
Proof. exact undated_case. Qed.
