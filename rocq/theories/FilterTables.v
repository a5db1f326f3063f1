(** Refinement of the table-level filter functions and of apply_oi_filter. *)
From Verif Require Import Base BaseLemmas FloatModel Types FileModel FileSpec FileProofs FilterModel FilterSpec FilterLemmas FilterProofs FilterRecords.
From Coq Require Import Lia.

(** ** One data table *)

Definition dtab_out {X R} (okb : R -> bool) (g : R -> R) (use : list bool) (t : dtab X R) : dtab X R :=
  let out := map g (filter okb (tb_record t)) in
  mk_dtab (tb_revision t) (tb_date_obs t) (tb_arrname t) (tb_insname t) (tb_corrname t) (tb_x t)
    (Z.of_nat (length out)) (Z.of_nat (cnt use)) out.

Lemma filter_dtab_ok {X R} rec_ok filter_rec use (t : dtab X R) okb g :
  len_is (tb_numrec t) (tb_record t) = true -> 0 < tb_numrec t ->
  tb_nwave t = Z.of_nat (length use) ->
  (forall r, In r (tb_record t) -> rec_ok (tb_nwave t) r = Ok (okb r)) ->
  (forall r, In r (tb_record t) -> okb r = true ->
     filter_rec (tb_nwave t) (Z.of_nat (cnt use)) r = Ok (g r)) ->
  filter_dtab rec_ok filter_rec use t = Ok (dtab_out okb g use t).
Proof.
  intros HL Hpos HU H1 H2. apply len_is_eq in HL. unfold filter_dtab.
  rewrite count_use_ok by exact HU. cbn [bind].
  unfold chkmalloc. destruct (Z.ltb_spec 0 (tb_numrec t)); [|lia]. cbn [bind].
  rewrite (for_filter (fun r out => ok <- rec_ok (tb_nwave t) r ;;
             if ok : bool then r' <- filter_rec (tb_nwave t) (Z.of_nat (cnt use)) r ;; Ok (out ++ [r']) else Ok out)
             okb g (tb_record t) (tb_numrec t) HL).
  - reflexivity.
  - intros r out Hr. rewrite H1 by exact Hr. cbn [bind]. destruct (okb r) eqn:E; [|reflexivity].
    rewrite H2 by assumption. reflexivity.
Qed.

Lemma existsb_filter {A} (p : A -> bool) l : existsb p l = negb (Nat.eqb (length (filter p l)) 0).
Proof. induction l as [|a l IH]; [reflexivity|]. cbn. destruct (p a); [reflexivity|exact IH]. Qed.

(** ** All tables of a kind *)

Lemma filter_all_dtab_ok {X R} accept_kind o f uh filter_tab (l : list (dtab X R)) (p : dtab X R -> bool) T :
  (forall t, In t l ->
     if accept_insname f (tb_insname t) && accept_arrname f (tb_arrname t) && accept_corrname f (tb_corrname t) then
       match hash_lookup uh (tb_insname t) with
       | None => p t = false
       | Some use => filter_tab t (oi_fits_lookup_wavelength o (tb_insname t)) use = Ok (T t)
           /\ p t = (0 <? tb_nwave (T t)) && (0 <? tb_numrec (T t))
       end
     else p t = false) ->
  filter_all_dtab accept_kind o f uh filter_tab l =
  let out := if accept_kind then map T (filter p l) else [] in Ok (out, Z.of_nat (length out)).
Proof.
  intros H. unfold filter_all_dtab. destruct accept_kind; cbn [negb]; [|reflexivity]. cbv zeta.
  set (body := fun _ => _).
  assert (G : forall out n, foreach l body (out, n) =
            Ok (out ++ map T (filter p l), n + Z.of_nat (length (map T (filter p l))))).
  { induction l as [|t l IH]; intros out n; cbn [foreach filter].
    - cbn. now rewrite app_nil_r, Z.add_0_r.
    - specialize (H t (or_introl eq_refl)) as Ht.
      assert (E : body t (out, n) = Ok (if p t then (out ++ [T t], n + 1) else (out, n))).
      { unfold body. destruct (accept_insname f (tb_insname t)); cbn [negb andb] in *; [|now rewrite Ht].
        destruct (accept_arrname f (tb_arrname t)); cbn [negb andb] in *; [|now rewrite Ht].
        destruct (accept_corrname f (tb_corrname t)); cbn [negb andb] in *; [|now rewrite Ht].
        destruct (hash_lookup uh (tb_insname t)) as [use|]; [|now rewrite Ht].
        destruct Ht as [E1 E2]. rewrite E1. cbn [bind]. rewrite E2.
        destruct ((0 <? tb_nwave (T t)) && (0 <? tb_numrec (T t))); reflexivity. }
      rewrite E. cbn [bind]. destruct (p t).
      + rewrite IH by (intros; apply H; now right). rewrite <- app_assoc. cbn [app map length].
        do 2 f_equal. lia.
      + apply IH. intros; apply H; now right. }
  rewrite G. reflexivity.
Qed.

(** ** The instrument of a table *)

Definition wv_of (d : oi_fits) (name : string) : option oi_wavelength :=
  find_by wv_insname (o_wavelengthList d) name.

Lemma find_by_Some {A} (nm : A -> string) l k a : find_by nm l k = Some a -> In a l /\ nm a = k.
Proof.
  induction l as [|b l IH]; cbn; [discriminate|]. destruct (str_eqb (nm b) k) eqn:E.
  - intros [= ->]. apply str_eqb_eq in E. auto.
  - intros H. apply IH in H as [H1 H2]. auto.
Qed.
Lemma find_by_None {A} (nm : A -> string) l k : find_by nm l k = None -> ~ In k (map nm l).
Proof.
  induction l as [|b l IH]; cbn; [auto|]. destruct (str_eqb (nm b) k) eqn:E; [discriminate|].
  apply str_eqb_neq in E. intros H [G|G]; [congruence|]. now apply IH.
Qed.
Lemma NoDup_map_inj {A B} (nm : A -> B) l a b : NoDup (map nm l) -> In a l -> In b l -> nm a = nm b -> a = b.
Proof.
  induction l as [|c l IH]; cbn; [contradiction|]. intros HN Ha Hb E.
  apply NoDup_cons_iff in HN as [Hn HN].
  destruct Ha as [->|Ha], Hb as [->|Hb]; auto.
  - exfalso. apply Hn. rewrite E. now apply in_map.
  - exfalso. apply Hn. rewrite <- E. now apply in_map.
Qed.
Lemma find_by_unique {A} (nm : A -> string) l a : NoDup (map nm l) -> In a l -> find_by nm l (nm a) = Some a.
Proof.
  intros HN Ha. destruct (find_by nm l (nm a)) as [b|] eqn:E.
  - apply find_by_Some in E as [Hb Eb]. f_equal. now apply (NoDup_map_inj nm l).
  - apply find_by_None in E. exfalso. apply E. now apply in_map.
Qed.
Lemma NoDup_map_filter {A B} (nm : A -> B) (p : A -> bool) l : NoDup (map nm l) -> NoDup (map nm (filter p l)).
Proof.
  induction l as [|a l IH]; cbn; [auto|]. intros H. apply NoDup_cons_iff in H as [Hn H].
  destruct (p a); [|auto]. cbn. constructor; [|auto].
  intros G. apply Hn. apply in_map_iff in G as (b & <- & Hb). apply filter_In in Hb as [Hb _]. now apply in_map.
Qed.

Lemma wv_of_instrument d name w : NoDup (map wv_insname (o_wavelengthList d)) ->
  (wv_of d name = Some w <-> instrument d name w).
Proof.
  intros HN. split.
  - intros H. apply find_by_Some in H. exact H.
  - intros [Hw <-]. now apply find_by_unique.
Qed.

Definition use_hash (d : oi_fits) (f : filter_spec) : hash (list bool) :=
  hash_fold wv_insname (use_entry f) (filter (fun w => accept_insname f (wv_insname w)) (o_wavelengthList d)) hash_new.

Lemma use_hash_lookup d f name : NoDup (map wv_insname (o_wavelengthList d)) ->
  hash_lookup (use_hash d f) name =
  match wv_of d name with
  | Some w => if accept_insname f name then use_entry f w else None
  | None => None
  end.
Proof.
  intros HN. unfold use_hash. destruct (wv_of d name) as [w|] eqn:E.
  - apply find_by_Some in E as [Hw <-]. destruct (accept_insname f (wv_insname w)) eqn:A.
    + apply hash_fold_in; [now apply NoDup_map_filter|]. now apply filter_In.
    + rewrite hash_fold_out; [reflexivity|]. intros G. apply in_map_iff in G as (b & Eb & Hb).
      apply filter_In in Hb as [_ Hb]. congruence.
  - apply find_by_None in E. rewrite hash_fold_out; [reflexivity|].
    intros G. apply E. apply in_map_iff in G as (b & <- & Hb). apply filter_In in Hb as [Hb _]. now apply in_map.
Qed.

(** Tables kept and what they become, given the record-level functions *)
Definition dtab_kept {X R} (okb : oi_wavelength -> list bool -> R -> bool) (d : oi_fits) (f : filter_spec)
  (t : dtab X R) : bool :=
  accept_insname f (tb_insname t) && accept_arrname f (tb_arrname t) && accept_corrname f (tb_corrname t)
  && match wv_of d (tb_insname t) with
     | None => false
     | Some w => (0 <? cnt (use_of f w))%nat && existsb (okb w (use_of f w)) (tb_record t)
     end.
Definition dtab_new {X R} (okb : oi_wavelength -> list bool -> R -> bool)
  (g : oi_wavelength -> list bool -> R -> R) (d : oi_fits) (f : filter_spec) (t : dtab X R) : dtab X R :=
  match wv_of d (tb_insname t) with
  | None => t
  | Some w => dtab_out (okb w (use_of f w)) (g w (use_of f w)) (use_of f w) t
  end.

Lemma filter_all_kind_ok {X R} accept_kind d f (filter_tab : dtab X R -> option oi_wavelength -> list bool -> res (dtab X R))
  (l : list (dtab X R)) okb g :
  NoDup (map wv_insname (o_wavelengthList d)) ->
  (forall t w, In t l -> wv_of d (tb_insname t) = Some w -> (0 < cnt (use_of f w))%nat ->
     filter_tab t (oi_fits_lookup_wavelength d (tb_insname t)) (use_of f w)
     = Ok (dtab_out (okb w (use_of f w)) (g w (use_of f w)) (use_of f w) t)) ->
  filter_all_dtab accept_kind d f (use_hash d f) filter_tab l =
  let out := if accept_kind then map (dtab_new okb g d f) (filter (dtab_kept okb d f) l) else [] in
  Ok (out, Z.of_nat (length out)).
Proof.
  intros HN H. apply filter_all_dtab_ok. intros t Ht. unfold dtab_kept, dtab_new.
  destruct (accept_insname f (tb_insname t)) eqn:A1; [|reflexivity]. cbn [andb].
  destruct (accept_arrname f (tb_arrname t)) eqn:A2; [|reflexivity]. cbn [andb].
  destruct (accept_corrname f (tb_corrname t)) eqn:A3; [|reflexivity]. cbn [andb].
  rewrite use_hash_lookup by exact HN. rewrite A1.
  destruct (wv_of d (tb_insname t)) as [w|] eqn:E; [|reflexivity].
  unfold use_entry. destruct (0 <? cnt (use_of f w))%nat eqn:C; [|reflexivity].
  split; [apply H; auto; now apply Nat.ltb_lt|].
  cbn [dtab_out tb_nwave tb_numrec]. rewrite !ltb_of_nat, C, map_length, existsb_filter. cbn [andb].
  destruct (length (filter (okb w (use_of f w)) (tb_record t))); reflexivity.
Qed.

(** ** OI_INSPOL *)

Definition inspol_okb (d : oi_fits) (f : filter_spec) (r : inspol_record) : bool :=
  negb (skip_target f (ip_target_id r)) && accept_insname f (ip_insname r)
  && negb (flt (ip_mjd_end r) (f_mjd_lo f) || fgt (ip_mjd_obs r) (f_mjd_hi f))
  && match wv_of d (ip_insname r) with None => false | Some w => (0 <? cnt (use_of f w))%nat end.
Definition inspol_rec_out (d : oi_fits) (f : filter_spec) (r : inspol_record) : inspol_record :=
  match wv_of d (ip_insname r) with
  | None => r
  | Some w =>
      let use := use_of f w in
      mk_inspol_record (new_target_id f (ip_target_id r)) (ip_insname r) (ip_mjd_obs r) (ip_mjd_end r)
        (sel use (ip_jxx r)) (sel use (ip_jyy r)) (sel use (ip_jxy r)) (sel use (ip_jyx r)) (ip_sta_index r)
  end.

Lemma inspol_copy_ok r use n cap : length use = Z.to_nat n -> wf_inspol_record n r = true ->
  0 < cap -> (cnt use <= Z.to_nat cap)%nat ->
  inspol_copy r use n cap =
  Ok (fill (Z.to_nat cap) (sel use (ip_jxx r)), fill (Z.to_nat cap) (sel use (ip_jyy r)),
      fill (Z.to_nat cap) (sel use (ip_jxy r)), fill (Z.to_nat cap) (sel use (ip_jyx r)), Z.of_nat (cnt use)).
Proof.
  intros HU Hwf Hcap Hc. unfold wf_inspol_record in Hwf. len_eqs.
  unfold inspol_copy. rewrite !alloc_ok by exact Hcap. cbn [bind].
  set (m := Z.to_nat cap).
  set (traj := fun i => (fill m (selu i use (ip_jxx r)), fill m (selu i use (ip_jyy r)),
      fill m (selu i use (ip_jxy r)), fill m (selu i use (ip_jyx r)), Z.of_nat (cntu i use))).
  apply (for_det _ traj).
  - reflexivity.
  - unfold traj. rewrite cntu_all by lia. rewrite !selu_all by lia. reflexivity.
  - intros k Hk. unfold traj.
    destruct (some_nth use k) as [u Hu]; [lia|].
    destruct (some_nth (ip_jxx r) k) as [a Ha]; [lia|]. destruct (some_nth (ip_jyy r) k) as [b Hb]; [lia|].
    destruct (some_nth (ip_jxy r) k) as [c Hc']; [lia|]. destruct (some_nth (ip_jyx r) k) as [e He]; [lia|].
    rewrite (get_nth_error _ _ _ Hu). cbn [bind]. destruct u.
    + rewrite (get_nth_error _ _ _ Ha). cbn [bind]. rewrite (write_sel_le k use _ a) by (auto; lia). cbn [bind].
      rewrite (get_nth_error _ _ _ Hb). cbn [bind]. rewrite (write_sel_le k use _ b) by (auto; lia). cbn [bind].
      rewrite (get_nth_error _ _ _ Hc'). cbn [bind]. rewrite (write_sel_le k use _ c) by (auto; lia). cbn [bind].
      rewrite (get_nth_error _ _ _ He). cbn [bind]. rewrite (write_sel_le k use _ e) by (auto; lia). cbn [bind].
      rewrite (cntu_step _ _ _ Hu).
      replace (Z.of_nat (cntu k use) + 1) with (Z.of_nat (cntu k use + 1)) by lia. reflexivity.
    + rewrite (cntu_step _ _ _ Hu), Nat.add_0_r.
      rewrite (selu_skip k use _ a), (selu_skip k use _ b), (selu_skip k use _ c), (selu_skip k use _ e) by (auto; lia).
      reflexivity.
Qed.

Definition inspol_out (d : oi_fits) (f : filter_spec) (t : oi_inspol) : oi_inspol :=
  let out := map (inspol_rec_out d f) (filter (inspol_okb d f) (is_record t)) in
  mk_inspol (is_revision t) (is_date_obs t) (is_npol t) (is_arrname t) (is_orient t) (is_model t)
    (Z.of_nat (length out))
    (match out with [] => is_nwave t | r :: _ => Z.of_nat (length (ip_jxx r)) end) out.

(** The table has rows, all for the instrument [name] *)
Definition one_instrument (d : oi_fits) (t : oi_inspol) (name : string) : Prop :=
  (forall r, In r (is_record t) -> ip_insname r = name) /\
  forall w, instrument d name w -> wv_nwave w = is_nwave t.

Lemma fit_contents {A} use (col : list A) n cap (first : bool) : length use = length col ->
  (cnt use <= Z.to_nat cap)%nat -> (first = false -> cnt use = Z.to_nat cap) -> n = Z.of_nat (cnt use) ->
  contents (if first then shrink n (fill (Z.to_nat cap) (sel use col)) else fill (Z.to_nat cap) (sel use col))
  = Ok (sel use col).
Proof.
  intros HL H1 H2 ->. destruct first.
  - rewrite <- (sel_length use col HL) at 1. rewrite shrink_fill by (rewrite sel_length; auto). apply contents_map.
  - apply contents_fill. rewrite sel_length by exact HL. now apply H2.
Qed.

Lemma filter_oi_inspol_ok d f t name :
  NoDup (map wv_insname (o_wavelengthList d)) ->
  (forall w, In w (o_wavelengthList d) -> wf_wavelength w = true /\ 0 < wv_nwave w /\ fits_value (wv_insname w) = true) ->
  wf_inspol t = true -> 0 < is_numrec t -> one_instrument d t name ->
  filter_oi_inspol t f (use_hash d f) = Ok (inspol_out d f t).
Proof.
  intros HN HW Hwf Hpos [Hone Hnw]. apply andb_true_iff in Hwf as [HL Hrec]. apply len_is_eq in HL.
  unfold filter_oi_inspol. unfold chkmalloc. destruct (Z.ltb_spec 0 (is_numrec t)); [|lia]. cbn [bind].
  rewrite (for_foreach (fun r s => let '(out, nwave) := s in _) (is_record t) (is_numrec t)) by exact HL.
  set (body := fun r s => _).
  set (nw := fun out : list inspol_record => match out with [] => is_nwave t | r :: _ => Z.of_nat (length (ip_jxx r)) end).
  set (good := fun out : list inspol_record => forall x, In x out ->
         exists w, wv_of d name = Some w /\ length (ip_jxx x) = cnt (use_of f w)).
  assert (STEP : forall r out, In r (is_record t) -> good out ->
    body r (out, nw out) = Ok (if inspol_okb d f r then (out ++ [inspol_rec_out d f r], nw (out ++ [inspol_rec_out d f r]))
                               else (out, nw out))
    /\ (inspol_okb d f r = true -> good (out ++ [inspol_rec_out d f r]))).
  { intros r out Hr Hgood.
    assert (Hwfr : wf_inspol_record (is_nwave t) r = true) by (rewrite forallb_forall in Hrec; now apply Hrec).
    unfold body, inspol_okb, inspol_rec_out.
    unfold skip_target. destruct ((0 <=? f_target_id f) && negb (ip_target_id r =? f_target_id f)); [split; [reflexivity|discriminate]|].
    cbn [negb andb]. destruct (accept_insname f (ip_insname r)) eqn:A; [|split; [reflexivity|discriminate]].
    cbn [negb andb]. destruct (flt (ip_mjd_end r) (f_mjd_lo f) || fgt (ip_mjd_obs r) (f_mjd_hi f)); [split; [reflexivity|discriminate]|].
    cbn [negb andb]. rewrite use_hash_lookup by exact HN. rewrite A.
    destruct (wv_of d (ip_insname r)) as [w|] eqn:E; [|split; [reflexivity|discriminate]].
    unfold use_entry. destruct (0 <? cnt (use_of f w))%nat eqn:C; [|split; [reflexivity|discriminate]].
    apply Nat.ltb_lt in C. set (use := use_of f w) in *.
    rewrite (Hone r Hr) in E.
    assert (Hw : instrument d name w) by now apply wv_of_instrument.
    destruct (HW w (proj1 Hw)) as (Wf & Wpos & _). destruct (wf_wavelength_len w Wf) as (WL & _ & _).
    rewrite (Hnw w Hw) in WL, Wpos.
    assert (HU : length use = Z.to_nat (is_nwave t)) by (unfold use, use_of; now rewrite map_length).
    assert (HJ : length (ip_jxx r) = length use /\ length (ip_jyy r) = length use
                 /\ length (ip_jxy r) = length use /\ length (ip_jyx r) = length use).
    { assert (Hwfr' := Hwfr). unfold wf_inspol_record in Hwfr'. len_eqs. lia. }
    destruct HJ as (J1 & J2 & J3 & J4).
    pose proof (cnt_le use) as HC.
    assert (Hcap : 0 < nw out /\ (cnt use <= Z.to_nat (nw out))%nat
                   /\ (out <> [] -> nw out = Z.of_nat (cnt use))).
    { unfold nw. destruct out as [|x out'].
      - split; [exact Wpos|]. split; [lia|congruence].
      - destruct (Hgood x (or_introl eq_refl)) as (w' & E' & L'). rewrite E in E'. injection E' as <-.
        fold use in L'. rewrite L'. split; [lia|]. split; [lia|auto]. }
    destruct Hcap as (P1 & P2 & P3).
    rewrite inspol_copy_ok by assumption. cbn [bind].
    set (first := match out with [] => true | _ => false end && (Z.of_nat (cnt use) <? nw out)).
    assert (HF : first = false -> cnt use = Z.to_nat (nw out)).
    { unfold first. destruct out as [|x out'].
      - cbn [andb]. intros G. apply Z.ltb_ge in G. lia.
      - intros _. rewrite P3 by discriminate. lia. }
    rewrite !(fit_contents use _ _ _ first) by (auto; lia). cbn [bind].
    split.
    - do 2 f_equal. unfold first, nw. destruct out as [|x out'].
      + cbn [andb app ip_jxx]. rewrite sel_length by lia.
        destruct (Z.ltb_spec (Z.of_nat (cnt use)) (is_nwave t)); [reflexivity|lia].
      + reflexivity.
    - intros _ x Hx. apply in_app_or in Hx as [Hx|[<-|[]]]; [now apply Hgood|].
      exists w. split; [exact E|]. cbn [ip_jxx]. now rewrite sel_length by lia. }
  assert (G : forall l out, (forall r, In r l -> In r (is_record t)) -> good out ->
    foreach l body (out, nw out) =
    Ok (out ++ map (inspol_rec_out d f) (filter (inspol_okb d f) l),
        nw (out ++ map (inspol_rec_out d f) (filter (inspol_okb d f) l)))).
  { induction l as [|r l IH]; intros out Hl Hgood; cbn [foreach filter].
    - cbn [map]. now rewrite app_nil_r.
    - destruct (STEP r out (Hl r (or_introl eq_refl)) Hgood) as [E Hg]. rewrite E. cbn [bind].
      destruct (inspol_okb d f r) eqn:OKR.
      + rewrite IH by (auto; intros; apply Hl; now right). rewrite <- app_assoc. reflexivity.
      + apply IH; auto. intros; apply Hl; now right. }
  change (is_nwave t) with (nw []) at 1.
  rewrite G by (auto; intros x []). cbn [bind app]. reflexivity.
Qed.

Definition inspol_keptb (d : oi_fits) (f : filter_spec) (t : oi_inspol) : bool :=
  accept_arrname f (is_arrname t) && existsb (inspol_okb d f) (is_record t).

Lemma filter_all_oi_inspol_ok d f :
  NoDup (map wv_insname (o_wavelengthList d)) ->
  (forall w, In w (o_wavelengthList d) -> wf_wavelength w = true /\ 0 < wv_nwave w /\ fits_value (wv_insname w) = true) ->
  (forall t, In t (o_inspolList d) -> wf_inspol t = true /\ 0 < is_numrec t /\ exists name, one_instrument d t name) ->
  let out := map (inspol_out d f) (filter (inspol_keptb d f) (o_inspolList d)) in
  filter_all_oi_inspol d f (use_hash d f) = Ok (out, Z.of_nat (length out)).
Proof.
  intros HN HW HI. cbv zeta. unfold filter_all_oi_inspol. set (body := fun _ => _).
  assert (STEP : forall t out n, In t (o_inspolList d) ->
    body t (out, n) = Ok (if inspol_keptb d f t then (out ++ [inspol_out d f t], n + 1) else (out, n))).
  { intros t out n Ht. unfold body, inspol_keptb.
    destruct (accept_arrname f (is_arrname t)); [|reflexivity]. cbn [negb andb].
    destruct (HI t Ht) as (H1 & H2 & name & H3).
    rewrite (filter_oi_inspol_ok d f t name) by assumption. cbn [bind].
    unfold inspol_out. cbn [is_nwave is_numrec].
    rewrite existsb_filter.
    destruct (filter (inspol_okb d f) (is_record t)) as [|r rs] eqn:EF.
    - cbn [map length Nat.eqb negb]. rewrite andb_false_r. reflexivity.
    - cbn [map length Nat.eqb negb].
      assert (Hr : In r (filter (inspol_okb d f) (is_record t))) by (rewrite EF; now left).
      apply filter_In in Hr as [Hr Hok].
      assert (0 < Z.of_nat (length (ip_jxx (inspol_rec_out d f r)))).
      { unfold inspol_okb in Hok. apply andb_true_iff in Hok as [_ Hok]. unfold inspol_rec_out.
        destruct (wv_of d (ip_insname r)) as [w|] eqn:E; [|discriminate]. apply Nat.ltb_lt in Hok.
        cbn [ip_jxx]. rewrite sel_length; [lia|].
        destruct H3 as [Hone Hnw]. rewrite (Hone r Hr) in E. apply wv_of_instrument in E; [|exact HN].
        destruct (HW w (proj1 E)) as (Wf & _ & _). destruct (wf_wavelength_len w Wf) as (WL & _ & W0).
        rewrite (Hnw w E) in WL, W0. unfold use_of. rewrite map_length, WL.
        apply andb_true_iff in H1 as [_ H1]. rewrite forallb_forall in H1. specialize (H1 r Hr).
        unfold wf_inspol_record in H1. len_eqs. lia. }
      destruct (Z.ltb_spec 0 (Z.of_nat (length (ip_jxx (inspol_rec_out d f r))))); [|lia].
      destruct (Z.ltb_spec 0 (Z.of_nat (S (length (map (inspol_rec_out d f) rs))))); [|lia]. reflexivity. }
  assert (G : forall l out n, (forall t, In t l -> In t (o_inspolList d)) -> foreach l body (out, n) =
    Ok (out ++ map (inspol_out d f) (filter (inspol_keptb d f) l),
        n + Z.of_nat (length (map (inspol_out d f) (filter (inspol_keptb d f) l))))).
  { induction l as [|t l IH]; intros out n Hl; cbn [foreach filter].
    - cbn. now rewrite app_nil_r, Z.add_0_r.
    - rewrite STEP by (apply Hl; now left). cbn [bind]. destruct (inspol_keptb d f t).
      + rewrite IH by (intros; apply Hl; now right). rewrite <- app_assoc. cbn [app map length]. do 2 f_equal. lia.
      + apply IH. intros; apply Hl; now right. }
  rewrite G by auto. reflexivity.
Qed.
