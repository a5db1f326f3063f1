(** C58: merging makes a dataset with storage of its own, loses no storage, and leaves the
    inputs as they are. *)
From Verif Require Import HeapSpec HeapMergeSpec HeapMain HeapFilterMain HeapMergeWhole HeapMergeMain.
Open Scope Z_scope.

(** The output is a whole dataset whose blocks are exactly those that were not in use before:
    the numbers of the targets leave nothing behind.  No other block changes but the target
    struct of the output.  Every table with data has a copy.  Inputs may share storage, and one
    may be given twice. *)
Theorem C58_merge : forall malloc, fresh malloc -> forall fill same_array same_wave rename h t is st,
  (forall i, In i is -> exists ts bss, output_at h i ts bss /\ mergeable h i /\ ~ In t (fp_targets i :: blocks i ts bss)) ->
  few_targets h is -> lookup h t = Some [st] -> getf st "ntarget" <> None -> getf st "targ" <> None ->
  exists o h' ts bss, merge_oi_fits_list malloc fill same_array same_wave rename is t h = Ok (o, h')
    /\ fp_targets o = t /\ output_at h' o ts bss
    /\ (forall a, a <> t -> live h a -> lookup h' a = lookup h a)
    /\ (forall a, In a (blocks o ts bss) <-> (~ live h a /\ live h' a))
    /\ (forall g, In g [fp_inspol; fp_vis; fp_vis2; fp_t3; fp_flux] -> List.length (g o) = List.length (flat_map g is)).
Proof. exact merge_storage. Qed.
Print Assumptions C58_merge.
Example C58_merge_case : fresh f_malloc
  /\ output_at m_heap m_in1 [2] m_bss1 /\ mergeable m_heap m_in1
  /\ output_at m_heap m_in2 [102] m_bss2 /\ mergeable m_heap m_in2
  /\ few_targets m_heap [m_in1; m_in2] /\ lookup m_heap 3 = Some [s_out]
  /\ exists o h1, merge_oi_fits_list f_malloc f_fill m_same_array m_same_wave m_rename [m_in1; m_in2] 3 m_heap = Ok (o, h1)
     /\ List.length (fp_array o) = 2%nat /\ List.length (fp_wavelength o) = 1%nat /\ List.length (fp_corr o) = 1%nat.
Proof.
  split; [exact first_free_fresh|]. split; [exact m_output1|]. split; [exact m_mergeable1|]. split; [exact m_output2|].
  split; [exact m_mergeable2|]. split; [exact m_few|]. split; [reflexivity|].
  destruct m_merged as (o & h1 & E & A & W & C & _). exists o, h1. repeat split; assumption.
Qed.

(** Freeing the output gives the storage before the merge back. *)
Theorem C58_free_output : forall malloc fill same_array same_wave rename h is t st,
  fresh malloc ->
  (forall i, In i is -> exists ts bss, output_at h i ts bss /\ mergeable h i /\ ~ In t (fp_targets i :: blocks i ts bss)) ->
  few_targets h is -> lookup h t = Some [st] -> getf st "ntarget" <> None -> getf st "targ" <> None ->
  exists o h1 h2, merge_oi_fits_list malloc fill same_array same_wave rename is t h = Ok (o, h1)
    /\ free_oi_fits o h1 = Ok h2 /\ forall a, a <> t -> lookup h2 a = lookup h a.
Proof. exact merge_then_free. Qed.
Print Assumptions C58_free_output.
Example C58_free_output_case : ~ In 3 (fp_targets m_in1 :: blocks m_in1 [2] m_bss1)
  /\ ~ In 3 (fp_targets m_in2 :: blocks m_in2 [102] m_bss2)
  /\ exists o h1, merge_oi_fits_list f_malloc f_fill m_same_array m_same_wave m_rename [m_in1; m_in2] 3 m_heap = Ok (o, h1)
     /\ load_num h1 3 0 "ntarget" = Ok 2.
Proof.
  split; [cbn; intros H; repeat (destruct H as [H|H]; [discriminate H|]); exact H|].
  split; [cbn; intros H; repeat (destruct H as [H|H]; [discriminate H|]); exact H|].
  destruct m_merged as (o & h1 & E & _ & _ & _ & _ & _ & N & _). exists o, h1. split; [exact E | exact N].
Qed.

(** Freeing all inputs leaves the whole output; freeing that too leaves no block of any. *)
Theorem C58_free_inputs : forall malloc fill same_array same_wave rename h ds t st,
  fresh malloc -> separate h ds ->
  (forall i, In i (inputs ds) -> mergeable h i) -> few_targets h (inputs ds) ->
  lookup h t = Some [st] -> getf st "ntarget" <> None -> getf st "targ" <> None ->
  ~ In t (map fp_targets (inputs ds) ++ input_blocks ds) ->
  exists o h1 h2 h3 ts' bss', merge_oi_fits_list malloc fill same_array same_wave rename (inputs ds) t h = Ok (o, h1)
    /\ foreach (inputs ds) free_oi_fits h1 = Ok h2
    /\ output_at h2 o ts' bss'
    /\ (forall a, In a (t :: blocks o ts' bss') -> lookup h2 a = lookup h1 a)
    /\ free_oi_fits o h2 = Ok h3
    /\ (forall a, In a (input_blocks ds) -> ~ live h3 a)
    /\ (forall a, a <> t -> ~ In a (input_blocks ds) -> lookup h3 a = lookup h a).
Proof. exact merge_free_inputs. Qed.
Print Assumptions C58_free_inputs.
Example C58_free_inputs_case : separate m_heap m_ds /\ inputs m_ds = [m_in1; m_in2]
  /\ ~ In 3 (map fp_targets (inputs m_ds) ++ input_blocks m_ds)
  /\ exists o h1 h2 h3, merge_oi_fits_list f_malloc f_fill m_same_array m_same_wave m_rename [m_in1; m_in2] 3 m_heap = Ok (o, h1)
     /\ foreach [m_in1; m_in2] free_oi_fits h1 = Ok h2 /\ free_oi_fits o h2 = Ok h3 /\ map fst h3 = [3; 1; 99; 101].
Proof.
  split; [exact m_separate|]. split; [reflexivity|].
  split; [cbn; intros H; repeat (destruct H as [H|H]; [discriminate H|]); exact H|].
  destruct m_merged as (o & h1 & E & _ & _ & _ & _ & _ & _ & _ & _ & h2 & h3 & R). exists o, h1, h2, h3. split; [exact E | exact R].
Qed.

(** With 100 names of targets or more the program ends; it never writes past the block for
    targets. *)
Theorem C58_too_many : forall malloc, fresh malloc -> forall fill same_array same_wave rename h t is st,
  (forall i, In i is -> exists ts bss, output_at h i ts bss /\ mergeable h i /\ ~ In t (fp_targets i :: blocks i ts bss)) ->
  ~ few_targets h is -> lookup h t = Some [st] -> getf st "ntarget" <> None -> getf st "targ" <> None ->
  merge_oi_fits_list malloc fill same_array same_wave rename is t h = Abort.
Proof. exact merge_many. Qed.
Print Assumptions C58_too_many.
Example C58_too_many_case : output_at many_heap two_ptrs [2] [] /\ mergeable many_heap two_ptrs
  /\ ~ In 3 (fp_targets two_ptrs :: blocks two_ptrs [2] []) /\ ~ few_targets many_heap [two_ptrs]
  /\ lookup many_heap 3 = Some [s_out].
Proof.
  split; [exact many_output|]. split; [exact many_mergeable|].
  split; [cbn; intros H; repeat (destruct H as [H|H]; [discriminate H|]); exact H|].
  split; [exact many_many | reflexivity].
Qed.
