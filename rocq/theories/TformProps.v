(** C74: storage of the column formats. *)
From Coq Require Import Ascii.
From Verif Require WriteModel.
From Verif Require Import TformModel TformSpec TformProofs TformMain.
Open Scope Z_scope.

(** make_tform puts the formats in storage not used before, and changes nothing else. *)
Theorem C74_make : forall malloc template value h, fresh malloc -> template <> [] -> Forall (roomy value) template ->
  exists a ps h', make_tform malloc template (Z.of_nat (length template)) value h = Ok (a, h')
    /\ strings_at h' a ps (map (format_text value) template)
    /\ Forall (fun p => lookup h p = None) (a :: ps)
    /\ forall x, ~ In x (a :: ps) -> lookup h' x = lookup h x.
Proof. exact (fun malloc template value h Hm => make_ok malloc Hm template value h). Qed.
Print Assumptions C74_make.

(** A value of more than four characters stops the program; no storage is overrun. *)
Theorem C74_abort : forall malloc template value h, fresh malloc -> template <> [] -> ~ Forall (roomy value) template ->
  make_tform malloc template (Z.of_nat (length template)) value h = Abort.
Proof. exact (fun malloc template value h Hm => make_abort malloc Hm template value h). Qed.
Print Assumptions C74_abort.

(** The numbers of channels that can be written are those up to 9999. *)
Theorem C74_range : forall value rest, 0 <= value -> roomy value (String "?" rest) <-> value <= 9999.
Proof. exact room_range. Qed.
Print Assumptions C74_range.

(** So the product nwave * nwave, computed for VISREFMAP after the formats (write_fits.c 576,
    583), does not overflow. *)
Theorem C74_square : forall malloc nwave h r, fresh malloc -> 0 <= nwave ->
  make_tform malloc vis_template 12 nwave h = Ok r -> nwave <= 9999 /\ nwave * nwave <= 2147483647.
Proof. exact square_fits. Qed.
Print Assumptions C74_square.

(** free_tform frees the strings and the array, each once, and nothing else. *)
Theorem C74_free : forall h a ps texts, strings_at h a ps texts ->
  exists h', free_tform a (Z.of_nat (length texts)) h = Ok h'
    /\ Forall (fun p => lookup h' p = None) (a :: ps)
    /\ forall x, ~ In x (a :: ps) -> lookup h' x = lookup h x.
Proof. exact free_tform_ok. Qed.
Print Assumptions C74_free.

(** Nothing is left behind. *)
Theorem C74_returned : forall malloc template value h, fresh malloc -> template <> [] -> Forall (roomy value) template ->
  exists a h1 h2, make_tform malloc template (Z.of_nat (length template)) value h = Ok (a, h1)
    /\ free_tform a (Z.of_nat (length template)) h1 = Ok h2
    /\ forall x, lookup h2 x = lookup h x.
Proof. exact make_free. Qed.
Print Assumptions C74_returned.

(** The column formats of WriteModel.v are those of the templates in the code. *)
Theorem C74_inspol : same_formats WriteModel.inspol_cols inspol_template.
Proof. exact inspol_agrees. Qed.
Print Assumptions C74_inspol.
Theorem C74_complex : same_formats WriteModel.complex_cols complex_template.
Proof. exact complex_agrees. Qed.
Print Assumptions C74_complex.
Theorem C74_vis : same_formats WriteModel.vis_cols vis_template.
Proof. exact vis_agrees. Qed.
Print Assumptions C74_vis.
Theorem C74_vis2 : same_formats WriteModel.vis2_cols vis2_template.
Proof. exact vis2_agrees. Qed.
Print Assumptions C74_vis2.
Theorem C74_t3 : same_formats WriteModel.t3_cols t3_template.
Proof. exact t3_agrees. Qed.
Print Assumptions C74_t3.
Theorem C74_flux : same_formats WriteModel.flux_cols flux_template.
Proof. exact flux_agrees. Qed.
Print Assumptions C74_flux.

(** The hypotheses hold for OI_VIS with 240 channels, and those of C74_abort with 12345. *)
Example C74_fresh : fresh next_free.
Proof. exact next_free_fresh. Qed.
Example C74_hypotheses : Forall (roomy 240) vis_template /\ ~ Forall (roomy 12345) vis_template
  /\ map (format_text 240) vis_template
     = ["I"; "D"; "D"; "D"; "240D"; "240D"; "240D"; "240D"; "1D"; "1D"; "2I"; "240L"]%string.
Proof. exact vis_roomy. Qed.
(** tfields in write_fits.c 455, 535, 647, 750, 857, 975 *)
Example C74_lengths : map (@length string) [inspol_template; complex_template; vis_template; vis2_template; t3_template; flux_template]
  = [9; 4; 12; 10; 14; 6]%nat.
Proof. reflexivity. Qed.
