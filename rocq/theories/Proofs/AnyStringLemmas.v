(** get_codepoint_pos and count_codepoints on arbitrary byte strings. *)
From Verif Require Import Base Spec.Utf8Spec Spec.Strings Spec.Slices Model.Decode Model.Encode Model.Subrange Model.Search
  Proofs.Utf8Lemmas Proofs.DecodeLemmas Proofs.SkipLemmas Proofs.EncodeLemmas Proofs.CodepointLemmas Proofs.SearchLemmas
  Proofs.PieceLemmas Proofs.SliceLemmas.
From Coq Require Import ZifyBool ZifyNat ZifyN.

Lemma any_string_positions s : size s < 0xFFFFFFFF ->
  exists ps : list str, concat ps = s /\ Forall (fun p => p <> []) ps /\ count_codepoints s = Ok (N.of_nat (length ps)) /\
    forall k, cp_ok k -> get_codepoint_pos s k = Ok (position ps k).
Proof.
  intros HS. destruct (pieces_exist s) as (ps & HP & <-). exists ps.
  split; [reflexivity|]. split; [now apply pieces_nonempty|]. split.
  - apply count_pieces; auto. unfold Fits. lia.
  - intros k Hk. now apply get_codepoint_pos_pieces.
Qed.

Lemma code_units_exist s : size s < 0xFFFFFFFF -> exists ps, CodeUnits ps /\ concat ps = s.
Proof. intros HS. destruct (pieces_exist s) as (ps & HP & <-). exists ps. split; [right; auto|reflexivity]. Qed.
Lemma code_units_unique ps qs : CodeUnits ps -> CodeUnits qs -> concat ps = concat qs -> ps = qs.
Proof. intros H1 H2. apply pieces_unique; now apply code_units_pieces. Qed.
Lemma count_code_units ps : CodeUnits ps -> Fits (concat ps) -> count_codepoints (concat ps) = Ok (N.of_nat (length ps)).
Proof.
  intros [H|[H HS]] HF.
  - destruct (Codepoints_Text ps H) as (cs & HT & <-). now apply count_text.
  - now apply count_pieces.
Qed.

Lemma p_c24_every_string s : exists ps, Pieces ps /\ concat ps = s /\ forall qs, Pieces qs -> concat qs = s -> qs = ps.
Proof.
  destruct (pieces_exist s) as (ps & HP & <-). exists ps. split; [exact HP|]. split; [reflexivity|].
  intros qs HQ E. now apply pieces_unique.
Qed.
Lemma ex_stray_units : CodeUnits [[xe2; x82]; [x41]; [x80; x80]; [xff]] /\
  get_codepoint_pos [xe2; x82; x41; x80; x80; xff] 2 = Ok 3 /\ get_codepoint_pos [xe2; x82; x41; x80; x80; xff] (-1) = Ok 5.
Proof.
  split; [|split; reflexivity]. right. split; [|unfold size; cbn; lia].
  repeat apply pieces_cons; try apply pieces_nil;
    repeat first [apply Forall_cons|apply Forall_nil];
    try (unfold cont, u8; cbn; lia);
    try (intros n E; cbn in E; injection E as <-; cbn; lia);
    try (left; reflexivity);
    try (right; cbn; intros x t E; first [discriminate|injection E as <- _; unfold cont, u8; cbn; lia]).
  all: intros n E; cbn in E; discriminate.
Qed.
