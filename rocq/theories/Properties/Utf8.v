(** C01-C12: encoding, decoding, validity, boundaries, membership. *)
From Verif Require Import Base Spec.Utf8Spec Spec.Strings Spec.Boundaries Spec.Slices Model.Decode Model.Encode Model.Subrange Model.Search
  Proofs.Utf8Lemmas Proofs.CodepointLemmas Proofs.Utf8Props Proofs.EncodeLemmas Proofs.PieceLemmas Proofs.AcceptLemmas.

(** C01 *)
Theorem C01_utf32_round_trip : forall cs : u32str,
  Forall (fun c => c <= 0x10FFFF) cs -> to_utf32 (from_utf32 cs) = Ok cs.
Proof. exact p_c01. Qed.
Print Assumptions C01_utf32_round_trip.
Example C01_ex : Forall (fun c => c <= 0x10FFFF) [0x41; 0xE9; 0x20AC; 0x1F600; 0x10FFFF].
Proof. repeat constructor; discriminate. Qed.

(** C02 *)
Theorem C02_from_utf32_is_rfc3629 : forall cs : u32str,
  Encoded (from_utf32 cs) (filter (fun c => c <=? 0x10FFFF) cs).
Proof. exact from_utf32_Encoded. Qed.
Print Assumptions C02_from_utf32_is_rfc3629.
Theorem C02_from_utf32_char : forall c,
  (c <= 0x10FFFF -> encodes (from_utf32_char c) c) /\ (0x10FFFF < c -> from_utf32_char c = []).
Proof. exact p_c02_char. Qed.
Print Assumptions C02_from_utf32_char.
Example C02_ex : from_utf32 [0x20AC; 0x110000; 0x41] = [xe2; x82; xac; x41].
Proof. reflexivity. Qed.

(** C03: [pre ++ rest] is the byte range, the position is between the two. *)
Theorem C03_decode_next_exact : forall pre rest : str,
  (forall g c post, rest = g ++ post -> uchar g c ->
     decode_next (pre ++ rest) (length pre) = Ok (c, length (pre ++ g))) /\
  ((forall g c post, uchar g c -> rest <> g ++ post) ->
     decode_next (pre ++ rest) (length pre) = Ok (INVALID_CHAR, length pre)).
Proof. exact p_c03. Qed.
Print Assumptions C03_decode_next_exact.
Example C03_ex : decode_next [x41; xe2; x82; xac] 1 = Ok (0x20AC, 4%nat)
  /\ decode_next [x41; xe2; x82] 1 = Ok (INVALID_CHAR, 1%nat).
Proof. split; reflexivity. Qed.

(** C04.  Seven or more trailing continuation bytes are excluded: see C05. *)
Theorem C04_decode_prev_exact : forall before post : str,
  ~ long_cont_tail before ->
  (forall pre g c, before = pre ++ g -> uchar g c ->
     decode_prev (before ++ post) (length before) = Ok (c, length pre)) /\
  ((forall pre g c, uchar g c -> before <> pre ++ g) ->
     decode_prev (before ++ post) (length before) = Ok (INVALID_CHAR, length before)).
Proof. exact p_c04. Qed.
Print Assumptions C04_decode_prev_exact.
Example C04_ex : ~ long_cont_tail [x41; xe2; x82; xac].
Proof. intros (y & t & E & _ & H & _). apply (f_equal (@length byte)) in E. rewrite app_length, H in E. cbn in E. lia. Qed.

Theorem C04_decode_prev_undoes_decode_next : forall s i c j, (i <= length s)%nat ->
  decode_next s i = Ok (c, j) -> c <> INVALID_CHAR -> decode_prev s j = Ok (c, i).
Proof. exact p_c04_back. Qed.
Print Assumptions C04_decode_prev_undoes_decode_next.
Example C04_ex2 : decode_next [x41; xe2; x82; xac] 1 = Ok (0x20AC, 4%nat) /\ 0x20AC <> INVALID_CHAR.
Proof. split; [reflexivity|discriminate]. Qed.

(** C05 is false: seven continuation bytes after any byte make the code shift a
    32-bit value by 36.  The undefined inputs are exactly these. *)
Theorem C05_decode_prev_defined_refuted : exists s it, (it <= length s)%nat /\ decode_prev s it = UB.
Proof. exists [x41; x80; x80; x80; x80; x80; x80; x80], 8%nat. split; [apply le_n|reflexivity]. Qed.
Print Assumptions C05_decode_prev_defined_refuted.
Theorem C05_decode_prev_defined_partial : forall before post : str,
  decode_prev (before ++ post) (length before) = UB <-> long_cont_tail before.
Proof. exact p_c05. Qed.
Print Assumptions C05_decode_prev_defined_partial.

(** C06 *)
Theorem C06_decoders_agree : forall s : str,
  (forall cs, Text s cs -> is_valid_utf8 s = Ok true /\ to_utf32 s = Ok cs) /\
  ((forall cs, ~ Text s cs) -> is_valid_utf8 s = Ok false /\ to_utf32 s = Throw YstringException).
Proof. exact p_c06. Qed.
Print Assumptions C06_decoders_agree.
Example C06_ex : to_utf32 [x41; xe2; x82; xac] = Ok [0x41; 0x20AC] /\ to_utf32 [x41; x82] = Throw YstringException.
Proof. split; reflexivity. Qed.

(** C07 is false in one direction. *)
Theorem C07_is_valid_is_rfc3629_refuted :
  (* an overlong form, an encoded surrogate, and a value above U+10FFFF *)
  Forall (fun s => is_valid_utf8 s = Ok true /\ ~ rfc3629_valid s)
    [ [xc0; x80]; [xed; xa0; x80]; [xf4; x90; x80; x80] ].
Proof. exact p_c07_refuted. Qed.
Print Assumptions C07_is_valid_is_rfc3629_refuted.
(** What is missing: the converse of the first conjunct. *)
Theorem C07_is_valid_is_rfc3629_partial : forall s : str,
  (rfc3629_valid s -> is_valid_utf8 s = Ok true) /\
  (rfc3629_valid s <-> exists cs, to_utf32 s = Ok cs /\ Forall scalar cs /\ from_utf32 cs = s).
Proof. exact p_c07_partial. Qed.
Print Assumptions C07_is_valid_is_rfc3629_partial.
(** Exactly what else is accepted: text with a sequence that is too long for its
    code point, or that stands for a surrogate or for more than U+10FFFF. *)
Theorem C07_accepted : forall s : str, is_valid_utf8 s = Ok true <-> rfc3629_valid s \/
  exists u g c v, s = u ++ g ++ v /\ (exists us, Text u us) /\ uchar g c /\ (exists vs, Text v vs) /\
    (0x10FFFF < c \/ 0xD800 <= c <= 0xDFFF \/ ~ encodes g c).
Proof. exact p_c07_accepted. Qed.
Print Assumptions C07_accepted.
Theorem C07_accepted_not_rfc : forall u us g c v vs, Text u us -> uchar g c -> Text v vs ->
  0x10FFFF < c \/ 0xD800 <= c <= 0xDFFF \/ ~ encodes g c -> ~ rfc3629_valid (u ++ g ++ v).
Proof. exact p_c07_not_rfc. Qed.
Print Assumptions C07_accepted_not_rfc.
Example C07_accepted_ex : is_valid_utf8 [x41; xc0; x80] = Ok true /\ uchar [xc0; x80] 0 /\ ~ encodes [xc0; x80] 0 /\ is_valid_utf8 [x41; xc0] = Ok false.
Proof. split; [reflexivity|]. split; [apply (uchar2 xc0 x80); cbv; intuition discriminate|]. split; [discriminate|reflexivity]. Qed.
Example C07_ex : rfc3629_valid [x41; xe2; x82; xac].
Proof.
  exists [0x41; 0x20AC]. split.
  - change [x41; xe2; x82; xac] with ([x41] ++ [xe2; x82; xac] ++ []). repeat constructor.
  - repeat constructor; cbn; lia.
Qed.

(** C08.  Below 2^32 - 1 bytes the boundaries agree; beyond, skip_prev's 32-bit
    counter wraps. *)
Theorem C08_bound_is_needed : exists s i, fwd_boundary s i /\ ~ bwd_boundary s i.
Proof. exact boundaries_disagree_huge. Qed.
Print Assumptions C08_bound_is_needed.
Theorem C08_boundaries_agree : forall s i, size s < 0xFFFFFFFF ->
  fwd_boundary s i <-> bwd_boundary s i.
Proof. exact boundaries_agree. Qed.
Print Assumptions C08_boundaries_agree.
Theorem C08_boundaries_of_valid_text : forall s cs i, Text s cs ->
  (fwd_boundary s i <-> exists u v us vs, s = u ++ v /\ length u = i /\ Text u us /\ Text v vs).
Proof. exact fwd_boundary_text. Qed.
Print Assumptions C08_boundaries_of_valid_text.
(** ... and in other strings they are the boundaries of the pieces. *)
Theorem C08_boundaries_of_any_bytes : forall ps i, Pieces ps -> size (concat ps) < 0xFFFFFFFF ->
  (fwd_boundary (concat ps) i <-> exists k, length (concat (firstn k ps)) = i).
Proof. exact fwd_boundary_pieces. Qed.
Print Assumptions C08_boundaries_of_any_bytes.
Example C08_ex : fwd_boundary [x41; x80; xe2; x82] 1 /\ bwd_boundary [x41; x80; xe2; x82] 1.
Proof.
  split.
  - eapply fwd_step; [constructor|reflexivity].
  - eapply bwd_step; [eapply bwd_step; [constructor|reflexivity]|reflexivity].
Qed.

(** C09 is false in its second half: count_codepoints never throws. *)
Theorem C09_count_codepoints_reports_invalid_refuted :
  (forall cs, ~ Text [xff] cs) /\ count_codepoints [xff] = Ok 1.
Proof. exact (conj p_not_text_ff eq_refl). Qed.
Print Assumptions C09_count_codepoints_reports_invalid_refuted.
Theorem C09_count_codepoints_never_throws : forall s e, count_codepoints s <> Throw e.
Proof. exact p_c09_throw. Qed.
Print Assumptions C09_count_codepoints_never_throws.
Theorem C09_count_codepoints_partial : forall s cs,
  Fits s -> Text s cs -> count_codepoints s = Ok (N.of_nat (length cs)).
Proof. exact count_text. Qed.
Print Assumptions C09_count_codepoints_partial.
(** What it counts in other strings (C24_every_string: each has one such list). *)
Theorem C09_count_any_bytes : forall ps, Pieces ps -> size (concat ps) < 0xFFFFFFFF ->
  count_codepoints (concat ps) = Ok (N.of_nat (length ps)).
Proof. exact count_pieces'. Qed.
Print Assumptions C09_count_any_bytes.
Example C09_ex : Fits [x41; xe2; x82; xac] /\ count_codepoints [x41; xe2; x82; xac] = Ok 2.
Proof. split; reflexivity. Qed.

(** C10: [append_to] is the outcome together with the new value of [str]. *)
Theorem C10_append_exact : forall s c,
  (c <= 0x10FFFF -> exists g, encodes g c /\ append_to s c = (Ok tt, s ++ g) /\ append s c = Ok (s ++ g)) /\
  (0x10FFFF < c -> append_to s c = (Throw YstringException, s) /\ append s c = Throw YstringException).
Proof. intros s c. exact (conj (append_ok s c) (append_bad s c)). Qed.
Print Assumptions C10_append_exact.
Example C10_ex : append [x41] 0x20AC = Ok [x41; xe2; x82; xac].
Proof. reflexivity. Qed.

(** C11.  The view is returned; a throw leaves it unassigned.  Where
    decode_prev is undefined (C05) so is pop_last. *)
Theorem C11_pop : forall s : str,
  (pop_utf8_codepoint [] = Ok (None, []) /\ pop_last_utf8_codepoint [] = Ok (None, [])) /\
  (forall g c t, s = g ++ t -> uchar g c -> pop_utf8_codepoint s = Ok (Some c, t)) /\
  (forall t g c, s = t ++ g -> uchar g c -> pop_last_utf8_codepoint s = Ok (Some c, t)) /\
  (s <> [] -> (forall g c t, uchar g c -> s <> g ++ t) -> pop_utf8_codepoint s = Throw YstringException) /\
  (s <> [] -> (forall g c t, uchar g c -> s <> t ++ g) -> ~ long_cont_tail s ->
     pop_last_utf8_codepoint s = Throw YstringException) /\
  (long_cont_tail s -> pop_last_utf8_codepoint s = UB).
Proof. exact p_c11_pop_all. Qed.
Print Assumptions C11_pop.
Theorem C11_remove : forall s : str,
  (remove_utf8_codepoint [] = Ok (false, []) /\ remove_last_utf8_codepoint [] = Ok (false, [])) /\
  (forall g c t, s = g ++ t -> uchar g c -> remove_utf8_codepoint s = Ok (true, t)) /\
  (forall t g c, s = t ++ g -> uchar g c -> remove_last_utf8_codepoint s = Ok (true, t)).
Proof. exact p_c11_remove. Qed.
Print Assumptions C11_remove.
Example C11_ex : pop_last_utf8_codepoint [x41; xe2; x82; xac] = Ok (Some 0x20AC, [x41]).
Proof. reflexivity. Qed.

(** C12: [u] is the text before the first malformed sequence, [r] the rest. *)
Theorem C12_contains : forall u cs r c, Text u cs -> (r = [] \/ Malformed r) ->
  (In c cs -> contains (u ++ r) c = Ok true) /\
  (~ In c cs -> r = [] -> contains (u ++ r) c = Ok false) /\
  (~ In c cs -> r <> [] -> contains (u ++ r) c = Throw YstringException).
Proof. exact p_c12. Qed.
Print Assumptions C12_contains.
(** Every string has exactly one such division. *)
Theorem C12_division : forall s, exists u cs r, s = u ++ r /\ Text u cs /\ (r = [] \/ Malformed r) /\
  forall u' cs' r', s = u' ++ r' -> Text u' cs' -> (r' = [] \/ Malformed r') -> u' = u /\ cs' = cs /\ r' = r.
Proof. exact p_c12_division. Qed.
Print Assumptions C12_division.
Example C12_ex : contains [x41; xe2; x82; xac; xff] 0x20AC = Ok true
  /\ contains [x41; xff] 0x20AC = Throw YstringException.
Proof. split; reflexivity. Qed.
