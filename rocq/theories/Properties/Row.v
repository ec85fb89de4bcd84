(** C146: replacements in a row. *)
From Verif Require Import Base Spec.Utf8Spec Spec.Strings Model.Decode Model.Encode Model.Subrange Model.Search Proofs.RowLemmas.

(** [m] replacements and then [n] more from the same end are [m + n] replacements, when
    the replacement has no byte in common with the pattern ... *)
Theorem C146_stages : forall s f t m n r, f <> [] -> t <> [] -> (forall x, In x t -> ~ In x f) -> Fits s -> Fits r -> replace s f t m = Ok r ->
  ((0 <= m /\ 0 <= n)%Z \/ (m <= 0 /\ n <= 0 /\ - 0x8000000000000000 < m + n)%Z) -> replace r f t n = replace s f t (m + n).
Proof. exact p_c146_stages. Qed.
Print Assumptions C146_stages.
(** ... and in valid text when it has no code point in common with it. *)
Theorem C146_stages_text : forall s cs f fs t ts m n r, Text s cs -> Text f fs -> Text t ts -> f <> [] -> t <> [] -> (forall c, In c ts -> ~ In c fs) ->
  Fits s -> Fits r -> replace s f t m = Ok r ->
  ((0 <= m /\ 0 <= n)%Z \/ (m <= 0 /\ n <= 0 /\ - 0x8000000000000000 < m + n)%Z) -> replace r f t n = replace s f t (m + n).
Proof. exact p_c146_stages_text. Qed.
Print Assumptions C146_stages_text.
(** By way of a placeholder [t] that has no byte in common with the text: the same as at once. *)
Theorem C146_placeholder : forall s f t w m n r, f <> [] -> t <> [] -> (forall x, In x t -> ~ In x s) -> Fits s -> Fits r ->
  (- 0x8000000000000000 < m)%Z -> (- 0x8000000000000000 < n)%Z -> (Z.of_N (size r) <= Z.abs n)%Z -> replace s f t m = Ok r ->
  replace r t w n = replace s f w m.
Proof. exact p_c146_via. Qed.
Print Assumptions C146_placeholder.
(** Different code points [a] and [c] can be replaced in either order, any number of each from either end,
    when neither is what the other becomes. *)
Theorem C146_independent : forall s cs a b c d m n, Text s cs -> a <= 0x10FFFF -> b <= 0x10FFFF -> c <= 0x10FFFF -> d <= 0x10FFFF ->
  a <> c -> b <> c -> d <> a -> (- 0x8000000000000000 < m)%Z -> (- 0x8000000000000000 < n)%Z -> Fits s ->
  exists r q, replace_codepoint s a b m = Ok r /\ replace_codepoint s c d n = Ok q /\
    (Fits r -> Fits q -> replace_codepoint r c d n = replace_codepoint q a b m).
Proof. exact p_c146_independent. Qed.
Print Assumptions C146_independent.

(** å (C3 A5) by ä (C3 A4), one and one more: a byte in common, but no code point; the other theorems. *)
Example C146_ex : Text [xc3; xa5] [0xE5] /\ Text [xc3; xa4] [0xE4] /\
  replace [xc3; xa5; x61; xc3; xa5; xc3; xa5] [xc3; xa5] [xc3; xa4] 1 = Ok [xc3; xa4; x61; xc3; xa5; xc3; xa5] /\
  replace [xc3; xa4; x61; xc3; xa5; xc3; xa5] [xc3; xa5] [xc3; xa4] 1 = Ok [xc3; xa4; x61; xc3; xa4; xc3; xa5] /\
  replace [xc3; xa5; x61; xc3; xa5; xc3; xa5] [xc3; xa5] [xc3; xa4] 2 = Ok [xc3; xa4; x61; xc3; xa4; xc3; xa5] /\
  replace [x61; x61; x62; x61; x61] [x61; x61] [x00] 2 = Ok [x00; x62; x00] /\
  replace [x00; x62; x00] [x00] [x61; x78] 5 = Ok [x61; x78; x62; x61; x78] /\
  replace [x61; x61; x62; x61; x61] [x61; x61] [x61; x78] 2 = Ok [x61; x78; x62; x61; x78] /\
  replace_codepoint [x61; x62; x61; x62] 0x61 0x41 1 = Ok [x41; x62; x61; x62] /\
  replace_codepoint [x41; x62; x61; x62] 0x62 0xE5 (-1) = Ok [x41; x62; x61; xc3; xa5] /\
  replace_codepoint [x61; x62; x61; x62] 0x62 0xE5 (-1) = Ok [x61; x62; x61; xc3; xa5] /\
  replace_codepoint [x61; x62; x61; xc3; xa5] 0x61 0x41 1 = Ok [x41; x62; x61; xc3; xa5].
Proof.
  split; [|split].
  - apply (Text_cons [xc3; xa5] 0xE5); [|constructor]. apply (uchar2 xc3 xa5); vm_compute; split; congruence.
  - apply (Text_cons [xc3; xa4] 0xE4); [|constructor]. apply (uchar2 xc3 xa4); vm_compute; split; congruence.
  - repeat split; vm_compute; reflexivity.
Qed.
(** The conditions are needed: a replacement that makes new matches, an empty one, ends mixed, a placeholder from the text. *)
Example C146_needed :
  (let* r := replace [x61; x62; x62] [x61; x62] [x61] 1 in replace r [x61; x62] [x61] 1) = Ok [x61] /\
  replace [x61; x62; x62] [x61; x62] [x61] 2 = Ok [x61; x62] /\
  (let* r := replace [x61; x61; x62; x62] [x61; x62] [] 1 in replace r [x61; x62] [] 1) = Ok [] /\
  replace [x61; x61; x62; x62] [x61; x62] [] 2 = Ok [x61; x62] /\
  (let* r := replace [x61; x61; x61] [x61; x61] [x78] 1 in replace r [x61; x61] [x78] (-1)) = Ok [x78; x61] /\
  (let* r := replace [x61; x61; x61] [x61; x61] [x78] (-1) in replace r [x61; x61] [x78] 1) = Ok [x61; x78] /\
  (let* r := replace [x61; x78] [x61] [x78] 1 in replace r [x78] [x77] 9) = Ok [x77; x77] /\ replace [x61; x78] [x61] [x77] 1 = Ok [x77; x78].
Proof. repeat split; vm_compute; reflexivity. Qed.
