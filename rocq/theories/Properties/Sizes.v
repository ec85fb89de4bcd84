(** C99: how large results can get. *)
From Verif Require Import Base Spec.Utf8Spec Spec.Strings Model.Decode Model.Encode Model.ConvertCase Model.Chars Model.Escape Model.Unescape Model.Normalize Model.Search Proofs.SizeLemmas.

(** Converting case: at most one and a half times the size, ... *)
Theorem C99_case : forall s r, to_lower_str s = Ok r \/ to_upper_str s = Ok r \/ to_title_str s = Ok r ->
  2 * size r <= 3 * size s.
Proof. exact p_c99_case. Qed.
Print Assumptions C99_case.
(** ... which U+023A reaches. *)
Example C99_case_ex : to_lower_str [xc8; xba] = Ok [xe2; xb1; xa5].
Proof. vm_compute. reflexivity. Qed.

(** Escaping: at least the size and at most six times; the same only when
    nothing was escaped.  Unescaping never adds bytes. *)
Theorem C99_escape : forall s, Fits s -> exists e, escape_json s = Ok e /\
  size s <= size e <= 6 * size s /\ (size e = size s -> e = s).
Proof. exact p_c99_escape. Qed.
Print Assumptions C99_escape.
Theorem C99_unescape : forall s t, Fits s -> unescape s = Ok t -> size t <= size s.
Proof. exact p_c99_unescape. Qed.
Print Assumptions C99_unescape.
Example C99_escape_ex : exists e, escape_json [x01; x02] = Ok e /\ size e = 12.
Proof. eexists. split; vm_compute; reflexivity. Qed.

(** Decomposing: at most three times; composing never adds bytes. *)
Theorem C99_decompose : forall inner s t, to_decomposed inner s = Ok t -> size t <= 3 * size s.
Proof. exact p_c99_decompose. Qed.
Print Assumptions C99_decompose.
Theorem C99_compose : forall adjacent s r, to_composed adjacent s = Ok r -> size r <= size s.
Proof. exact p_c99_compose. Qed.
Print Assumptions C99_compose.
Example C99_decompose_ex : to_decomposed 1 [xce; x90] = Ok [xce; xb9; xcc; x88; xcc; x81] /\
  to_composed false [x41; xcc; xa3] = Ok [xe1; xba; xa0].
Proof. split; vm_compute; reflexivity. Qed.

(** UTF-32: one to four bytes for each code point; none above U+10FFFF. *)
Theorem C99_utf32 :
  (forall s cs, to_utf32 s = Ok cs -> N.of_nat (length cs) <= size s <= 4 * N.of_nat (length cs)) /\
  (forall cs, size (from_utf32 cs) <= 4 * N.of_nat (length cs)).
Proof. exact p_c99_utf32. Qed.
Print Assumptions C99_utf32.

(** Repairing: four times, three with the default replacement; reversing
    keeps the size. *)
Theorem C99_repair : forall s chr, size s <= 0xFFFFFFFF -> exists r, replace_invalid_utf8 s chr = Ok r /\
  size r <= 4 * size s /\ (chr = REPLACEMENT_CHARACTER -> size r <= 3 * size s).
Proof. exact p_c99_repair. Qed.
Print Assumptions C99_repair.
Theorem C99_reverse : forall s r, Fits s -> reverse s = Ok r -> size r = size s.
Proof. exact p_c99_reverse. Qed.
Print Assumptions C99_reverse.
Example C99_repair_ex : replace_invalid_utf8 [xff] REPLACEMENT_CHARACTER = Ok [xef; xbf; xbd] /\
  to_utf32 [xf0; x9f; x98; x80] = Ok [0x1F600] /\ reverse [x61; xcc; x80; x62] = Ok [x62; x61; xcc; x80].
Proof. repeat split; vm_compute; reflexivity. Qed.
