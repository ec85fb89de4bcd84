(** C43-C45, C55, C56: case mapping and character classes against UnicodeData. *)
From Verif Require Import Base Spec.Category Spec.UnicodeData Spec.Case Spec.Utf8Spec Spec.Newline
  Model.Decode Model.Encode Model.Search Model.CharClass Model.ConvertCase
  Proofs.CharClassLemmas Proofs.CaseLemmas Proofs.CaseStringLemmas Proofs.UnicodeProps Proofs.ClassAlias.

(** C43: all 2^32 values of char32_t. *)
Theorem C43_case_mapping : forall c, c < 0x100000000 ->
  to_upper c = simple_upper c /\ to_lower c = simple_lower c /\ to_title c = simple_title c.
Proof. exact (fun c H => conj (to_upper_spec c H) (conj (to_lower_spec c H) (to_title_spec c H))). Qed.
Print Assumptions C43_case_mapping.
Example C43_ex : simple_upper 0x1C6 = 0x1C4 /\ simple_title 0x1C6 = 0x1C5 /\ simple_lower 0x130 = 0x69.
Proof. vm_compute. repeat split. Qed.

(** C44 *)
Theorem C44_to_lower : forall s cs, Text s cs -> Forall (fun c => c <= 0x10FFFF) cs ->
  exists r, to_lower_str s = Ok r /\ Encoded r (lower_cps cs).
Proof. exact to_lower_str_ok. Qed.
Print Assumptions C44_to_lower.
Theorem C44_to_upper : forall s cs, Text s cs -> Forall (fun c => c <= 0x10FFFF) cs ->
  exists r, to_upper_str s = Ok r /\ Encoded r (upper_cps cs).
Proof. exact to_upper_str_ok. Qed.
Print Assumptions C44_to_upper.
(** Everything else throws: malformed text, and values above U+10FFFF. *)
Theorem C44_invalid_throws : forall s, (forall cs, Text s cs -> ~ Forall (fun c => c <= 0x10FFFF) cs) ->
  to_lower_str s = Throw YstringException /\ to_upper_str s = Throw YstringException /\ to_title_str s = Throw YstringException.
Proof. exact case_all_bad. Qed.
Print Assumptions C44_invalid_throws.
Theorem C44_idempotent : forall s r,
  (to_lower_str s = Ok r -> to_lower_str r = Ok r) /\ (to_upper_str s = Ok r -> to_upper_str r = Ok r).
Proof. exact (fun s r => conj (to_lower_twice s r) (to_upper_twice s r)). Qed.
Print Assumptions C44_idempotent.
Example C44_ex : to_upper_str [x61; xc3; x9f; xc3; xa6] = Ok [x41; x53; x53; xc3; x86] /\
  upper_cps [0x61; 0xDF; 0xE6] = [0x41; 0x53; 0x53; 0xC6].
Proof. split; vm_compute; reflexivity. Qed.

(** C45, for texts without the ideographs get_char_class misses (see C55). *)
Theorem C45_to_title_unicode : forall s cs, Text s cs ->
  Forall (fun c => c <= 0x10FFFF /\ in_ideograph_gap c = false) cs ->
  exists r, to_title_str s = Ok r /\ Encoded r (title_cps unicode_letter false cs).
Proof. exact p_c45. Qed.
Print Assumptions C45_to_title_unicode.
(** Any text, with the library's own is_letter. *)
Theorem C45_to_title : forall s cs, Text s cs -> Forall (fun c => c <= 0x10FFFF) cs ->
  exists r, to_title_str s = Ok r /\ Encoded r (title_cps is_letter false cs).
Proof. exact to_title_str_ok. Qed.
Print Assumptions C45_to_title.
Theorem C45_idempotent : forall s r, to_title_str s = Ok r -> to_title_str r = Ok r.
Proof. exact to_title_twice. Qed.
Print Assumptions C45_idempotent.
(** U+4E2D is a letter, yet the letter after it is capitalised. *)
Theorem C45_ideograph_example :
  title_cps unicode_letter false [0x4E2D; 0x61] = [0x4E2D; 0x61] /\
  to_title_str [xe4; xb8; xad; x61] = Ok [xe4; xb8; xad; x41].
Proof. split; vm_compute; reflexivity. Qed.
Print Assumptions C45_ideograph_example.
Example C45_ex : to_title_str [xc3; x9f; x41; x20; xc7; x86; x62] = Ok [x53; x73; x61; x20; xc7; x85; x62].
Proof. vm_compute. reflexivity. Qed.

(** C55: every code point and everything else below 2^21, except the inner
    code points of eleven ideograph ranges ... *)
Theorem C55_get_char_class_partial : forall c, c < 0x200000 -> in_ideograph_gap c = false ->
  get_char_class c = Ok (2 ^ category_number (category_of c)).
Proof. exact p_c55. Qed.
Print Assumptions C55_get_char_class_partial.
(** ... which are letters, and all classified as unassigned. *)
Theorem C55_ideographs_refuted : forall c, in_ideograph_gap c = true ->
  category_of c = Lo /\ get_char_class c = Ok (2 ^ category_number Cn).
Proof. exact p_c55_gap. Qed.
Print Assumptions C55_ideographs_refuted.
(** Above 2^21 the code point is shifted out of the key. *)
Theorem C55_large_refuted : category_of 0x200041 = Cn /\ get_char_class 0x200041 = Ok (2 ^ category_number Lu).
Proof. split; vm_compute; reflexivity. Qed.
Print Assumptions C55_large_refuted.
(** What comes out is the class of the 21 low bits or of the code point before. *)
Theorem C55_alias : forall c, 0x200000 <= c < 0x100000000 ->
  let d := c mod 0x200000 in
  get_char_class c = get_char_class d \/ (0 < d /\ get_char_class c = get_char_class (d - 1)).
Proof. exact p_c55_alias. Qed.
Print Assumptions C55_alias.
(** U+0020 is a space, U+001F a control character. *)
Example C55_alias_ex : get_char_class 0x200020 = Ok (2 ^ category_number Cc) /\ get_char_class 0x20 = Ok (2 ^ category_number Zs) /\ get_char_class 0x1F = Ok (2 ^ category_number Cc).
Proof. repeat split; vm_compute; reflexivity. Qed.
(** Values whose 21 low bits are beyond Unicode - among them 0xFFFFFFFF, which
    means "no code point" throughout the library - are unassigned. *)
Theorem C55_beyond_unicode : forall c, c < 0x100000000 -> 0x10FFFF < c mod 0x200000 ->
  category_of c = Cn /\ get_char_class c = Ok (2 ^ category_number Cn).
Proof. exact p_c55_beyond. Qed.
Print Assumptions C55_beyond_unicode.
Example C55_ex : in_ideograph_gap 0x4E2D = true /\ in_ideograph_gap 0x1C5 = false /\ category_of 0x1C5 = Lt.
Proof. repeat split; vm_compute; reflexivity. Qed.

(** C56 *)
Theorem C56_one_class : forall c, exists n, n < 30 /\ get_char_class c = Ok (2 ^ n).
Proof. exact p_c56_one. Qed.
Print Assumptions C56_one_class.
Theorem C56_predicates : forall c, c < 0x200000 ->
  (is_mark c = true <-> In (category_of c) [Mn; Mc; Me]) /\
  (is_number c = true <-> In (category_of c) [Nd; Nl; No]) /\
  (is_punctuation c = true <-> In (category_of c) [Pc; Pd; Ps; Pe; Pi; Pf; Po]) /\
  (is_symbol c = true <-> In (category_of c) [Sm; Sc; Sk; So]) /\
  (is_separator c = true <-> In (category_of c) [Zs; Zl; Zp]) /\
  (is_control c = true <-> category_of c = Cc) /\
  (is_format c = true <-> category_of c = Cf) /\
  (is_surrogate c = true <-> category_of c = Cs) /\
  (is_upper c = true <-> category_of c = Lu) /\
  (is_lower c = true <-> category_of c = Ll) /\
  (is_cased_letter c = true <-> In (category_of c) [Lu; Ll; Lt]).
Proof. exact p_c56_exact. Qed.
Print Assumptions C56_predicates.
Theorem C56_letters_partial : forall c, c < 0x200000 -> in_ideograph_gap c = false ->
  (is_letter c = true <-> In (category_of c) [Lu; Ll; Lt; Lm; Lo]) /\
  (is_alpha_numeric c = true <-> In (category_of c) [Lu; Ll; Lt; Lm; Lo; Nd; Nl; No]) /\
  (is_graphical c = true <-> In (category_of c) [Lu; Ll; Lt; Lm; Lo; Mn; Mc; Me; Nd; Nl; No; Pc; Pd; Ps; Pe; Pi; Pf; Po; Sm; Sc; Sk; So]) /\
  (is_visible c = true <-> In (category_of c) [Lu; Ll; Lt; Lm; Lo; Mn; Mc; Me; Nd; Nl; No; Pc; Pd; Ps; Pe; Pi; Pf; Po; Sm; Sc; Sk; So; Zs; Zl; Zp]).
Proof. exact p_c56_letters. Qed.
Print Assumptions C56_letters_partial.
Theorem C56_ideographs_refuted : forall c, in_ideograph_gap c = true -> c < 0x200000 /\ category_of c = Lo /\
  is_letter c = false /\ is_alpha_numeric c = false /\ is_graphical c = false /\ is_visible c = false.
Proof. exact p_c56_gap. Qed.
Print Assumptions C56_ideographs_refuted.
(** From 2^21 on every predicate answers for the 21 low bits or the code point before them, as in C55. *)
Theorem C56_alias_refuted : forall c, 0x200000 <= c < 0x100000000 ->
  exists e, (e = c mod 0x200000 \/ e + 1 = c mod 0x200000) /\
  is_mark c = is_mark e /\ is_number c = is_number e /\ is_punctuation c = is_punctuation e /\ is_symbol c = is_symbol e /\
  is_separator c = is_separator e /\ is_control c = is_control e /\ is_format c = is_format e /\ is_surrogate c = is_surrogate e /\
  is_upper c = is_upper e /\ is_lower c = is_lower e /\ is_cased_letter c = is_cased_letter e /\ is_letter c = is_letter e /\
  is_alpha_numeric c = is_alpha_numeric e /\ is_graphical c = is_graphical e /\ is_visible c = is_visible e /\
  is_whitespace c = is_separator e.
Proof. exact p_c56_alias. Qed.
Print Assumptions C56_alias_refuted.

Example C56_alias_ex : category_of 0x200042 = Cn /\ is_upper 0x200042 = true /\ is_whitespace 0x202003 = true /\ is_whitespace 0x200009 = false.
Proof. repeat split; vm_compute; reflexivity. Qed.
(** Values beyond Unicode as in C55, such as 0xFFFFFFFF, are nothing. *)
Theorem C56_beyond_unicode : forall c, c < 0x100000000 -> 0x10FFFF < c mod 0x200000 ->
  is_mark c = false /\ is_number c = false /\ is_punctuation c = false /\ is_symbol c = false /\ is_separator c = false /\
  is_control c = false /\ is_format c = false /\ is_surrogate c = false /\ is_upper c = false /\ is_lower c = false /\
  is_cased_letter c = false /\ is_letter c = false /\ is_alpha_numeric c = false /\ is_graphical c = false /\ is_visible c = false.
Proof. exact p_c56_beyond. Qed.
Print Assumptions C56_beyond_unicode.
Example C56_beyond_ex : 0x10FFFF < 0xFFFFFFFF mod 0x200000 /\ 0x10FFFF < 0x110000 mod 0x200000 /\ ~ 0x10FFFF < 0x200041 mod 0x200000.
Proof. repeat split; intros; vm_compute in *; congruence. Qed.
Theorem C56_newline_hex : forall c,
  (is_newline c = true <-> newline c) /\
  (is_hex_digit c = true <-> 0x30 <= c <= 0x39 \/ 0x41 <= c <= 0x46 \/ 0x61 <= c <= 0x66).
Proof. exact (fun c => conj (p_c56_newline c) (p_c56_hex c)). Qed.
Print Assumptions C56_newline_hex.
Theorem C56_whitespace : forall c, c < 0x200000 ->
  is_whitespace c = true <-> c = 0x09 \/ newline c \/ In (category_of c) [Zs; Zl; Zp].
Proof. exact p_c56_whitespace. Qed.
Print Assumptions C56_whitespace.
(** These are the 25 code points of Unicode's property White_Space. *)
Theorem C56_white_space : forall c, c < 0x200000 ->
  is_whitespace c = true <->
  0x09 <= c <= 0x0D \/ c = 0x20 \/ c = 0x85 \/ c = 0xA0 \/ c = 0x1680 \/ 0x2000 <= c <= 0x200A \/ c = 0x2028 \/ c = 0x2029 \/
  c = 0x202F \/ c = 0x205F \/ c = 0x3000.
Proof. exact p_c56_white_space. Qed.
Print Assumptions C56_white_space.
Example C56_ex : is_mark 0x300 = true /\ is_whitespace 0x3000 = true /\ is_letter 0x4E2D = false.
Proof. vm_compute. repeat split. Qed.
