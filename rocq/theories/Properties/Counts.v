(** What the functions do to the number of code points and of characters.  C104. *)
From Verif Require Import Base Spec.Utf8Spec Spec.Strings Spec.Counts Model.Decode Model.Encode Model.Search
  Model.CharClass Model.ConvertCase Model.Chars Proofs.CodepointLemmas Proofs.CountLemmas.

(** C104.  [char_count] (Spec/Counts) is defined from the categories of the
    Unicode data, not from the library's own tables. *)
Theorem C104_count_chars : forall s cs, Text s cs -> Fits s -> count_chars s = Ok (char_count cs).
Proof. exact p_c104_count. Qed.
Print Assumptions C104_count_chars.

(** Concatenation: a character is lost exactly when the second text starts with
    a combining mark. *)
Theorem C104_concat : forall s cs t d ds, Text s cs -> cs <> [] -> Text t (d :: ds) -> Fits (s ++ t) -> exists n m n' m',
  count_codepoints s = Ok n /\ count_codepoints t = Ok m /\ count_codepoints (s ++ t) = Ok (n + m) /\
  count_chars s = Ok n' /\ count_chars t = Ok m' /\ count_chars (s ++ t) = Ok (n' + m' - if combining d then 1 else 0).
Proof. exact p_c104_concat. Qed.
Print Assumptions C104_concat.

(** to_lower keeps both numbers. *)
Theorem C104_lower : forall s cs, Text s cs -> Forall (fun c => c <= 0x10FFFF) cs -> Fits s -> exists r, to_lower_str s = Ok r /\
  (Fits r -> count_codepoints r = count_codepoints s /\ count_chars r = count_chars s).
Proof. exact p_c104_lower. Qed.
Print Assumptions C104_lower.

(** to_upper adds one for each U+00DF; each U+0345 that is a mark on a character
    becomes a character of its own (U+0399). *)
Theorem C104_upper : forall s cs, Text s cs -> Forall (fun c => c <= 0x10FFFF) cs -> Fits s -> exists r n k, to_upper_str s = Ok r /\
  count_codepoints s = Ok n /\ count_chars s = Ok k /\
  (Fits r -> count_codepoints r = Ok (n + times 0xDF cs) /\ count_chars r = Ok (k + times 0xDF cs + times 0x345 (tl cs))).
Proof. exact p_c104_upper. Qed.
Print Assumptions C104_upper.

Theorem C104_replace_codepoint : forall s cs a b m, Text s cs -> Fits s -> a <= 0x10FFFF -> b <= 0x10FFFF ->
  (- 0x8000000000000000 < m)%Z ->
  exists r, replace_codepoint s a b m = Ok r /\ (Fits r -> count_codepoints r = count_codepoints s).
Proof. exact p_c104_replace_codepoint. Qed.
Print Assumptions C104_replace_codepoint.

(** reverse keeps the number of code points, and of characters unless the text
    starts with a mark: that mark joins the character now before it. *)
Theorem C104_reverse : forall s c cs, Text s (c :: cs) -> Fits s -> exists r k, reverse s = Ok r /\
  count_codepoints r = count_codepoints s /\
  count_chars s = Ok k /\ count_chars r = Ok (if combining c && (1 <? k) then k - 1 else k).
Proof. exact p_c104_reverse. Qed.
Print Assumptions C104_reverse.

(** "stra" U+00DF U+0301; a U+0345 *)
Example C104_ex : Text [x73; xc3; x9f; xcc; x81] [0x73; 0xDF; 0x301] /\ char_count [0x73; 0xDF; 0x301] = 2 /\
  count_chars [x73; xc3; x9f; xcc; x81] = Ok 2 /\ to_upper_str [x73; xc3; x9f; xcc; x81] = Ok [x53; x53; x53; xcc; x81] /\
  count_chars [x53; x53; x53; xcc; x81] = Ok 3 /\ count_chars [x61; xcd; x85] = Ok 1 /\
  to_upper_str [x61; xcd; x85] = Ok [x41; xce; x99] /\ count_chars [x41; xce; x99] = Ok 2 /\ count_chars [xcc; x80; x61] = Ok 2 /\
  reverse [xcc; x80; x61] = Ok [x61; xcc; x80] /\ count_chars [x61; xcc; x80] = Ok 1.
Proof.
  split.
  - pose proof (uchar1 x73 ltac:(reflexivity)) as A. pose proof (uchar2 xc3 x9f ltac:(now split) ltac:(now split)) as B.
    pose proof (uchar2 xcc x81 ltac:(now split) ltac:(now split)) as C.
    exact (Text_cons _ _ _ _ A (Text_cons _ _ _ _ B (Text_cons _ _ _ _ C Text_nil))).
  - vm_compute. repeat split.
Qed.
