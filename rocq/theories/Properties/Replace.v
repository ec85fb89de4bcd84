(** C31-C34: replacing. *)
From Verif Require Import Base Spec.Utf8Spec Spec.Strings Spec.Replace Model.Decode Model.Encode Model.Subrange Model.Search
  Proofs.ReplaceLemmas Proofs.ReplaceCpLemmas Proofs.CodepointLemmas Proofs.ReplaceUnits.
From Verif Require Import Spec.Slices.

(** C31: non-empty patterns.  The result is unique, so the relation is a function. *)
Theorem C31_replace_front : forall s from to m, from <> [] -> (0 <= m)%Z ->
  exists r, replace s from to m = Ok r /\ ReplaceFront from to (Z.to_N m) s r.
Proof. exact replace_front. Qed.
Print Assumptions C31_replace_front.
Theorem C31_replace_front_unique : forall from to n s r r',
  ReplaceFront from to n s r -> ReplaceFront from to n s r' -> r = r'.
Proof. exact p_c31_unique. Qed.
Print Assumptions C31_replace_front_unique.
Example C31_ex : replace [x61; x61; x61; x62; x61; x61] [x61; x61] [x78] 5 = Ok [x78; x61; x62; x78].
Proof. reflexivity. Qed.
(** For max_replacements = 0 see also C90.  An empty pattern prepends the replacement max_replacements times. *)
Theorem C31_empty_pattern : forall s to m, s <> [] -> (0 <= m)%Z ->
  replace s [] to m = Ok (concat (repeat to (Z.to_nat m)) ++ s).
Proof. exact replace_front_empty. Qed.
Print Assumptions C31_empty_pattern.
Theorem C31_empty_text : forall from to m, (0 <= m)%Z -> replace [] from to m = Ok [].
Proof. exact replace_front_nothing. Qed.
Print Assumptions C31_empty_text.

(** C32 *)
Theorem C32_replace_back : forall s from to m, from <> [] -> Fits s -> (PTRDIFF_MIN < m < 0)%Z ->
  exists r, replace s from to m = Ok r /\ ReplaceBack from to (Z.to_N (- m)) s r.
Proof. exact replace_back. Qed.
Print Assumptions C32_replace_back.
Theorem C32_replace_back_unique : forall from to n s r r',
  ReplaceBack from to n s r -> ReplaceBack from to n s r' -> r = r'.
Proof. exact p_c32_unique. Qed.
Print Assumptions C32_replace_back_unique.
Theorem C32_empty_pattern : forall s to m, (PTRDIFF_MIN < m < 0)%Z -> replace s [] to m = Ok s.
Proof. exact replace_back_empty. Qed.
Print Assumptions C32_empty_pattern.
Example C32_ex : replace [x61; x61; x61; x62; x61; x61] [x61; x61] [x78] (-5) = Ok [x61; x78; x62; x78].
Proof. reflexivity. Qed.
(** The most negative count overflows when it is negated. *)
Theorem C32_most_negative : forall s from to, replace s from to (- 0x8000000000000000) = UB.
Proof. exact replace_min_UB. Qed.
Print Assumptions C32_most_negative.

(** C33, for text in which every code point has its RFC 3629 encoding. *)
Theorem C33_replace_codepoint : forall s cs a b m, Fits s -> Encoded s cs -> Forall (fun c => c <= 0x10FFFF) cs ->
  a <= 0x10FFFF -> b <= 0x10FFFF -> (- 0x8000000000000000 < m)%Z ->
  exists r, replace_codepoint s a b m = Ok r /\
    Encoded r (if (0 <=? m)%Z then replace_first_cps (Z.to_N m) a b cs else replace_last_cps (Z.to_N (- m)) a b cs).
Proof. exact replace_codepoint_ok. Qed.
Print Assumptions C33_replace_codepoint.
Theorem C33_invalid_arguments : forall s a b m, 0x10FFFF < a \/ 0x10FFFF < b ->
  replace_codepoint s a b m = Throw YstringException.
Proof. exact replace_codepoint_bad. Qed.
Print Assumptions C33_invalid_arguments.
Example C33_ex : Encoded [xe2; x82; xac; x41; xe2; x82; xac] [0x20AC; 0x41; 0x20AC] /\
  replace_codepoint [xe2; x82; xac; x41; xe2; x82; xac] 0x20AC 0x42 (-1) = Ok [xe2; x82; xac; x41; x42].
Proof.
  split; [|reflexivity].
  change [xe2; x82; xac; x41; xe2; x82; xac] with ([xe2; x82; xac] ++ [x41] ++ [xe2; x82; xac] ++ []).
  repeat constructor; unfold u8; cbn; lia.
Qed.
(** On every text the library accepts, cut into its code points: those whose
    bytes are the RFC 3629 encoding of [a] are replaced, all others stay. *)
Theorem C33_valid_text : forall ps a b m, Codepoints ps -> Fits (concat ps) -> a <= 0x10FFFF -> b <= 0x10FFFF ->
  (- 0x8000000000000000 < m)%Z ->
  exists f t, encodes f a /\ encodes t b /\
    replace_codepoint (concat ps) a b m =
      Ok (concat (if (0 <=? m)%Z then replace_first_units (Z.to_N m) f t ps else replace_last_units (Z.to_N (- m)) f t ps)).
Proof. exact p_c33_units. Qed.
Print Assumptions C33_valid_text.
Example C33_ex2 : Codepoints [[xc1; x81]; [x41]; [x42]; [x41]] /\
  replace_codepoint [xc1; x81; x41; x42; x41] 0x41 0x43 (-1) = Ok [xc1; x81; x41; x42; x43].
Proof. split; [|reflexivity]. repeat constructor; eexists; [apply (uchar2 xc1 x81)|apply (uchar1 x41)|apply (uchar1 x42)|apply (uchar1 x41)]; unfold cont, u8; cbn; lia. Qed.
(** Overlong forms, which the library accepts as valid, are missed. *)
Theorem C33_overlong :
  Text [xc1; x81] [0x41] /\ is_valid_utf8 [xc1; x81] = Ok true /\
  replace_codepoint [xc1; x81] 0x41 0x42 1 = Ok [xc1; x81].
Proof. exact p_c33_overlong. Qed.
Print Assumptions C33_overlong.

(** C34.  [from_utf32_char chr] is the encoding of the replacement (empty above
    U+10FFFF); the hypothesis bounds the string by 4 GiB, beyond which a run of
    continuation bytes may be cut in two because it is counted in 32 bits. *)
Theorem C34_replace_invalid_utf8 : forall s chr, size s <= 0xFFFFFFFF ->
  exists r, replace_invalid_utf8 s chr = Ok r /\
    Repaired (from_utf32_char chr) s r /\
    is_valid_utf8 r = Ok true /\
    (is_valid_utf8 s = Ok true -> r = s) /\
    (size r <= 0xFFFFFFFF -> replace_invalid_utf8 r chr = Ok r) /\
    replace_invalid_utf8_inplace s chr = Ok r.
Proof. exact p_c34. Qed.
Print Assumptions C34_replace_invalid_utf8.
(** With the default replacement U+FFFD. *)
Theorem C34_default : forall s, size s <= 0xFFFFFFFF ->
  exists r, replace_invalid_utf8 s REPLACEMENT_CHARACTER = Ok r /\ Repaired [xef; xbf; xbd] s r.
Proof. exact p_c34_default. Qed.
Print Assumptions C34_default.
Theorem C34_unique : forall repl s r r', Repaired repl s r -> Repaired repl s r' -> r = r'.
Proof. exact p_c34_unique. Qed.
Print Assumptions C34_unique.
Example C34_ex : replace_invalid_utf8 [x41; xff; x80; x80; xe2; x42; x80] 0xFFFD
  = Ok [x41; xef; xbf; xbd; xef; xbf; xbd; x42; xef; xbf; xbd].
Proof. reflexivity. Qed.
