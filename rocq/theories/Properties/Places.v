(** C149: positions and indices correspond one to one.  A text has three kinds of places: byte offsets, indices of
    code points and indices of characters. *)
From Verif Require Import Base Spec.Utf8Spec Spec.Strings Spec.Counts Model.Decode Model.Subrange Model.Search Model.CharClass Model.Chars Proofs.PlaceLemmas.

(** Every index is the number of code points in front of its position, and every offset with valid text in front of it is the position of an index. *)
Theorem C149_codepoints : forall s cs, Text s cs -> Fits s ->
  (forall k, (k <= length cs)%nat -> exists u v, s = u ++ v /\ Text u (firstn k cs) /\ Text v (skipn k cs) /\
     get_codepoint_pos s (Z.of_nat k) = Ok (size u) /\ count_codepoints u = Ok (N.of_nat k)) /\
  (forall u v us, s = u ++ v -> Text u us -> (length us <= length cs)%nat /\ count_codepoints u = Ok (N.of_nat (length us)) /\ get_codepoint_pos s (Z.of_nat (length us)) = Ok (size u)).
Proof. exact p_c149_codepoints. Qed.
Print Assumptions C149_codepoints.
(** Positions are ordered like indices. *)
Theorem C149_order : forall s cs k l, Text s cs -> Fits s -> (k < l <= length cs)%nat ->
  exists p q, get_codepoint_pos s (Z.of_nat k) = Ok p /\ get_codepoint_pos s (Z.of_nat l) = Ok q /\ p < q <= size s.
Proof. exact p_c149_order. Qed.
Print Assumptions C149_order.
(** Every byte offset lies in exactly one code point. *)
Theorem C149_inside : forall s cs i, Text s cs -> Fits s -> i < size s -> exists k, (forall l q m d, get_codepoint s (Z.of_nat l) = Ok (Sub q m, d) -> q <= i < q + m -> l = k) /\
  exists p n c, get_codepoint s (Z.of_nat k) = Ok (Sub p n, c) /\ p <= i < p + n /\ nth_error cs k = Some c /\
    get_codepoint_pos s (Z.of_nat k) = Ok p /\ get_codepoint_pos s (Z.of_nat (S k)) = Ok (p + n).
Proof. exact p_c149_inside. Qed.
Print Assumptions C149_inside.
(** The positions of characters are positions of code points: those of the code points that are no combining marks, the start and the end. *)
Theorem C149_chars : forall s cs n, Text s cs -> Fits s -> count_chars s = Ok n ->
  (forall k, k <= n -> exists j u v, s = u ++ v /\ get_char_pos s (Z.of_N k) = Ok (size u) /\ count_chars u = Ok k /\
     Text u (firstn j cs) /\ Text v (skipn j cs) /\ (N.to_nat k <= j <= length cs)%nat /\ get_codepoint_pos s (Z.of_nat j) = Ok (size u)) /\
  (forall j, (j <= length cs)%nat -> ((exists k, k <= n /\ get_char_pos s (Z.of_N k) = get_codepoint_pos s (Z.of_nat j)) <->
     j = 0%nat \/ j = length cs \/ exists c, nth_error cs j = Some c /\ combining c = false)).
Proof. exact p_c149_chars. Qed.
Print Assumptions C149_chars.
(** They are ordered like the indices of the characters. *)
Theorem C149_chars_order : forall s cs n k l, Text s cs -> Fits s -> count_chars s = Ok n -> k < l <= n ->
  exists p q, get_char_pos s (Z.of_N k) = Ok p /\ get_char_pos s (Z.of_N l) = Ok q /\ p < q <= size s.
Proof. exact p_c149_chars_order. Qed.
Print Assumptions C149_chars_order.
(** Every byte offset lies in exactly one character. *)
Theorem C149_chars_inside : forall s cs i, Text s cs -> Fits s -> i < size s -> exists k, (forall l q m, get_char_range s (Z.of_nat l) = Ok (Sub q m) -> q <= i < q + m -> l = k) /\
  exists p n, get_char_range s (Z.of_nat k) = Ok (Sub p n) /\ p <= i < p + n /\ get_char_pos s (Z.of_nat k) = Ok p /\ get_char_pos s (Z.of_nat (S k)) = Ok (p + n).
Proof. exact p_c149_chars_inside. Qed.
Print Assumptions C149_chars_inside.

(** a, e with an acute accent (two code points), the euro sign (3 bytes): the 4 code points are at 0, 1, 2 and 4, the 3 characters at 0, 1 and 4. *)
Definition ex_text : str := [x61; x65; xcc; x81; xe2; x82; xac].
Example C149_ex : Text ex_text [0x61; 0x65; 0x301; 0x20AC] /\ Fits ex_text /\ count_chars ex_text = Ok 3 /\ count_codepoints ex_text = Ok 4 /\
  map (get_codepoint_pos ex_text) [0; 1; 2; 3; 4; 5]%Z = map (fun p => Ok p) [0; 1; 2; 4; 7; npos] /\
  map (get_char_pos ex_text) [0; 1; 2; 3; 4]%Z = map (fun p => Ok p) [0; 1; 4; 7; npos] /\
  combining 0x301 = true /\ combining 0x20AC = false /\
  get_codepoint ex_text 3 = Ok (Sub 4 3, 0x20AC) /\ get_char_range ex_text 1 = Ok (Sub 1 3).
Proof.
  split; [|repeat split; vm_compute; reflexivity].
  apply (Text_cons [x61] 0x61). { apply (uchar1 x61). vm_compute. reflexivity. }
  apply (Text_cons [x65] 0x65). { apply (uchar1 x65). vm_compute. reflexivity. }
  apply (Text_cons [xcc; x81] 0x301). { apply (uchar2 xcc x81); vm_compute; split; congruence. }
  apply (Text_cons [xe2; x82; xac] 0x20AC); [|constructor]. apply (uchar3 xe2 x82 xac); vm_compute; try split; try congruence; intuition congruence.
Qed.
