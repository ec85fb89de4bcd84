(** C147: what was found can be edited by its index.  The searching functions give byte ranges, the
    functions for slices and edits take code point indices: counting the code points in front
    of the range gives the index, and every function then means the same piece. *)
From Verif Require Import Base Spec.Utf8Spec Spec.Strings Spec.Counts Model.Decode Model.Encode Model.Subrange Model.Search Model.CharClass Model.Chars Proofs.Utf8Lemmas Proofs.FoundLemmas.

(** The first occurrence of a text. *)
Theorem C147_find_first : forall s cs p ps i n, Text s cs -> Text p ps -> p <> [] -> Fits s -> find_first s p 0 = Ok (Sub i n) -> n <> 0 ->
  exists k m, count_codepoints (firstn (N.to_nat i) s) = Ok k /\ count_codepoints p = Ok m /\
    get_codepoint_pos s (Z.of_N k) = Ok i /\ get_codepoint_substring s (Z.of_N k) (Z.of_N (k + m)) = Ok p /\
    forall t, replace_codepoints s (Z.of_N k) (Z.of_N (k + m)) t = replace s p t 1 /\
      insert_codepoints s (Z.of_N k) t = replace s p (t ++ p) 1 /\ insert_codepoints s (Z.of_N (k + m)) t = replace s p (p ++ t) 1.
Proof. exact p_c147_find_first. Qed.
Print Assumptions C147_find_first.
(** The last one. *)
Theorem C147_find_last : forall s cs p ps i n, Text s cs -> Text p ps -> p <> [] -> Fits s -> find_last s p npos = Ok (Sub i n) -> n <> 0 ->
  exists k m, count_codepoints (firstn (N.to_nat i) s) = Ok k /\ count_codepoints p = Ok m /\
    get_codepoint_pos s (Z.of_N k) = Ok i /\ get_codepoint_substring s (Z.of_N k) (Z.of_N (k + m)) = Ok p /\
    forall t, replace_codepoints s (Z.of_N k) (Z.of_N (k + m)) t = replace s p t (-1) /\
      insert_codepoints s (Z.of_N k) t = replace s p (t ++ p) (-1) /\ insert_codepoints s (Z.of_N (k + m)) t = replace s p (p ++ t) (-1).
Proof. exact p_c147_find_last. Qed.
Print Assumptions C147_find_last.
(** The same by characters, when neither the text found nor what follows it starts with a combining mark. *)
Theorem C147_find_first_chars : forall s cs p c ps i n, Text s cs -> Text p (c :: ps) -> combining c = false -> Fits s -> find_first s p 0 = Ok (Sub i n) -> n <> 0 ->
  (forall d ds, Text (skipn (N.to_nat (i + n)) s) (d :: ds) -> combining d = false) ->
  exists k m, count_chars (firstn (N.to_nat i) s) = Ok k /\ count_chars p = Ok m /\
    get_char_pos s (Z.of_N k) = Ok i /\ get_char_substring s (Z.of_N k) (Z.of_N (k + m)) = Ok p /\
    forall t, replace_chars s (Z.of_N k) (Z.of_N (k + m)) t = replace s p t 1 /\
      insert_chars s (Z.of_N k) t = replace s p (t ++ p) 1 /\ insert_chars s (Z.of_N (k + m)) t = replace s p (p ++ t) 1.
Proof. exact p_c147_chars_first. Qed.
Print Assumptions C147_find_first_chars.
Theorem C147_find_last_chars : forall s cs p c ps i n, Text s cs -> Text p (c :: ps) -> combining c = false -> Fits s -> find_last s p npos = Ok (Sub i n) -> n <> 0 ->
  (forall d ds, Text (skipn (N.to_nat (i + n)) s) (d :: ds) -> combining d = false) ->
  exists k m, count_chars (firstn (N.to_nat i) s) = Ok k /\ count_chars p = Ok m /\
    get_char_pos s (Z.of_N k) = Ok i /\ get_char_substring s (Z.of_N k) (Z.of_N (k + m)) = Ok p /\
    forall t, replace_chars s (Z.of_N k) (Z.of_N (k + m)) t = replace s p t (-1) /\
      insert_chars s (Z.of_N k) t = replace s p (t ++ p) (-1) /\ insert_chars s (Z.of_N (k + m)) t = replace s p (p ++ t) (-1).
Proof. exact p_c147_chars_last. Qed.
Print Assumptions C147_find_last_chars.
(** The first and the last code point of a set. *)
Theorem C147_find_first_of : forall s cs chars i n c, Text s cs -> Fits s -> find_first_of s chars 0 = Ok (Sub i n, c) -> n <> 0 ->
  exists k, count_codepoints (firstn (N.to_nat i) s) = Ok k /\ get_codepoint s (Z.of_N k) = Ok (Sub i n, c) /\ get_codepoint_pos s (Z.of_N k) = Ok i.
Proof. exact p_c147_find_first_of. Qed.
Print Assumptions C147_find_first_of.
Theorem C147_find_last_of : forall s cs chars i n c, Text s cs -> Fits s -> find_last_of s chars npos = Ok (Sub i n, c) -> n <> 0 ->
  exists k, count_codepoints (firstn (N.to_nat i) s) = Ok k /\ get_codepoint s (Z.of_N k) = Ok (Sub i n, c) /\ get_codepoint_pos s (Z.of_N k) = Ok i.
Proof. exact p_c147_find_last_of. Qed.
Print Assumptions C147_find_last_of.
(** Any valid piece between two valid texts, whatever found it. *)
Theorem C147_any_piece : forall u us p ps v vs, Text u us -> Text p ps -> Text v vs -> Fits (u ++ p ++ v) ->
  let k := N.of_nat (length us) in let m := N.of_nat (length ps) in let s := u ++ p ++ v in
  count_codepoints u = Ok k /\ count_codepoints p = Ok m /\ get_codepoint_pos s (Z.of_N k) = Ok (size u) /\
  get_codepoint_pos s (Z.of_N (k + m)) = Ok (size u + size p) /\
  get_codepoint_substring s (Z.of_N k) (Z.of_N (k + m)) = Ok p /\
  (forall t, replace_codepoints s (Z.of_N k) (Z.of_N (k + m)) t = Ok (u ++ t ++ v)) /\
  (forall t, insert_codepoints s (Z.of_N k) t = Ok (u ++ t ++ p ++ v)) /\
  (forall t, insert_codepoints s (Z.of_N (k + m)) t = Ok (u ++ p ++ t ++ v)).
Proof. exact piece_by_index. Qed.
Print Assumptions C147_any_piece.

(** "åbåcb": b is found at bytes 2 and 6, which are the code points 1 and 4. *)
Definition ex_text : str := [xc3; xa5; x62; xc3; xa5; x63; x62].
Example C147_ex : Text ex_text [0xE5; 0x62; 0xE5; 0x63; 0x62] /\ Text [x62] [0x62] /\ Fits ex_text /\
  find_first ex_text [x62] 0 = Ok (Sub 2 1) /\ find_last ex_text [x62] npos = Ok (Sub 6 1) /\
  find_first_of ex_text [0x63; 0x62] 0 = Ok (Sub 2 1, 0x62) /\ find_last_of ex_text [0xE5] npos = Ok (Sub 3 2, 0xE5) /\
  count_codepoints (firstn 2 ex_text) = Ok 1 /\ count_codepoints (firstn 6 ex_text) = Ok 4 /\ count_codepoints (firstn 3 ex_text) = Ok 2 /\
  replace_codepoints ex_text 1 2 [x58; x59] = Ok [xc3; xa5; x58; x59; xc3; xa5; x63; x62] /\ replace ex_text [x62] [x58; x59] 1 = Ok [xc3; xa5; x58; x59; xc3; xa5; x63; x62] /\
  insert_codepoints ex_text 5 [x58] = Ok (ex_text ++ [x58]) /\ replace ex_text [x62] [x62; x58] (-1) = Ok (ex_text ++ [x58]) /\
  get_codepoint ex_text 2 = Ok (Sub 3 2, 0xE5).
Proof.
  assert (Text [x62] [0x62]) as H2. { apply (Text_cons [x62] 0x62); [apply (uchar1 x62); vm_compute; reflexivity|constructor]. }
  split; [|split; [exact H2|repeat split; vm_compute; reflexivity]].
  apply (Text_cons [xc3; xa5] 0xE5). { apply (uchar2 xc3 xa5); vm_compute; split; congruence. }
  apply (Text_cons [x62] 0x62). { apply (uchar1 x62). vm_compute. reflexivity. }
  apply (Text_cons [xc3; xa5] 0xE5). { apply (uchar2 xc3 xa5); vm_compute; split; congruence. }
  apply (Text_cons [x63] 0x63). { apply (uchar1 x63). vm_compute. reflexivity. }
  exact H2.
Qed.
(** The conditions are needed: a byte offset is no index, part of a code point can be found but has no
    index, and when nothing is found the range is empty and lies at the end. *)
Example C147_needed :
  replace_codepoints ex_text 2 3 [x58] = Ok [xc3; xa5; x62; x58; x63; x62] /\ replace ex_text [x62] [x58] 1 = Ok [xc3; xa5; x58; xc3; xa5; x63; x62] /\
  find_first ex_text [xa5] 0 = Ok (Sub 1 1) /\ count_codepoints (firstn 1 ex_text) <> Ok 0 /\ get_codepoint_pos ex_text 1 = Ok 2 /\
  find_first ex_text [x64] 0 = Ok (Sub 7 0).
Proof. repeat split; vm_compute; congruence. Qed.
(** By characters: e with an acute accent (two code points), b, c: b is character 1 and code point 2.  A mark behind the
    text found belongs to its last character, and the character functions cannot part them. *)
Example C147_chars_ex : let s := [x65; xcc; x81; x62; x63] in
  find_first s [x62] 0 = Ok (Sub 3 1) /\ count_chars (firstn 3 s) = Ok 1 /\ count_codepoints (firstn 3 s) = Ok 2 /\ get_char_pos s 1 = Ok 3 /\
  replace_chars s 1 2 [x58] = Ok [x65; xcc; x81; x58; x63] /\ replace s [x62] [x58] 1 = Ok [x65; xcc; x81; x58; x63] /\
  find_first s [x65] 0 = Ok (Sub 0 1) /\ replace_chars s 0 1 [x58] = Ok [x58; x62; x63] /\ replace s [x65] [x58] 1 = Ok [x58; xcc; x81; x62; x63].
Proof. repeat split; vm_compute; reflexivity. Qed.
Example C147_chars_hyp : Text [x62] [0x62] /\ combining 0x62 = false /\ forall d ds, Text (skipn (N.to_nat (3 + 1)) [x65; xcc; x81; x62; x63]) (d :: ds) -> combining d = false.
Proof.
  split. { apply (Text_cons [x62] 0x62); [apply (uchar1 x62); vm_compute; reflexivity|constructor]. }
  split; [vm_compute; reflexivity|]. change (skipn (N.to_nat (3 + 1)) [x65; xcc; x81; x62; x63]) with [x63]. intros d ds H.
  assert (Text [x63] [0x63]) as H2. { apply (Text_cons [x63] 0x63); [apply (uchar1 x63); vm_compute; reflexivity|constructor]. }
  pose proof (Text_fun _ _ _ H H2) as E. injection E as -> ->. vm_compute. reflexivity.
Qed.
