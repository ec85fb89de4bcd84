(** C140: of two case conversions in a row the last one counts. *)
From Verif Require Import Base Spec.Utf8Spec Spec.Case Spec.CaseOrder Model.CharClass Model.ConvertCase Proofs.CaseOrderLemmas Proofs.EncodeLemmas Proofs.Utf8Lemmas.

(** Code points: exactly the listed ones keep a trace of the first conversion; upper
    case after title case never does. *)
Theorem C140_codepoints : forall c, c < 0x100000000 ->
  (to_upper (to_lower c) = to_upper c <-> ~ In c lone_capitals) /\
  (to_lower (to_upper c) = to_lower c <-> ~ In c lone_smalls) /\
  to_upper (to_title c) = to_upper c /\
  (to_lower (to_title c) = to_lower c <-> ~ In c lone_smalls) /\
  (to_title (to_lower c) = to_title c <-> ~ In c (lone_capitals ++ georgian_capitals)) /\
  (to_title (to_upper c) = to_title c <-> ~ In c georgian_smalls).
Proof. exact p_c140_codepoints. Qed.
Print Assumptions C140_codepoints.

(** Strings. Upper case after lower case. *)
Theorem C140_upper_lower : forall s cs, Text s cs -> Forall (fun c => c <= 0x10FFFF) cs ->
  ((let* l := to_lower_str s in to_upper_str l) = to_upper_str s <-> Forall (fun c => ~ In c lone_capitals) cs).
Proof. exact p_c140_upper_lower. Qed.
Print Assumptions C140_upper_lower.
(** Lower case after upper case: besides the lone small letters also sharp s, which has
    become SS. *)
Theorem C140_lower_upper : forall s cs, Text s cs -> Forall (fun c => c <= 0x10FFFF) cs ->
  ((let* u := to_upper_str s in to_lower_str u) = to_lower_str s <-> Forall (fun c => c <> 0xDF /\ ~ In c lone_smalls) cs).
Proof. exact p_c140_lower_upper. Qed.
Print Assumptions C140_lower_upper.
(** Upper case after title case: lone capitals inside words only. *)
Theorem C140_upper_title : forall s cs, Text s cs -> Forall (fun c => c <= 0x10FFFF) cs ->
  ((let* t := to_title_str s in to_upper_str t) = to_upper_str s <->
   forall a c b, cs = a ++ c :: b -> In c lone_capitals -> ~ ends_with_letter is_letter a).
Proof. exact p_c140_upper_title. Qed.
Print Assumptions C140_upper_title.
(** Lower case after title case: first letters of words only. *)
Theorem C140_lower_title : forall s cs, Text s cs -> Forall (fun c => c <= 0x10FFFF) cs ->
  ((let* t := to_title_str s in to_lower_str t) = to_lower_str s <->
   forall a c b, cs = a ++ c :: b -> is_letter c = true -> ~ ends_with_letter is_letter a -> c <> 0xDF /\ ~ In c lone_smalls).
Proof. exact p_c140_lower_title. Qed.
Print Assumptions C140_lower_title.
(** Title case after lower case: code points that are not letters are left alone by the
    title case but not always by the lower case (circled letters, Roman numerals). *)
Theorem C140_title_lower : forall s cs, Text s cs -> Forall (fun c => c <= 0x10FFFF) cs ->
  ((let* l := to_lower_str s in to_title_str l) = to_title_str s <->
   forall a c b, cs = a ++ c :: b -> (is_letter c = false -> to_lower c = c) /\
     (is_letter c = true -> ~ ends_with_letter is_letter a -> ~ In c (lone_capitals ++ georgian_capitals))).
Proof. exact p_c140_title_lower. Qed.
Print Assumptions C140_title_lower.
Theorem C140_title_upper : forall s cs, Text s cs -> Forall (fun c => c <= 0x10FFFF) cs ->
  ((let* u := to_upper_str s in to_title_str u) = to_title_str s <->
   forall a c b, cs = a ++ c :: b -> (is_letter c = false -> to_upper c = c) /\
     (is_letter c = true -> (ends_with_letter is_letter a -> c <> 0xDF /\ ~ In c lone_smalls) /\
       (~ ends_with_letter is_letter a -> ~ In c georgian_smalls))).
Proof. exact p_c140_title_upper. Qed.
Print Assumptions C140_title_upper.
(** All other byte strings: every conversion throws. *)
Theorem C140_malformed : forall s, (~ exists cs, Text s cs /\ Forall (fun c => c <= 0x10FFFF) cs) ->
  to_lower_str s = Throw YstringException /\ to_upper_str s = Throw YstringException /\ to_title_str s = Throw YstringException.
Proof. exact p_c140_malformed. Qed.
Print Assumptions C140_malformed.

(** "Aé" has no code point of any list; "ſ" (U+017F) and "K" (U+212A) do. *)
Example C140_example : (let* l := to_lower_str [x41; xc3; xa9] in to_upper_str l) = Ok [x41; xc3; x89] /\
  (let* u := to_upper_str [xc5; xbf] in to_lower_str u) = Ok [x73] /\ to_lower_str [xc5; xbf] = Ok [xc5; xbf] /\
  (let* u := to_lower_str [xe2; x84; xaa] in to_upper_str u) = Ok [x4b] /\ to_upper_str [xe2; x84; xaa] = Ok [xe2; x84; xaa] /\
  (let* u := to_upper_str [x61; xc3; x9f] in to_title_str u) = Ok [x41; x73; x73] /\ to_title_str [x61; xc3; x9f] = Ok [x41; xc3; x9f].
Proof. vm_compute. repeat split. Qed.
Example C140_text : Text [x41; xc3; xa9] [0x41; 0xE9] /\ Forall (fun c => c <= 0x10FFFF) [0x41; 0xE9] /\
  Forall (fun c => ~ In c lone_capitals) [0x41; 0xE9] /\ Forall (fun c => c <> 0xDF /\ ~ In c lone_smalls) [0x41; 0xE9] /\
  In 0x17F lone_smalls /\ In 0x212A lone_capitals.
Proof.
  split.
  - change [x41; xc3; xa9] with ([x41] ++ [xc3; xa9] ++ []). repeat constructor; vm_compute; intuition congruence.
  - repeat constructor; cbn; lia.
Qed.
