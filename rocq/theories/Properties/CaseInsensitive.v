(** Namespace case_insensitive: C46-C52, C72, C101. *)
From Verif Require Import Base Model.Decode Model.Encode Model.Subrange Model.Search Model.Split Model.ConvertCase Model.CodepointSet Model.CaseInsensitive
  Spec.Utf8Spec Spec.Strings Spec.UnicodeData Spec.CaseFold Spec.Split
  Proofs.Utf8Lemmas Proofs.CiLemmas Proofs.CiFindLemmas Proofs.CiFindLastLemmas Proofs.CiReplaceLemmas Proofs.CiTotal Proofs.CiTotal2 Proofs.CiMalformed.
Require Import Lia ZifyBool ZifyN.

(** C46.  On valid text the sign is that of the lexicographic comparison of the
    upper-cased code points; ... *)
Theorem C46_lexicographic : forall a cs b ds, Text a cs -> Text b ds ->
  exists z, ci_compare a b = Ok z /\ (z ?= 0)%Z = lex (fold_case cs) (fold_case ds).
Proof. exact p_c46_lex. Qed.
Print Assumptions C46_lexicographic.
(** ... zero means equality; ... *)
Theorem C46_zero : forall a cs b ds, Text a cs -> Text b ds ->
  (ci_compare a b = Ok 0%Z <-> fold_case cs = fold_case ds).
Proof. exact p_c46_zero. Qed.
Print Assumptions C46_zero.
(** ... and on arbitrary byte strings: swapping the arguments negates the
    result (or throws as before), the order is transitive, ... *)
Theorem C46_antisymmetric : forall a b, ci_compare b a = omap Z.opp (ci_compare a b).
Proof. exact p_c46_opp. Qed.
Print Assumptions C46_antisymmetric.
Theorem C46_transitive : forall a b c x y, ci_compare a b = Ok x -> ci_compare b c = Ok y -> (x <= 0)%Z -> (y <= 0)%Z ->
  exists z, ci_compare a c = Ok z /\ (z <= 0)%Z /\ (z = 0 -> x = 0 /\ y = 0)%Z.
Proof. exact p_c46_trans. Qed.
Print Assumptions C46_transitive.
(** ... it always returns or throws, and throws when it meets a malformed
    sequence before a difference. *)
Theorem C46_total : forall a b, (exists z, ci_compare a b = Ok z) \/ ci_compare a b = Throw YstringException.
Proof. exact p_c46_total. Qed.
Print Assumptions C46_total.
Theorem C46_malformed : forall u us r v vs w, Text u us -> Text v vs -> fold_case us = fold_case vs -> Malformed r ->
  ci_compare (u ++ r) (v ++ w) = Throw YstringException /\ ci_compare (v ++ w) (u ++ r) = Throw YstringException.
Proof. exact p_c46_malformed. Qed.
Print Assumptions C46_malformed.
(** A difference decides whatever follows it, and so does one text being a
    proper beginning of the other. *)
Theorem C46_difference : forall u us g c r v vs h d w, Text u us -> uchar g c -> Text v vs -> uchar h d -> fold_case us = fold_case vs ->
  simple_upper c <> simple_upper d ->
  exists z, ci_compare (u ++ g ++ r) (v ++ h ++ w) = Ok z /\ (z ?= 0)%Z = (simple_upper c ?= simple_upper d).
Proof. exact p_c46_differ. Qed.
Print Assumptions C46_difference.
Theorem C46_longer : forall u us g c r v vs, Text u us -> uchar g c -> Text v vs -> fold_case us = fold_case vs ->
  ci_compare (u ++ g ++ r) v = Ok 1%Z /\ ci_compare v (u ++ g ++ r) = Ok (-1)%Z.
Proof. exact p_c46_longer. Qed.
Print Assumptions C46_longer.
(** With C46_zero and C46_malformed that is every pair of byte strings. *)
Theorem C46_cases : forall a b, exists u us r v vs w, a = u ++ r /\ b = v ++ w /\ Text u us /\ Text v vs /\ fold_case us = fold_case vs /\
  ((r = [] /\ w = []) \/ Malformed r \/ Malformed w \/
   (r = [] /\ exists h d w', w = h ++ w' /\ uchar h d) \/
   (w = [] /\ exists g c r', r = g ++ r' /\ uchar g c) \/
   (exists g c r' h d w', r = g ++ r' /\ w = h ++ w' /\ uchar g c /\ uchar h d /\ simple_upper c <> simple_upper d)).
Proof. exact p_c46_all. Qed.
Print Assumptions C46_cases.
Example C46_ex : ci_compare [xc3; xa6; x41] [xc3; x86; x62] = Ok (-1)%Z /\ fold_case [0xE6; 0x41] = [0xC6; 0x41].
Proof. repeat split; vm_compute; reflexivity. Qed.

(** C47 *)
Theorem C47_equal : forall a b, ci_equal a b = omap (fun z => z =? 0)%Z (ci_compare a b).
Proof. exact p_c47. Qed.
Print Assumptions C47_equal.
Theorem C47_equal_text : forall a cs b ds, Text a cs -> Text b ds ->
  exists e, ci_equal a b = Ok e /\ (e = true <-> fold_case cs = fold_case ds).
Proof. exact p_c47_text. Qed.
Print Assumptions C47_equal_text.
Theorem C47_equivalence : forall a b c,
  (ci_equal a b = Ok true -> ci_equal b a = Ok true) /\
  (ci_equal a b = Ok true -> ci_equal b c = Ok true -> ci_equal a c = Ok true) /\
  ((exists cs, Text a cs) -> ci_equal a a = Ok true).
Proof. exact p_c47_equivalence. Qed.
Print Assumptions C47_equivalence.
Example C47_ex : ci_equal [x73; xc5; xbf] [x53; x53] = Ok true /\ ci_equal [xc3; x9f] [x73; x73] = Ok false.
Proof. repeat split; vm_compute; reflexivity. Qed.

(** C48 *)
Theorem C48_less : forall a b, ci_less a b = omap (fun z => z <? 0)%Z (ci_compare a b).
Proof. exact p_c48. Qed.
Print Assumptions C48_less.
(** A strict weak order: irreflexive, asymmetric, transitive, and so is
    incomparability. *)
Theorem C48_strict_weak_order : forall a b c,
  (ci_less a a <> Ok true) /\
  (ci_less a b = Ok true -> ci_less b a = Ok false) /\
  (ci_less a b = Ok true -> ci_less b c = Ok true -> ci_less a c = Ok true) /\
  (ci_less a b = Ok false -> ci_less b a = Ok false -> ci_less b c = Ok false -> ci_less c b = Ok false ->
   ci_less a c = Ok false /\ ci_less c a = Ok false).
Proof. exact p_c48_order. Qed.
Print Assumptions C48_strict_weak_order.
Example C48_ex : ci_less [x61] [x42] = Ok true /\ ci_less [x42] [x63] = Ok true /\ ci_less [x41] [x61] = Ok false.
Proof. repeat split; vm_compute; reflexivity. Qed.

(** C49 *)
Theorem C49_starts_with : forall s cs p ps, Text s cs -> Text p ps ->
  exists b, ci_starts_with s p = Ok b /\ (b = true <-> exists x y, cs = x ++ y /\ fold_case x = fold_case ps).
Proof. exact p_c49_starts. Qed.
Print Assumptions C49_starts_with.
Theorem C49_ends_with : forall s cs p ps, Text s cs -> Text p ps ->
  exists b, ci_ends_with s p = Ok b /\ (b = true <-> exists x y, cs = x ++ y /\ fold_case y = fold_case ps).
Proof. exact p_c49_ends. Qed.
Print Assumptions C49_ends_with.
(** Text that is not valid as a whole: what the sequence next to the match decides. *)
Theorem C49_starts_malformed : forall u us w p ps, Text u us -> Text p ps -> fold_case us = fold_case ps ->
  (Malformed w -> ci_starts_with (u ++ w) p = Throw YstringException) /\
  (~ Malformed w -> ci_starts_with (u ++ w) p = Ok true).
Proof. exact p_c49_starts_any. Qed.
Print Assumptions C49_starts_malformed.
Theorem C49_ends_malformed : forall u us w p ps, Text u us -> Text p ps -> fold_case us = fold_case ps ->
  (MalformedEnd w -> ~ long_cont_tail w -> ci_ends_with (w ++ u) p = Throw YstringException) /\
  (MalformedEnd w -> long_cont_tail w -> ci_ends_with (w ++ u) p = UB) /\
  (~ MalformedEnd w -> ci_ends_with (w ++ u) p = Ok true).
Proof. exact p_c49_ends_any. Qed.
Print Assumptions C49_ends_malformed.
(** A difference decides whatever follows it; a malformed sequence met before one throws. *)
Theorem C49_starts_differ : forall u us g c r p vs d ps, Text u us -> uchar g c -> fold_case us = fold_case vs -> simple_upper c <> simple_upper d ->
  Text p (vs ++ d :: ps) -> ci_starts_with (u ++ g ++ r) p = Ok false.
Proof. exact p_c49_starts_differ. Qed.
Print Assumptions C49_starts_differ.
Theorem C49_starts_stuck : forall u us r p vs ps, Text u us -> Malformed r -> fold_case us = fold_case vs -> Text p (vs ++ ps) ->
  ci_starts_with (u ++ r) p = Throw YstringException.
Proof. exact p_c49_starts_stuck. Qed.
Print Assumptions C49_starts_stuck.
(** Together that is every string [s] (the second case is C49_starts_with's). *)
Theorem C49_starts_cases : forall s p ps, Text p ps ->
  (exists u us w, s = u ++ w /\ Text u us /\ fold_case us = fold_case ps) \/
  (exists us, Text s us /\ forall x y, us = x ++ y -> fold_case x <> fold_case ps) \/
  (exists u us g c r vs d qs, s = u ++ g ++ r /\ Text u us /\ uchar g c /\ fold_case us = fold_case vs /\ simple_upper c <> simple_upper d /\ ps = vs ++ d :: qs) \/
  (exists u us r vs qs, s = u ++ r /\ Text u us /\ Malformed r /\ fold_case us = fold_case vs /\ ps = vs ++ qs).
Proof. exact p_c49_starts_all. Qed.
Print Assumptions C49_starts_cases.
Theorem C49_ends_differ : forall r g c u us p ps d vs, Text u us -> uchar g c -> fold_case us = fold_case vs -> simple_upper c <> simple_upper d ->
  Text p (ps ++ d :: vs) -> ci_ends_with (r ++ g ++ u) p = Ok false.
Proof. exact p_c49_ends_differ. Qed.
Print Assumptions C49_ends_differ.
Theorem C49_ends_stuck : forall r u us p ps vs, Text u us -> MalformedEnd r -> fold_case us = fold_case vs -> Text p (ps ++ vs) ->
  (~ long_cont_tail r -> ci_ends_with (r ++ u) p = Throw YstringException) /\ (long_cont_tail r -> ci_ends_with (r ++ u) p = UB).
Proof. exact p_c49_ends_stuck. Qed.
Print Assumptions C49_ends_stuck.
Theorem C49_ends_cases : forall s p ps, Text p ps ->
  (exists w u us, s = w ++ u /\ Text u us /\ fold_case us = fold_case ps) \/
  (exists us, Text s us /\ forall x y, us = x ++ y -> fold_case y <> fold_case ps) \/
  (exists r g c u us qs d vs, s = r ++ g ++ u /\ Text u us /\ uchar g c /\ fold_case us = fold_case vs /\ simple_upper c <> simple_upper d /\ ps = qs ++ d :: vs) \/
  (exists r u us qs vs, s = r ++ u /\ Text u us /\ MalformedEnd r /\ fold_case us = fold_case vs /\ ps = qs ++ vs).
Proof. exact p_c49_ends_all. Qed.
Print Assumptions C49_ends_cases.
Example C49_ex : ci_starts_with [xc3; xa6; x42] [xc3; x86] = Ok true /\ ci_ends_with [x61; xc3; xa6] [x62; xc3; x86] = Ok false /\
  ci_starts_with [x61; xff] [x41] = Throw YstringException.
Proof. repeat split; vm_compute; reflexivity. Qed.

(** C50.  [pre] is the text before the offset. *)
Theorem C50_find_first : forall ps p pre, ps <> [] -> Text p ps ->
  (forall u g v, first_ci ps u g v -> ci_find_first (pre ++ u ++ g ++ v) p (size pre) = Ok (Sub (size (pre ++ u)) (size g))) /\
  (forall t, no_ci ps t -> ci_find_first (pre ++ t) p (size pre) = Ok (Sub npos 0)) /\
  (forall u us r, Text u us -> Malformed r ->
     (forall x y z, us = x ++ y ++ z -> fold_case y = fold_case ps -> z = []) ->
     ci_find_first (pre ++ u ++ r) p (size pre) = Throw YstringException).
Proof. exact p_c50_first. Qed.
Print Assumptions C50_find_first.
(** One of the three cases always applies. *)
Theorem C50_first_cases : forall ps t, ps <> [] ->
  (exists u g v, t = u ++ g ++ v /\ first_ci ps u g v) \/ no_ci ps t \/
  (exists u us r, t = u ++ r /\ Text u us /\ Malformed r /\
     (forall x y z, us = x ++ y ++ z -> fold_case y = fold_case ps -> z = [])).
Proof. exact first_ci_cases. Qed.
Print Assumptions C50_first_cases.
(** [post] is the text at and after min(offset, size). *)
Theorem C50_find_last : forall ps p post o, ps <> [] -> Text p ps ->
  (forall u g v, last_ci ps u g v -> N.min o (size (u ++ g ++ v ++ post)) = size (u ++ g ++ v) ->
     ci_find_last (u ++ g ++ v ++ post) p o = Ok (Sub (size u) (size g))) /\
  (forall t, no_ci ps t -> N.min o (size (t ++ post)) = size t -> ci_find_last (t ++ post) p o = Ok (Sub npos 0)) /\
  (forall r u us, N.min o (size (r ++ u ++ post)) = size (r ++ u) -> Text u us -> MalformedEnd r ->
     (forall x y z, us = x ++ y ++ z -> fold_case y = fold_case ps -> x = []) ->
     (~ long_cont_tail r -> ci_find_last (r ++ u ++ post) p o = Throw YstringException) /\
     (long_cont_tail r -> ci_find_last (r ++ u ++ post) p o = UB)).
Proof. exact p_c50_last. Qed.
Print Assumptions C50_find_last.
(** One of the three cases always applies here too. *)
Theorem C50_last_cases : forall ps t, ps <> [] ->
  (exists u g v, t = u ++ g ++ v /\ last_ci ps u g v) \/ no_ci ps t \/
  (exists r u us, t = r ++ u /\ Text u us /\ MalformedEnd r /\ only_at_start ps us).
Proof. exact last_ci_all. Qed.
Print Assumptions C50_last_cases.
(** The empty pattern is never found. *)
Theorem C50_empty : forall s o, ci_find_first s [] o = Ok (Sub npos 0) /\ ci_find_last s [] o = Ok (Sub npos 0).
Proof. exact (fun s o => conj eq_refl eq_refl). Qed.
Print Assumptions C50_empty.
Example C50_ex : ci_find_first [x61; x41; x62] [x41; x42] 0 = Ok (Sub 1 2) /\ ci_find_last [x61; x61; x61] [x41; x41] npos = Ok (Sub 1 2).
Proof. repeat split; vm_compute; reflexivity. Qed.

(** C51: every count; the result is unique because the function computes it. *)
Theorem C51_from_left : forall s from ps to m r, ps <> [] -> Text from ps -> Fits s -> (0 <= m)%Z ->
  CiReplaceFront ps to (Z.to_N m) s r -> ci_replace s from to m = Ok r.
Proof. exact p_c51_front. Qed.
Print Assumptions C51_from_left.
Theorem C51_left_exists : forall s cs ps to, ps <> [] -> Text s cs -> forall n, exists r, CiReplaceFront ps to n s r.
Proof. exact p_c51_front_exists. Qed.
Print Assumptions C51_left_exists.
Theorem C51_from_right : forall s from ps to m r, ps <> [] -> Text from ps -> Fits s -> (m < 0)%Z ->
  CiReplaceBack ps to (Z.to_N (- m)) s r -> ci_replace s from to m = Ok r.
Proof. exact p_c51_back. Qed.
Print Assumptions C51_from_right.
Theorem C51_right_exists : forall s cs ps to, ps <> [] -> Text s cs -> forall n, exists r, CiReplaceBack ps to n s r.
Proof. exact p_c51_back_exists. Qed.
Print Assumptions C51_right_exists.
(** Malformed text: one of the two always applies. *)
Theorem C51_left_stuck : forall s from ps to m, ps <> [] -> Text from ps -> Fits s -> (0 <= m)%Z ->
  CiStuckFront ps (Z.to_N m) s -> ci_replace s from to m = Throw YstringException.
Proof. exact p_c51_front_stuck. Qed.
Print Assumptions C51_left_stuck.
Theorem C51_left_cases : forall s ps to, ps <> [] -> forall n, (exists r, CiReplaceFront ps to n s r) \/ CiStuckFront ps n s.
Proof. exact p_c51_front_all. Qed.
Print Assumptions C51_left_cases.
Theorem C51_right_stuck : forall s from ps to m r, ps <> [] -> Text from ps -> Fits s -> (m < 0)%Z -> CiStuckBack ps (Z.to_N (- m)) s r ->
  (~ long_cont_tail r -> ci_replace s from to m = Throw YstringException) /\ (long_cont_tail r -> ci_replace s from to m = UB).
Proof. exact p_c51_back_stuck. Qed.
Print Assumptions C51_right_stuck.
Theorem C51_right_cases : forall s ps to, ps <> [] -> forall n, (exists r, CiReplaceBack ps to n s r) \/ exists r, CiStuckBack ps n s r.
Proof. exact p_c51_back_all. Qed.
Print Assumptions C51_right_cases.
Theorem C51_empty : forall s to m, Fits s -> ci_replace s [] to m = Ok s.
Proof. exact p_c51_empty. Qed.
Print Assumptions C51_empty.
Example C51_ex : ci_replace [x41; x78; x61; x78; x41] [x61] [x2d] 2 = Ok [x2d; x78; x2d; x78; x41] /\
  ci_replace [x41; x78; x61; x78; x41] [x61] [x2d] (-2) = Ok [x41; x78; x2d; x78; x2d] /\
  ci_replace [x41; x78; xff] [x61] [x2d] 1 = Ok [x2d; x78; xff] /\ ci_replace [x41; x78; xff] [x61] [x2d] 2 = Throw YstringException.
Proof. repeat split; vm_compute; reflexivity. Qed.

(** C52 *)
Theorem C52_split : forall ps sep, ps <> [] -> Text sep ps -> forall s n ign cuts rest, Fits s ->
  Cuts (first_ci ps) s cuts rest -> stopped (no_ci ps) ign n cuts rest ->
  ci_split_sep s sep n ign = Ok (kept ign (map fst cuts ++ [rest])).
Proof. exact p_c52. Qed.
Print Assumptions C52_split.
Theorem C52_cuts_exist : forall ps sep, ps <> [] -> Text sep ps -> forall s cs n ign, Text s cs -> 1 <= n ->
  exists cuts rest, Cuts (first_ci ps) s cuts rest /\ stopped (no_ci ps) ign n cuts rest.
Proof. exact p_c52_exists. Qed.
Print Assumptions C52_cuts_exist.
Theorem C52_parts : forall ps sep, ps <> [] -> Text sep ps -> forall u g v, first_ci ps u g v -> no_ci ps u.
Proof. exact p_c52_parts. Qed.
Print Assumptions C52_parts.
Theorem C52_malformed : forall ps sep, ps <> [] -> Text sep ps -> forall s n ign cuts u us r, Fits s ->
  Cuts (first_ci ps) s cuts (u ++ r) -> Text u us -> Malformed r ->
  (forall x y z, us = x ++ y ++ z -> fold_case y = fold_case ps -> z = []) ->
  N.of_nat (length (kept ign (map fst cuts))) < n ->
  ci_split_sep s sep n ign = Throw YstringException.
Proof. exact p_c52_throw. Qed.
Print Assumptions C52_malformed.
(** Together these are every text. *)
Theorem C52_cases : forall ps s n ign, ps <> [] -> 1 <= n ->
  exists cuts rest, Cuts (first_ci ps) s cuts rest /\
    (stopped (no_ci ps) ign n cuts rest \/
     (N.of_nat (length (kept ign (map fst cuts))) < n /\ exists u us r, rest = u ++ r /\ Text u us /\ Malformed r /\ only_at_end ps us)).
Proof. exact p_c52_all. Qed.
Print Assumptions C52_cases.
Theorem C52_empty_separator : forall s n ign, Fits s -> 1 <= n -> ci_split_sep s [] n ign = Ok (kept ign [s]).
Proof. exact p_c52_empty. Qed.
Print Assumptions C52_empty_separator.
Theorem C52_split_chars : forall chars, Forall (fun d => d < 0x100000000) chars -> forall s n ign cuts rest, Fits s ->
  Cuts (first_ci_char chars) s cuts rest -> stopped (no_ci_char chars) ign n cuts rest ->
  ci_split_chars s chars n ign = Ok (kept ign (map fst cuts ++ [rest])).
Proof. exact p_c52_chars. Qed.
Print Assumptions C52_split_chars.
Theorem C52_chars_exist : forall chars, Forall (fun d => d < 0x100000000) chars -> forall s cs n ign, Text s cs -> 1 <= n ->
  exists cuts rest, Cuts (first_ci_char chars) s cuts rest /\ stopped (no_ci_char chars) ign n cuts rest.
Proof. exact p_c52_chars_exists. Qed.
Print Assumptions C52_chars_exist.
Theorem C52_chars_malformed : forall chars s n ign cuts u us r, Forall (fun d => d < 0x100000000) chars -> Fits s ->
  Cuts (first_ci_char chars) s cuts (u ++ r) -> Text u us -> Forall (fun x => ~ ci_in chars x) us -> Malformed r ->
  N.of_nat (length (kept ign (map fst cuts))) < n ->
  ci_split_chars s chars n ign = Throw YstringException.
Proof. exact p_c52_chars_throw. Qed.
Print Assumptions C52_chars_malformed.
Theorem C52_chars_cases : forall chars s n ign, Forall (fun d => d < 0x100000000) chars -> 1 <= n ->
  exists cuts rest, Cuts (first_ci_char chars) s cuts rest /\
    (stopped (no_ci_char chars) ign n cuts rest \/
     (N.of_nat (length (kept ign (map fst cuts))) < n /\
      exists u us r, rest = u ++ r /\ Text u us /\ Forall (fun x => ~ ci_in chars x) us /\ Malformed r)).
Proof. exact p_c52_chars_all. Qed.
Print Assumptions C52_chars_cases.
Example C52_ex : ci_split_sep [x61; x78; x62; x58; x63] [x58] 10 false = Ok [[x61]; [x62]; [x63]] /\
  ci_split_chars [x61; x78; x62; x58; x63] [0x58; 0x59] 1 false = Ok [[x61]; [x62; x58; x63]].
Proof. repeat split; vm_compute; reflexivity. Qed.

(** C72 *)
Theorem C72_find_first_of : forall chars, Forall (fun d => d < 0x100000000) chars -> forall pre,
  (forall u us g c v, Text u us -> Forall (fun x => ~ ci_in chars x) us -> uchar g c -> ci_in chars c ->
     ci_find_first_of (pre ++ u ++ g ++ v) chars (size pre) = Ok (Sub (size (pre ++ u)) (size g), c)) /\
  (forall u us, Text u us -> Forall (fun x => ~ ci_in chars x) us ->
     ci_find_first_of (pre ++ u) chars (size pre) = Ok (Sub npos 0, INVALID_CHAR)) /\
  (forall u us r, Text u us -> Forall (fun x => ~ ci_in chars x) us -> Malformed r ->
     ci_find_first_of (pre ++ u ++ r) chars (size pre) = Throw YstringException).
Proof. exact p_ci_first_of. Qed.
Print Assumptions C72_find_first_of.
Theorem C72_find_last_of : forall chars, Forall (fun d => d < 0x100000000) chars -> forall post o,
  (forall pre u us g c, N.min o (size (pre ++ g ++ u ++ post)) = size (pre ++ g ++ u) ->
     Text u us -> Forall (fun x => ~ ci_in chars x) us -> uchar g c -> ci_in chars c ->
     ci_find_last_of (pre ++ g ++ u ++ post) chars o = Ok (Sub (size pre) (size g), c)) /\
  (forall u us, N.min o (size (u ++ post)) = size u -> Text u us -> Forall (fun x => ~ ci_in chars x) us ->
     ci_find_last_of (u ++ post) chars o = Ok (Sub npos 0, INVALID_CHAR)) /\
  (forall r u us, N.min o (size (r ++ u ++ post)) = size (r ++ u) ->
     Text u us -> Forall (fun x => ~ ci_in chars x) us -> MalformedEnd r ->
     (~ long_cont_tail r -> ci_find_last_of (r ++ u ++ post) chars o = Throw YstringException) /\
     (long_cont_tail r -> ci_find_last_of (r ++ u ++ post) chars o = UB)).
Proof. exact p_ci_last_of. Qed.
Print Assumptions C72_find_last_of.
Example C72_ex : ci_find_first_of [x78; xc3; xa6] [0xC6] 0 = Ok (Sub 1 2, 0xE6) /\
  ci_find_last_of [xc3; xa6; x78] [0xC6] npos = Ok (Sub 0 2, 0xE6).
Proof. repeat split; vm_compute; reflexivity. Qed.

(** C101.  A pattern that is not valid UTF-8 is never found, never equal, never
    a beginning or an end, and splits or replaces nothing. *)
Theorem C101_never_found : forall s p, ~ (exists ps, Text p ps) ->
  (forall o r, ci_find_first s p o = Ok r -> r = Sub npos 0) /\ (forall o r, ci_find_last s p o = Ok r -> r = Sub npos 0) /\
  ci_starts_with s p <> Ok true /\ ci_ends_with s p <> Ok true.
Proof. exact (fun s p H => conj (fun o r => never_first s p o r H) (conj (fun o r => never_last s p o r H) (conj (never_starts s p H) (never_ends s p H)))). Qed.
Print Assumptions C101_never_found.
Theorem C101_never_equal : forall s p, ~ (exists ps, Text p ps) ->
  ci_equal s p <> Ok true /\ ci_equal p s <> Ok true /\ ci_compare s p <> Ok 0%Z /\ ci_compare p s <> Ok 0%Z.
Proof. exact never_equal. Qed.
Print Assumptions C101_never_equal.
Theorem C101_never_replaces : forall s p to m r, ~ (exists ps, Text p ps) -> Fits s -> ci_replace s p to m = Ok r -> r = s.
Proof. exact never_replaces. Qed.
Print Assumptions C101_never_replaces.
Theorem C101_never_splits : forall s p n ign l, ~ (exists ps, Text p ps) -> Fits s -> 1 <= n -> ci_split_sep s p n ign = Ok l -> l = kept ign [s].
Proof. exact never_splits. Qed.
Print Assumptions C101_never_splits.
(** Whether the malformed sequence is noticed depends on what precedes it in
    the pattern: exactly these conditions. *)
Theorem C101_starts_exact : forall s u us r bad v vs w, s = u ++ r -> Text u us -> (if bad : bool then Malformed r else r = []) -> Text v vs -> Malformed w ->
  (reads us bad vs -> ci_starts_with s (v ++ w) = Throw YstringException) /\ (~ reads us bad vs -> ci_starts_with s (v ++ w) = Ok false).
Proof. exact p_c101_starts. Qed.
Print Assumptions C101_starts_exact.
Theorem C101_ends_exact : forall r bad u us w v vs, Text u us -> (if bad : bool then MalformedEnd r else r = []) -> Text v vs -> MalformedEnd w ->
  ~ long_cont_tail r -> ~ long_cont_tail w ->
  (~ reads_back us bad vs -> ci_ends_with (r ++ u) (w ++ v) = Ok false) /\
  (reads_back us bad vs -> ci_ends_with (r ++ u) (w ++ v) = Throw YstringException).
Proof. exact p_c101_ends_exact. Qed.
Print Assumptions C101_ends_exact.
Theorem C101_first_exact : forall pre t v vs w, vs <> [] -> Text v vs -> Malformed w ->
  ((exists cs, Text t cs /\ only_at_end vs cs) -> ci_find_first (pre ++ t) (v ++ w) (size pre) = Ok (Sub npos 0)) /\
  (~ (exists cs, Text t cs /\ only_at_end vs cs) -> ci_find_first (pre ++ t) (v ++ w) (size pre) = Throw YstringException).
Proof. exact p_c101_first_none. Qed.
Print Assumptions C101_first_exact.
Theorem C101_first_malformed : forall s w o, Malformed w -> ci_find_first s w o = Throw YstringException.
Proof. exact p_c101_first_throws. Qed.
Print Assumptions C101_first_malformed.
Theorem C101_last_exact : forall t post o w v vs, vs <> [] -> Text v vs -> MalformedEnd w -> N.min o (size (t ++ post)) = size t ->
  ~ long_cont_tail w -> (forall r u us, t = r ++ u -> Text u us -> ~ long_cont_tail r) ->
  ((exists cs, Text t cs /\ only_at_start vs cs) -> ci_find_last (t ++ post) (w ++ v) o = Ok (Sub npos 0)) /\
  (~ (exists cs, Text t cs /\ only_at_start vs cs) -> ci_find_last (t ++ post) (w ++ v) o = Throw YstringException).
Proof. exact p_c101_last_exact. Qed.
Print Assumptions C101_last_exact.
Theorem C101_last_malformed : forall s w o, MalformedEnd w ->
  (~ long_cont_tail w -> ci_find_last s w o = Throw YstringException) /\ (long_cont_tail w -> ci_find_last s w o = UB).
Proof. exact p_c101_last_malformed. Qed.
Print Assumptions C101_last_malformed.
Example C101_ex : Malformed [xff] /\ MalformedEnd [xff] /\ Text [x61] [0x61] /\
  ci_find_first [x62; x41] [x61; xff] 0 = Ok (Sub npos 0) /\ ci_find_first [x41; x62] [x61; xff] 0 = Throw YstringException /\
  ci_find_last [x41; x62] [xff; x61] npos = Ok (Sub npos 0) /\ ci_find_last [x62; x41] [xff; x61] npos = Throw YstringException /\
  ci_starts_with [x41] [x61; xff] = Ok false /\ ci_starts_with [x41; x41] [x61; xff] = Throw YstringException /\
  ci_replace [x62; x41] [x61; xff] [x2d] 3 = Ok [x62; x41] /\ ci_split_sep [x62; x41] [x61; xff] 3 false = Ok [[x62; x41]].
Proof.
  assert (X : forall g c t, uchar g c -> [xff] <> g ++ t /\ [xff] <> t ++ g).
  { intros g c t Hg. destruct Hg; (split; intros E; repeat (destruct t as [|? t]; try discriminate E); injection E as; subst; unfold cont, u8 in *; cbn in *; try lia; try discriminate). }
  split; [split; [discriminate|intros g c t Hg; apply (X g c t Hg)]|].
  split; [split; [discriminate|intros g c t Hg; apply (X g c t Hg)]|].
  split; [apply (Text_one [x61] 0x61), (uchar1 x61); vm_compute; reflexivity|]. repeat split; vm_compute; reflexivity.
Qed.
