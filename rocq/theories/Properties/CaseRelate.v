(** C87, C97, C98: converting the case of a text and comparing while ignoring case. *)
From Verif Require Import Base Spec.Utf8Spec Spec.Strings Spec.Case Model.Decode Model.Subrange Model.Search Model.CharClass Model.ConvertCase Model.CaseInsensitive Proofs.CaseRelate Proofs.CiSimLemmas Proofs.CiOffset.

(** A text and its lower case form are equal but for case, unless it contains
    one of six code points; with one of them they never are. *)
Theorem C87_lower : forall s cs, Text s cs -> Forall (fun c => c <= 0x10FFFF) cs ->
  exists r e, to_lower_str s = Ok r /\ ci_equal s r = Ok e /\
    (e = true <-> Forall (fun c => ~ In c [0x130; 0x3F4; 0x1E9E; 0x2126; 0x212A; 0x212B]) cs).
Proof. exact p_c87_lower. Qed.
Print Assumptions C87_lower.
(** For upper case the exception is U+00DF, which becomes "SS". *)
Theorem C87_upper : forall s cs, Text s cs -> Forall (fun c => c <= 0x10FFFF) cs ->
  exists r e, to_upper_str s = Ok r /\ ci_equal s r = Ok e /\ (e = true <-> ~ In 0xDF cs).
Proof. exact p_c87_upper. Qed.
Print Assumptions C87_upper.
(** For title case: a sharp s that starts a word, and the six code points inside a word. *)
Theorem C87_title : forall s cs, Text s cs -> Forall (fun c => c <= 0x10FFFF) cs ->
  exists r e, to_title_str s = Ok r /\ ci_equal s r = Ok e /\
    (e = true <-> forall u c v, cs = u ++ c :: v ->
       (c = 0xDF -> ends_with_letter is_letter u) /\
       (In c [0x130; 0x3F4; 0x1E9E; 0x2126; 0x212A; 0x212B] -> ~ ends_with_letter is_letter u)).
Proof. exact p_c87_title. Qed.
Print Assumptions C87_title.
(** Equal but for case implies the same upper case form. *)
Theorem C87_same_upper : forall a cs b ds, Text a cs -> Text b ds ->
  Forall (fun c => c <= 0x10FFFF) cs -> Forall (fun c => c <= 0x10FFFF) ds ->
  (ci_equal a b = Ok true -> to_upper_str a = to_upper_str b) /\
  (~ In 0xDF cs -> ~ In 0xDF ds -> to_upper_str a = to_upper_str b -> ci_equal a b = Ok true).
Proof. exact p_c87_same. Qed.
Print Assumptions C87_same_upper.
(** The exceptions are real: the Kelvin sign and the sharp s. *)
Theorem C87_exceptions :
  (to_lower_str [xe2; x84; xaa] = Ok [x6b] /\ ci_equal [xe2; x84; xaa] [x6b] = Ok false) /\
  (to_upper_str [xc3; x9f] = Ok [x53; x53] /\ ci_equal [xc3; x9f] [x53; x53] = Ok false).
Proof. exact (conj (conj eq_refl eq_refl) (conj eq_refl eq_refl)). Qed.
Print Assumptions C87_exceptions.
Example C87_ex : to_lower_str [xc3; x86; x41] = Ok [xc3; xa6; x61] /\ ci_equal [xc3; x86; x41] [xc3; xa6; x61] = Ok true.
Proof. split; vm_compute; reflexivity. Qed.

(** C97: patterns that are equal but for case give the same result, whatever
    the text is, valid or not; ... *)
Theorem C97_pattern : forall p q, ci_equal p q = Ok true -> forall s,
  ci_starts_with s p = ci_starts_with s q /\ ci_ends_with s p = ci_ends_with s q /\
  (forall o, ci_find_first s p o = ci_find_first s q o) /\ (forall o, ci_find_last s p o = ci_find_last s q o) /\
  (forall to m, ci_replace s p to m = ci_replace s q to m) /\
  (forall n ign, ci_split_sep s p n ign = ci_split_sep s q n ign).
Proof. exact p_c97_pattern. Qed.
Print Assumptions C97_pattern.
(** ... comparisons give the same for texts that are equal but for case, ... *)
Theorem C97_comparison : forall a a' b b', ci_equal a a' = Ok true -> ci_equal b b' = Ok true ->
  ci_compare a b = ci_compare a' b' /\ ci_equal a b = ci_equal a' b' /\ ci_less a b = ci_less a' b'.
Proof. exact p_c97_comparison. Qed.
Print Assumptions C97_comparison.
(** ... and so do tests for prefix and suffix, and searches find the
    corresponding piece. *)
Theorem C97_text : forall s s' p ps, ci_equal s s' = Ok true -> Text p ps ->
  ci_starts_with s p = ci_starts_with s' p /\ ci_ends_with s p = ci_ends_with s' p.
Proof. exact p_c97_text. Qed.
Print Assumptions C97_text.
Theorem C97_found : forall s s' p ps, ci_equal s s' = Ok true -> Text p ps -> exists r r',
  ci_find_first s p 0 = Ok r /\ ci_find_first s' p 0 = Ok r' /\ sub_bool r = sub_bool r' /\
  (sub_bool r = true -> exists u u' m m',
     substr s 0 (sub_start r) = Ok u /\ substr s' 0 (sub_start r') = Ok u' /\ ci_equal u u' = Ok true /\
     substr s (sub_start r) (sub_length r) = Ok m /\ substr s' (sub_start r') (sub_length r') = Ok m' /\ ci_equal m m' = Ok true).
Proof. exact p_c97_found. Qed.
Print Assumptions C97_found.
Theorem C97_found_last : forall s s' p ps, Fits s -> Fits s' -> ci_equal s s' = Ok true -> Text p ps -> exists r r',
  ci_find_last s p npos = Ok r /\ ci_find_last s' p npos = Ok r' /\ sub_bool r = sub_bool r' /\
  (sub_bool r = true -> exists u u' m m',
     substr s 0 (sub_start r) = Ok u /\ substr s' 0 (sub_start r') = Ok u' /\ ci_equal u u' = Ok true /\
     substr s (sub_start r) (sub_length r) = Ok m /\ substr s' (sub_start r') (sub_length r') = Ok m' /\ ci_equal m m' = Ok true).
Proof. exact p_c97_found_last. Qed.
Print Assumptions C97_found_last.
(** The same from an offset: what is equal is the rest of the two texts, ... *)
Theorem C97_found_from : forall pre t pre' t' p ps, Fits (pre ++ t) -> Fits (pre' ++ t') -> ci_equal t t' = Ok true -> Text p ps -> exists r r',
  ci_find_first (pre ++ t) p (size pre) = Ok r /\ ci_find_first (pre' ++ t') p (size pre') = Ok r' /\ sub_bool r = sub_bool r' /\
  (sub_bool r = true -> exists u m v u' m' v',
     t = u ++ m ++ v /\ t' = u' ++ m' ++ v' /\ ci_equal u u' = Ok true /\ ci_equal m m' = Ok true /\
     r = Sub (size pre + size u) (size m) /\ r' = Sub (size pre' + size u') (size m')).
Proof. exact p_c97_from. Qed.
Print Assumptions C97_found_from.
(** ... or the part of them before the offset (an offset beyond the end is the end). *)
Theorem C97_found_before : forall t post t' post' p ps o o', Fits t -> Fits t' ->
  N.min o (size (t ++ post)) = size t -> N.min o' (size (t' ++ post')) = size t' -> ci_equal t t' = Ok true -> Text p ps -> exists r r',
  ci_find_last (t ++ post) p o = Ok r /\ ci_find_last (t' ++ post') p o' = Ok r' /\ sub_bool r = sub_bool r' /\
  (sub_bool r = true -> exists u m v u' m' v',
     t = u ++ m ++ v /\ t' = u' ++ m' ++ v' /\ ci_equal u u' = Ok true /\ ci_equal m m' = Ok true /\
     r = Sub (0 + size u) (size m) /\ r' = Sub (0 + size u') (size m')).
Proof. exact p_c97_before. Qed.
Print Assumptions C97_found_before.
Example C97_ex : ci_equal [xc4; xb1] [x49] = Ok true /\ ci_find_first [x78; x49; x79] [xc4; xb1] 0 = Ok (Sub 1 1) /\
  ci_find_first [x58; xc4; xb1; x79] [x49] 0 = Ok (Sub 1 2) /\ ci_find_first [x49; xff] [xc4; xb1] 0 = ci_find_first [x49; xff] [x49] 0.
Proof. repeat split; vm_compute; reflexivity. Qed.
Example C97_from_ex : Fits [x78; x61; x62] /\ Fits [x79; x79; x41; x62] /\ ci_equal [x61; x62] [x41; x62] = Ok true /\ ci_find_first [x78; x61; x62] [x42] 1 = Ok (Sub 2 1) /\
  ci_find_first [x79; x79; x41; x62] [x42] 2 = Ok (Sub 3 1) /\ ci_find_last [x61; x62; x61] [x42] 2 = Ok (Sub 1 1).
Proof. repeat split; vm_compute; congruence. Qed.

(** C98: what is found with regard to case is found without. *)
Theorem C98_ends : forall s cs p ps, Text s cs -> Text p ps -> Fits s ->
  (starts_with s p = Ok true -> ci_starts_with s p = Ok true) /\ (ends_with s p = Ok true -> ci_ends_with s p = Ok true).
Proof. exact p_c98_starts. Qed.
Print Assumptions C98_ends.
Theorem C98_find_first : forall pre t cs p ps r, Text t cs -> Text p ps -> p <> [] ->
  find_first (pre ++ t) p (size pre) = Ok r -> sub_bool r = true ->
  exists r', ci_find_first (pre ++ t) p (size pre) = Ok r' /\ sub_bool r' = true /\ sub_start r' <= sub_start r.
Proof. exact p_c98_first. Qed.
Print Assumptions C98_find_first.
(** Backwards, [t] is the text before the offset. *)
Theorem C98_find_last : forall t post cs p ps o r, Text t cs -> Text p ps -> p <> [] -> Fits t -> N.min o (size (t ++ post)) = size t ->
  find_last (t ++ post) p o = Ok r -> sub_bool r = true ->
  exists r', ci_find_last (t ++ post) p o = Ok r' /\ sub_bool r' = true /\ sub_start r <= sub_start r'.
Proof. exact p_c98_last_offset. Qed.
Print Assumptions C98_find_last.
(** Sets of code points: any string, any offset. *)
Theorem C98_chars : forall s chars o r c,
  (find_first_of s chars o = Ok (r, c) -> sub_bool r = true ->
   exists r' c', ci_find_first_of s chars o = Ok (r', c') /\ sub_bool r' = true /\ sub_start r' <= sub_start r) /\
  (find_last_of s chars o = Ok (r, c) -> sub_bool r = true ->
   exists r' c', ci_find_last_of s chars o = Ok (r', c') /\ sub_bool r' = true /\ sub_start r <= sub_start r').
Proof. exact p_c98_chars. Qed.
Print Assumptions C98_chars.
(** The same for any two predicates. *)
Theorem C98_where : forall s f g o r c, (forall x, f x = true -> g x = true) ->
  (find_first_where s f o = Ok (r, c) -> sub_bool r = true ->
   exists r' c', find_first_where s g o = Ok (r', c') /\ sub_bool r' = true /\ sub_start r' <= sub_start r) /\
  (find_last_where s f o = Ok (r, c) -> sub_bool r = true ->
   exists r' c', find_last_where s g o = Ok (r', c') /\ sub_bool r' = true /\ sub_start r <= sub_start r').
Proof. exact p_c98_where. Qed.
Print Assumptions C98_where.
Example C98_ex : find_first [x78; x41; x61] [x61] 0 = Ok (Sub 2 1) /\ ci_find_first [x78; x41; x61] [x61] 0 = Ok (Sub 1 1) /\
  find_last [x61; x41; x78] [x61] npos = Ok (Sub 0 1) /\ ci_find_last [x61; x41; x78] [x61] npos = Ok (Sub 1 1).
Proof. repeat split; vm_compute; reflexivity. Qed.
