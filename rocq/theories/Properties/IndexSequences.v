(** C132: searching, indexing and converting encoded texts is searching, indexing
    and converting sequences of code points; characters are groups of them. *)
From Verif Require Import Base Spec.Utf8Spec Spec.Strings Spec.Slices Spec.CaseFold Spec.Case Spec.Sequences
  Model.Decode Model.Encode Model.Subrange Model.Search Model.CharClass Model.Chars Model.ConvertCase
  Proofs.IndexSequenceLemmas.

(** Beginnings, ends and members. *)
Theorem C132_starts_with : forall cs ps, Forall (fun c => c <= 0x10FFFF) cs -> Forall (fun c => c <= 0x10FFFF) ps ->
  exists b, starts_with (from_utf32 cs) (from_utf32 ps) = Ok b /\ (b = true <-> exists t, cs = ps ++ t).
Proof. exact p_c132_starts. Qed.
Print Assumptions C132_starts_with.
Theorem C132_ends_with : forall cs ps, Forall (fun c => c <= 0x10FFFF) cs -> Forall (fun c => c <= 0x10FFFF) ps -> Fits (from_utf32 cs) ->
  exists b, ends_with (from_utf32 cs) (from_utf32 ps) = Ok b /\ (b = true <-> exists t, cs = t ++ ps).
Proof. exact p_c132_ends. Qed.
Print Assumptions C132_ends_with.
Theorem C132_contains : forall cs c, Forall (fun c => c <= 0x10FFFF) cs ->
  exists b, contains (from_utf32 cs) c = Ok b /\ (b = true <-> In c cs).
Proof. exact p_c132_contains. Qed.
Print Assumptions C132_contains.

(** Searches behind [pre], and before [post]: the offset is the size of what
    lies on the other side. *)
Theorem C132_find_first : forall pre cs ps,
  Forall (fun c => c <= 0x10FFFF) pre -> Forall (fun c => c <= 0x10FFFF) cs -> Forall (fun c => c <= 0x10FFFF) ps -> ps <> [] ->
  (exists us vs, cs = us ++ ps ++ vs /\ absent_before ps cs (length us) /\
     find_first (from_utf32 (pre ++ cs)) (from_utf32 ps) (size (from_utf32 pre))
       = Ok (Sub (size (from_utf32 (pre ++ us))) (size (from_utf32 ps)))) \/
  (absent ps cs /\ find_first (from_utf32 (pre ++ cs)) (from_utf32 ps) (size (from_utf32 pre)) = Ok (Sub (size (from_utf32 (pre ++ cs))) 0)).
Proof. exact p_c132_first. Qed.
Print Assumptions C132_find_first.
Theorem C132_find_last : forall cs post ps,
  Forall (fun c => c <= 0x10FFFF) cs -> Forall (fun c => c <= 0x10FFFF) post -> Forall (fun c => c <= 0x10FFFF) ps -> ps <> [] ->
  (exists us vs, cs = us ++ ps ++ vs /\ absent_after ps cs (length us) /\
     find_last (from_utf32 (cs ++ post)) (from_utf32 ps) (size (from_utf32 cs))
       = Ok (Sub (size (from_utf32 us)) (size (from_utf32 ps)))) \/
  (absent ps cs /\ find_last (from_utf32 (cs ++ post)) (from_utf32 ps) (size (from_utf32 cs)) = Ok (Sub 0 0)).
Proof. exact p_c132_last. Qed.
Print Assumptions C132_find_last.

(** Code points by index. *)
Theorem C132_count : forall cs, Forall (fun c => c <= 0x10FFFF) cs -> Fits (from_utf32 cs) ->
  count_codepoints (from_utf32 cs) = Ok (N.of_nat (length cs)).
Proof. exact p_c132_count. Qed.
Print Assumptions C132_count.
Theorem C132_position : forall cs, Forall (fun c => c <= 0x10FFFF) cs -> forall k, Fits (from_utf32 cs) ->
  (- 0x8000000000000000 < k <= 0x7FFFFFFFFFFFFFFF)%Z ->
  get_codepoint_pos (from_utf32 cs) k =
    Ok (if (Z.of_nat (length cs) <? Z.abs k)%Z then npos else size (from_utf32 (firstn (resolve (length cs) k) cs))).
Proof. exact p_c132_pos. Qed.
Print Assumptions C132_position.
Theorem C132_get_codepoint : forall cs, Forall (fun c => c <= 0x10FFFF) cs -> forall n c, nth_error cs n = Some c ->
  forall k, (k = Z.of_nat n \/ k = Z.of_nat n - Z.of_nat (length cs))%Z ->
  get_codepoint (from_utf32 cs) k = Ok (Sub (size (from_utf32 (firstn n cs))) (size (from_utf32 [c])), c).
Proof. exact p_c132_get. Qed.
Print Assumptions C132_get_codepoint.
(** For the index pairs that C26 and C30 find right. *)
Theorem C132_substring_and_replace : forall cs, Forall (fun c => c <= 0x10FFFF) cs -> forall i j, Fits (from_utf32 cs) ->
  (- 0x8000000000000000 < i <= 0x7FFFFFFFFFFFFFFF)%Z -> (- 0x8000000000000000 < j <= 0x7FFFFFFFFFFFFFFF)%Z ->
  (0 <= i /\ 0 <= j)%Z \/ (i < j < 0)%Z \/ (j < 0 <= i)%Z ->
  let a := resolve (length cs) i in let b := resolve (length cs) j in
  get_codepoint_substring (from_utf32 cs) i j = Ok (from_utf32 (firstn (b - a) (skipn a cs))) /\
  forall ds, replace_codepoints (from_utf32 cs) i j (from_utf32 ds) = Ok (from_utf32 (firstn a cs ++ ds ++ skipn (Nat.max a b) cs)).
Proof. exact p_c132_sub. Qed.
Print Assumptions C132_substring_and_replace.
Theorem C132_insert : forall cs, Forall (fun c => c <= 0x10FFFF) cs -> forall k, Fits (from_utf32 cs) ->
  (- 0x8000000000000000 < k <= 0x7FFFFFFFFFFFFFFF)%Z -> (Z.abs k <= Z.of_nat (length cs))%Z ->
  let a := resolve (length cs) k in
  (forall ds, insert_codepoints (from_utf32 cs) k (from_utf32 ds) = Ok (from_utf32 (firstn a cs ++ ds ++ skipn a cs))) /\
  forall c, c <= 0x10FFFF -> insert_codepoint (from_utf32 cs) k c = Ok (from_utf32 (firstn a cs ++ [c] ++ skipn a cs)).
Proof. exact p_c132_insert. Qed.
Print Assumptions C132_insert.
(** Upper and lower case; [lower_cps] and [upper_cps] are Unicode's (C43). *)
Theorem C132_case : forall cs, Forall (fun c => c <= 0x10FFFF) cs ->
  to_lower_str (from_utf32 cs) = Ok (from_utf32 (lower_cps cs)) /\ to_upper_str (from_utf32 cs) = Ok (from_utf32 (upper_cps cs)).
Proof. exact p_c132_case. Qed.
Print Assumptions C132_case.

(** Characters by index: every sequence of code points falls into groups, ... *)
Theorem C132_groups : forall mark cs, exists css, concat css = cs /\ groups mark css.
Proof. exact p_c132_groups. Qed.
Print Assumptions C132_groups.
(** ... which are what the functions on characters count, ... *)
Theorem C132_count_chars : forall css, groups is_mark css -> Forall (fun c => c <= 0x10FFFF) (concat css) -> Fits (from_utf32 (concat css)) ->
  count_chars (from_utf32 (concat css)) = Ok (N.of_nat (length css)).
Proof. exact p_c132_char_count. Qed.
Print Assumptions C132_count_chars.
Theorem C132_char_position : forall css, groups is_mark css -> Forall (fun c => c <= 0x10FFFF) (concat css) -> Fits (from_utf32 (concat css)) ->
  forall k, get_char_pos (from_utf32 (concat css)) k =
    Ok (if (Z.of_nat (length css) <? Z.abs k)%Z then npos else size (from_utf32 (concat (firstn (resolve (length css) k) css)))).
Proof. exact p_c132_char_pos. Qed.
Print Assumptions C132_char_position.
(** ... take out and replace (for the index pairs that C27 and C30 find right), ... *)
Theorem C132_char_substring_and_replace : forall css, groups is_mark css -> Forall (fun c => c <= 0x10FFFF) (concat css) -> Fits (from_utf32 (concat css)) ->
  forall i j, (- 0x8000000000000000 <= i <= 0x7FFFFFFFFFFFFFFF)%Z -> (- 0x8000000000000000 <= j <= 0x7FFFFFFFFFFFFFFF)%Z ->
  (0 <= i /\ 0 <= j)%Z \/ (i < j < 0)%Z \/ (i < 0 <= j)%Z ->
  let a := resolve (length css) i in let b := resolve (length css) j in
  get_char_substring (from_utf32 (concat css)) i j = Ok (from_utf32 (concat (firstn (b - a) (skipn a css)))) /\
  forall ds, replace_chars (from_utf32 (concat css)) i j (from_utf32 ds)
    = Ok (from_utf32 (concat (firstn a css) ++ ds ++ concat (skipn (Nat.max a b) css))).
Proof. exact p_c132_char_sub. Qed.
Print Assumptions C132_char_substring_and_replace.
(** ... insert between, ... *)
Theorem C132_char_insert : forall css, groups is_mark css -> Forall (fun c => c <= 0x10FFFF) (concat css) -> Fits (from_utf32 (concat css)) ->
  forall k, (Z.abs k <= Z.of_nat (length css))%Z ->
  let a := resolve (length css) k in
  (forall ds, insert_chars (from_utf32 (concat css)) k (from_utf32 ds) = Ok (from_utf32 (concat (firstn a css) ++ ds ++ concat (skipn a css)))) /\
  forall c, c <= 0x10FFFF -> insert_char (from_utf32 (concat css)) k c = Ok (from_utf32 (concat (firstn a css) ++ [c] ++ concat (skipn a css))).
Proof. exact p_c132_char_insert. Qed.
Print Assumptions C132_char_insert.
(** ... and reverse. *)
Theorem C132_reverse : forall css, groups is_mark css -> Forall (fun c => c <= 0x10FFFF) (concat css) -> Fits (from_utf32 (concat css)) ->
  reverse (from_utf32 (concat css)) = Ok (from_utf32 (concat (rev css))).
Proof. exact p_c132_reverse. Qed.
Print Assumptions C132_reverse.

(** U+20AC, e with U+0301, z. *)
Example C132_ex : groups is_mark [[0x20AC]; [0x65; 0x301]; [0x7A]] /\
  reverse (from_utf32 [0x20AC; 0x65; 0x301; 0x7A]) = Ok (from_utf32 [0x7A; 0x65; 0x301; 0x20AC]) /\
  get_codepoint_substring (from_utf32 [0x20AC; 0x65; 0x301; 0x7A]) 1 (-1) = Ok (from_utf32 [0x65; 0x301]) /\
  get_char_substring (from_utf32 [0x20AC; 0x65; 0x301; 0x7A]) (-2) (-1) = Ok (from_utf32 [0x65; 0x301]) /\
  find_first (from_utf32 [0x20AC; 0x65; 0x301; 0x7A]) (from_utf32 [0x301]) (size (from_utf32 [0x20AC])) = Ok (Sub 4 2).
Proof.
  split; [|repeat split; vm_compute; reflexivity]. split.
  - repeat constructor; eexists; eexists; split; try reflexivity; repeat constructor; vm_compute; reflexivity.
  - repeat constructor; eexists; eexists; split; try reflexivity; vm_compute; reflexivity.
Qed.
