(** C130 and C131: what the library does to encoded texts it does to the
    sequences of their code points. *)
From Verif Require Import Base Spec.Utf8Spec Spec.Strings Spec.CaseFold Spec.Case Spec.Sequences
  Model.Decode Model.Encode Model.Subrange Model.Search Model.Split Model.ConvertCase Model.CaseInsensitive
  Proofs.SequenceLemmas.

(** C130.  [lex] is the lexicographic order; strings are compared by their bytes
    as unsigned numbers, as std::string's operator< does.  The order of encoded
    sequences is the order of the sequences, ... *)
Theorem C130_from_utf32 : forall cs ds, Forall (fun c => c <= 0x10FFFF) cs -> Forall (fun c => c <= 0x10FFFF) ds ->
  lex (map u8 (from_utf32 cs)) (map u8 (from_utf32 ds)) = lex cs ds.
Proof. exact p_c130_from. Qed.
Print Assumptions C130_from_utf32.
(** ... the order of texts that are encoded as RFC 3629 says is the order of
    their code points, ... *)
Theorem C130_to_utf32 : forall a cs b ds, Encoded a cs -> Encoded b ds ->
  Forall (fun c => c <= 0x10FFFF) cs -> Forall (fun c => c <= 0x10FFFF) ds ->
  to_utf32 a = Ok cs /\ to_utf32 b = Ok ds /\ lex (map u8 a) (map u8 b) = lex cs ds.
Proof. exact p_c130_to. Qed.
Print Assumptions C130_to_utf32.
(** ... and the sign of case_insensitive::compare is the order of the texts that
    to_upper makes, if there is no U+00DF in them. *)
Theorem C130_upper : forall a cs b ds, Text a cs -> Text b ds ->
  Forall (fun c => c <= 0x10FFFF) cs -> Forall (fun c => c <= 0x10FFFF) ds -> ~ In 0xDF cs -> ~ In 0xDF ds ->
  exists x y z, to_upper_str a = Ok x /\ to_upper_str b = Ok y /\ ci_compare a b = Ok z /\
    (z ?= 0)%Z = lex (map u8 x) (map u8 y).
Proof. exact p_c130_upper. Qed.
Print Assumptions C130_upper.
(** U+FFFF comes before U+10000 in both orders. *)
Example C130_ex : lex [0xFFFF; 0x41] [0x10000] = Lt /\
  lex (map u8 (from_utf32 [0xFFFF; 0x41])) (map u8 (from_utf32 [0x10000])) = Lt /\
  Encoded [xef; xbf; xbf] [0xFFFF] /\ ci_compare [xc3; xa6] [x42] = Ok 132%Z /\ to_upper_str [xc3; xa6] = Ok [xc3; x86].
Proof.
  repeat split; try (vm_compute; reflexivity). apply (Encoded_cons [xef; xbf; xbf] 0xFFFF [] []); [vm_compute; reflexivity|constructor].
Qed.
(** Both restrictions are needed: an overlong A (U+0041) comes after B, ... *)
Example C130_needs_shortest : to_utf32 [xc1; x81] = Ok [0x41] /\ lex [0x41] [0x42] = Lt /\ lex (map u8 [xc1; x81]) (map u8 [x42]) = Gt.
Proof. repeat split; vm_compute; reflexivity. Qed.
(** ... and U+00DF comes after T, while to_upper makes SS of it. *)
Example C130_needs_no_sharp_s : ci_compare [xc3; x9f] [x54] = Ok 139%Z /\ to_upper_str [xc3; x9f] = Ok [x53; x53] /\
  lex (map u8 [x53; x53]) (map u8 [x54]) = Lt.
Proof. repeat split; vm_compute; reflexivity. Qed.

(** C131.  replace, with a limit from the front ... *)
Theorem C131_replace_front : forall cs ps qs m,
  Forall (fun c => c <= 0x10FFFF) cs -> Forall (fun c => c <= 0x10FFFF) ps -> Forall (fun c => c <= 0x10FFFF) qs ->
  ps <> [] -> (0 <= m)%Z ->
  exists rs, replace (from_utf32 cs) (from_utf32 ps) (from_utf32 qs) m = Ok (from_utf32 rs) /\ replaced_first ps qs (Z.to_N m) cs rs.
Proof. exact p_c131_front. Qed.
Print Assumptions C131_replace_front.
(** ... and from the back; ... *)
Theorem C131_replace_back : forall cs ps qs m,
  Forall (fun c => c <= 0x10FFFF) cs -> Forall (fun c => c <= 0x10FFFF) ps -> Forall (fun c => c <= 0x10FFFF) qs ->
  ps <> [] -> Fits (from_utf32 cs) -> (- 0x8000000000000000 < m < 0)%Z ->
  exists rs, replace (from_utf32 cs) (from_utf32 ps) (from_utf32 qs) m = Ok (from_utf32 rs) /\ replaced_last ps qs (Z.to_N (- m)) cs rs.
Proof. exact p_c131_back. Qed.
Print Assumptions C131_replace_back.
(** ... split at a separator; ... *)
Theorem C131_split : forall cs ps n, Forall (fun c => c <= 0x10FFFF) cs -> Forall (fun c => c <= 0x10FFFF) ps ->
  ps <> [] -> Fits (from_utf32 cs) -> 1 <= n ->
  exists parts, split_sep (from_utf32 cs) (from_utf32 ps) n false = Ok (map from_utf32 parts) /\ parted ps n cs parts.
Proof. exact p_c131_split. Qed.
Print Assumptions C131_split.
(** ... join; ... *)
Theorem C131_join : forall l d, join (map from_utf32 l) (from_utf32 d) = from_utf32 (joined d l).
Proof. exact p_c131_join. Qed.
Print Assumptions C131_join.
(** ... and trimming. *)
Theorem C131_trim : forall (p : N -> bool) cs, Forall (fun c => c <= 0x10FFFF) cs -> Fits (from_utf32 cs) ->
  trim_start_where (from_utf32 cs) p = Ok (from_utf32 (drop_while p cs)) /\
  trim_end_where (from_utf32 cs) p = Ok (from_utf32 (drop_end_while p cs)) /\
  trim_where (from_utf32 cs) p = Ok (from_utf32 (drop_end_while p (drop_while p cs))).
Proof. exact p_c131_trim. Qed.
Print Assumptions C131_trim.
(** The relations say what the result is: there is one at most. *)
Theorem C131_unique : forall (p q s : list N) n,
  (forall r r', replaced_first p q n s r -> replaced_first p q n s r' -> r = r') /\
  (forall r r', replaced_last p q n s r -> replaced_last p q n s r' -> r = r') /\
  (forall l l', parted p n s l -> parted p n s l' -> l = l').
Proof.
  exact (fun p q s n => conj (fun r r' H => first_unique p q n s r H r')
    (conj (fun r r' H => last_unique p q n s r H r') (fun l l' H => parted_unique p n s l H l'))).
Qed.
Print Assumptions C131_unique.
Example C131_ex : replace (from_utf32 [0x20AC; 0xE6; 0x20AC]) (from_utf32 [0x20AC]) (from_utf32 [0x24; 0x24]) 1 = Ok (from_utf32 [0x24; 0x24; 0xE6; 0x20AC]) /\
  split_sep (from_utf32 [0x41; 0x20AC; 0xE6]) (from_utf32 [0x20AC]) 5 false = Ok (map from_utf32 [[0x41]; [0xE6]]) /\
  replaced_first [0x20AC] [0x24] 1 [0x41; 0x20AC] [0x41; 0x24].
Proof.
  split; [vm_compute; reflexivity|]. split; [vm_compute; reflexivity|].
  apply (first_next [0x20AC] [0x24] 0 [0x41] [] []); [|constructor]. intros [|x u] v H; cbn in *; [discriminate|lia].
Qed.
