(** C120: running out of memory. *)
From Verif Require Import Base Model.Decode Model.Encode Model.Subrange Model.Search Model.CodepointSet Model.Callbacks Model.Memory.
From Verif Require Import Spec.Utf8Spec Proofs.Utf8Lemmas Proofs.EncodeLemmas Proofs.Utf8Props Proofs.MemoryLemmas.

(** C120.  [mem n] is the exception of the [n]-th operation that can need memory,
    or [None] if there is enough.  append appends the whole code point, or throws
    the exception and has appended the bytes before the one for which there was
    no memory. *)
Theorem C120_append_partial : forall mem s n c g, c <= 0x10FFFF -> encodes g c ->
  ((forall i, (i < length g)%nat -> mem (n + i)%nat = None) /\ append_mem mem c (s, n) = (Ok tt, (s ++ g, (n + length g)%nat))) \/
  (exists a b e, g = a ++ b /\ b <> [] /\ (forall i, (i < length a)%nat -> mem (n + i)%nat = None) /\ mem (n + length a)%nat = Some e /\
     append_mem mem c (s, n) = (Throw e, (s ++ a, S (n + length a)))).
Proof. exact p_c120_append. Qed.
Print Assumptions C120_append_partial.
(** A code point that does not exist: nothing is appended in any case. *)
Theorem C120_append_invalid : forall mem s n c, 0x10FFFF < c ->
  append_mem mem c (s, n) = (Throw (match mem n with None => YstringException | Some e => e end), (s, S n)).
Proof. exact p_c120_bad. Qed.
Print Assumptions C120_append_invalid.
(** So the string can be damaged: what is left after some but not all bytes of a
    code point have been appended to a text is not a text, ... *)
Theorem C120_damage : forall s cs c g a b us, Text s cs -> c <= 0x10FFFF -> encodes g c -> g = a ++ b -> a <> [] -> b <> [] -> ~ Text (s ++ a) us.
Proof. exact p_c120_damage. Qed.
Print Assumptions C120_damage.
(** ... which happens if memory runs out at the second byte. *)
Theorem C120_append_refuted : forall e, let mem n := if Nat.eqb n 1 then Some e else None in
  append_mem mem 0x20AC ([x61], 0%nat) = (Throw e, ([x61; xe2], 2%nat)) /\ is_valid_utf8 [x61; xe2] = Ok false.
Proof. intros e. split; reflexivity. Qed.
Print Assumptions C120_append_refuted.

(** add_range and add_codepoint do what they should or leave the set as it was. *)
Theorem C120_add_range : forall mem s n x y,
  (mem n = None -> add_range_mem mem x y (s, n) = (Ok tt, (add_range s x y, S n))) /\
  (forall e, mem n = Some e -> add_range_mem mem x y (s, n) = (Throw e, (s, S n))).
Proof. exact p_c120_range. Qed.
Print Assumptions C120_add_range.
Theorem C120_add_codepoint : forall mem s n c,
  (exists n', add_codepoint_mem mem c (s, n) = (Ok tt, (add_codepoint s c, n'))) \/
  (exists e, mem n = Some e /\ add_codepoint_mem mem c (s, n) = (Throw e, (s, S n))).
Proof. exact p_c120_codepoint. Qed.
Print Assumptions C120_add_codepoint.
(** add_codepoints adds the code points before the one for which there is no memory. *)
Theorem C120_add_codepoints_partial : forall mem cs s n,
  (exists n', add_codepoints_mem mem cs (s, n) = (Ok tt, (add_codepoints s cs, n'))) \/
  (exists a b e m, cs = a ++ b /\ b <> [] /\ mem m = Some e /\ add_codepoints_mem mem cs (s, n) = (Throw e, (add_codepoints s a, S m))).
Proof. exact p_c120_codepoints. Qed.
Print Assumptions C120_add_codepoints_partial.
Theorem C120_add_codepoints_refuted : forall e, let mem n := if Nat.eqb n 1 then Some e else None in
  exists t, add_codepoints_mem mem [0x41; 0x43] (cps_empty false, 0%nat) = (Throw e, (t, 2%nat)) /\
    cps_contains (cps_empty false) 0x41 = false /\ cps_contains t 0x41 = true /\ cps_contains t 0x43 = false.
Proof. intros e mem. exists (add_codepoint (cps_empty false) 0x41). repeat split. Qed.
Print Assumptions C120_add_codepoints_refuted.

(** replace_invalid_utf8 repairs the string or leaves it as it was. *)
Theorem C120_replace_invalid : forall mem s n c r, replace_invalid_utf8_inplace s c = Ok r ->
  (exists n', replace_invalid_inplace_mem mem c (s, n) = (Ok tt, (r, n'))) \/
  (exists e m, mem m = Some e /\ replace_invalid_inplace_mem mem c (s, n) = (Throw e, (s, S m))).
Proof. exact p_c120_repair. Qed.
Print Assumptions C120_replace_invalid.
(** A stray byte between a and b, with memory for two of the three pieces of the result. *)
Example C120_replace_invalid_ex : replace_invalid_utf8_inplace [x61; xff; x62] 0x3F = Ok [x61; x3f; x62] /\
  replace_invalid_inplace_mem (fun n => if Nat.eqb n 2 then Some (UserException 0) else None) 0x3F ([x61; xff; x62], 0%nat)
    = (Throw (UserException 0), ([x61; xff; x62], 3%nat)) /\
  replace_invalid_inplace_mem (fun n => None) 0x3F ([x61; xff; x62], 0%nat) = (Ok tt, ([x61; x3f; x62], 3%nat)).
Proof. repeat split; vm_compute; reflexivity. Qed.

(** With enough memory these are the functions of C10 and C53. *)
Theorem C120_enough : forall mem, (forall i, mem i = None) ->
  (forall s n c, exists n', append_mem mem c (s, n) = (fst (append_to s c), (snd (append_to s c), n'))) /\
  (forall s n cs, exists n', add_codepoints_mem mem cs (s, n) = (Ok tt, (add_codepoints s cs, n'))).
Proof. exact p_c120_enough. Qed.
Print Assumptions C120_enough.
(** U+00E9 appended to U+20AC, with memory for one byte. *)
Example C120_ex : let mem n := if Nat.eqb n 1 then Some (UserException 0) else None in
  Text [xe2; x82; xac] [0x20AC] /\ encodes [xc3; xa9] 0xE9 /\
  append_mem mem 0xE9 ([xe2; x82; xac], 0%nat) = (Throw (UserException 0), ([xe2; x82; xac; xc3], 2%nat)).
Proof.
  split; [|split; reflexivity]. change [xe2; x82; xac] with ([xe2; x82; xac] ++ []).
  constructor; [|constructor]. apply (encodes_uchar [xe2; x82; xac] 0x20AC); [lia|reflexivity].
Qed.
