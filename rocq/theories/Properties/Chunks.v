(** C134: text that arrives in pieces. *)
From Verif Require Import Base Spec.Utf8Spec Spec.Chunks Model.Decode Model.Callbacks Model.References Model.Search Model.Encode
  Proofs.ChunkLemmas.

(** Taking code points until there are no more, or until pop_utf8_codepoint throws,
    comes to an end with one result for every string: the code points of the
    longest beginning that is a text, and what follows it. *)
Theorem C134_pop_all : forall s, exists cs r, Popped s cs r /\ (forall cs' r', Popped s cs' r' -> cs' = cs /\ r' = r) /\
  (exists u, s = u ++ r /\ Text u cs) /\ (r = [] \/ Malformed r).
Proof. exact p_c134_popped. Qed.
Print Assumptions C134_pop_all.
(** Where the pieces begin and end does not matter, for any bytes: neither for the
    code points nor for what is held back at the end. *)
Theorem C134_any_chunks : forall chunks cs r, Fed [] chunks cs r <-> Popped (concat chunks) cs r.
Proof. exact p_c134_fed. Qed.
Print Assumptions C134_any_chunks.
(** Nothing is held back at the end exactly if to_utf32 can convert the whole, and
    then the code points are the same. *)
Theorem C134_to_utf32 : forall chunks cs, Fed [] chunks cs [] <-> to_utf32 (concat chunks) = Ok cs.
Proof. exact p_c134_utf32. Qed.
Print Assumptions C134_to_utf32.
(** What is held back tells whether what has arrived so far can be the beginning of
    a valid string: exactly if it is a beginning, and not all, of one sequence.
    Then it has at most three bytes. *)
Theorem C134_held_back : forall chunks cs r, Fed [] chunks cs r ->
  ((exists rest, is_valid_utf8 (concat chunks ++ rest) = Ok true) <-> exists g c v, uchar g c /\ g = r ++ v /\ v <> []) /\
  ((exists rest, is_valid_utf8 (concat chunks ++ rest) = Ok true) -> (length r <= 3)%nat).
Proof. exact p_c134_held. Qed.
Print Assumptions C134_held_back.
(** U+20AC in three pieces *)
Example C134_ex : Fed [] [[x61; xe2]; [x82]; [xac; x62]] [0x61; 0x20AC; 0x62] [].
Proof. apply C134_to_utf32. reflexivity. Qed.
Example C134_ex_held : Fed [] [[x61; xe2]; [x82]] [0x61] [xe2; x82].
Proof.
  apply (Fed_chunk [] [x61; xe2] [0x61] [xe2] [[x82]] [] [xe2; x82]).
  - apply (Popped_some 0 _ 0x61 [xe2]); [reflexivity|]. now apply (Popped_throw 0 _ YstringException).
  - apply (Fed_chunk [xe2] [x82] [] [xe2; x82] [] [] [xe2; x82]); [|constructor]. now apply (Popped_throw 0 _ YstringException).
Qed.
