(** C133: the stream operators for streams in any state. *)
From Coq Require Import String.
From Verif Require Import Base Spec.Utf8Spec Spec.Print Spec.Stream Model.Encode Model.Subrange Model.CodepointSet Model.Print Model.Stream
  Proofs.StreamLemmas.
Local Notation "'#' s" := (list_byte_of_string s%string) (at level 5, only parsing).

(** A Subrange: the opening filled up to the width, the rest as it is, numbers as
    the flags say.  [written] has the stream afterwards, also if it is full. *)
Theorem C133_subrange : forall o r, os_good o = true ->
  exists a b, shown_number o a (sub_offset r) /\ shown_number o b (sub_length r) /\
    written o (os_put_subrange o r) (opening o #"{offset: " ++ a ++ #", length: " ++ b ++ #"}").
Proof. exact p_c133_subrange. Qed.
Print Assumptions C133_subrange.
(** A CodepointSet: what C88 says with the opening filled up. *)
Theorem C133_set : forall o s, os_good o = true ->
  exists body, print_cpset s = (if cps_negated s then #"[^" else #"[") ++ body /\
    written o (os_put_set o s) (opening o (if cps_negated s then #"[^" else #"[") ++ body).
Proof. exact p_c133_set. Qed.
Print Assumptions C133_set.
(** A stream that is not good stays as it is. *)
Theorem C133_not_good : forall o, os_good o = false -> (forall r, os_put_subrange o r = o) /\ (forall s, os_put_set o s = o).
Proof. exact p_c133_bad. Qed.
Print Assumptions C133_not_good.
(** Whatever the state, different Subranges are written differently. *)
Theorem C133_injective : forall o r r', os_good o = true -> os_room o = None ->
  os_text (os_put_subrange o r) = os_text (os_put_subrange o r') -> r = r'.
Proof. exact p_c133_inj. Qed.
Print Assumptions C133_injective.
(** In the default state the operators write what C88 says. *)
Theorem C133_default : forall o, os_good o = true -> os_room o = None -> os_width o = 0 ->
  (forall r, os_base o = BaseDec -> os_uppercase o = false -> os_text (os_put_subrange o r) = os_text o ++ print_subrange r) /\
  (forall s, os_text (os_put_set o s) = os_text o ++ print_cpset s).
Proof. exact p_c133_default. Qed.
Print Assumptions C133_default.

(** std::hex, std::showbase, std::setw(12), std::setfill('.'), std::left; and a
    stream with room for ten more bytes. *)
Example C133_ex :
  os_text (os_put_subrange (OStream #">" true None 12 x2e AdjLeft BaseHex true false) (Sub 255 0)) = #">{offset: ...0xff, length: 0}" /\
  os_text (os_put_set (OStream #">" true None 4 x2e AdjInternal BaseDec false false) (CPS [(0x61, 0x63); (0x20AC, 0x20AC)] true))
    = #">..[^a-c" ++ [xe2; x82; xac; x5d] /\
  os_put_subrange (OStream #">" true (Some 10%nat) 0 x20 AdjRight BaseOct false false) (Sub 8 1)
    = OStream #">{offset: 1" false (Some 0%nat) 0 x20 AdjRight BaseOct false false.
Proof. repeat split; vm_compute; reflexivity. Qed.
