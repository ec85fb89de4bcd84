(** Specification of UTF-8, independent of the model's masks and shifts. *)
From Verif Require Import Base.

(** A continuation byte. *)
Definition cont (b : byte) : Prop := 0x80 <= u8 b < 0xC0.

(** [uchar g c]: [g] is one generalised UTF-8 sequence with value [c]: a lead
    byte followed by exactly the number of continuation bytes it announces.
    No shortest-form, surrogate or U+10FFFF restriction. *)
Inductive uchar : str -> N -> Prop :=
| uchar1 a : u8 a < 0x80 -> uchar [a] (u8 a)
| uchar2 a b : 0xC0 <= u8 a < 0xE0 -> cont b ->
    uchar [a; b] ((u8 a - 0xC0) * 64 + (u8 b - 0x80))
| uchar3 a b c : 0xE0 <= u8 a < 0xF0 -> cont b -> cont c ->
    uchar [a; b; c] ((u8 a - 0xE0) * 4096 + (u8 b - 0x80) * 64 + (u8 c - 0x80))
| uchar4 a b c d : 0xF0 <= u8 a < 0xF8 -> cont b -> cont c -> cont d ->
    uchar [a; b; c; d]
      ((u8 a - 0xF0) * 262144 + (u8 b - 0x80) * 4096 + (u8 c - 0x80) * 64 + (u8 d - 0x80)).

(** [Text s cs]: [s] is the concatenation of sequences with values [cs]. *)
Inductive Text : str -> list N -> Prop :=
| Text_nil : Text [] []
| Text_cons g c s cs : uchar g c -> Text s cs -> Text (g ++ s) (c :: cs).

(** No sequence starts / ends here, although there are bytes. *)
Definition Malformed (r : str) : Prop :=
  r <> [] /\ forall g c t, uchar g c -> r <> g ++ t.
Definition MalformedEnd (r : str) : Prop :=
  r <> [] /\ forall g c t, uchar g c -> r <> t ++ g.

(** RFC 3629, section 3: the encoding of a code point as bytes. *)
Definition rfc3629_bytes (c : N) : list N :=
  if c <=? 0x7F then [c]
  else if c <=? 0x7FF then [0xC0 + c / 64; 0x80 + c mod 64]
  else if c <=? 0xFFFF then [0xE0 + c / 4096; 0x80 + (c / 64) mod 64; 0x80 + c mod 64]
  else [0xF0 + c / 262144; 0x80 + (c / 4096) mod 64; 0x80 + (c / 64) mod 64; 0x80 + c mod 64].

(** [g] is the RFC 3629 byte sequence for [c]. *)
Definition encodes (g : str) (c : N) : Prop := map u8 g = rfc3629_bytes c.

(** [s] is the concatenation of the encodings of [cs]. *)
Inductive Encoded : str -> list N -> Prop :=
| Encoded_nil : Encoded [] []
| Encoded_cons g c s cs : encodes g c -> Encoded s cs -> Encoded (g ++ s) (c :: cs).

(** Unicode scalar values: everything up to U+10FFFF except surrogates. *)
Definition scalar (c : N) : Prop := c <= 0x10FFFF /\ ~ (0xD800 <= c <= 0xDFFF).

(** RFC 3629 validity of a byte string. *)
Definition rfc3629_valid (s : str) : Prop := exists cs, Encoded s cs /\ Forall scalar cs.

(** [r] ends with seven or more continuation bytes and does not consist of
    exactly those seven. *)
Definition long_cont_tail (r : str) : Prop :=
  exists y t, r = y ++ t /\ y <> [] /\ length t = 7%nat /\ Forall cont t.
