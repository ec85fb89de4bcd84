(** Normalization form D and canonical equivalence, as the Unicode standard has
    them (chapter 3, sections 3.7, 3.11 and 3.12), over the data of UnicodeData.
    Nothing here mentions the library. *)
From Verif Require Import Base Tables.UnicodeDataTables Tables.CanonicalTables.

(** The decomposition of a Hangul syllable is not listed but computed: leading
    consonant, vowel and possibly a trailing consonant. *)
Definition hangul (c : N) : Prop := 0xAC00 <= c <= 0xD7A3.
Definition jamo (c : N) : list N :=
  let s := c - 0xAC00 in
  [0x1100 + s / 588; 0x1161 + s mod 588 / 28] ++ (if s mod 28 =? 0 then [] else [0x11A7 + s mod 28]).

(** [CanonicalMapping c m]: the canonical decomposition mapping of [c] is [m]. *)
Inductive CanonicalMapping : N -> list N -> Prop :=
| map_pair c a b : In (c, (a, b)) UD_PAIRS -> CanonicalMapping c [a; b]
| map_singleton c a : In (c, a) UD_SINGLETONS -> CanonicalMapping c [a]
| map_hangul c : hangul c -> CanonicalMapping c (jamo c).

(** [FullyDecomposed cs ds]: replacing code points by their mappings until none
    has one turns the text [cs] into [ds]. *)
Inductive FullyDecomposed : list N -> list N -> Prop :=
| fully_end : FullyDecomposed [] []
| fully_keep c cs ds : (forall m, ~ CanonicalMapping c m) -> FullyDecomposed cs ds -> FullyDecomposed (c :: cs) (c :: ds)
| fully_map c m cs ds : CanonicalMapping c m -> FullyDecomposed (m ++ cs) ds -> FullyDecomposed (c :: cs) ds.

(** The canonical combining class. *)
Definition combining_class (c : N) : N :=
  match find (fun p => fst p =? c) UD_COMBINING with Some (_, k) => k | None => 0 end.

(** Two neighbours are out of order if the class of the first is greater than
    that of the second, which is not 0.  Canonical ordering swaps such
    neighbours until there are none. *)
Definition out_of_order (a b : N) : Prop := 0 < combining_class b < combining_class a.
Inductive Reordered : list N -> list N -> Prop :=
| reo_done cs : Reordered cs cs
| reo_swap u a b v cs : out_of_order a b -> Reordered (u ++ b :: a :: v) cs -> Reordered (u ++ a :: b :: v) cs.
Definition Ordered (cs : list N) : Prop := forall u a b v, cs = u ++ a :: b :: v -> ~ out_of_order a b.

(** [NFD cs ds]: the normalization form D of [cs] is [ds]. *)
Definition NFD (cs ds : list N) : Prop := exists es, FullyDecomposed cs es /\ Reordered es ds /\ Ordered ds.

(** Canonical equivalence: the same normalization form D. *)
Definition Equivalent (cs ds : list N) : Prop := exists ns, NFD cs ns /\ NFD ds ns.
