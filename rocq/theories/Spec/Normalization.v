(** Canonical decomposition and composition, in terms of the two-element
    canonical decompositions that UnicodeData lists. *)
From Verif Require Import Base Spec.Utf8Spec Tables.UnicodeDataTables.

(** UnicodeData: the canonical decomposition of [c] is [a] [b]. *)
Definition has_pair (c a b : N) : Prop := In (c, (a, b)) UD_PAIRS.

(** [FullDecomp c ds]: replacing the first element by its two-element
    decomposition, again and again, turns [c] into [ds]. *)
Inductive FullDecomp : N -> list N -> Prop :=
| full_atom c : (forall a b, ~ has_pair c a b) -> FullDecomp c [c]
| full_pair c a b ds : has_pair c a b -> FullDecomp a ds -> FullDecomp c (ds ++ [b]).

(** [DecomposedTo s r t]: decomposing [s] up to its suffix [r] gives [t]; each
    code point on the way has a decomposition of at most three elements.  A
    code point without a decomposition keeps its bytes. *)
Inductive DecomposedTo : str -> str -> str -> Prop :=
| dec_here s : DecomposedTo s s []
| dec_keep g c s r t : uchar g c -> FullDecomp c [c] -> DecomposedTo s r t -> DecomposedTo (g ++ s) r (g ++ t)
| dec_split g c ds b s r t : uchar g c -> FullDecomp c ds -> (2 <= length ds <= 3)%nat -> Encoded b ds ->
    DecomposedTo s r t -> DecomposedTo (g ++ s) r (b ++ t).

(** ** Composition, as the implementation has it *)

(** The pair the implementation looks up for [a] followed by [m]: bits 20 and
    up of [m] are mixed with [a]. *)
Definition looked_up (a m : N) : N * N := (N.lor a (m / 0x100000), m mod 0x100000).

(** [composes adjacent a m d]: the implementation composes [a] and [m] to [d]:
    a listed pair with its first element below U+1000; not the very first one
    if the two tables happen to be [adjacent] in memory. *)
Definition composes (adjacent : bool) (a m d : N) : Prop :=
  0x300 <= m /\ has_pair d (fst (looked_up a m)) (snd (looked_up a m)) /\ fst (looked_up a m) < 0x1000 /\
  ~ (adjacent = true /\ d = 0x226E).

(** The look-up runs off the end of the table: the pair comes after the last
    one, (U+1D1BC, U+1D16F). *)
Definition off_table (a m : N) : Prop :=
  0x300 <= m /\
  (0x1D1BC < fst (looked_up a m) \/ (fst (looked_up a m) = 0x1D1BC /\ 0x1D16F < snd (looked_up a m))).

Inductive segment : Type :=
| Copied (g : str)     (* a character that was not composed *)
| Made (b : str).      (* the bytes of a composed character *)

(** [Composing adjacent s segs c]: reading the non-empty text [s] from left to
    right, composing each character with the one before when possible, gives
    the segments [segs], the last of which stands for the character [c]. *)
Inductive Composing (adjacent : bool) : str -> list segment -> N -> Prop :=
| comp_first g c : uchar g c -> Composing adjacent g [Copied g] c
| comp_join s segs x c g m d b : Composing adjacent s (segs ++ [x]) c -> uchar g m ->
    composes adjacent c m d -> encodes b d -> Composing adjacent (s ++ g) (segs ++ [Made b]) d
| comp_next s segs c g m : Composing adjacent s segs c -> uchar g m ->
    (forall d, ~ composes adjacent c m d) -> ~ off_table c m ->
    Composing adjacent (s ++ g) (segs ++ [Copied g]) m.

(** What composing should write ... *)
Definition whole (segs : list segment) : str :=
  flat_map (fun x => match x with Copied g => g | Made b => b end) segs.

(** ... and what is written: a copied character directly after a composed one
    is lost when it is the last or is directly followed by another composed
    one. *)
Fixpoint kept (after_made : bool) (segs : list segment) : str :=
  match segs with
  | [] => []
  | Made b :: r => b ++ kept true r
  | Copied g :: r =>
    (match r with
     | [] => if after_made then [] else g
     | Made _ :: _ => if after_made then [] else g
     | Copied _ :: _ => g
     end) ++ kept false r
  end.
