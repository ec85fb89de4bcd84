(** What splitting means. *)
From Verif Require Import Base Spec.Utf8Spec Spec.Strings Spec.Newline.

(** [Cuts first s cuts rest]: [s] is cut from the left, each time at its first
    separator, into the pairs (part, separator) of [cuts], and [rest] is what
    is left.  [first u g v] says that [g] is the first separator of [u ++ g ++ v]. *)
Inductive Cuts (first : str -> str -> str -> Prop) : str -> list (str * str) -> str -> Prop :=
| cuts_nil s : Cuts first s [] s
| cuts_cons u g v cuts rest :
    first u g v -> Cuts first v cuts rest -> Cuts first (u ++ g ++ v) ((u, g) :: cuts) rest.

Definition non_empty (p : str) : bool := match p with [] => false | _ => true end.

(** The parts that are kept: all, or the non-empty ones. *)
Definition kept (ignore_empty : bool) (parts : list str) : list str :=
  if ignore_empty then filter non_empty parts else parts.

(** Separator [sep]: its first occurrence. *)
Definition first_sep (sep u g v : str) : Prop :=
  g = sep /\ forall i, (i < length u)%nat -> ~ occurs_at sep (u ++ sep ++ v) i.

(** Separator: one code point from [chars], none in the part before it. *)
Definition first_char (chars : list N) (u g v : str) : Prop :=
  exists us c, Text u us /\ Forall (fun x => ~ In x chars) us /\ uchar g c /\ In c chars.

(** Separator: a newline, CR LF counting as one.  What follows a single CR is
    the end or a code point other than LF. *)
Definition first_line_end (u g v : str) : Prop :=
  exists us, Text u us /\ no_newline us /\
    ((exists c, uchar g c /\ newline c /\
        (c <> 0x0D \/ v = [] \/ exists d w, d <> 0x0A /\ starts_with_codepoint v d w))
     \/ exists cr lf, g = cr ++ lf /\ uchar cr 0x0D /\ uchar lf 0x0A).

(** Where cutting stops when at most [n] parts (that count) may be cut off: no
    separator is left ([stop]) before the limit, or the last cut reached it. *)
Definition stopped (stop : str -> Prop) (ignore_empty : bool) (n : N) (cuts : list (str * str)) (rest : str) : Prop :=
  let count c := N.of_nat (length (kept ignore_empty (map fst c))) in
  (count cuts < n /\ stop rest) \/ exists c u g, cuts = c ++ [(u, g)] /\ count c < n /\ count cuts = n.

(** A finder as TokenIterator and split_where expect it: it returns a non-empty
    range of its argument, or an empty range, or throws. *)
Definition finds_range {R} (of_range : N -> N -> R) (finder : str -> outcome R) : Prop := forall t,
  (exists o, finder t = Ok (of_range o 0)) \/ (exists e, finder t = Throw e) \/
  exists u g v, t = u ++ g ++ v /\ g <> [] /\ finder t = Ok (of_range (size u) (size g)).

(** No separator in a valid text. *)
Definition no_char (chars : list N) (t : str) : Prop := exists us, Text t us /\ Forall (fun x => ~ In x chars) us.
Definition no_line_end (t : str) : Prop := exists us, Text t us /\ no_newline us.

(** The same on lists of code points. *)
Fixpoint split_on (p : N -> bool) (cs : list N) : list (list N) :=
  match cs with
  | [] => [[]]
  | c :: cs' =>
    if p c then [] :: split_on p cs'
    else match split_on p cs' with
         | x :: r => (c :: x) :: r
         | [] => [[c]]
         end
  end.

Definition is_newline_cp (c : N) : bool := existsb (N.eqb c) [0x0A; 0x0B; 0x0C; 0x0D; 0x85; 0x2028; 0x2029].

Fixpoint split_at_newlines (cs : list N) : list (list N) :=
  match cs with
  | [] => [[]]
  | c :: cs' =>
    if is_newline_cp c then
      match cs' with
      | d :: cs'' => if (c =? 0x0D) && (d =? 0x0A) then [] :: split_at_newlines cs'' else [] :: split_at_newlines cs'
      | [] => [[]; []]
      end
    else match split_at_newlines cs' with
         | x :: r => (c :: x) :: r
         | [] => [[c]]
         end
  end.

(** The same with further code points [extra] ending a line. *)
Definition first_line_end_of (extra : list N) (u g v : str) : Prop :=
  exists us, Text u us /\ no_line_ends extra us /\
    ((exists c, uchar g c /\ line_end extra c /\
        (c <> 0x0D \/ v = [] \/ exists d w, d <> 0x0A /\ starts_with_codepoint v d w))
     \/ exists cr lf, g = cr ++ lf /\ uchar cr 0x0D /\ uchar lf 0x0A).
Definition no_line_end_of (extra : list N) (t : str) : Prop := exists us, Text t us /\ no_line_ends extra us.
Fixpoint split_at_line_ends (extra : list N) (cs : list N) : list (list N) :=
  match cs with
  | [] => [[]]
  | c :: cs' =>
    if is_newline_cp c || existsb (N.eqb c) extra then
      match cs' with
      | d :: cs'' =>
        if (c =? 0x0D) && (d =? 0x0A) then [] :: split_at_line_ends extra cs'' else [] :: split_at_line_ends extra cs'
      | [] => [[]; []]
      end
    else match split_at_line_ends extra cs' with
         | x :: r => (c :: x) :: r
         | [] => [[c]]
         end
  end.

(** Malformed bytes are met before the first separator ends: without one before
    them, or directly behind a CR (where an LF is looked for). *)
Definition malformed_first (chars : list N) (t : str) : Prop :=
  exists u us r, t = u ++ r /\ Text u us /\ Forall (fun x => ~ In x chars) us /\ Malformed r.
Definition malformed_in_line (extra : list N) (t : str) : Prop :=
  exists u us, Text u us /\ no_line_ends extra us /\
    ((exists r, t = u ++ r /\ Malformed r) \/ exists cr r, t = u ++ cr ++ r /\ uchar cr 0x0D /\ Malformed r).
