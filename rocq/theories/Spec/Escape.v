(** Escape sequences: what they look like and what they denote. *)
From Verif Require Import Base Spec.Utf8Spec.

(** ** Numerals *)

Definition hex_digit (c : byte) (d : N) : Prop :=
  (d < 10 /\ u8 c = 0x30 + d)                    (* '0'-'9' *)
  \/ (10 <= d < 16 /\ u8 c = 0x41 + (d - 10))    (* 'A'-'F' *)
  \/ (10 <= d < 16 /\ u8 c = 0x61 + (d - 10)).   (* 'a'-'f' *)
Definition oct_digit (c : byte) (d : N) : Prop := d < 8 /\ u8 c = 0x30 + d.

(** [Numeral digit base ds v]: the digits [ds] written down mean the number [v]. *)
Inductive Numeral (digit : byte -> N -> Prop) (base : N) : str -> N -> Prop :=
| num_nil : Numeral digit base [] 0
| num_snoc ds v c d : Numeral digit base ds v -> digit c d -> Numeral digit base (ds ++ [c]) (v * base + d).
Definition Hex := Numeral hex_digit 16.
Definition Oct := Numeral oct_digit 8.

(** The text does not go on with a digit. *)
Definition stops (digit : byte -> N -> Prop) (r : str) : Prop :=
  match r with [] => True | c :: _ => forall d, ~ digit c d end.

(** ** Escape sequences in the language [unescape] reads *)

(** \a \b \f \n \r \t \v *)
Definition letters : list (byte * N) :=
  [(x61, 0x07); (x62, 0x08); (x66, 0x0C); (x6e, 0x0A); (x72, 0x0D); (x74, 0x09); (x76, 0x0B)].
(** x X u U and the octal digits *)
Definition numeric_letters : list byte :=
  [x78; x58; x75; x55; x30; x31; x32; x33; x34; x35; x36; x37].

Definition high_surrogate (v : N) : Prop := 0xD800 <= v <= 0xDBFF.
Definition low_surrogate (v : N) : Prop := 0xDC00 <= v <= 0xDFFF.
(** [r] goes on with the second half of a surrogate pair. *)
Definition starts_low (r : str) : Prop :=
  exists ds v r', r = [x5c; x75] ++ ds ++ r' /\ length ds = 4%nat /\ Hex ds v /\ low_surrogate v.

(** [Denotes e r v]: the escape sequence [e], followed by the text [r], stands
    for the character [v]. *)
Inductive Denotes : str -> str -> N -> Prop :=
| den_letter c v r : In (c, v) letters -> Denotes [x5c; c] r v
| den_self c r : u8 c < 0x80 -> ~ In c numeric_letters -> (forall v, ~ In (c, v) letters) -> Denotes [x5c; c] r (u8 c)
| den_x x ds v r : x = x78 \/ x = x58 -> (2 <= length ds)%nat -> Hex ds v -> v < 0x100000000 -> stops hex_digit r ->
    Denotes (x5c :: x :: ds) r v
| den_U ds v r : length ds = 8%nat -> Hex ds v -> Denotes (x5c :: x55 :: ds) r v
| den_u ds v r : length ds = 4%nat -> Hex ds v -> ~ high_surrogate v -> Denotes (x5c :: x75 :: ds) r v
| den_pair ds1 hi ds2 lo r : length ds1 = 4%nat -> Hex ds1 hi -> high_surrogate hi ->
    length ds2 = 4%nat -> Hex ds2 lo -> low_surrogate lo ->
    Denotes ((x5c :: x75 :: ds1) ++ (x5c :: x75 :: ds2)) r (0x10000 + (hi - 0xD800) * 0x400 + (lo - 0xDC00))
| den_lone ds v r : length ds = 4%nat -> Hex ds v -> high_surrogate v -> ~ starts_low r -> Denotes (x5c :: x75 :: ds) r v
| den_oct ds v r : (1 <= length ds <= 3)%nat -> Oct ds v -> length ds = 3%nat \/ stops oct_digit r ->
    Denotes (x5c :: ds) r v.

(** The bytes written for a character: its UTF-8 encoding, nothing above U+10FFFF. *)
Definition written (v : N) (b : str) : Prop := (v <= 0x10FFFF /\ encodes b v) \/ (0x10FFFF < v /\ b = []).

(** [Reads ok s r t]: reading [s] up to its suffix [r] gives the text [t]; every
    escape sequence [e], with the text [q] after it, satisfies [ok e q]. *)
Inductive Reads (ok : str -> str -> Prop) : str -> str -> str -> Prop :=
| reads_here s : Reads ok s s []
| reads_copy c s r t : c <> x5c -> Reads ok s r t -> Reads ok (c :: s) r (c :: t)
| reads_escape e v b s r t : Denotes e s v -> ok e s -> written v b -> Reads ok s r t -> Reads ok (e ++ s) r (b ++ t).

(** ** Where the implementation departs from this *)

(** A text starting with an escape sequence that is cut short or not one. *)
Inductive BadEscape : str -> Prop :=
| bad_end : BadEscape [x5c]
| bad_high c r : 0x80 <= u8 c -> BadEscape (x5c :: c :: r)
| bad_x x ds v r : x = x78 \/ x = x58 -> (length ds < 2)%nat -> Hex ds v -> stops hex_digit r -> BadEscape ((x5c :: x :: ds) ++ r)
| bad_u ds v r : (length ds < 4)%nat -> Hex ds v -> r <> [] -> stops hex_digit r -> BadEscape ((x5c :: x75 :: ds) ++ r)
| bad_U ds v r : (length ds < 8)%nat -> Hex ds v -> r <> [] -> stops hex_digit r -> BadEscape ((x5c :: x55 :: ds) ++ r).

(** After the first half of a surrogate pair the six bytes [w] that follow are
    examined on their own; when the first backslash among them starts a bad
    escape sequence (perhaps only because it is cut off by the end of [w]) the
    text is rejected; so it is when nothing but a second \u follows. *)
Definition Obstructed (r : str) : Prop :=
  (exists lits w, firstn 6 r = lits ++ w /\ ~ In x5c lits /\ BadEscape w) \/ r = [x5c; x75].

(** The texts that [unescape] rejects at their first byte. *)
Inductive Rejected : str -> Prop :=
| rej_bad r : BadEscape r -> Rejected r
| rej_no_digits x : x = x75 \/ x = x55 -> Rejected [x5c; x]
| rej_obstructed ds v r : length ds = 4%nat -> Hex ds v -> high_surrogate v -> Obstructed r ->
    Rejected ((x5c :: x75 :: ds) ++ r).

(** The texts whose first escape sequence makes the behaviour undefined:
    \u, \U and octal escapes cut off by the end of the text, \x escapes of 2^32
    and above. *)
Inductive Undefined : str -> Prop :=
| und_u ds v : (1 <= length ds < 4)%nat -> Hex ds v -> Undefined (x5c :: x75 :: ds)
| und_U ds v : (1 <= length ds < 8)%nat -> Hex ds v -> Undefined (x5c :: x55 :: ds)
| und_oct ds v : (1 <= length ds < 3)%nat -> Oct ds v -> Undefined (x5c :: ds)
| und_x x ds v r : x = x78 \/ x = x58 -> Hex ds v -> 0x100000000 <= v -> stops hex_digit r ->
    Undefined ((x5c :: x :: ds) ++ r).

(** The escape sequences [unescape] handles: not a short octal escape at the end
    of the text, and no obstruction after the first half of a surrogate pair. *)
Definition handled (e r : str) : Prop :=
  ~ (r = [] /\ exists ds v, e = x5c :: ds /\ (1 <= length ds < 3)%nat /\ Oct ds v) /\
  ~ (Obstructed r /\ exists ds v, e = x5c :: x75 :: ds /\ length ds = 4%nat /\ Hex ds v /\ high_surrogate v).

(** The extent of an escape sequence at the start of a text, as
    [find_first_escaped_char] reports it; [Overhang] has those cut off by the end of the text. *)
Inductive Extent : str -> N -> Prop :=
| ext_two c r : u8 c < 0x80 -> ~ In c numeric_letters -> Extent (x5c :: c :: r) 2
| ext_x x ds v r : x = x78 \/ x = x58 -> (2 <= length ds)%nat -> Hex ds v -> stops hex_digit r ->
    Extent ((x5c :: x :: ds) ++ r) (2 + size ds)
| ext_u ds v r : length ds = 4%nat -> Hex ds v -> Extent ((x5c :: x75 :: ds) ++ r) 6
| ext_U ds v r : length ds = 8%nat -> Hex ds v -> Extent ((x5c :: x55 :: ds) ++ r) 10
| ext_oct ds v r : (1 <= length ds <= 3)%nat -> Oct ds v -> length ds = 3%nat \/ (r <> [] /\ stops oct_digit r) ->
    Extent ((x5c :: ds) ++ r) (1 + size ds).
(** Escape sequences cut off by the end of the text: the range reported reaches
    beyond the text. *)
Inductive Overhang : str -> N -> Prop :=
| over_u ds v : (length ds < 4)%nat -> Hex ds v -> Overhang (x5c :: x75 :: ds) 6
| over_U ds v : (length ds < 8)%nat -> Hex ds v -> Overhang (x5c :: x55 :: ds) 10
| over_oct ds v : (1 <= length ds < 3)%nat -> Oct ds v -> Overhang (x5c :: ds) 4.

(** ** JSON *)

(** RFC 8259, section 7: the inside of a JSON string, as bytes. *)
Inductive JsonBody : str -> Prop :=
| json_nil : JsonBody []
| json_char c s : 0x20 <= u8 c -> c <> x22 -> c <> x5c -> JsonBody s -> JsonBody (c :: s)
| json_short c s : In c [x22; x5c; x2f; x62; x66; x6e; x72; x74] -> JsonBody s -> JsonBody (x5c :: c :: s)
| json_u ds v s : length ds = 4%nat -> Hex ds v -> JsonBody s -> JsonBody ((x5c :: x75 :: ds) ++ s).

(** The short JSON escapes. *)
Definition json_letters : list (byte * byte) :=
  [(x08, x62); (x0c, x66); (x0a, x6e); (x0d, x72); (x09, x74); (x22, x22); (x5c, x5c)].
Definition must_escape (c : byte) : Prop := u8 c < 0x20 \/ c = x22 \/ c = x5c.
(** [JsonOf s e]: [e] is [s] with each byte that must be escaped replaced by its
    short JSON escape, if it has one, by \u and four digits otherwise. *)
Inductive JsonOf : str -> str -> Prop :=
| jof_nil : JsonOf [] []
| jof_copy c s e : ~ must_escape c -> JsonOf s e -> JsonOf (c :: s) (c :: e)
| jof_short c l s e : In (c, l) json_letters -> JsonOf s e -> JsonOf (c :: s) (x5c :: l :: e)
| jof_u c ds s e : must_escape c -> (forall l, ~ In (c, l) json_letters) -> length ds = 4%nat -> Hex ds (u8 c) ->
    JsonOf s e -> JsonOf (c :: s) ((x5c :: x75 :: ds) ++ e).

(** ** Reading one character at a time *)

(** A backslash followed by a line feed, which [unescape_next] skips. *)
Definition escaped_newline : str := [x5c; x0a].
Definition starts_newline (s : str) : Prop := exists s', s = escaped_newline ++ s'.

(** [NextChar s c s' esc]: [s] starts with the character [c], written as an
    escape sequence if [esc], and goes on with [s'].  In contrast to [Denotes], \x takes one to eight digits and any
    code point may follow a backslash. *)
Inductive NextChar : str -> N -> str -> bool -> Prop :=
| nc_plain g c r : uchar g c -> (forall g', g <> x5c :: g') -> NextChar (g ++ r) c r false
| nc_letter c v r : In (c, v) letters -> NextChar ([x5c; c] ++ r) v r true
| nc_self g c r : uchar g c -> (forall b, g = [b] -> ~ In b numeric_letters /\ (forall v, ~ In (b, v) letters)) ->
    g <> [x0a] -> NextChar (x5c :: g ++ r) c r true
| nc_x x ds v r : x = x78 \/ x = x58 -> (1 <= length ds <= 8)%nat -> Hex ds v -> length ds = 8%nat \/ stops hex_digit r ->
    NextChar ((x5c :: x :: ds) ++ r) v r true
| nc_U ds v r : length ds = 8%nat -> Hex ds v -> NextChar ((x5c :: x55 :: ds) ++ r) v r true
| nc_u ds v r : length ds = 4%nat -> Hex ds v -> ~ high_surrogate v -> NextChar ((x5c :: x75 :: ds) ++ r) v r true
| nc_pair ds1 hi ds2 lo r : length ds1 = 4%nat -> Hex ds1 hi -> high_surrogate hi ->
    length ds2 = 4%nat -> Hex ds2 lo -> low_surrogate lo ->
    NextChar ((x5c :: x75 :: ds1) ++ (x5c :: x75 :: ds2) ++ r) (0x10000 + (hi - 0xD800) * 0x400 + (lo - 0xDC00)) r true
| nc_lone ds v r : length ds = 4%nat -> Hex ds v -> high_surrogate v -> ~ starts_low r ->
    (* \u and four characters after it: four digits *)
    (forall b r', r = [x5c; x75] ++ b ++ r' -> length b = 4%nat -> exists w, Hex b w) ->
    NextChar ((x5c :: x75 :: ds) ++ r) v r true
| nc_oct ds v r : (1 <= length ds <= 3)%nat -> Oct ds v -> length ds = 3%nat \/ stops oct_digit r ->
    NextChar ((x5c :: ds) ++ r) v r true.

(** The escape sequences both readers understand alike: handled by [unescape],
    not a backslash and a line feed, at most eight digits after \x, no value
    above U+10FFFF. *)
Definition common (e r : str) : Prop :=
  handled e r /\ e <> escaped_newline /\
  (forall x ds, e = x5c :: x :: ds -> x = x78 \/ x = x58 -> (length ds <= 8)%nat) /\
  (forall v, Denotes e r v -> v <= 0x10FFFF).
