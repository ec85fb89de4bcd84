(** The Python functions on text that the scripts in
    tools/unicode_character_tables use.  A Python string is modelled as its UTF-8
    bytes; the white space of [strip], [split] and [isspace] is that of ASCII (the
    other white space of Unicode is simplified away). *)
From Verif Require Import Base.

Definition py_space (c : byte) : bool :=
  let n := u8 c in (n =? 0x20) || ((0x09 <=? n) && (n <=? 0x0D)) || ((0x1C <=? n) && (n <=? 0x1F)).

(** [s.lstrip()], [s.rstrip()], [s.strip()] *)
Fixpoint py_lstrip (s : str) : str :=
  match s with [] => [] | c :: s' => if py_space c then py_lstrip s' else s end.
Definition py_rstrip (s : str) : str := rev (py_lstrip (rev s)).
Definition py_strip (s : str) : str := py_rstrip (py_lstrip s).

(** [s.split(c)] for a separator of one character *)
Fixpoint py_split (c : byte) (s : str) : list str :=
  match s with
  | [] => [[]]
  | d :: s' =>
    if byte_eqb d c then [] :: py_split c s'
    else match py_split c s' with x :: r => (d :: x) :: r | [] => [[d]] end
  end.
(** [s.split(c, 1)]: the text before and after the first separator *)
Fixpoint py_split1 (c : byte) (s : str) : str * option str :=
  match s with
  | [] => ([], None)
  | d :: s' => if byte_eqb d c then ([], Some s') else let (a, b) := py_split1 c s' in (d :: a, b)
  end.
(** [s.split()]: the parts between runs of white space, no empty ones *)
Fixpoint py_words_loop (s : str) (word : str) : list str :=
  match s with
  | [] => match word with [] => [] | _ => [rev word] end
  | c :: s' =>
    if py_space c then match word with [] => py_words_loop s' [] | _ => rev word :: py_words_loop s' [] end
    else py_words_loop s' (c :: word)
  end.
Definition py_words (s : str) : list str := py_words_loop s [].
(** [sep.join(l)] *)
Fixpoint py_join (sep : str) (l : list str) : str :=
  match l with [] => [] | [x] => x | x :: l' => x ++ sep ++ py_join sep l' end.

(** [s.find(t)]: the text before the first [t] and the text behind it *)
Fixpoint py_cut (t s : str) : option (str * str) :=
  if prefix_eqb t s then Some ([], skipn (length t) s)
  else match s with
       | [] => None
       | c :: s' => match py_cut t s' with Some (a, b) => Some (c :: a, b) | None => None end
       end.
(** [s.rfind("\n")], as the text before and after it *)
Fixpoint py_rcut_newline (s : str) : option (str * str) :=
  match s with
  | [] => None
  | c :: s' =>
    match py_rcut_newline s' with
    | Some (a, b) => Some (c :: a, b)
    | None => if byte_eqb c x0a then Some ([], s') else None
    end
  end.
Definition py_isspace (s : str) : bool := match s with [] => false | _ => forallb py_space s end.

(** [for line in open(name)]: universal newlines (CR LF and CR become LF), and a
    line has its LF at the end *)
Fixpoint py_newlines (s : str) : str :=
  match s with
  | [] => []
  | c :: s' =>
    if byte_eqb c x0d then x0a :: match s' with d :: s'' => if byte_eqb d x0a then py_newlines s'' else py_newlines s' | [] => [] end
    else c :: py_newlines s'
  end.
Fixpoint py_lines_of (s : str) : list str :=
  match s with
  | [] => []
  | c :: s' =>
    if byte_eqb c x0a then [c] :: py_lines_of s'
    else match py_lines_of s' with x :: r => (c :: x) :: r | [] => [[c]] end
  end.
Definition py_lines (s : str) : list str := py_lines_of (py_newlines s).

(** [int(s, 16)], [None] for the ValueError.  Simplified: no sign, no "0x" and no
    underscores, which int accepts as well and no data file has. *)
Definition py_hex_digit (c : byte) : option N :=
  let n := u8 c in
  if (0x30 <=? n) && (n <=? 0x39) then Some (n - 0x30)
  else if (0x41 <=? n) && (n <=? 0x46) then Some (n - 0x41 + 10)
  else if (0x61 <=? n) && (n <=? 0x66) then Some (n - 0x61 + 10)
  else None.
Fixpoint py_hex_loop (s : str) (v : N) : option N :=
  match s with
  | [] => Some v
  | c :: s' => match py_hex_digit c with Some d => py_hex_loop s' (v * 16 + d) | None => None end
  end.
Definition py_int16 (s : str) : option N :=
  match py_strip s with [] => None | t => py_hex_loop t 0 end.

(** [parts[i]] and [parts[-i]]; [None] is an IndexError *)
Definition py_nth {A} (l : list A) (i : nat) : option A := nth_error l i.
Definition py_nth_back {A} (l : list A) (i : nat) : option A := if (i <=? length l)%nat then nth_error l (length l - i) else None.

(** ["0x%0wX" % v]: upper case hexadecimal, at least [w] digits *)
Definition py_hex_char (d : N) : byte := to_char (if d <? 10 then 0x30 + d else 0x41 + (d - 10)).
Fixpoint py_hex_digits (fuel : nat) (v : N) (digits : str) : str :=
  match fuel with
  | O => digits
  | S fuel' =>
    let digits := py_hex_char (v mod 16) :: digits in
    if v / 16 =? 0 then digits else py_hex_digits fuel' (v / 16) digits
  end.
Definition py_format_hex (w : nat) (v : N) : str :=
  let ds := py_hex_digits (S (N.to_nat (N.size v))) v [] in
  x30 :: x78 :: repeat x30 (w - length ds) ++ ds.
