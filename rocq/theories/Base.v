(** Base definitions shared by the whole model: outcomes, bytes, C++ integer
    widths, and the pieces of the C++ standard library the code calls.  There
    are no proofs in this file. *)
From Coq Require Export List NArith ZArith Bool Lia.
From Coq Require Export Strings.Byte.
Export ListNotations.
Open Scope N_scope.

(** ** Outcomes of a C++ computation *)

Inductive exn : Type :=
| YstringException   (* include/Ystring/YstringException.hpp:22-26 *)
| StdOutOfRange      (* thrown by std::string_view::substr when pos > size *)
| UserException (tag : N).  (* anything else, thrown by a callback *)

(** [UB] is undefined behaviour of the C++ abstract machine (out-of-range
    dereference, over-wide shift, signed overflow, indeterminate value).
    [OutOfFuel] is not a C++ outcome: a loop was cut off by the model. *)
Inductive outcome (A : Type) : Type :=
| Ok (a : A)
| Throw (e : exn)
| UB
| OutOfFuel.
Arguments Ok {A} a.
Arguments Throw {A} e.
Arguments UB {A}.
Arguments OutOfFuel {A}.

Definition bind {A B} (m : outcome A) (k : A -> outcome B) : outcome B :=
  match m with
  | Ok a => k a
  | Throw e => Throw e
  | UB => UB
  | OutOfFuel => OutOfFuel
  end.

Notation "'let*' x := m 'in' k" := (bind m (fun x => k))
  (at level 200, x pattern, m at level 100, k at level 200, right associativity).

Definition omap {A B} (f : A -> B) (m : outcome A) : outcome B :=
  let* a := m in Ok (f a).

(** ** Bytes and strings *)

Definition str := list byte.          (* std::string, contents of std::string_view *)
Definition u32str := list N.          (* std::u32string, contents of std::u32string_view *)

(** [uint8_t( *it )] *)
Definition u8 (b : byte) : N := Byte.to_N b.

(** [char(x)]: conversion of an unsigned value to an 8-bit char (modulo 2^8). *)
Definition to_char (x : N) : byte :=
  match Byte.of_N (x mod 256) with Some b => b | None => x00 end.

(** ** Fixed-width unsigned arithmetic *)

Definition W32 : N := 0x100000000.           (* 2^32 *)
Definition W64 : N := 0x10000000000000000.   (* 2^64 *)
Definition SIZE_MAX : N := 0xFFFFFFFFFFFFFFFF.
Definition npos : N := SIZE_MAX.             (* std::string_view::npos *)
Definition UINT32_MAX : N := 0xFFFFFFFF.

Definition add32 (a b : N) : N := (a + b) mod W32.
Definition add64 (a b : N) : N := (a + b) mod W64.
Definition sub64 (a b : N) : N := (a + (W64 - b mod W64)) mod W64.
(** [x << n] on a 32-bit / 64-bit unsigned value; callers check [n] themselves. *)
Definition shl32 (x n : N) : N := (N.shiftl x n) mod W32.
Definition shl64 (x n : N) : N := (N.shiftl x n) mod W64.

(** [ptrdiff_t] *)
Definition PTRDIFF_MAX : Z := 0x7FFFFFFFFFFFFFFF.
Definition PTRDIFF_MIN : Z := (- 0x8000000000000000)%Z.
Definition is_ptrdiff (z : Z) : bool := ((PTRDIFF_MIN <=? z) && (z <=? PTRDIFF_MAX))%Z.

(** A signed result that does not fit [ptrdiff_t] is undefined behaviour. *)
Definition signed (z : Z) : outcome Z := if is_ptrdiff z then Ok z else UB.

(** ** Iterators: positions in a string *)

(** [*it] *)
Definition deref {A} (s : list A) (it : nat) : outcome A :=
  match nth_error s it with Some b => Ok b | None => UB end.

Definition size (s : str) : N := N.of_nat (length s).

(** [str.begin() + offset] *)
Definition begin_plus (s : str) (offset : N) : outcome nat :=
  if offset <=? size s then Ok (N.to_nat offset) else UB.

(** The characters in [[i, j)]; only used with i <= j <= length. *)
Definition slice {A} (s : list A) (i j : nat) : list A := firstn (j - i) (skipn i s).

(** [str.substr(pos, n)] for std::string_view and std::string:
    throws std::out_of_range when pos > size, clamps n otherwise. *)
Definition substr (s : str) (pos n : N) : outcome str :=
  if size s <? pos then Throw StdOutOfRange
  else Ok (firstn (N.to_nat (N.min n (size s - pos))) (skipn (N.to_nat pos) s)).

(** [str.substr(pos)] *)
Definition substr_from (s : str) (pos : N) : outcome str := substr s pos npos.

(** ** Comparison of byte strings ([==] on std::string_view) *)

Definition byte_eqb (a b : byte) : bool := Byte.eqb a b.

Fixpoint str_eqb (a b : str) : bool :=
  match a, b with
  | [], [] => true
  | x :: a', y :: b' => byte_eqb x y && str_eqb a' b'
  | _, _ => false
  end.

(** ** Standard algorithms, modelled by the result the C++ standard prescribes *)

(** Does [needle] match the beginning of [hay]? *)
Fixpoint prefix_eqb (needle hay : str) : bool :=
  match needle, hay with
  | [], _ => true
  | x :: n', y :: h' => byte_eqb x y && prefix_eqb n' h'
  | _ :: _, [] => false
  end.

(** [std::search(hay.begin() + i, hay.end(), needle.begin(), needle.end())]:
    the first position at which [needle] matches, or the end; the start itself
    when [needle] is empty.  [k] bounds the number of positions still to try. *)
Fixpoint search_from (hay needle : str) (i k : nat) : nat :=
  match k with
  | O => length hay
  | S k' => if prefix_eqb needle (skipn i hay) then i else search_from hay needle (S i) k'
  end.

Definition std_search (hay needle : str) (it : nat) : nat :=
  match needle with
  | [] => it
  | _ => search_from hay needle it (length hay - it)
  end.

(** [std::find_if(s.begin() + i, s.end(), pred)] on bytes. *)
Fixpoint find_if_from {A} (pred : A -> bool) (s : list A) (i : nat) : nat :=
  match s with
  | [] => i
  | b :: s' => if pred b then i else find_if_from pred s' (S i)
  end.

Definition std_find_if {A} (pred : A -> bool) (s : list A) (it : nat) : nat :=
  find_if_from pred (skipn it s) it.

(** [std::lower_bound(first, last, v, less)]: position of the first element not
    less than the value.  The standard requires the range to be partitioned;
    this is proved for every table the code searches. *)
Fixpoint lower_bound {A} (less : A -> bool) (l : list A) : option A :=
  match l with
  | [] => None                       (* == end *)
  | x :: l' => if less x then lower_bound less l' else Some x
  end.
