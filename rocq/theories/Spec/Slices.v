(** Counting units (code points, or characters) from either end of a text.  A
    text is given as the list [ps] of its units; the string is [concat ps]. *)
From Verif Require Import Base Spec.Utf8Spec.

(** The unit index that [i] denotes in a text of [n] units: negative indices
    count from the end, indices beyond either end are clamped to it. *)
Definition resolve (n : nat) (i : Z) : nat :=
  if (i <? 0)%Z then Z.to_nat (Z.of_nat n + i) else Nat.min (Z.to_nat i) n.

(** Byte offset of unit number [k], the size of the text for [k] = number of units. *)
Definition offset_of (ps : list str) (k : nat) : N := size (concat (firstn k ps)).

(** Byte offset of unit number [i], [npos] when |i| exceeds the number of units. *)
Definition position (ps : list str) (i : Z) : N :=
  if (Z.of_nat (length ps) <? Z.abs i)%Z then npos else offset_of ps (resolve (length ps) i).

(** The units from [i] up to but not including [j]; none when [j] is not after [i]. *)
Definition units_between (ps : list str) (i j : Z) : list str :=
  let a := resolve (length ps) i in
  let b := resolve (length ps) j in
  firstn (b - a) (skipn a ps).

(** The units before [i], and the units from the later of [i] and [j] on. *)
Definition units_before (ps : list str) (i : Z) : list str := firstn (resolve (length ps) i) ps.
Definition units_after (ps : list str) (i j : Z) : list str :=
  skipn (Nat.max (resolve (length ps) i) (resolve (length ps) j)) ps.

(** Each element is one UTF-8 sequence. *)
Definition Codepoints (ps : list str) : Prop := Forall (fun g => exists c, uchar g c) ps.

(** Any byte string, valid or not, is cut into pieces by the announcements of
    its bytes: a piece is a byte and the continuation bytes that follow it, at
    most as many as the byte announces.  (A byte that can not start a sequence
    takes all continuation bytes that follow.) *)
Definition announced (b : byte) : option nat :=
  if u8 b <? 0x80 then Some 0%nat
  else if u8 b <? 0xC0 then None
  else if u8 b <? 0xE0 then Some 1%nat
  else if u8 b <? 0xF0 then Some 2%nat
  else if u8 b <? 0xF8 then Some 3%nat
  else None.
Inductive Pieces : list str -> Prop :=
| pieces_nil : Pieces []
| pieces_cons b g ps :
    Forall cont g -> (forall n, announced b = Some n -> (length g <= n)%nat) ->
    (announced b = Some (length g) \/ forall x t, concat ps = x :: t -> ~ cont x) ->
    Pieces ps -> Pieces ((b :: g) :: ps).
(** The code points of a valid text of any size, or the pieces of any bytes
    shorter than 2^32 - 1 (where a 32-bit counter ends, see C08). *)
Definition CodeUnits (ps : list str) : Prop :=
  Codepoints ps \/ (Pieces ps /\ size (concat ps) < 0xFFFFFFFF).

(** Each element is one character: a UTF-8 sequence and a run of combining marks;
    every character but the first starts with something else than a mark.  [mk]
    says which code points are marks. *)
Definition one_char (mk : N -> bool) (p : str) : Prop :=
  exists g c u us, p = g ++ u /\ uchar g c /\ Text u us /\ Forall (fun m => mk m = true) us.
Definition starts_unmarked (mk : N -> bool) (p : str) : Prop :=
  exists g c t, p = g ++ t /\ uchar g c /\ mk c = false.
Definition Characters (mk : N -> bool) (ps : list str) : Prop :=
  Forall (one_char mk) ps /\ Forall (starts_unmarked mk) (tl ps).
