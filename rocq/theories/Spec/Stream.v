(** How numbers look in a stream with given flags. *)
From Verif Require Import Base Spec.Utf8Spec Spec.Escape Model.Stream.

Definition digit_in (base : N) (uppercase : bool) (c : byte) (d : N) : Prop :=
  d < base /\ (d < 10 /\ u8 c = 0x30 + d \/ 10 <= d /\ u8 c = (if uppercase then 0x41 else 0x61) + (d - 10)).

(** A numeral without superfluous leading zeros. *)
Definition PlainNumeral (base : N) (uppercase : bool) (ds : str) (n : N) : Prop :=
  Numeral (digit_in base uppercase) base ds n /\ ds <> [] /\ (forall ds', ds = x30 :: ds' -> ds' = []).

(** What std::showbase puts in front of a number: 0x or 0X in base 16, 0 in
    base 8, nothing in front of 0 or in base 10. *)
Definition base_mark (base : N) (showbase uppercase : bool) (n : N) : str :=
  if negb showbase || (n =? 0) then []
  else if base =? 16 then [x30; if uppercase then x58 else x78]
  else if base =? 8 then [x30] else [].

(** [s] filled up with [c] to [width] bytes, on the right or on the left. *)
Definition filled (left : bool) (width : N) (c : byte) (s : str) : str :=
  let pad := repeat c (N.to_nat (width - size s)) in if left then s ++ pad else pad ++ s.

(** The record [ostream] is the model's; its fields are public state of a
    std::ostream.  [written o o' bs]: the good stream [o] was asked to write [bs]
    and is now [o']: it has taken as much as there was room for, is good if that
    was all, and has forgotten its width but none of its other settings. *)
Definition written (o o' : ostream) (bs : str) : Prop :=
  os_text o' = os_text o ++ match os_room o with None => bs | Some n => firstn n bs end /\
  (os_good o' = true <-> forall n, os_room o = Some n -> (length bs <= n)%nat) /\
  os_room o' = match os_room o with None => None | Some n => Some (n - length bs)%nat end /\
  os_width o' = 0 /\ os_fill o' = os_fill o /\ os_adjust o' = os_adjust o /\
  os_base o' = os_base o /\ os_showbase o' = os_showbase o /\ os_uppercase o' = os_uppercase o.

(** A number as the flags of [o] say. *)
Definition shown_number (o : ostream) (s : str) (n : N) : Prop :=
  let base := match os_base o with BaseDec => 10 | BaseHex => 16 | BaseOct => 8 end in
  exists ds, PlainNumeral base (os_uppercase o) ds n /\ s = base_mark base (os_showbase o) (os_uppercase o) n ++ ds.

(** The first piece of what is written is filled up to the width of [o]. *)
Definition opening (o : ostream) (s : str) : str :=
  filled (match os_adjust o with AdjLeft => true | _ => false end) (os_width o) (os_fill o) s.
