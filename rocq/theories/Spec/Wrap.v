(** Texts put into lines (codegen.py: [join]), and names. *)
From Coq Require Import String.
From Verif Require Import Base.
Local Notation "'#' s" := (list_byte_of_string s%string) (at level 5, only parsing).

(** The texts of one line with separators between them. *)
Fixpoint joined (sep : str) (g : list str) : str :=
  match g with [] => [] | [w] => w | w :: g' => w ++ sep ++ joined sep g' end.
(** The lines: all but the last end with [nl]. *)
Fixpoint group_lines (sep nl : str) (gs : list (list str)) : list str :=
  match gs with [] => [] | [g] => [joined sep g] | g :: gs' => (joined sep g ++ nl) :: group_lines sep nl gs' end.
(** Lines of several texts are not too long. *)
Definition fit (width : nat) (sep : str) (gs : list (list str)) : Prop :=
  Forall (fun g => (2 <= length g)%nat -> (length (joined sep g) <= width)%nat) gs.
(** The first text of a line did not fit into the line before it, or it would
    have been the last there with no place for [nl] behind it. *)
Fixpoint full (width : nat) (sep nl : str) (gs : list (list str)) : Prop :=
  match gs with
  | g :: (((w :: g') :: rest) as gs') =>
    ((width < length (joined sep (g ++ [w])))%nat \/
     (concat (g' :: rest) <> [] /\ (width < length (joined sep (g ++ [w]) ++ nl))%nat)) /\
    full width sep nl gs'
  | _ => True
  end.
Definition wrapped (width : nat) (sep nl : str) (words : list str) (gs : list (list str)) : Prop :=
  concat gs = words /\ Forall (fun g => g <> []) gs /\ fit width sep gs /\ full width sep nl gs.

(** Characters that a C++ name does not have. *)
Definition white (c : byte) : Prop := u8 c = 0x20 \/ 0x09 <= u8 c <= 0x0D \/ 0x1C <= u8 c <= 0x1F.
Definition bad (c : byte) : Prop := white c \/ In c #"'!""#$%&/()=?+*@.:,;<>^`-_[]{}".
(** [parts s ps]: [ps] are the longest parts of [s] without bad characters. *)
Inductive parts : str -> list str -> Prop :=
| parts_end : parts [] []
| parts_bad c s ps : bad c -> parts s ps -> parts (c :: s) ps
| parts_last p : p <> [] -> Forall (fun c => ~ bad c) p -> parts p [p]
| parts_next p c s ps : p <> [] -> Forall (fun c => ~ bad c) p -> bad c -> parts s ps -> parts (p ++ c :: s) (p :: ps).
Definition ascii_upper (c c' : byte) : Prop :=
  (0x61 <= u8 c <= 0x7A /\ u8 c' + 32 = u8 c) \/ (~ 0x61 <= u8 c <= 0x7A /\ c' = c).
