(** The words of a text: its longest stretches without the code points [chars]. *)
From Verif Require Import Base Spec.Utf8Spec.

Definition Gap (chars : list N) (g : str) : Prop := exists gs, Text g gs /\ Forall (fun c => In c chars) gs.
Definition Word (chars : list N) (w : str) : Prop := w <> [] /\ exists us, Text w us /\ Forall (fun c => ~ In c chars) us.
(** [Words chars s ws]: [s] is a gap, perhaps empty, or goes on with a word and then
    ends or goes on with a gap that is not empty. *)
Inductive Words (chars : list N) : str -> list str -> Prop :=
| words_none g : Gap chars g -> Words chars g []
| words_last g w : Gap chars g -> Word chars w -> Words chars (g ++ w) [w]
| words_more g w h r ws : Gap chars g -> Word chars w -> Gap chars h -> h <> [] -> Words chars r ws ->
    Words chars (g ++ w ++ h ++ r) (w :: ws).
