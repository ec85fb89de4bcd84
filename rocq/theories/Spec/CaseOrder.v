(** The code points for which one of two case conversions in a row leaves a trace of
    the first. *)
From Verif Require Import Base.

(** [n] code points from [a] on. *)
Definition stretch (a : N) (n : nat) : list N := map (fun i => a + N.of_nat i) (seq 0 n).

(** Capitals that are not the upper case of their lower case: I with dot, theta symbol,
    sharp S, and the signs for Ohm, Kelvin and Angstrom. *)
Definition lone_capitals : list N := [0x130; 0x3F4; 0x1E9E; 0x2126; 0x212A; 0x212B].
(** Small letters that are not the lower case of their upper case: micro sign, dotless i,
    long s, iota below, final sigma, the Greek symbols, the Cyrillic variants, long s with
    dot, and the prosgegrammeni. *)
Definition lone_smalls : list N :=
  [0xB5; 0x131; 0x17F; 0x345; 0x3C2; 0x3D0; 0x3D1; 0x3D5; 0x3D6; 0x3F0; 0x3F1; 0x3F5;
   0x1C80; 0x1C81; 0x1C82; 0x1C83; 0x1C84; 0x1C85; 0x1C86; 0x1C87; 0x1C88; 0x1E9B; 0x1FBE].
(** Georgian letters have capitals that are not used as title case. *)
Definition georgian_smalls : list N := stretch 0x10D0 43 ++ stretch 0x10FD 3.
Definition georgian_capitals : list N := stretch 0x1C90 43 ++ stretch 0x1CBD 3.
