(** Model of include/Ystring/Subrange.hpp and src/Ystring/Subrange.cpp. *)
From Verif Require Import Base.

(** Subrange.hpp:16-51 *)
Record subrange : Type := Sub { sub_offset : N; sub_length : N }.

(** Subrange.hpp:18 and 49-50: the default-constructed Subrange. *)
Definition sub_default : subrange := Sub SIZE_MAX 0.

(** Subrange.hpp:24-26 *)
Definition sub_at (offset : N) : subrange := Sub offset 0.

(** Subrange.hpp:28-32, with iterators as positions; std::distance is
    non-negative at every call. *)
Definition sub_its (b sb se : nat) : subrange :=
  Sub (N.of_nat (sb - b)) (N.of_nat (se - sb)).

(** Subrange.hpp:34-37 *)
Definition sub_start (r : subrange) : N := sub_offset r.

(** Subrange.hpp:39-42; size_t addition wraps. *)
Definition sub_end (r : subrange) : N := add64 (sub_offset r) (sub_length r).

(** Subrange.hpp:44-47 [operator bool] *)
Definition sub_bool (r : subrange) : bool := negb (sub_length r =? 0).

(** Subrange.hpp:53-56 *)
Definition sub_eqb (a b : subrange) : bool :=
  (sub_offset a =? sub_offset b) && (sub_length a =? sub_length b).
