(** Model of src/Ystring/Escape.cpp. *)
From Verif Require Import Base Model.Subrange.

(** Escape.cpp:18-25 *)
Definition to_digit (c : N) : byte :=
  if c <? 10 then to_char (0x30 + c)
  else if c <? 36 then to_char (0x41 + (c - 10))
  else x3f.

(** Escape.cpp:31-34, the lambda *)
Definition is_escapable (c : byte) : bool :=
  (u8 c <? 32) || byte_eqb c x22 || byte_eqb c x5c.

(** Escape.cpp:28-36 *)
Definition find_first_escapable_char (s : str) (offset : N) : outcome subrange :=
  let* b := begin_plus s offset in
  let it := std_find_if is_escapable s b in
  Ok (Sub (N.of_nat it) (if Nat.eqb it (length s) then 0 else 1)).

(** Escape.cpp:38-41 *)
Definition has_escapable_chars (s : str) : outcome bool :=
  let* r := find_first_escapable_char s 0 in Ok (sub_bool r).

(** Escape.cpp:51-79: what is pushed after the backslash.  [str[i] & 0xF0u] of
    a char is the unsigned byte masked, whatever the sign of char. *)
Definition escape_body (c : byte) : str :=
  if byte_eqb c x08 then [x62]                 (* b *)
  else if byte_eqb c x0c then [x66]            (* f *)
  else if byte_eqb c x0a then [x6e]            (* n *)
  else if byte_eqb c x0d then [x72]            (* r *)
  else if byte_eqb c x09 then [x74]            (* t *)
  else if byte_eqb c x22 then [x22]
  else if byte_eqb c x5c then [x5c]
  else [x75; x30; x30;                         (* u00 *)
        to_digit (N.shiftr (N.land (u8 c) 0xF0) 4); to_digit (N.land (u8 c) 0xF)].

(** Escape.cpp:47-81 *)
Fixpoint escape_json_loop (fuel : nat) (s : str) (offset : N) (result : str) : outcome (str * N) :=
  match fuel with
  | O => OutOfFuel
  | S fuel' =>
    let* sub := find_first_escapable_char s offset in
    if sub_bool sub then
      let* a := begin_plus s offset in
      let* b := begin_plus s (sub_offset sub) in
      let* c := deref s (N.to_nat (sub_offset sub)) in
      escape_json_loop fuel' s (sub_end sub) (result ++ slice s a b ++ [x5c] ++ escape_body c)
    else Ok (result, offset)
  end.

(** Escape.cpp:43-84 *)
Definition escape_json (s : str) : outcome str :=
  let* p := escape_json_loop (S (length s)) s 0 [] in
  let (result, offset) := p in
  let* a := begin_plus s offset in
  Ok (result ++ skipn a s).
