(** Model of the functions that let an object of the caller grow, when memory can
    run out: append(std::string&, char32_t), replace_invalid_utf8(std::string&,
    char32_t) and the functions that add to a CodepointSet.  Model/Search.v and Model/CodepointSet.v have the same functions
    without this possibility.  All other functions of the library only let
    objects of their own grow, which are gone when an exception leaves them. *)
From Verif Require Import Base Model.Decode Model.Encode Model.Subrange Model.Search Model.CodepointSet Model.Callbacks.

(** One call that can need memory: std::string::push_back, std::vector::emplace_back
    (the elements are pairs of char32_t, which move without exceptions), or the
    making of a message.  [mem n] is what happens at the [n]-th such call:
    [None] if it succeeds, otherwise its exception (std::bad_alloc or
    std::length_error), in which case the C++ standard says that the object is
    as it was before the call.  Whether a call really allocates is up to the
    implementation of the standard library, and so part of [mem]. *)
Definition growing {X} (mem : nat -> option exn) (f : X -> X) : fx (X * nat) unit := fun p =>
  let (x, n) := p in
  match mem n with
  | None => (Ok tt, (f x, S n))
  | Some e => (Throw e, (x, S n))
  end.

(** EncodeUtf8.hpp:22-40 with a std::back_insert_iterator: one push_back for every byte. *)
Fixpoint push_bytes (mem : nat -> option exn) (bytes : str) : fx (str * nat) unit :=
  match bytes with
  | [] => fx_lift (Ok tt)
  | b :: bytes' => fx_bind (growing mem (fun s => s ++ [b])) (fun _ => push_bytes mem bytes')
  end.

(** Algorithms.cpp:31-36 [append(std::string&, char32_t)]; the state is the
    caller's string and the number of calls that can need memory so far. *)
Definition append_mem (mem : nat -> option exn) (chr : N) : fx (str * nat) unit :=
  let (bytes, n) := encode_utf8 chr in
  fx_bind (push_bytes mem bytes) (fun _ =>
  if n =? 0 then fx_bind (growing mem (fun s => s)) (fun _ => fx_lift (Throw YstringException))
  else fx_lift (Ok tt)).

(** Char32Set.cpp:16-19 *)
Definition add_range_mem (mem : nat -> option exn) (first last : N) : fx (cpset * nat) unit :=
  growing mem (fun s => CPS (cps_ranges s ++ [(first, last)]) (cps_negated s)).

(** Char32Set.cpp:21-27 *)
Definition add_codepoint_mem (mem : nat -> option exn) (cp : N) : fx (cpset * nat) unit := fun p =>
  let (s, n) := p in
  match rev (cps_ranges s) with
  | (first, second) :: before =>
    if add32 second 1 =? cp then (Ok tt, (CPS (rev before ++ [(first, cp)]) (cps_negated s), n))
    else add_range_mem mem cp cp p
  | [] => add_range_mem mem cp cp p
  end.

(** Char32Set.cpp:29-33 *)
Fixpoint add_codepoints_mem (mem : nat -> option exn) (codepoints : u32str) : fx (cpset * nat) unit :=
  match codepoints with
  | [] => fx_lift (Ok tt)
  | ch :: codepoints' => fx_bind (add_codepoint_mem mem ch) (fun _ => add_codepoints_mem mem codepoints')
  end.

(** Algorithms.cpp:432-440; the state is the local string [result], which can
    need memory at each of the two calls of append. *)
Fixpoint replace_invalid_loop_mem (mem : nat -> option exn) (fuel : nat) (s repl : str) (it prev : nat) : fx (str * nat) nat :=
  match fuel with
  | O => fx_lift OutOfFuel
  | S fuel' =>
    if Nat.eqb it (length s) then fx_lift (Ok prev)
    else
      fx_bind (fx_lift (decode_next s it)) (fun p =>
      let (ch, it) := p in
      if negb (ch =? INVALID_CHAR) then replace_invalid_loop_mem mem fuel' s repl it prev
      else
        fx_bind (growing mem (fun result => result ++ slice s prev it)) (fun _ =>
        fx_bind (growing mem (fun result => result ++ repl)) (fun _ =>
        fx_bind (fx_lift (skip_next s it)) (fun r =>
        let it := match r with Some it' => it' | None => it end in
        replace_invalid_loop_mem mem fuel' s repl it it))))
  end.

(** Algorithms.cpp:424-443; the number is that of the calls that can need memory
    before this one; the string in the state is the local [result]. *)
Definition replace_invalid_utf8_mem (mem : nat -> option exn) (s : str) (chr : N) : fx (str * nat) unit :=
  let (repl, _) := encode_utf8_buf chr 4 in
  fx_bind (replace_invalid_loop_mem mem (S (length s)) s repl 0 0) (fun prev =>
  growing mem (fun result => result ++ skipn prev s)).

(** Algorithms.cpp:445-450 [replace_invalid_utf8(std::string&, char32_t)]: the
    state is the caller's string.  The local result is moved into it, which
    needs no memory; an exception leaves the local result behind. *)
Definition replace_invalid_inplace_mem (mem : nat -> option exn) (chr : N) : fx (str * nat) unit := fun p =>
  let (s, n) := p in
  match is_valid_utf8 s with
  | Ok true => (Ok tt, (s, n))
  | Ok false =>
    let '(o, (result, n)) := replace_invalid_utf8_mem mem s chr ([], n) in
    (o, (match o with Ok _ => result | _ => s end, n))
  | Throw e => (Throw e, (s, n))
  | UB => (UB, (s, n))
  | OutOfFuel => (OutOfFuel, (s, n))
  end.
