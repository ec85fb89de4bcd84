(** Model of the functions that change variables of the caller, with the values
    those have afterwards also when the function throws.  Model/Decode.v,
    Model/Search.v and Model/Unescape.v have the same functions with the new
    values as part of the result. *)
From Verif Require Import Base Model.Decode Model.Encode Model.Subrange Model.Search Model.Unescape Model.Callbacks.

(** A function that reads, or replaces, the variable [X]; when the new value can
    not be computed the variable is left alone. *)
Definition reading {X A} (f : X -> outcome A) : fx X A := fun x => (f x, x).
Definition writing {X} (f : X -> outcome X) : fx X unit := fun x =>
  match f x with
  | Ok x' => (Ok tt, x')
  | Throw e => (Throw e, x)
  | UB => (UB, x)
  | OutOfFuel => (OutOfFuel, x)
  end.

(** DecodeUtf8.hpp:182-191 [safe_decode_next(it, end, ch)]; the caller's
    variables are [it] and [ch]. *)
Definition safe_decode_next_ref (s : str) : fx (nat * N) bool := fun v =>
  let (it, ch) := v in
  if Nat.eqb it (length s) then (Ok false, (it, ch))
  else
    match decode_next s it with
    | Ok (ch, it) => if ch =? INVALID_CHAR then (Throw YstringException, (it, ch)) else (Ok true, (it, ch))
    | Throw e => (Throw e, (it, ch))
    | UB => (UB, (it, ch))
    | OutOfFuel => (OutOfFuel, (it, ch))
    end.

(** DecodeUtf8.hpp:193-202 [safe_decode_prev(begin, it, ch)] *)
Definition safe_decode_prev_ref (s : str) : fx (nat * N) bool := fun v =>
  let (it, ch) := v in
  if Nat.eqb 0 it then (Ok false, (it, ch))
  else
    match decode_prev s it with
    | Ok (ch, it) => if ch =? INVALID_CHAR then (Throw YstringException, (it, ch)) else (Ok true, (it, ch))
    | Throw e => (Throw e, (it, ch))
    | UB => (UB, (it, ch))
    | OutOfFuel => (OutOfFuel, (it, ch))
    end.

(** DecodeUtf8.hpp:213-222; the caller's variable is the view.  [it] and [ch] are
    local; [ch] starts with any value. *)
Definition pop_utf8_codepoint_ref (ch0 : N) : fx str (option N) := fun s =>
  match safe_decode_next_ref s (0%nat, ch0) with
  | (Ok false, _) => (Ok None, s)
  | (Ok true, (it, ch)) => (Ok (Some ch), skipn it s)
  | (Throw e, _) => (Throw e, s)
  | (UB, _) => (UB, s)
  | (OutOfFuel, _) => (OutOfFuel, s)
  end.

(** DecodeUtf8.hpp:233-242 *)
Definition pop_last_utf8_codepoint_ref (ch0 : N) : fx str (option N) := fun s =>
  match safe_decode_prev_ref s (length s, ch0) with
  | (Ok false, _) => (Ok None, s)
  | (Ok true, (it, ch)) => (Ok (Some ch), firstn it s)
  | (Throw e, _) => (Throw e, s)
  | (UB, _) => (UB, s)
  | (OutOfFuel, _) => (OutOfFuel, s)
  end.

(** Unescape.cpp:178-229; the caller's variable is the buffer. *)
Fixpoint unescape_loop_ref (fuel : nat) (from to : N) : fx str N :=
  match fuel with
  | O => fx_lift OutOfFuel
  | S fuel' =>
    fx_bind (reading (fun buf => find_first_escaped_char buf from)) (fun sub =>
    fx_bind (if negb (from =? to) then writing (fun buf => copy_within buf from (sub_start sub) to) else fx_lift (Ok tt)) (fun _ =>
    let to := add64 to (sub64 (sub_start sub) from) in
    if negb (sub_bool sub) then fx_lift (Ok to)
    else
      fx_bind (reading (fun buf => unescape_one buf sub)) (fun p =>
      let (ch, sub) := p in
      let (bytes, n) := encode_utf8 ch in
      fx_bind (writing (fun buf => write_at buf to bytes)) (fun _ =>
      unescape_loop_ref fuel' (sub_end sub) (add64 to n)))))
  end.

(** Unescape.cpp:173-231 [unescape(char*, size_t)] *)
Definition unescape_buf_ref : fx str N := fun buf => unescape_loop_ref (S (length buf)) 0 0 buf.
