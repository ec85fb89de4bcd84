(** Model of src/Ystring/Normalize.cpp. *)
From Verif Require Import Base Model.Decode Model.Encode Tables.NormalizationTables.

(** Normalize.cpp:20-31.  [char32_t( *it >> 40)] keeps 24 bits. *)
Definition find_decomposed (ch : N) : N * N :=
  if ch <? 0xC0 then (ch, 0)
  else
    match lower_bound (fun e => e <? shl64 ch 40) TO_DECOMPOSED with
    | None => (ch, 0)
    | Some e =>
      if negb (N.shiftr e 40 mod W32 =? ch) then (ch, 0)
      else (N.land (N.shiftr e 20) 0xFFFFF, N.land e 0xFFFFF)
    end.

(** Is [lower_bound] the first element of the table? *)
Definition lower_bound_is_begin (less : N -> bool) (l : list N) : bool :=
  match l with [] => true | x :: _ => negb (less x) end.

(** Normalize.cpp:33-44.  The iterator into TO_COMPOSED is compared with
    [std::end(TO_DECOMPOSED)], a pointer past another array: [adjacent] says
    whether TO_COMPOSED happens to start exactly there.  The comparison can be
    true only for the first element, and then only if [adjacent].  When the
    search ends at [std::end(TO_COMPOSED)] the code dereferences it. *)
Definition find_composed (adjacent : bool) (ch mark : N) : outcome N :=
  if mark <? 0x300 then Ok 0
  else
    let key := N.lor (shl64 ch 20) mark in
    let less := fun e => e <? shl64 key 20 in
    match lower_bound less TO_COMPOSED with
    | None => UB
    | Some e =>
      if (adjacent && lower_bound_is_begin less TO_COMPOSED)
         || negb (N.shiftr e 20 mod W32 =? key)
      then Ok 0
      else Ok (N.land e 0xFFFFF)
    end.

(** Normalize.cpp:50-54 *)
Fixpoint decomposed_size_loop (fuel : nat) (mark : N) (n : N) : outcome N :=
  match fuel with
  | O => OutOfFuel
  | S fuel' =>
    if mark =? 0 then Ok n
    else decomposed_size_loop fuel' (snd (find_decomposed mark)) (add64 n 1)
  end.

(** Normalize.cpp:46-56.  The table has no chain of three marks (proved), so
    four iterations always suffice. *)
Definition get_decomposed_size (ch : N) : outcome N :=
  decomposed_size_loop 4 (snd (find_decomposed ch)) 1.

(** [str[i] = v] in a buffer *)
Definition set_nth (buf : list N) (i : nat) (v : N) : outcome (list N) :=
  if Nat.ltb i (length buf) then Ok (firstn i buf ++ [v] ++ skipn (S i) buf) else UB.

(** Normalize.cpp:88-94.  Result: [inl] the size reported with [false], or
    [inr (buffer, i, norm)] when the loop ends. *)
Fixpoint decompose_loop (fuel : nat) (ch : N) (buf : list N) (i : nat) (norm mark : N)
  : outcome ((N * list N) + (list N * nat * N)) :=
  match fuel with
  | O => OutOfFuel
  | S fuel' =>
    if mark =? 0 then Ok (inr (buf, i, norm))
    else if Nat.eqb (i + 1) (length buf)
    then let* n := get_decomposed_size ch in Ok (inl (n, buf))
    else
      let* buf := set_nth buf i mark in
      let (norm', mark') := find_decomposed norm in
      decompose_loop fuel' ch buf (S i) norm' mark'
  end.

(** Normalize.cpp:58-100 [decompose_char(ch, str, str_size)]: the pair returned
    and the buffer afterwards. *)
Definition decompose_char (ch : N) (buf : list N) : outcome (bool * N * list N) :=
  match buf with
  | [] => let* n := get_decomposed_size ch in Ok (false, n, buf)
  | _ =>
    let (norm, mark) := find_decomposed ch in
    if mark =? 0 then let* buf := set_nth buf 0 norm in Ok (true, 1, buf)
    else if Nat.ltb (length buf) 2
    then let* n := get_decomposed_size ch in Ok (false, n, buf)
    else
      let mark2 := mark in
      let (norm, mark) := find_decomposed norm in
      if mark =? 0 then
        let* buf := set_nth buf 0 norm in
        let* buf := set_nth buf 1 mark2 in
        Ok (true, 2, buf)
      else
        let* buf := set_nth buf 0 mark2 in
        let* r := decompose_loop (S (length buf)) ch buf 1 norm mark in
        match r with
        | inl (n, buf) => Ok (false, n, buf)
        | inr (buf, i, norm) =>
          let* buf := set_nth buf i norm in
          let i := S i in
          Ok (true, N.of_nat i, rev (firstn i buf) ++ skipn i buf)
        end
  end.

(** [basic_string::resize(n)] on a u32string *)
Definition resize (buf : list N) (n : N) : list N :=
  firstn (N.to_nat n) buf ++ repeat 0 (N.to_nat n - length buf).

(** Normalize.cpp:183-191 *)
Definition decompose (ch : N) : outcome (list N) :=
  let* p := decompose_char ch (repeat 0 3) in
  let '(ok, n, buf) := p in
  let buf := resize buf n in
  if negb ok then
    let* p := decompose_char ch buf in
    let '(_, _, buf) := p in Ok buf
  else Ok buf.

(** Normalize.cpp:158-162; the loop may run forever, so [fuel] is a parameter. *)
Fixpoint decompose_until (fuel : nat) (ch : N) (ok : bool) (sz : N) (buf : list N)
  : outcome (N * list N) :=
  if ok then Ok (sz, buf)
  else
    match fuel with
    | O => OutOfFuel
    | S fuel' =>
      let* p := decompose_char ch (resize buf sz) in
      let '(ok, sz, buf) := p in
      decompose_until fuel' ch ok sz buf
    end.

(** [result.append(from, to)] needs from <= to. *)
Definition append_range (result s : str) (from to : nat) : outcome str :=
  if Nat.leb from to && Nat.leb to (length s) then Ok (result ++ slice s from to) else UB.

(** Normalize.cpp:155-178 *)
Fixpoint to_decomposed_loop (inner_fuel fuel : nat) (s : str) (buf : list N) (from it to : nat)
    (result : str) : outcome (str * nat * nat) :=
  match fuel with
  | O => OutOfFuel
  | S fuel' =>
    let* r := safe_decode_next s it in
    match r with
    | None => Ok (result, from, to)
    | Some (ch, it) =>
      let* p := decompose_char ch buf in
      let '(ok, sz, buf) := p in
      let* p := decompose_until inner_fuel ch ok sz buf in
      let (sz, buf) := p in
      if sz =? 1 then to_decomposed_loop inner_fuel fuel' s buf from it it result
      else
        let* result := append_range result s from to in
        to_decomposed_loop inner_fuel fuel' s buf it it it
          (result ++ from_utf32 (firstn (N.to_nat sz) buf))
    end
  end.

(** Normalize.cpp:146-181; [inner_fuel] bounds the [while (!ok)] loop. *)
Definition to_decomposed (inner_fuel : nat) (s : str) : outcome str :=
  let* p := to_decomposed_loop inner_fuel (S (length s)) s (repeat 0 3) 0 0 0 [] in
  let '(result, from, to) := p in
  append_range result s from to.

(** Normalize.cpp:128-136, the inner loop; result: [ch], [mark] and [it] after
    it, and the value of from = prev = to.  [mark] keeps its value when
    safe_decode_next returns false. *)
Fixpoint compose_inner (adjacent : bool) (fuel : nat) (s : str) (ch mark : N) (it base : nat)
  : outcome (N * N * nat * nat) :=
  match fuel with
  | O => OutOfFuel
  | S fuel' =>
    let* r := safe_decode_next s it in
    match r with
    | None => Ok (ch, mark, it, base)
    | Some (mark, it) =>
      let* denorm := find_composed adjacent ch mark in
      if denorm =? 0 then Ok (ch, mark, it, base)
      else compose_inner adjacent fuel' s denorm mark it it
    end
  end.

(** Normalize.cpp:114-141 *)
Fixpoint to_composed_loop (adjacent : bool) (fuel : nat) (s : str) (ch : N) (from it to prev : nat)
    (result : str) : outcome (str * nat * nat) :=
  match fuel with
  | O => OutOfFuel
  | S fuel' =>
    let* r := safe_decode_next s it in
    match r with
    | None => Ok (result, from, prev)
    | Some (mark, it) =>
      let* denorm := find_composed adjacent ch mark in
      if denorm =? 0 then
        to_composed_loop adjacent fuel' s mark from it prev it result
      else
        let* result := append_range result s from to in
        let* p := compose_inner adjacent (S (length s)) s denorm mark it it in
        let '(ch, mark, it, base) := p in
        to_composed_loop adjacent fuel' s mark base it base base (result ++ fst (encode_utf8 ch))
    end
  end.

(** Normalize.cpp:103-144 *)
Definition to_composed (adjacent : bool) (s : str) : outcome str :=
  let* r := safe_decode_next s 0 in
  match r with
  | None => Ok []
  | Some (ch, it) =>
    let* p := to_composed_loop adjacent (S (length s)) s ch 0 it 0 it [] in
    let '(result, from, prev) := p in
    append_range result s from prev
  end.
