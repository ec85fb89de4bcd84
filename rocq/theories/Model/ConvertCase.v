(** Model of src/Ystring/ConvertCase.cpp, src/Ystring/CharMappingTypes.hpp and
    include/Ystring/CaseInsensitive.hpp. *)
From Verif Require Import Base Model.Decode Model.Encode Model.Search Model.CharClass Tables.CaseTables.

(** ConvertCase.cpp:20, [~(char32_t)0x1F] *)
Definition SEGMENT_MASK : N := 0xFFFFFFE0.

(** CharMappingTypes.hpp:17-35 [CompactCharMapping::get]; the shift distance is
    below 32 because [segment] is the code point with its low five bits cleared. *)
Definition compact_get (m : N * N * N * N) (codepoint : N) : option N :=
  let '(segment, offset, affected, ignorable) := m in
  let mask := shl32 1 (codepoint - segment) in
  if negb (N.land mask affected =? 0) then Some (add32 codepoint offset)
  else if negb (N.land mask ignorable =? 0) then Some codepoint
  else None.

Definition segment_of (m : N * N * N * N) : N := let '(segment, _, _, _) := m in segment.

(** ConvertCase.cpp:22-38 *)
Definition find_in_compact_mapping (mapping : list (N * N * N * N)) (codepoint : N) : option N :=
  match lower_bound (fun m => segment_of m <? N.land codepoint SEGMENT_MASK) mapping with
  | None => None
  | Some set =>
    if negb (segment_of set =? N.land codepoint SEGMENT_MASK) then None
    else compact_get set codepoint
  end.

(** ConvertCase.cpp:40-55 *)
Definition find_in_mapping (mapping : list (N * N)) (codepoint : N) : option N :=
  match lower_bound (fun m : N * N => fst m <? codepoint) mapping with
  | None => None
  | Some it => if negb (fst it =? codepoint) then None else Some (snd it)
  end.

(** ConvertCase.cpp:57-68 *)
Definition convert (compact : list (N * N * N * N)) (mapping : list (N * N)) (codepoint : N) : N :=
  match find_in_compact_mapping compact codepoint with
  | Some c => c
  | None =>
    match find_in_mapping mapping codepoint with
    | Some c => c
    | None => codepoint
    end
  end.

(** ConvertCase.cpp:71-84 *)
Definition to_lower (codepoint : N) : N :=
  if codepoint <? 128 then
    if (0x41 <=? codepoint) && (codepoint <=? 0x5A) then codepoint + 32 else codepoint
  else convert COMPACT_LOWER_CASE LOWER_CASE codepoint.

(** ConvertCase.cpp:86-99 *)
Definition to_title (codepoint : N) : N :=
  if codepoint <? 128 then
    if (0x61 <=? codepoint) && (codepoint <=? 0x7A) then codepoint - 32 else codepoint
  else convert COMPACT_TITLE_CASE TITLE_CASE codepoint.

(** ConvertCase.cpp:101-114 *)
Definition to_upper (codepoint : N) : N :=
  if codepoint <? 128 then
    if (0x61 <=? codepoint) && (codepoint <=? 0x7A) then codepoint - 32 else codepoint
  else convert COMPACT_UPPER_CASE UPPER_CASE codepoint.

(** ConvertCase.cpp:122-123 *)
Fixpoint to_lower_loop (fuel : nat) (s : str) (it : nat) (result : str) : outcome str :=
  match fuel with
  | O => OutOfFuel
  | S fuel' =>
    let* r := safe_decode_next s it in
    match r with
    | None => Ok result
    | Some (ch, it') =>
      let* result := append result (to_lower ch) in to_lower_loop fuel' s it' result
    end
  end.

(** ConvertCase.cpp:116-125 [to_lower(std::string_view)] *)
Definition to_lower_str (s : str) : outcome str := to_lower_loop (S (length s)) s 0 [].

(** U'ß' *)
Definition SHARP_S : N := 0xDF.

(** ConvertCase.cpp:134-155 *)
Fixpoint to_title_loop (fuel : nat) (s : str) (it : nat) (preceded_by_letter : bool) (result : str)
  : outcome str :=
  match fuel with
  | O => OutOfFuel
  | S fuel' =>
    let* r := safe_decode_next s it in
    match r with
    | None => Ok result
    | Some (ch, it') =>
      if negb (is_letter ch) then
        let* result := append result ch in to_title_loop fuel' s it' false result
      else if preceded_by_letter then
        let* result := append result (to_lower ch) in
        to_title_loop fuel' s it' preceded_by_letter result
      else if negb (ch =? SHARP_S) then
        let* result := append result (to_title ch) in to_title_loop fuel' s it' true result
      else to_title_loop fuel' s it' true (result ++ [x53; x73])    (* "Ss" *)
    end
  end.

(** ConvertCase.cpp:127-157 [to_title(std::string_view)] *)
Definition to_title_str (s : str) : outcome str := to_title_loop (S (length s)) s 0 false [].

(** ConvertCase.cpp:165-171 *)
Fixpoint to_upper_loop (fuel : nat) (s : str) (it : nat) (result : str) : outcome str :=
  match fuel with
  | O => OutOfFuel
  | S fuel' =>
    let* r := safe_decode_next s it in
    match r with
    | None => Ok result
    | Some (ch, it') =>
      if negb (ch =? SHARP_S) then
        let* result := append result (to_upper ch) in to_upper_loop fuel' s it' result
      else to_upper_loop fuel' s it' (result ++ [x53; x53])         (* "SS" *)
    end
  end.

(** ConvertCase.cpp:159-173 [to_upper(std::string_view)] *)
Definition to_upper_str (s : str) : outcome str := to_upper_loop (S (length s)) s 0 [].

(** [static_cast<int32_t>] of a 32-bit unsigned value (C++20: modulo 2^32). *)
Definition to_int32 (x : N) : Z :=
  if x <? 0x80000000 then Z.of_N x else (Z.of_N x - Z.of_N W32)%Z.

(** CaseInsensitive.hpp:17-20 (also CaseInsensitiveCompare, 32-38) *)
Definition case_insensitive_compare (lhs rhs : N) : Z :=
  to_int32 (sub32 (to_upper lhs) (to_upper rhs)).

(** CaseInsensitive.hpp:22-25 (also CaseInsensitiveEqual, 40-46) *)
Definition case_insensitive_equal (lhs rhs : N) : bool := to_upper lhs =? to_upper rhs.

(** CaseInsensitive.hpp:27-30 (also CaseInsensitiveLess, 48-54) *)
Definition case_insensitive_less (lhs rhs : N) : bool := to_upper lhs <? to_upper rhs.
