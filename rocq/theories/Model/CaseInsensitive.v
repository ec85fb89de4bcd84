(** Model of namespace case_insensitive in src/Ystring/Algorithms.cpp and of the
    mismatch helpers of src/Ystring/AlgorithmUtilities.hpp. *)
From Verif Require Import Base Model.Decode Model.Encode Model.Subrange Model.Search Model.Split
  Model.ConvertCase Model.CodepointSet.

(** Algorithms.cpp:519-530.  [fuel] bounds the common prefix. *)
Fixpoint ci_compare_loop (fuel : nat) (s cmp : str) (s_it c_it : nat) : outcome Z :=
  match fuel with
  | O => OutOfFuel
  | S fuel' =>
    let* rs := safe_decode_next s s_it in
    let* rc := safe_decode_next cmp c_it in
    match rs, rc with
    | None, None => Ok 0%Z
    | Some _, None => Ok 1%Z
    | None, Some _ => Ok (-1)%Z
    | Some (s_ch, s_it'), Some (c_ch, c_it') =>
      let result := case_insensitive_compare s_ch c_ch in
      if negb (result =? 0)%Z then Ok result else ci_compare_loop fuel' s cmp s_it' c_it'
    end
  end.

(** Algorithms.cpp:515-531 *)
Definition ci_compare (s cmp : str) : outcome Z := ci_compare_loop (S (length s)) s cmp 0 0.

(** Algorithms.cpp:544-555 *)
Fixpoint ci_equal_loop (fuel : nat) (s cmp : str) (s_it c_it : nat) : outcome bool :=
  match fuel with
  | O => OutOfFuel
  | S fuel' =>
    let* rs := safe_decode_next s s_it in
    let* rc := safe_decode_next cmp c_it in
    match rs, rc with
    | None, None => Ok true
    | Some _, None | None, Some _ => Ok false
    | Some (s_ch, s_it'), Some (c_ch, c_it') =>
      if negb (case_insensitive_equal s_ch c_ch) then Ok false
      else ci_equal_loop fuel' s cmp s_it' c_it'
    end
  end.

(** Algorithms.cpp:540-556 *)
Definition ci_equal (s cmp : str) : outcome bool := ci_equal_loop (S (length s)) s cmp 0 0.

(** Algorithms.cpp:656-667 *)
Fixpoint ci_less_loop (fuel : nat) (s cmp : str) (s_it c_it : nat) : outcome bool :=
  match fuel with
  | O => OutOfFuel
  | S fuel' =>
    let* rs := safe_decode_next s s_it in
    let* rc := safe_decode_next cmp c_it in
    match rs, rc with
    | None, Some _ => Ok true
    | None, None | Some _, None => Ok false
    | Some (s_ch, s_it'), Some (c_ch, c_it') =>
      let result := case_insensitive_compare s_ch c_ch in
      if negb (result =? 0)%Z then Ok (result <? 0)%Z else ci_less_loop fuel' s cmp s_it' c_it'
    end
  end.

(** Algorithms.cpp:652-668 *)
Definition ci_less (s cmp : str) : outcome bool := ci_less_loop (S (length s)) s cmp 0 0.

(** AlgorithmUtilities.hpp:40-62.  Range 1 is [[beg1, end)] of [s1], range 2 is
    [[beg2, end)] of [s2]. *)
Fixpoint next_ci_mismatch (fuel : nat) (s1 s2 : str) (beg1 beg2 : nat) : outcome (nat * nat) :=
  match fuel with
  | O => OutOfFuel
  | S fuel' =>
    let* r1 := safe_decode_next s1 beg1 in
    match r1 with
    | None => Ok (beg1, beg2)
    | Some (ch1, it1) =>
      let* r2 := safe_decode_next s2 beg2 in
      match r2 with
      | None => Ok (beg1, beg2)
      | Some (ch2, it2) =>
        if negb (case_insensitive_equal ch1 ch2) then Ok (beg1, beg2)
        else next_ci_mismatch fuel' s1 s2 it1 it2
      end
    end
  end.

(** AlgorithmUtilities.hpp:64-86.  Range 1 is [[begin, end1)] of [s1], range 2
    is [[begin, end2)] of [s2]. *)
Fixpoint prev_ci_mismatch (fuel : nat) (s1 s2 : str) (end1 end2 : nat) : outcome (nat * nat) :=
  match fuel with
  | O => OutOfFuel
  | S fuel' =>
    let* r1 := safe_decode_prev s1 end1 in
    match r1 with
    | None => Ok (end1, end2)
    | Some (ch1, it1) =>
      let* r2 := safe_decode_prev s2 end2 in
      match r2 with
      | None => Ok (end1, end2)
      | Some (ch2, it2) =>
        if negb (case_insensitive_equal ch1 ch2) then Ok (end1, end2)
        else prev_ci_mismatch fuel' s1 s2 it1 it2
      end
    end
  end.

(** Algorithms.cpp:736-741 *)
Definition ci_starts_with (s cmp : str) : outcome bool :=
  let* p := next_ci_mismatch (S (length s)) s cmp 0 0 in
  Ok (Nat.eqb (snd p) (length cmp)).

(** Algorithms.cpp:533-538 *)
Definition ci_ends_with (s cmp : str) : outcome bool :=
  let* p := prev_ci_mismatch (S (length s)) s cmp (length s) (length cmp) in
  Ok (Nat.eqb (snd p) 0).

(** Algorithms.cpp:570-580 *)
Fixpoint ci_find_first_loop (fuel : nat) (s cmp : str) (ch_cmp : N) (it_cmp it_str it_str_next : nat)
  : outcome subrange :=
  match fuel with
  | O => OutOfFuel
  | S fuel' =>
    let* r := safe_decode_next s it_str_next in
    match r with
    | None => Ok sub_default
    | Some (ch_str, it_str_next) =>
      if case_insensitive_equal ch_str ch_cmp then
        let* p := next_ci_mismatch (S (length s)) s cmp it_str_next it_cmp in
        let (a, b) := p in
        if Nat.eqb b (length cmp) then Ok (sub_its 0 it_str a)
        else ci_find_first_loop fuel' s cmp ch_cmp it_cmp it_str_next it_str_next
      else ci_find_first_loop fuel' s cmp ch_cmp it_cmp it_str_next it_str_next
    end
  end.

(** Algorithms.cpp:558-582 *)
Definition ci_find_first (s cmp : str) (offset : N) : outcome subrange :=
  let* r := safe_decode_next cmp 0 in
  match r with
  | None => Ok sub_default
  | Some (ch_cmp, it_cmp) =>
    let* it_str := begin_plus s offset in
    ci_find_first_loop (S (length s)) s cmp ch_cmp it_cmp it_str it_str
  end.

(** Algorithms.cpp:618-628 *)
Fixpoint ci_find_last_loop (fuel : nat) (s cmp : str) (ch_cmp : N) (it_cmp it_str it_str_prev : nat)
  : outcome subrange :=
  match fuel with
  | O => OutOfFuel
  | S fuel' =>
    let* r := safe_decode_prev s it_str_prev in
    match r with
    | None => Ok sub_default
    | Some (ch_str, it_str_prev) =>
      if case_insensitive_equal ch_str ch_cmp then
        let* p := prev_ci_mismatch (S (length s)) s cmp it_str_prev it_cmp in
        let (a, b) := p in
        if Nat.eqb b 0 then Ok (sub_its 0 a it_str)
        else ci_find_last_loop fuel' s cmp ch_cmp it_cmp it_str_prev it_str_prev
      else ci_find_last_loop fuel' s cmp ch_cmp it_cmp it_str_prev it_str_prev
    end
  end.

(** Algorithms.cpp:604-630 *)
Definition ci_find_last (s cmp : str) (offset : N) : outcome subrange :=
  let* r := safe_decode_prev cmp (length cmp) in
  match r with
  | None => Ok sub_default
  | Some (ch_cmp, it_cmp) =>
    let offset := N.min offset (size s) in
    let* it_str := begin_plus s offset in
    ci_find_last_loop (S (length s)) s cmp ch_cmp it_cmp it_str it_str
  end.

(** Algorithms.cpp:584-593 *)
Definition ci_find_first_of (s : str) (chars : u32str) (offset : N) : outcome (subrange * N) :=
  find_first_where s (fun c => u32_ci_contains chars c) offset.

(** Algorithms.cpp:595-602 *)
Definition ci_find_first_of_set (s : str) (chars : cpset) (offset : N) : outcome (subrange * N) :=
  find_first_where s (fun c => cps_ci_contains chars c) offset.

(** Algorithms.cpp:632-641 *)
Definition ci_find_last_of (s : str) (chars : u32str) (offset : N) : outcome (subrange * N) :=
  find_last_where s (fun c => u32_ci_contains chars c) offset.

(** Algorithms.cpp:643-650 *)
Definition ci_find_last_of_set (s : str) (chars : cpset) (offset : N) : outcome (subrange * N) :=
  find_last_where s (fun c => cps_ci_contains chars c) offset.

(** Algorithms.cpp:678-686 *)
Fixpoint ci_replace_front_loop (fuel : nat) (s from to : str) (m : Z) (result : str)
  : outcome (str * str) :=
  match fuel with
  | O => OutOfFuel
  | S fuel' =>
    if (0 <? m)%Z then
      let* mt := ci_find_first s from 0 in
      if negb (sub_bool mt) then Ok (result, s)
      else
        let* a := substr s 0 (sub_start mt) in
        let* s' := substr_from s (sub_end mt) in
        ci_replace_front_loop fuel' s' from to (m - 1)%Z (result ++ a ++ to)
    else Ok (result, s)
  end.

(** Algorithms.cpp:693-702 *)
Fixpoint ci_collect_last (fuel : nat) (tmp from : str) (m : Z) (matches : list subrange)
  : outcome (list subrange) :=
  match fuel with
  | O => OutOfFuel
  | S fuel' =>
    if (m <? 0)%Z then
      let* mt := ci_find_last tmp from npos in
      if negb (sub_bool mt) then Ok matches
      else
        let* tmp' := substr tmp 0 (sub_start mt) in
        ci_collect_last fuel' tmp' from (m + 1)%Z (matches ++ [mt])
    else Ok matches
  end.

(** Algorithms.cpp:704-710; [matches] is already reversed. *)
Fixpoint ci_replace_back_loop (s to : str) (matches : list subrange) (start : N) (result : str)
  : outcome (str * N) :=
  match matches with
  | [] => Ok (result, start)
  | r :: matches' =>
    let* t := substr s start (sub64 (sub_start r) start) in
    ci_replace_back_loop s to matches' (sub_end r) (result ++ t ++ to)
  end.

(** Algorithms.cpp:670-716 *)
Definition ci_replace (s from to : str) (max_replacements : Z) : outcome str :=
  if (0 <=? max_replacements)%Z then
    let* p := ci_replace_front_loop (S (length s)) s from to max_replacements [] in
    let (result, s') := p in
    Ok (match s' with [] => result | _ => result ++ s' end)
  else
    let* matches := ci_collect_last (S (length s)) s from max_replacements [] in
    let* p := ci_replace_back_loop s to (rev matches) 0 [] in
    let (result, start) := p in
    if negb (start =? size s)
    then let* t := substr_from s start in Ok (result ++ t)
    else Ok result.

(** Algorithms.cpp:718-725 *)
Definition ci_split_chars (s : str) (chars : u32str) (max_splits : N) (ignore_empty : bool)
  : outcome (list str) :=
  split_where s (fun t => let* p := ci_find_first_of t chars 0 in Ok (fst p)) max_splits ignore_empty.

(** Algorithms.cpp:727-734 *)
Definition ci_split_sep (s sep : str) (max_splits : N) (ignore_empty : bool) : outcome (list str) :=
  split_where s (fun t => ci_find_first t sep 0) max_splits ignore_empty.
