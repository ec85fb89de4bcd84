(** C145: edits at different places do not disturb each other.  Spec/Batch.v says what a
    batch of edits makes of a list of units, and in which orders it can be carried out. *)
From Verif Require Import Base Spec.Utf8Spec Spec.Strings Spec.Slices Spec.Batch
  Model.Decode Model.Encode Model.Subrange Model.Search Model.CharClass Model.Chars Proofs.BatchLemmas.

(** Two edits of code points, i..j-1 and behind it k..l-1: the one behind first, or the one
    in front first and the other moved by what the text has grown. *)
Theorem C145_two : forall s cs i j t ts k l w ws, Text s cs -> Text t ts -> Text w ws -> (0 <= i <= j)%Z -> (j <= k <= l)%Z -> (l <= Z.of_nat (length cs))%Z ->
  Fits (s ++ t ++ w) -> exists r1 r2 r n,
  replace_codepoints s i j t = Ok r1 /\ replace_codepoints s k l w = Ok r2 /\ count_codepoints t = Ok n /\
  replace_codepoints r2 i j t = Ok r /\
  replace_codepoints r1 (k + (Z.of_N n - (j - i))) (l + (Z.of_N n - (j - i))) w = Ok r.
Proof. exact p_c145_two. Qed.
Print Assumptions C145_two.
(** Any number of edits. *)
Theorem C145_any_number : forall s cs es, Text s cs -> Ascending (Z.of_nat (length cs)) 0 es -> room s es -> exists r,
  from_back replace_codepoints es s = Ok r /\ from_front replace_codepoints count_codepoints es 0 s = Ok r /\
  (Proper (Z.of_nat (length cs)) es -> from_end replace_codepoints (Z.of_nat (length cs)) es s = Ok r).
Proof. exact p_c145_any_order. Qed.
Print Assumptions C145_any_number.
(** The result is what the batch says. *)
Theorem C145_codepoints : forall ps es rs, Codepoints ps -> Codepoints rs -> Batch 0 ps es rs -> room (concat ps) es ->
  from_back replace_codepoints es (concat ps) = Ok (concat rs) /\
  from_front replace_codepoints count_codepoints es 0 (concat ps) = Ok (concat rs) /\
  (Proper (Z.of_nat (length ps)) es -> from_end replace_codepoints (Z.of_nat (length ps)) es (concat ps) = Ok (concat rs)).
Proof. exact p_c145_codepoints. Qed.
Print Assumptions C145_codepoints.
(** The same by characters, when neither the text nor an inserted text starts with a combining mark. *)
Theorem C145_chars : forall ps es rs, Forall (fun g => one_char is_mark g /\ starts_unmarked is_mark g) ps ->
  Forall (fun g => one_char is_mark g /\ starts_unmarked is_mark g) rs -> Batch 0 ps es rs -> room (concat ps) es ->
  from_back replace_chars es (concat ps) = Ok (concat rs) /\
  from_front replace_chars count_chars es 0 (concat ps) = Ok (concat rs) /\
  (Proper (Z.of_nat (length ps)) es -> from_end replace_chars (Z.of_nat (length ps)) es (concat ps) = Ok (concat rs)).
Proof. exact p_c145_chars. Qed.
Print Assumptions C145_chars.

(** "aåcdef": å becomes XY, "de" goes. *)
Definition ex_text : str := [x61; xc3; xa5; x63; x64; x65; x66].
Definition ex_edits : list (Z * Z * str) := [(1, 2, [x58; x59]); (3, 5, [])]%Z.
Example C145_ex : Ascending 6 0 ex_edits /\ Proper 6 ex_edits /\ room ex_text ex_edits /\
  Batch 0 [[x61]; [xc3; xa5]; [x63]; [x64]; [x65]; [x66]] ex_edits [[x61]; [x58]; [x59]; [x63]; [x66]] /\
  from_back replace_codepoints ex_edits ex_text = Ok [x61; x58; x59; x63; x66] /\
  from_front replace_codepoints count_codepoints ex_edits 0 ex_text = Ok [x61; x58; x59; x63; x66] /\
  from_end replace_codepoints 6 ex_edits ex_text = Ok [x61; x58; x59; x63; x66] /\
  from_back replace_chars ex_edits ex_text = Ok [x61; x58; x59; x63; x66] /\
  from_front replace_chars count_chars ex_edits 0 ex_text = Ok [x61; x58; x59; x63; x66] /\
  from_end replace_chars 6 ex_edits ex_text = Ok [x61; x58; x59; x63; x66].
Proof.
  split.
  { apply asc_cons with [0x58; 0x59]; [lia|lia| |apply asc_cons with []; [lia|lia|constructor|constructor]].
    apply (Text_cons [x58] 0x58). { apply (uchar1 x58). vm_compute. reflexivity. }
    apply (Text_cons [x59] 0x59). { apply (uchar1 x59). vm_compute. reflexivity. }
    constructor. }
  split; [repeat constructor; lia|]. split; [vm_compute; reflexivity|]. split; [|repeat split; vm_compute; reflexivity].
  apply (batch_cons 0 [[x61]] [[xc3; xa5]] [[x63]; [x64]; [x65]; [x66]] [[x58]; [x59]] [(3, 5, [])]%Z [[x63]; [x66]]).
  apply (batch_cons 2 [[x63]] [[x64]; [x65]] [[x66]] [] [] [[x66]]). constructor.
Qed.
(** The conditions are needed: without moving the indices, with overlapping edits, and with a combining mark
    ("ab", remove "a" and put U+0301 in its place). *)
Example C145_needed :
  (let* r := replace_codepoints ex_text 1 2 [x58; x59] in replace_codepoints r 3 5 []) = Ok [x61; x58; x59; x65; x66] /\
  from_back replace_codepoints [(0, 2, [x58]); (1, 3, [])]%Z [x61; x62; x63; x64] = Ok [x58] /\
  from_front replace_codepoints count_codepoints [(0, 2, [x58]); (1, 3, [])]%Z 0 [x61; x62; x63; x64] = Ok [x64] /\
  from_back replace_chars [(0, 1, []); (1, 1, [xcc; x81])]%Z [x61; x62] = Ok [x62] /\
  from_front replace_chars count_chars [(0, 1, []); (1, 1, [xcc; x81])]%Z 0 [x61; x62] = Ok [xcc; x81; x62].
Proof. repeat split; vm_compute; reflexivity. Qed.
