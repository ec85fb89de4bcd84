(** C150: lines and columns.  Lines are what split makes of a text at one byte, as the line feed. *)
From Verif Require Import Base Spec.Utf8Spec Spec.Strings Model.Decode Model.Subrange Model.Search Model.Split Proofs.ColumnLemmas.

(** Cutting a text anywhere cuts exactly one of its lines. *)
Theorem C150_cut : forall b u v, Fits (u ++ v) -> exists l x y r,
  split_sep u [b] SIZE_MAX false = Ok (l ++ [x]) /\ split_sep v [b] SIZE_MAX false = Ok (y :: r) /\ split_sep (u ++ v) [b] SIZE_MAX false = Ok (l ++ [x ++ y] ++ r) /\
  u = join (l ++ [x]) [b] /\ v = join (y :: r) [b] /\ ~ In b x /\ ~ In b y.
Proof. exact p_c150_cut. Qed.
Print Assumptions C150_cut.
(** And a place in a line, behind x, is a place in the text. *)
Theorem C150_back : forall b s l x y r, Fits s -> split_sep s [b] SIZE_MAX false = Ok (l ++ [x ++ y] ++ r) ->
  let i := size (join (l ++ [x]) [b]) in i <= size s /\ split_sep (firstn (N.to_nat i) s) [b] SIZE_MAX false = Ok (l ++ [x]) /\
  split_sep (skipn (N.to_nat i) s) [b] SIZE_MAX false = Ok (y :: r).
Proof. exact p_c150_back. Qed.
Print Assumptions C150_back.
(** The line around offset i begins where find_last ends and ends where find_first begins: the l lines in front are its
    number, the size of x is the column. *)
Theorem C150_line : forall b s i, Fits s -> i <= size s -> exists l x y r j n k m,
  split_sep s [b] SIZE_MAX false = Ok (l ++ [x ++ y] ++ r) /\ split_sep (firstn (N.to_nat i) s) [b] SIZE_MAX false = Ok (l ++ [x]) /\
  find_last s [b] i = Ok (Sub j n) /\ j + n + size x = i /\ (n = 0 <-> l = []) /\
  find_first s [b] i = Ok (Sub k m) /\ i + size y = k /\ (m = 0 <-> r = []) /\
  substr s (j + n) (k - (j + n)) = Ok (x ++ y).
Proof. exact p_c150_line. Qed.
Print Assumptions C150_line.
(** Columns counted in code points. *)
Theorem C150_column : forall b u us v vs, u8 b < 0x80 -> Text u us -> Text v vs -> Fits (u ++ v) -> exists l x y r c,
  split_sep u [b] SIZE_MAX false = Ok (l ++ [x]) /\ split_sep v [b] SIZE_MAX false = Ok (y :: r) /\ split_sep (u ++ v) [b] SIZE_MAX false = Ok (l ++ [x ++ y] ++ r) /\
  count_codepoints x = Ok c /\ get_codepoint_pos (x ++ y) (Z.of_N c) = Ok (size x) /\ get_codepoint_substring (x ++ y) 0 (Z.of_N c) = Ok x.
Proof. exact p_c150_column. Qed.
Print Assumptions C150_column.

(** "a", "åbc", "" cut between b and c: line 1 (from 0), column 3 in bytes and 2 in code points. *)
Example C150_ex : let u := [x61; x0a; xc3; xa5; x62] in let v := [x63; x0a] in
  Text u [0x61; 0x0A; 0xE5; 0x62] /\ Text v [0x63; 0x0A] /\ Fits (u ++ v) /\
  split_sep (u ++ v) [x0a] SIZE_MAX false = Ok ([[x61]] ++ [[xc3; xa5; x62] ++ [x63]] ++ [[]]) /\
  split_sep u [x0a] SIZE_MAX false = Ok ([[x61]] ++ [[xc3; xa5; x62]]) /\ split_sep v [x0a] SIZE_MAX false = Ok ([x63] :: [[]]) /\
  find_last (u ++ v) [x0a] 5 = Ok (Sub 1 1) /\ find_first (u ++ v) [x0a] 5 = Ok (Sub 6 1) /\
  substr (u ++ v) (1 + 1) (6 - (1 + 1)) = Ok [xc3; xa5; x62; x63] /\ count_codepoints [xc3; xa5; x62] = Ok 2 /\
  size (join [[x61]; [xc3; xa5; x62]] [x0a]) = 5.
Proof.
  split.
  { apply (Text_cons [x61] 0x61). { apply (uchar1 x61). vm_compute. reflexivity. }
    apply (Text_cons [x0a] 0x0A). { apply (uchar1 x0a). vm_compute. reflexivity. }
    apply (Text_cons [xc3; xa5] 0xE5). { apply (uchar2 xc3 xa5); vm_compute; split; congruence. }
    apply (Text_cons [x62] 0x62); [|constructor]. apply (uchar1 x62). vm_compute. reflexivity. }
  split; [|repeat split; vm_compute; reflexivity].
  apply (Text_cons [x63] 0x63). { apply (uchar1 x63). vm_compute. reflexivity. }
  apply (Text_cons [x0a] 0x0A); [|constructor]. apply (uchar1 x0a). vm_compute. reflexivity.
Qed.
(** With two bytes as separator a cut through it changes the lines. *)
Example C150_needed : split_sep [x61; x0d; x0a; x62] [x0d; x0a] SIZE_MAX false = Ok [[x61]; [x62]] /\
  split_sep [x61; x0d] [x0d; x0a] SIZE_MAX false = Ok [[x61; x0d]] /\ split_sep [x0a; x62] [x0d; x0a] SIZE_MAX false = Ok [[x0a; x62]].
Proof. repeat split; vm_compute; reflexivity. Qed.
