(** C83-C86: how the functions fit together. *)
From Verif Require Import Base Spec.Utf8Spec Spec.Strings Spec.Newline Spec.Split Spec.Algebra Model.Decode Model.Encode Model.Search Model.Split Model.CharClass Model.ConvertCase Model.Escape
  Proofs.SplitLemmas Proofs.AlgebraLemmas Proofs.ConcatLemmas Proofs.JoinSplitLemmas Proofs.TrimLemmas.

(** C83 *)
Theorem C83_split_of_join : forall l sep, sep <> [] -> Fits (join l sep) ->
  (split_sep (join l sep) sep SIZE_MAX false = Ok l <-> separable sep l).
Proof. exact p_c83. Qed.
Print Assumptions C83_split_of_join.
(** For a separator of one byte it is enough that no part contains it. *)
Theorem C83_one_byte : forall b l, Fits (join l [b]) ->
  (split_sep (join l [b]) [b] SIZE_MAX false = Ok l <-> l <> [] /\ Forall (fun x => ~ In b x) l).
Proof. exact (fun b l H => iff_trans (p_c83 l [b] ltac:(discriminate) H) (p_c83_byte b l)). Qed.
Print Assumptions C83_one_byte.
(** At characters: exactly when the list is not empty and its parts are valid
    text without a separator. *)
Theorem C83_chars : forall l d c chars, uchar d c -> In c chars -> Fits (join l d) ->
  (split_chars (join l d) chars SIZE_MAX false = Ok l <->
   l <> [] /\ exists lss, Forall2 Text l lss /\ Forall (Forall (fun x => ~ In x chars)) lss).
Proof. exact p_c83_chars_iff. Qed.
Print Assumptions C83_chars.
(** Lines, joined with any newline (CR LF is one); [extra] is what counts as a
    newline besides the documented ones (C20). *)
Theorem C83_lines : forall after extra l d, followed_by after extra -> one_newline d -> Fits (join l d) ->
  (split_lines after (join l d) SIZE_MAX false = Ok l <->
   l <> [] /\ exists lss, Forall2 Text l lss /\ Forall (no_line_ends extra) lss).
Proof. exact p_c83_lines_iff. Qed.
Print Assumptions C83_lines.
(** In general the parts must also not form a separator with the one that
    follows: "a," and "b" joined with ",," come apart as "a" and ",b". *)
Example C83_ex : split_sep (join [[x61]; []; [x62; x63]] [x2c; x20]) [x2c; x20] SIZE_MAX false = Ok [[x61]; []; [x62; x63]] /\
  split_sep (join [[x61; x2c]; [x62]] [x2c; x2c]) [x2c; x2c] SIZE_MAX false = Ok [[x61]; [x2c; x62]].
Proof. split; reflexivity. Qed.
Example C83_lines_ex : followed_by [0x2D; 0] [0x2D] /\ one_newline [x0d; x0a] /\
  split_lines [0x2D; 0] (join [[x61]; []; [x62]] [x0d; x0a]) SIZE_MAX false = Ok [[x61]; []; [x62]].
Proof.
  split; [exists []; split; [reflexivity|apply Forall_cons; [discriminate|apply Forall_nil]]|]. split; [|reflexivity].
  right. exists [x0d], [x0a]. split; [reflexivity|]. split; [apply (uchar1 x0d)|apply (uchar1 x0a)]; reflexivity.
Qed.

(** C84 *)
Theorem C84_replace_is_split_join : forall s from to m, from <> [] -> Fits s -> (Z.of_N (size s) <= m)%Z ->
  exists parts, split_sep s from SIZE_MAX false = Ok parts /\ replace s from to m = Ok (join parts to).
Proof. exact p_c84_join. Qed.
Print Assumptions C84_replace_is_split_join.
Theorem C84_replace_by_itself : forall s p m, p <> [] -> Fits s -> (- 0x8000000000000000 < m)%Z -> replace s p p m = Ok s.
Proof. exact p_c84_self. Qed.
Print Assumptions C84_replace_by_itself.
Theorem C84_replace_absent : forall s from to m, from <> [] -> Fits s -> (- 0x8000000000000000 < m)%Z ->
  (forall i, ~ occurs_at from s i) -> replace s from to m = Ok s.
Proof. exact p_c84_absent. Qed.
Print Assumptions C84_replace_absent.
Theorem C84_size : forall s from to m, from <> [] -> Fits s -> (- 0x8000000000000000 < m)%Z ->
  exists r k, replace s from to m = Ok r /\ k <= Z.abs_N m /\ size r + k * size from = size s + k * size to.
Proof. exact p_c84_size. Qed.
Print Assumptions C84_size.
Example C84_ex : replace [x61; x61; x61] [x61; x61] [x62] 3 = Ok [x62; x61] /\
  split_sep [x61; x61; x61] [x61; x61] SIZE_MAX false = Ok [[]; [x61]] /\ replace [x61; x61; x61] [x61; x61] [x62] (-1) = Ok [x61; x62].
Proof. repeat split; reflexivity. Qed.

(** C85 *)
Theorem C85_trim_laws : forall (f : N -> bool) s cs, Text s cs -> Fits s -> exists t,
  trim_where s f = Ok t /\ trim_where t f = Ok t /\ trim_start_where t f = Ok t /\ trim_end_where t f = Ok t /\
  (let* a := trim_end_where s f in trim_start_where a f) = Ok t /\
  (let* a := trim_start_where s f in trim_end_where a f) = Ok t.
Proof. exact p_c85. Qed.
Print Assumptions C85_trim_laws.
(** Any bytes, valid or not: what is returned. *)
Theorem C85_halves_any_bytes : forall (f : N -> bool) s t, Fits s ->
  (trim_start_where s f = Ok t -> trim_start_where t f = Ok t) /\ (trim_end_where s f = Ok t -> trim_end_where t f = Ok t).
Proof. exact p_c85_halves. Qed.
Print Assumptions C85_halves_any_bytes.
Theorem C85_any_bytes : forall (f : N -> bool) s t, Fits s ->
  (trim_where s f = Ok t <-> (let* a := trim_start_where s f in trim_end_where a f) = Ok t) /\
  (trim_where s f = Ok t <-> (let* a := trim_end_where s f in trim_start_where a f) = Ok t) /\
  (trim_where s f = Ok t -> trim_where t f = Ok t /\ trim_start_where t f = Ok t /\ trim_end_where t f = Ok t).
Proof. exact p_c85_any_bytes. Qed.
Print Assumptions C85_any_bytes.
Example C85_any_ex : trim_where [x20; x61; xff; x80; x62; x20] (fun c => c =? 0x20) = Ok [x61; xff; x80; x62] /\
  trim_where [x20; xff; x20] (fun c => c =? 0x20) = Throw YstringException.
Proof. split; vm_compute; reflexivity. Qed.
Example C85_ex : trim_where [x20; x61; x20; x62; x20; x20] (fun c => c =? 0x20) = Ok [x61; x20; x62].
Proof. reflexivity. Qed.

(** C86.  [t] may be any bytes. *)
Theorem C86_to_utf32 : forall s t, is_valid_utf8 s = Ok true ->
  to_utf32 (s ++ t) = (let* a := to_utf32 s in let* b := to_utf32 t in Ok (a ++ b)) /\
  is_valid_utf8 (s ++ t) = is_valid_utf8 t.
Proof. exact p_c86_utf32. Qed.
Print Assumptions C86_to_utf32.
Theorem C86_from_utf32 : forall a b, from_utf32 (a ++ b) = from_utf32 a ++ from_utf32 b.
Proof. exact p_c86_from_utf32. Qed.
Print Assumptions C86_from_utf32.
Theorem C86_count_codepoints : forall s t, is_valid_utf8 s = Ok true -> Fits (s ++ t) ->
  exists a b, count_codepoints s = Ok a /\ count_codepoints t = Ok b /\ count_codepoints (s ++ t) = Ok (a + b).
Proof. exact p_c86_count. Qed.
Print Assumptions C86_count_codepoints.
Theorem C86_case : forall s t cs, Text s cs ->
  to_lower_str (s ++ t) = (let* a := to_lower_str s in let* b := to_lower_str t in Ok (a ++ b)) /\
  to_upper_str (s ++ t) = (let* a := to_upper_str s in let* b := to_upper_str t in Ok (a ++ b)).
Proof. exact p_c86_case. Qed.
Print Assumptions C86_case.
(** Title case looks one code point back. *)
Theorem C86_title : forall s t cs, Text s cs -> (forall us c, cs = us ++ [c] -> is_letter c = false) ->
  to_title_str (s ++ t) = (let* a := to_title_str s in let* b := to_title_str t in Ok (a ++ b)).
Proof. exact p_c86_title. Qed.
Print Assumptions C86_title.
Theorem C86_escape_json : forall s t, Fits (s ++ t) ->
  escape_json (s ++ t) = (let* a := escape_json s in let* b := escape_json t in Ok (a ++ b)).
Proof. exact p_c86_escape. Qed.
Print Assumptions C86_escape_json.
Example C86_ex : is_valid_utf8 [xc3; xa6] = Ok true /\ to_upper_str ([xc3; xa6] ++ [xc3; x9f]) = Ok ([xc3; x86] ++ [x53; x53]) /\
  to_utf32 ([xc3; xa6] ++ [xff]) = Throw YstringException /\ is_letter 0x20 = false /\
  to_title_str ([x61; x20] ++ [x62; x63]) = Ok ([x41; x20] ++ [x42; x63]).
Proof. repeat split; vm_compute; reflexivity. Qed.
