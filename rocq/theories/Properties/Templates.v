(** C118: the templates that the scripts in tools/unicode_character_tables fill in. *)
From Coq Require Import String.
From Verif Require Import Base Model.Codegen Spec.Template Proofs.CodegenLemmas Proofs.MultilineLemmas Proofs.ParamLemmas Proofs.ListsLemmas.
Local Notation "'#' s" := (list_byte_of_string s%string) (at level 5, only parsing).

Theorem C118_expansion : forall d lines out, lines <> [] -> Forall plain_tline lines -> Expanded d 0 lines out ->
  make_lines (lines_text (map tline_text lines)) d = Some out /\ make_text (lines_text (map tline_text lines)) d = Some (lines_text out).
Proof. exact p_c118. Qed.
Print Assumptions C118_expansion.
(** There is one way to expand a template. *)
Theorem C118_unique : forall d lines out out', lines <> [] -> Forall plain_tline lines -> Expanded d 0 lines out -> Expanded d 0 lines out' -> out = out'.
Proof. exact p_c118_unique. Qed.
Print Assumptions C118_unique.
(** A key that the dictionary does not have is an error. *)
Theorem C118_missing : forall d lines k ps p tail, Forall plain_tline lines -> In (ps, tail) lines -> In (p, k) ps ->
  (forall v, ~ In (k, v) d) -> make_text (lines_text (map tline_text lines)) d = None.
Proof. exact p_c118_missing. Qed.
Print Assumptions C118_missing.

(** Behind a line that is left out, the second element of a list is not in the
    column of the first. *)
Theorem C118_alignment_refuted :
  make_text (lines_text [#"{"; #"    [[[a]]]"; #"    [[[b]]]"; #"}"]) [(#"a", VList []); (#"b", VList [#"1,"; #"2"])] =
  Some (lines_text [#"{"; #"    1,"; #"        2"; #"}"]).
Proof. exact p_c118_alignment. Qed.
Print Assumptions C118_alignment_refuted.

(** A template with values inside lines, lists, a list of one element and a line
    that is left out. *)
Definition sample_lines : list tline :=
  [([(#"// (", #"year"); (#") ", #"who")], #"."); ([], []); ([], #"{  "); ([(#"    ", #"rows")], []); ([(#"    ", #"none")], []);
   ([(#"  ", #"row")], []); ([], #"}")].
Definition sample_dict : dict :=
  [(#"year", VOther #"2025"); (#"who", VStr #"JEB"); (#"rows", VList [#"1,"; #"2,"; #"3 "]); (#"row", VList [#"4"]); (#"none", VNone); (#"year", VNone)].
Definition sample_out : list str := [#"// (2025) JEB."; []; #"{"; #"    1,"; #"    2,"; #"    3"; #"  4"; #"}"].
Example C118_sample : Forall plain_tline sample_lines /\ Expanded sample_dict 0 sample_lines sample_out.
Proof.
  split; [apply plain_check; vm_compute; reflexivity|].
  assert (forall k t, existsb (byte_eqb x0a) t = false -> bound sample_dict k (VOther t) \/ (t <> [] /\ bound sample_dict k (VStr t)) -> inline sample_dict k t) as HI.
  { intros k t Ht HB. split; [|exact HB]. intros Hi. assert (existsb (byte_eqb x0a) t = true) by (apply existsb_exists; exists x0a; split; [exact Hi|reflexivity]). congruence. }
  assert (forall n, indent (repeat x20 n)) as HD by (intros n; apply Forall_forall; intros c Hc; apply repeat_spec in Hc; now left).
  apply (exp_line _ _ _ _ [#"2025"; #"JEB"]).
  { constructor; [|constructor; [|constructor]]; apply HI; try reflexivity; cbn [snd].
    - left. apply bound_first. reflexivity.
    - right. split; [discriminate|]. apply bound_first. reflexivity. }
  { apply stripped_check. reflexivity. }
  apply (exp_line _ _ _ _ []); [constructor|now apply stripped_check|].
  apply (exp_line _ _ _ _ []); [constructor|now apply stripped_check|].
  refine (exp_rows _ _ #"    " _ #"1," [#"2,"] #"3 " #"    3" _ _ (HD 4%nat) _ _ _ _ _ _).
  { apply bound_first. reflexivity. }
  { exists x31, #",". split; [reflexivity|]. split; discriminate. }
  { constructor; [discriminate|constructor]. }
  { cbn. intuition discriminate. }
  { now apply stripped_check. }
  refine (exp_nothing _ _ #"    " _ _ _ (HD 4%nat) _ _).
  { left. apply bound_first. reflexivity. }
  refine (exp_row _ _ #"  " _ #"4" _ _ _ (HD 2%nat) _ _ _).
  { apply bound_first. reflexivity. }
  { now apply stripped_check. }
  apply (exp_line _ _ _ _ []); [constructor|now apply stripped_check|]. constructor.
Qed.

(** Values may have line feeds themselves. *)
Theorem C118_values : forall d lines outs, lines <> [] -> Forall plain_tline lines ->
  Forall2 (fun l o => exists ts, Forall2 (fun p t => value_text d (snd p) t) (fst l) ts /\
    stripped_last (concat (map (fun q => fst (fst q) ++ snd q) (combine (fst l) ts)) ++ snd l) o) lines outs ->
  make_text (lines_text (map tline_text lines)) d = Some (lines_text outs).
Proof. exact p_c118_values. Qed.
Print Assumptions C118_values.
(** Behind such a value a list is not aligned: the column is counted two too many. *)
Theorem C118_column_refuted :
  make_text #"[[[a]]][[[b]]]" [(#"a", VStr (lines_text [#"x"; #"y = "])); (#"b", VList [#"1,"; #"2"])] =
  Some (lines_text [#"x"; #"y = 1,"; #"      2"]).
Proof. reflexivity. Qed.
Print Assumptions C118_column_refuted.
Example C118_values_ex : make_text (lines_text [#"a [[[v]]] b "; #"c"]) [(#"v", VStr (lines_text [#"x "; #"y"]))] = Some (lines_text [#"a x "; #"y b"; #"c"]) /\
  value_text [(#"v", VStr (lines_text [#"x "; #"y"]))] #"v" (lines_text [#"x "; #"y"]) /\
  stripped_last (#"a " ++ lines_text [#"x "; #"y"] ++ #" b ") (lines_text [#"a x "; #"y b"]).
Proof.
  split; [reflexivity|]. split; [right; split; [discriminate|apply bound_first; reflexivity]|].
  exists (#"a x " ++ [x0a]), #"y b ", #"y b". split; [right; now eexists|]. split; [reflexivity|]. split; [cbn; intuition discriminate|]. split; [now apply stripped_check|reflexivity].
Qed.
(** The only element of a list is not counted, so a list behind it is not aligned. *)
Theorem C118_one_row_refuted :
  make_text #"[[[one]]] = [[[rows]]]" [(#"one", VList [#"abc"]); (#"rows", VList [#"1,"; #"2"])] = Some (lines_text [#"abc = 1,"; #"   2"]).
Proof. reflexivity. Qed.
Print Assumptions C118_one_row_refuted.
(** A list in the middle of a line, with an empty element, values before it and a
    marker for nothing behind it. *)
Example C118_sample2 :
  let d := [(#"n", VStr #"ab"); (#"rows", VList [#"1,"; []; #" 2,"; #"3"]); (#"none", VNone)] in
  let lines := [([(#"  ", #"n"); (#" = ", #"rows"); (#"; ", #"none")], [])] in
  Forall plain_tline lines /\ Expanded d 0 lines [#"  ab = 1,"; []; #"        2,"; #"       3;"].
Proof.
  intros d lines. split; [apply plain_check; vm_compute; reflexivity|].
  refine (ex_list d 0 [(#"  ", #"n")] [(#"ab", 2%nat)] #" = " #"rows" [(#"; ", #"none")] [([], 0%nat)] [] #"1," [[]; #" 2,"] #"3" #"  " #"       " #"       3;" [] [] _ _ _ _ _ _ _ _ _).
  - constructor; [|constructor]. apply (part_text d #"n" #"ab"). split; [cbn; intuition discriminate|]. right. split; [discriminate|]. apply bound_first. reflexivity.
  - apply bound_first. reflexivity.
  - constructor; [|constructor]. apply part_nothing. left. apply bound_first. reflexivity.
  - cbn. intuition discriminate.
  - left. exists #"ab = 1,". split; [reflexivity|]. split; [repeat constructor|]. exists x61, #"b = 1,". repeat split; discriminate.
  - reflexivity.
  - intros (_ & H & _). rewrite Forall_forall in H. specialize (H x33 ltac:(cbn; tauto)). cbv in H. intuition discriminate.
  - now apply stripped_check.
  - constructor.
Qed.

(** Markers may have parameters, which a dictionary does not use: such a template
    becomes the same as without them. *)
Theorem C118_parameters : forall d lines lines', Forall plain_tline lines -> Forall2 (remarked with_params) lines lines' ->
  make_text (lines_text (map tline_text lines')) d = make_text (lines_text (map tline_text lines)) d.
Proof. exact p_c118_parameters. Qed.
Print Assumptions C118_parameters.
(** Parameters without the closing parenthesis are an error. *)
Theorem C118_unclosed : forall d lines lines' ps tail t m k, Forall plain_tline lines ->
  Forall2 (remarked (fun k m => with_params k m \/ open_params k m)) lines lines' ->
  In (ps, tail) lines' -> In (t, m) ps -> plain_key k -> open_params k m ->
  make_text (lines_text (map tline_text lines')) d = None.
Proof. exact p_c118_unclosed. Qed.
Print Assumptions C118_unclosed.
Example C118_parameters_ex :
  let lines := [([(#"a ", #"x"); (#" b", #"y")], #"."); ([], #"c")] in
  let lines' := [([(#"a ", #"x(1, 2)"); (#" b", #"y")], #"."); ([], #"c")] in
  Forall plain_tline lines /\ Forall2 (remarked with_params) lines lines' /\
  make_text (lines_text (map tline_text lines')) [(#"y", VStr #"Y"); (#"x", VStr #"X")] = Some (lines_text [#"a X bY."; #"c"]) /\
  open_params #"x" #"x(1, 2".
Proof.
  intros lines lines'. assert (forall s, forallb (fun c => negb (byte_eqb c x0a) && negb (byte_eqb c x5d)) s = true -> Forall param_char s) as K.
  { intros s H. apply Forall_forall. intros c Hc. rewrite forallb_forall in H. specialize (H c Hc). apply andb_true_iff in H as [H1 H2].
    split; intros ->; discriminate. }
  split; [apply plain_check; vm_compute; reflexivity|]. split; [|split; [reflexivity|]].
  - constructor; [|constructor; [split; [constructor|reflexivity]|constructor]]. split; [|reflexivity].
    constructor; [split; [reflexivity|]|constructor; [split; [reflexivity|now left]|constructor]].
    right. exists #"1, 2", []. split; [reflexivity|]. split; [now apply K|constructor].
  - exists #"1, 2". split; [reflexivity|]. split; [now apply K|]. cbn. intuition discriminate.
Qed.

(** Every value, and any number of lists in a line: what is written, that there is
    such a text whenever the dictionary has the keys, and that there is only one.
    With [C118_missing] this settles every template of plain lines. *)
Theorem C118_every : forall d lines out, lines <> [] -> Forall plain_tline lines -> filled_in d 0 lines out ->
  make_lines (lines_text (map tline_text lines)) d = Some out /\ make_text (lines_text (map tline_text lines)) d = Some (lines_text out).
Proof. exact p_c118_every. Qed.
Print Assumptions C118_every.
Theorem C118_every_exists : forall d lines, Forall (fun l : tline => forall p, In p (fst l) -> exists v, In (snd p, v) d) lines ->
  exists out, filled_in d 0 lines out.
Proof. exact p_c118_total. Qed.
Print Assumptions C118_every_exists.
Theorem C118_every_unique : forall d lines out out', lines <> [] -> Forall plain_tline lines -> filled_in d 0 lines out -> filled_in d 0 lines out' -> out = out'.
Proof. exact p_c118_every_unique. Qed.
Print Assumptions C118_every_unique.
(** Two lists in a line, and then a value with a line feed. *)
Example C118_every_ex :
  let d := [(#"a", VList [#"1,"; #"2"]); (#"b", VList [#"3,"; #"4"]); (#"c", VStr (lines_text [#"x"; #"y"]))] in
  let lines := [([(#" p ", #"a"); (#": ", #"b")], #"; "); ([(#"q ", #"c")], [])] in
  Forall plain_tline lines /\ filled_in d 0 lines [#" p 1,"; #"   2: 3,"; #"      4;"; #"q x"; #"y"] /\
  make_text (lines_text (map tline_text lines)) d = Some (lines_text [#" p 1,"; #"   2: 3,"; #"      4;"; #"q x"; #"y"]).
Proof.
  intros d lines. split; [apply plain_check; vm_compute; reflexivity|]. split; [|reflexivity].
  assert (forall s t : str, existsb (fun c => negb (is_empty_or_space [c])) s = true -> forall ps tail, ~ left_out d ps tail s) as HL.
  { intros s _ Hs ps tail (_ & HW & _). apply existsb_exists in Hs as (c & Hc & E). rewrite Forall_forall in HW. specialize (HW c Hc).
    assert (is_empty_or_space [c] = true) as E2 by (apply white_blank; now constructor). rewrite E2 in E. discriminate. }
  apply (filled_in_line d 0 [(#" p ", #"a"); (#": ", #"b")] #"; " _ [#" p 1,"; #"   2: 3,"] #"      4" 7 #"      4;").
  - apply (line_run_step d [] 0 #" p " #"a" _ [#" p 1,"] #"   2" 4 [#"   2: 3,"]).
    + apply (filled_rows d #" p " 3 #"a" #"1," [] #"2" #" " #"   " [] #"   2" 4); [apply bound_first; reflexivity| |reflexivity|].
      * left. exists #"p 1,". split; [reflexivity|]. split; [repeat constructor|]. exists x70, #" 1,". repeat split; discriminate.
      * apply (put_plain [] 0 #"   2"). cbn. intuition discriminate.
    + apply (line_run_step d #"   2" 4 #": " #"b" _ [#"   2: 3,"] #"      4" 7 []); [|constructor].
      apply (filled_rows d #"   2: " 6 #"b" #"3," [] #"4" #"   " #"      " [] #"      4" 7); [apply bound_first; reflexivity| |reflexivity|].
      * left. exists #"2: 3,". split; [reflexivity|]. split; [repeat constructor|]. exists x32, #": 3,". repeat split; discriminate.
      * apply (put_plain [] 0 #"      4"). cbn. intuition discriminate.
  - apply HL; [exact []|reflexivity].
  - now apply stripped_check.
  - apply (filled_in_line d 0 [(#"q ", #"c")] [] [] [#"q x"] #"y" 3 #"y" []); [|apply HL; [exact []|reflexivity]|now apply stripped_check|constructor].
    apply (line_run_step d [] 0 #"q " #"c" _ [#"q x"] #"y" 3 []); [|constructor].
    apply (filled_text d _ _ _ (lines_text [#"x"; #"y"])); [right; split; [discriminate|apply bound_first; reflexivity]|].
    apply (put_lines #"q " 2 #"x" #"y"). cbn. intuition discriminate.
Qed.
