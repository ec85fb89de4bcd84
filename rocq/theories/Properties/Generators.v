(** C105-C108: the scripts in tools/unicode_character_tables, for every Unicode data file. *)
From Verif Require Import Base Spec.Category Spec.UnicodeData Spec.TableRows Model.CharClass Model.ConvertCase Model.Normalize
  Model.GenClass Model.GenCase Model.GenNorm Tables.UnicodeRows Tables.CharClassTables Tables.CaseTables Tables.NormalizationTables Tables.UnicodeDataTables
  Proofs.GenClassLemmas Proofs.GenCaseLemmas Proofs.GenNormLemmas Proofs.GenProps.

(** ** C105: character classes *)

(** The lines of a data file say of every code point what its category is. *)
Theorem C105_categories : forall rows, increasing_rows rows -> forall c, exists k, RowClass rows c k /\ forall j, RowClass rows c j -> j = k.
Proof. exact p_c105_ranges. Qed.
Print Assumptions C105_categories.

(** With the two tables made from the file, get_char_class says the same. *)
Theorem C105_classes : forall rows, increasing_rows rows -> Forall (fun r => fst r < 2 ^ 21) rows -> (forall c, c < 128 -> exists k, In (c, k) rows) ->
  exists table, make_char_classes rows = Some table /\ Forall (fun v => v < 2 ^ 32) table /\
    forall c k, c < 2 ^ 21 -> RowClass rows c k ->
    get_char_class_in (get_ascii_table rows) table c = Ok (2 ^ category_number k).
Proof. exact p_c105. Qed.
Print Assumptions C105_classes.

(** The shipped tables are those made from UnicodeData16.0.0.txt, and
    get_char_class is the look-up above with them. *)
Theorem C105_shipped : get_ascii_table (rows_of UD_ROW_RUNS) = ASCII_CHAR_CLASSES /\ make_char_classes (rows_of UD_ROW_RUNS) = Some COMPLETE_CHAR_CLASSES.
Proof. exact p_c105_header. Qed.
Print Assumptions C105_shipped.
Theorem C105_same_lookup : forall c, get_char_class c = get_char_class_in ASCII_CHAR_CLASSES COMPLETE_CHAR_CLASSES c.
Proof. exact get_in. Qed.
Print Assumptions C105_same_lookup.
Theorem C105_lookup : forall c k, c < 2 ^ 21 -> RowClass (rows_of UD_ROW_RUNS) c k -> get_char_class c = Ok (2 ^ category_number k).
Proof. exact p_c105_lookup. Qed.
Print Assumptions C105_lookup.

(** The hypotheses hold of Unicode 16 ... *)
Example C105_hyps : increasing_rows (rows_of UD_ROW_RUNS) /\ Forall (fun r => fst r < 2 ^ 21) (rows_of UD_ROW_RUNS) /\
  forall c, c < 128 -> exists k, In (c, k) (rows_of UD_ROW_RUNS).
Proof. split; [exact rows16_increasing|]. split; [exact rows16_small|exact rows16_ascii]. Qed.
(** ... and of an invented file with an alternating run, a gap, a range and a lone
    code point after a range. *)
Definition invented : list (N * category) :=
  map (fun i => (N.of_nat i, Cc)) (seq 0 128) ++
  [(0x80, Lu); (0x81, Ll); (0x82, Lu); (0x90, Lm); (0x3400, Lo); (0x4DB5, Lo); (0x4DB6, Nd)].
Example C105_invented : increasing_rows invented /\ RowClass invented 0x81 Ll /\ RowClass invented 0x4000 Lo /\ RowClass invented 0x85 Cn /\
  make_char_classes invented = Some [260122; 267265; 295876; 27260958; 40743081] /\
    map (get_char_class_in (get_ascii_table invented) [260122; 267265; 295876; 27260958; 40743081]) [0x41; 0x81; 0x82; 0x85; 0x4000; 0x4DB6; 0x10000] =
    map (fun k => Ok (2 ^ category_number k)) [Cc; Ll; Lu; Cn; Lo; Nd; Cn].
Proof.
  assert (increasing_rows invented) as HI by (apply increasing_sorted; vm_compute; reflexivity). split; [exact HI|]. split; [|split; [|split]].
  - apply Row_listed. unfold invented. apply in_or_app. right. right. now left.
  - apply (Row_inside _ _ (map (fun i => (N.of_nat i, Cc)) (seq 0 128) ++ [(0x80, Lu); (0x81, Ll); (0x82, Lu); (0x90, Lm)]) 0x3400 0x4DB5 Lo [(0x4DB6, Nd)]);
      [reflexivity|split; reflexivity|now left].
  - destruct (RowClass_ex invented 0x85 HI) as [k Hk]. assert (k = Cn) as <-; [|exact Hk]. rewrite <- (rowcls_spec _ _ _ HI Hk). vm_compute. reflexivity.
  - split; vm_compute; reflexivity.
Qed.

(** ** C106: case mappings *)
Theorem C106_mapping : forall rows c d, increasing_rows rows -> Forall (fun p => fst p < 2 ^ 32 /\ snd p < 2 ^ 32) rows -> c < 2 ^ 32 ->
  (In (c, d) rows -> convert (fst (make_case_tables rows)) (snd (make_case_tables rows)) c = d) /\
  ((forall x, ~ In (c, x) rows) -> convert (fst (make_case_tables rows)) (snd (make_case_tables rows)) c = c).
Proof. exact p_c106_pair. Qed.
Print Assumptions C106_mapping.
Theorem C106_shipped : make_case_tables UD_UPPER = (COMPACT_UPPER_CASE, UPPER_CASE) /\
  make_case_tables UD_LOWER = (COMPACT_LOWER_CASE, LOWER_CASE) /\ make_case_tables UD_TITLE = (COMPACT_TITLE_CASE, TITLE_CASE).
Proof. exact p_c106_header. Qed.
Print Assumptions C106_shipped.
Example C106_hyps : Forall (fun rows => increasing_rows rows /\ Forall (fun p => fst p < 2 ^ 32 /\ snd p < 2 ^ 32) rows) [UD_UPPER; UD_LOWER; UD_TITLE].
Proof. exact p_c106_hyps. Qed.
(** Three code points with the same negative difference and one with another. *)
Example C106_invented : let rows := [(0x100, 0x80); (0x101, 0x81); (0x102, 0x200); (0x103, 0x83); (0x120, 0x7FFFFFFF)] in
  increasing_rows rows /\ make_case_tables rows = ([(0x100, 0xFFFFFF80, 0xB, 0xFFFFFFF0)], [(0x102, 0x200); (0x120, 0x7FFFFFFF)]) /\
  map (convert [(0x100, 0xFFFFFF80, 0xB, 0xFFFFFFF0)] [(0x102, 0x200); (0x120, 0x7FFFFFFF)]) [0x100; 0x102; 0x103; 0x104; 0x120; 0x121] =
  [0x80; 0x200; 0x83; 0x104; 0x7FFFFFFF; 0x121].
Proof. cbv zeta. split; [apply increasing_sorted; reflexivity|]. split; vm_compute; reflexivity. Qed.

(** ** C107: canonical decompositions *)
Theorem C107_decomposed : forall rules ch a b, increasing_rows rules -> Forall small_rule rules -> Forall (fun r => 0xC0 <= fst r) rules ->
  (In (ch, (a, b)) rules -> find_decomposed_in (make_decomposed_table_rows rules) ch = (a, b)) /\
  ((forall x y, ~ In (ch, (x, y)) rules) -> find_decomposed_in (make_decomposed_table_rows rules) ch = (ch, 0)).
Proof. exact p_c107_pair. Qed.
Print Assumptions C107_decomposed.
Theorem C107_shipped : make_decomposed_table_rows UD_PAIRS = TO_DECOMPOSED /\ make_composed_table_rows UD_PAIRS = TO_COMPOSED.
Proof. exact p_c107_header. Qed.
Print Assumptions C107_shipped.
Theorem C107_same_lookup : forall ch, find_decomposed ch = find_decomposed_in TO_DECOMPOSED ch.
Proof. exact find_in. Qed.
Print Assumptions C107_same_lookup.
Example C107_hyps : increasing_rows UD_PAIRS /\ Forall small_rule UD_PAIRS /\ Forall (fun r => 0xC0 <= fst r) UD_PAIRS.
Proof. split; [exact pairs16_increasing|]. split; [exact pairs16_small|exact pairs16_high]. Qed.

(** ** C108: canonical compositions *)

(** A listed pair is found if its first element is below U+1000 and it is not the
    first pair of a table that happens to lie right after TO_DECOMPOSED. *)
Theorem C108_listed_partial : forall adjacent rules a b c, Forall small_rule rules -> NoDup (map snd rules) -> a < 0x1000 -> 0x300 <= b ->
  In (c, (a, b)) rules -> (adjacent = true -> exists r, In r rules /\ pair_before (snd r) (a, b)) ->
  find_composed_in adjacent (make_composed_table_rows rules) a b = Ok c.
Proof. exact p_c108_listed. Qed.
Print Assumptions C108_listed_partial.
(** What is found for every pair: the next listed pair decides. *)
Theorem C108_next : forall adjacent rules a b c a' b', Forall small_rule rules -> NoDup (map snd rules) -> a < 2 ^ 24 -> 0x300 <= b -> b < 2 ^ 20 ->
  NextRule rules (a, b) (c, (a', b')) -> (adjacent = true -> exists r, In r rules /\ pair_before (snd r) (a, b)) ->
  find_composed_in adjacent (make_composed_table_rows rules) a b = Ok (if (a' mod 0x1000 =? a) && (b' =? b) then c else 0).
Proof. exact p_c108_next. Qed.
Print Assumptions C108_next.
Theorem C108_first : forall rules a b, Forall small_rule rules -> NoDup (map snd rules) -> a < 2 ^ 24 -> 0x300 <= b -> b < 2 ^ 20 -> rules <> [] ->
  (forall r, In r rules -> ~ pair_before (snd r) (a, b)) -> find_composed_in true (make_composed_table_rows rules) a b = Ok 0.
Proof. exact p_c108_first. Qed.
Print Assumptions C108_first.
Theorem C108_end : forall adjacent rules a b, Forall small_rule rules -> NoDup (map snd rules) -> a < 2 ^ 24 -> 0x300 <= b -> b < 2 ^ 20 ->
  (forall r, In r rules -> pair_before (snd r) (a, b)) -> find_composed_in adjacent (make_composed_table_rows rules) a b = UB.
Proof. exact p_c108_end. Qed.
Print Assumptions C108_end.
(** A file with one rule, U+2000 = U+1041 U+0300, makes a table in which that pair is
    not found, and in which U+0041 U+0300 is found. *)
Theorem C108_wrong_refuted : find_composed_in false (make_composed_table_rows [(0x2000, (0x1041, 0x300))]) 0x41 0x300 = Ok 0x2000 /\
  find_composed_in false (make_composed_table_rows [(0x2000, (0x1041, 0x300))]) 0x1041 0x300 = Ok 0.
Proof. exact p_c108_wrong. Qed.
Print Assumptions C108_wrong_refuted.
Theorem C108_same_lookup : forall adjacent a b, find_composed adjacent a b = find_composed_in adjacent TO_COMPOSED a b.
Proof. exact compose_in. Qed.
Print Assumptions C108_same_lookup.
Example C108_hyps : Forall small_rule UD_PAIRS /\ NoDup (map snd UD_PAIRS) /\ UD_PAIRS <> [] /\
  NextRule [(0xC0, (0x41, 0x300)); (0xC8, (0x45, 0x300))] (0x42, 0x300) (0xC8, (0x45, 0x300)).
Proof.
  split; [exact pairs16_small|]. split; [exact pairs16_distinct|]. split; [discriminate|]. unfold NextRule, pair_before. cbn [fst snd In].
  split; [tauto|]. split; [lia|]. intros q [<-|[<-|[]]]; cbn [fst snd]; lia.
Qed.
