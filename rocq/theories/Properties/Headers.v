(** C119: from the text of a Unicode data file to the text of the generated headers. *)
From Coq Require Import String.
From Verif Require Import Base Spec.Category Spec.UnicodeData Spec.TableRows Spec.DataFile Spec.CppText Model.ConvertCase Model.GenClass Model.GenNorm Model.GenFiles
  Tables.HeaderTexts Tables.UnicodeRows Tables.UnicodeDataTables Proofs.GenProps Proofs.HeaderMain Proofs.ReadingLemmas Proofs.DataExists.
Local Notation "'#' s" := (list_byte_of_string s%string) (at level 5, only parsing).

(** make_char_class_file.py prints the header with two arrays that look up the
    categories in the lines. *)
Theorem C119_class_header : forall year date lines t rows, date_text year -> date_text date -> DataText lines t -> Forall2 class_line lines rows ->
  increasing_rows rows -> Forall (fun r => fst r < 2 ^ 21) rows -> (forall c, c < 128 -> exists k, In (c, k) rows) ->
  exists a b ascii complete, make_class_file year date t = Some (class_header year date a b) /\
    Items literal a ascii /\ Items literal b complete /\ Forall (fun v => v < 2 ^ 8) ascii /\ Forall (fun v => v < 2 ^ 32) complete /\
    forall c k, c < 2 ^ 21 -> RowClass rows c k -> get_char_class_in ascii complete c = Ok (2 ^ category_number k).
Proof. exact p_c119_class. Qed.
Print Assumptions C119_class_header.

(** make_case_convert_file.py UPPER, LOWER or TITLE, and the fields 12, 13 and 14. *)
Theorem C119_case_header : forall name i year date lines t rows,
  (name = #"UPPER" /\ i = 12%nat) \/ (name = #"LOWER" /\ i = 13%nat) \/ (name = #"TITLE" /\ i = 14%nat) ->
  date_text year -> date_text date -> DataText lines t -> Says (case_line i) lines rows ->
  increasing_rows rows -> Forall (fun p => fst p < 2 ^ 32 /\ snd p < 2 ^ 32) rows ->
  exists a b compact single, make_case_file name year date t = Some (case_header name year date a b) /\
    Items braced4 a compact /\ Items braced2 b single /\
    Forall (fun x => let '(p, q, r, s) := x in p < 2 ^ 32 /\ q < 2 ^ 32 /\ r < 2 ^ 32 /\ s < 2 ^ 32) compact /\ Forall (fun p => fst p < 2 ^ 32 /\ snd p < 2 ^ 32) single /\
    forall c d, c < 2 ^ 32 -> (In (c, d) rows -> convert compact single c = d) /\ ((forall x, ~ In (c, x) rows) -> convert compact single c = c).
Proof. exact p_c119_case. Qed.
Print Assumptions C119_case_header.

(** make_normalization_file.py; of the compositions, those of C108 are found. *)
Theorem C119_norm_header : forall year date lines t rules, date_text year -> date_text date -> DataText lines t -> Says pair_line lines rules ->
  increasing_rows rules -> Forall small_rule rules -> Forall (fun r => 0xC0 <= fst r) rules -> NoDup (map snd rules) ->
  exists a b decomposed composed, make_norm_file year date t = Some (norm_header year date a b) /\
    Items literal a decomposed /\ Items literal b composed /\ Forall (fun v => v < 2 ^ 64) decomposed /\ Forall (fun v => v < 2 ^ 64) composed /\
    (forall c x y, In (c, (x, y)) rules -> find_decomposed_in decomposed c = (x, y)) /\
    (forall c, (forall x y, ~ In (c, (x, y)) rules) -> find_decomposed_in decomposed c = (c, 0)) /\
    (forall c x y, In (c, (x, y)) rules -> x < 0x1000 -> 0x300 <= y -> find_composed_in false composed x y = Ok c).
Proof. exact p_c119_norm. Qed.
Print Assumptions C119_norm_header.

(** There is only one way to read an array. *)
Theorem C119_one_reading : forall s, (forall l l', Items literal s l -> Items literal s l' -> l = l') /\
  (forall l l', Items braced4 s l -> Items braced4 s l' -> l = l') /\ (forall l l', Items braced2 s l -> Items braced2 s l' -> l = l').
Proof. exact p_c119_unique. Qed.
Print Assumptions C119_one_reading.

(** From every data file that says what UnicodeData16.0.0.txt says, the scripts
    made the shipped headers, byte for byte, on the date written in them. *)
Theorem C119_class_shipped : forall lines t, DataText lines t -> Forall2 class_line lines (rows_of UD_ROW_RUNS) ->
  make_class_file #"2025" #"2025-01-01" t = Some CHAR_CLASS_HEADER.
Proof. exact p_c119_class_shipped. Qed.
Print Assumptions C119_class_shipped.
Theorem C119_case_shipped : forall lines t, DataText lines t ->
  (Says (case_line 12) lines UD_UPPER -> make_case_file #"UPPER" #"2025" #"2025-01-01" t = Some UPPER_CASE_HEADER) /\
  (Says (case_line 13) lines UD_LOWER -> make_case_file #"LOWER" #"2025" #"2025-01-01" t = Some LOWER_CASE_HEADER) /\
  (Says (case_line 14) lines UD_TITLE -> make_case_file #"TITLE" #"2025" #"2025-01-01" t = Some TITLE_CASE_HEADER).
Proof. exact p_c119_case_shipped. Qed.
Print Assumptions C119_case_shipped.
Theorem C119_norm_shipped : forall lines t, DataText lines t -> Says pair_line lines UD_PAIRS ->
  make_norm_file #"2025" #"2025-01-01" t = Some NORMALIZATION_HEADER.
Proof. exact p_c119_norm_shipped. Qed.
Print Assumptions C119_norm_shipped.

(** There are data files that say whatever one wants, also those of Unicode 16
    (for which C105, C106 and C107 show the other hypotheses). *)
Example C119_files : (forall rows, exists lines t, DataText lines t /\ Forall2 class_line lines rows) /\
  (forall i rows, i = 12%nat \/ i = 13%nat \/ i = 14%nat -> exists lines t, DataText lines t /\ Says (case_line i) lines rows) /\
  (forall rules, exists lines t, DataText lines t /\ Says pair_line lines rules).
Proof. split; [exact class_data_exists|]. split; [exact case_data_exists|exact pair_data_exists]. Qed.
Example C119_dates : date_text #"2025" /\ date_text #"2025-01-01".
Proof.
  split; (split; [discriminate|]); repeat (constructor; [first [right; reflexivity|left; match goal with |- context [u8 ?b] => let v := eval vm_compute in (u8 b) in change (u8 b) with v end; lia]|]); constructor.
Qed.
(** Three lines with different line ends, and two of the headers made of them. *)
Definition sample_file : str :=
  #"00C0;LATIN CAPITAL LETTER A WITH GRAVE;Lu;0;L;0041 0300;;;;N;LATIN CAPITAL LETTER A GRAVE;;;00E0;" ++ [x0d; x0a] ++
  #"00C6;LATIN CAPITAL LETTER AE;Lu;0;L;;;;;N;LATIN CAPITAL LETTER A E;;;00E6;" ++ [x0a] ++
  #"01c4;LATIN CAPITAL LETTER DZ WITH CARON;Lu;0;L;<compat> 0044 017D;;;;N;LATIN CAPITAL LETTER D Z HACEK;;;01C6;01C5".
Example C119_lower_sample : make_case_file #"LOWER" #"2025" #"2025-12-24" sample_file =
  Some (case_header #"LOWER" #"2025" #"2025-12-24" [] (file_text [#"        {0x0000C0, 0x0000E0},"; #"        {0x0000C6, 0x0000E6},"; #"        {0x0001C4, 0x0001C6},"])).
Proof. vm_compute. reflexivity. Qed.
Example C119_title_sample : make_case_file #"TITLE" #"2025" #"2025-12-24" sample_file =
  Some (case_header #"TITLE" #"2025" #"2025-12-24" [] (file_text [#"        {0x0001C4, 0x0001C5},"])).
Proof. vm_compute. reflexivity. Qed.
Example C119_norm_sample : make_norm_file #"2025" #"2025-12-24" sample_file =
  Some (norm_header #"2025" #"2025-12-24" (file_text [#"        0x0000C00004100300"]) (file_text [#"        0x00004100300000C0"])).
Proof. vm_compute. reflexivity. Qed.
Example C119_sample_data : exists lines, DataText lines sample_file /\ Forall2 class_line lines [(0xC0, Lu); (0xC6, Lu); (0x1C4, Lu)] /\
  Says (case_line 13) lines [(0xC0, 0xE0); (0xC6, 0xE6); (0x1C4, 0x1C6)] /\ Says (case_line 14) lines [(0x1C4, 0x1C5)] /\ Says pair_line lines [(0xC0, (0x41, 0x300))].
Proof.
  exists [[#"00C0"; #"LATIN CAPITAL LETTER A WITH GRAVE"; #"Lu"; #"0"; #"L"; #"0041 0300"; []; []; []; #"N"; #"LATIN CAPITAL LETTER A GRAVE"; []; []; #"00E0"; []];
          [#"00C6"; #"LATIN CAPITAL LETTER AE"; #"Lu"; #"0"; #"L"; []; []; []; []; #"N"; #"LATIN CAPITAL LETTER A E"; []; []; #"00E6"; []];
          [#"01c4"; #"LATIN CAPITAL LETTER DZ WITH CARON"; #"Lu"; #"0"; #"L"; #"<compat> 0044 017D"; []; []; []; #"N"; #"LATIN CAPITAL LETTER D Z HACEK"; []; []; #"01C6"; #"01C5"]].
  split; [|split; [|split; [|split]]].
  - apply data_crlf; [apply data_line_check; vm_compute; reflexivity|]. apply data_lf; [apply data_line_check; vm_compute; reflexivity|]. apply data_last. apply data_line_check; vm_compute; reflexivity.
  - constructor; [|constructor; [|constructor; [|constructor]]]; eexists; (split; [reflexivity|]); (split; [apply code_check; vm_compute; reflexivity|reflexivity]).
  - do 3 (apply says_some; [eapply case_some; [reflexivity|apply code_check; vm_compute; reflexivity|reflexivity|apply code_check; vm_compute; reflexivity]|]). constructor.
  - do 2 (apply says_none; [constructor; reflexivity|]).
    apply says_some; [eapply case_some; [reflexivity|apply code_check; vm_compute; reflexivity|reflexivity|apply code_check; vm_compute; reflexivity]|]. constructor.
  - apply says_some.
    { eapply pair_some; [reflexivity|apply code_check; vm_compute; reflexivity|reflexivity|]. apply (codes_more #"0041" _ 0 #"0300"); [apply code_check; vm_compute; reflexivity|]. apply codes_one, code_check; vm_compute; reflexivity. }
    apply says_none; [apply (pair_none _ #"00C6" 0xC6); [reflexivity|apply code_check; vm_compute; reflexivity|reflexivity]|].
    apply says_none; [apply (pair_tag _ #"01c4" 0x1C4 #"compat> 0044 017D"); [reflexivity|apply code_check; vm_compute; reflexivity|reflexivity]|]. constructor.
Qed.
