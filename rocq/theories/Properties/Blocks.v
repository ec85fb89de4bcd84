(** C122: conditions, assignments and alignment in templates (codegen.py). *)
From Coq Require Import String.
From Verif Require Import Base Model.Codegen Spec.Template Spec.Blocks Proofs.CodegenLemmas Proofs.BlockLemmas Proofs.AppendLemmas Proofs.BlockMissing.
Local Notation "'#' s" := (list_byte_of_string s%string) (at level 5, only parsing).

(** Of every block the branch is used that its conditions select, at any depth;
    only the conditions on the way to it have to be in the dictionary. *)
Theorem C122_blocks : forall d (c : str -> bool) t, plain_tmpl t -> unindented t ->
  Forall (fun k => if c k then holds d k else fails d k) (asked c t) -> chosen c t <> [] ->
  make_lines (lines_text (tmpl_lines t)) d = make_lines (lines_text (map tline_text (chosen c t))) d.
Proof. exact p_c122_unindented. Qed.
Print Assumptions C122_blocks.
Theorem C122_blocks_empty : forall d (c : str -> bool) t, plain_tmpl t -> unindented t ->
  Forall (fun k => if c k then holds d k else fails d k) (asked c t) -> t <> t_end -> chosen c t = [] ->
  make_lines (lines_text (tmpl_lines t)) d = Some [].
Proof. exact p_c122_empty. Qed.
Print Assumptions C122_blocks_empty.
(** With C118: what the template expands to. *)
Theorem C122_expansion : forall d (c : str -> bool) t out, plain_tmpl t -> unindented t ->
  Forall (fun k => if c k then holds d k else fails d k) (asked c t) -> chosen c t <> [] -> Expanded d 0 (chosen c t) out ->
  make_lines (lines_text (tmpl_lines t)) d = Some out.
Proof. exact p_c122_expansion. Qed.
Print Assumptions C122_expansion.
(** Indented markers: as if the markers were lines with only a marker for nothing
    (whose blanks can turn up in the next list, see C118). *)
Theorem C122_indented : forall d (c : str -> bool) none t, plain_tmpl t -> t <> t_end ->
  Forall (fun k => if c k then holds d k else fails d k) (asked c t) -> nothing d none -> plain_key none ->
  make_lines (lines_text (tmpl_lines t)) d = make_lines (lines_text (map tline_text (chosen_with none c t))) d.
Proof. exact p_c122_blocks. Qed.
Print Assumptions C122_indented.
(** With C118_every: every value and any number of lists in a line. *)
Theorem C122_every : forall d (c : str -> bool) t out, plain_tmpl t -> unindented t ->
  Forall (fun k => if c k then holds d k else fails d k) (asked c t) -> chosen c t <> [] -> filled_in d 0 (chosen c t) out ->
  make_lines (lines_text (tmpl_lines t)) d = Some out.
Proof. exact p_c122_every. Qed.
Print Assumptions C122_every.
Theorem C122_every_indented : forall d (c : str -> bool) none t out, plain_tmpl t -> t <> t_end ->
  Forall (fun k => if c k then holds d k else fails d k) (asked c t) -> nothing d none -> plain_key none ->
  filled_in d 0 (chosen_with none c t) out -> make_lines (lines_text (tmpl_lines t)) d = Some out.
Proof. exact p_c122_every_indented. Qed.
Print Assumptions C122_every_indented.
(** A condition that is asked and not in the dictionary is an error, whatever
    comes before and behind it. *)
Theorem C122_missing : forall d (c : str -> bool) t a k b, plain_tmpl t -> asked c t = a ++ k :: b ->
  Forall (fun k => if c k then holds d k else fails d k) a -> (forall v, ~ In (k, v) d) ->
  make_lines (lines_text (tmpl_lines t)) d = None.
Proof. exact p_c122_missing. Qed.
Print Assumptions C122_missing.
(** Blocks that do not start or do not end are an error. *)
Theorem C122_balanced : forall ms d out, ms <> [] -> Forall plain_mline ms ->
  make_lines (lines_text (map mline_text ms)) d = Some out -> balanced ms.
Proof. exact p_c122_balanced. Qed.
Print Assumptions C122_balanced.
(** An assignment holds for the rest of the template and leaves no line. *)
Theorem C122_set : forall d k v s, k <> [] -> Forall key_char k -> ~ In x5d v -> ~ In x0a v ->
  make_lines (#"[[[SET " ++ k ++ #"=" ++ v ++ #"]]]" ++ x0a :: s) d = make_lines s ((k, VStr v) :: d).
Proof. exact p_c122_set. Qed.
Print Assumptions C122_set.
(** Templates can be put together: behind lines and blocks that end with a line
    without markers, the rest of the template is expanded as if it stood alone; ... *)
Theorem C122_append : forall ms tail d out s, Forall plain_mline ms -> ~ In x0a tail -> no_marker tail ->
  make_lines (lines_text (map mline_text ms ++ [tail])) d = Some out ->
  make_lines (lines_text (map mline_text ms ++ [tail]) ++ x0a :: s) d = option_map (app out) (make_lines s d).
Proof. exact p_c122_append. Qed.
Print Assumptions C122_append.
(** ... so an assignment there holds for the rest, too. *)
Theorem C122_set_later : forall ms tail d out k v s, Forall plain_mline ms -> ~ In x0a tail -> no_marker tail ->
  make_lines (lines_text (map mline_text ms ++ [tail])) d = Some out -> k <> [] -> Forall key_char k -> ~ In x5d v -> ~ In x0a v ->
  make_lines (lines_text (map mline_text ms ++ [tail; #"[[[SET " ++ k ++ #"=" ++ v ++ #"]]]"; s])) d =
  option_map (app out) (make_lines s ((k, VStr v) :: d)).
Proof. exact p_c122_set_later. Qed.
Print Assumptions C122_set_later.
(** What follows an alignment marker is in the column that was marked, or
    directly behind the text if that is longer. *)
Theorem C122_align : forall d A B xys,
  ~ In x0a A /\ no_marker A -> ~ In x0a B /\ no_marker B -> (forall u, A <> u ++ #"[") ->
  Forall (fun xy => (~ In x0a (fst xy) /\ no_marker (fst xy)) /\ (~ In x0a (snd xy) /\ no_marker (snd xy)) /\ (forall u, fst xy <> u ++ #"[")) xys ->
  exists o outs, stripped (A ++ B) o /\
    Forall2 (fun xy o => exists fill, indent fill /\ length fill = (length A - length (fst xy))%nat /\ stripped (fst xy ++ fill ++ snd xy) o) xys outs /\
    make_lines (lines_text ((A ++ #"[[[>]]]" ++ B) :: map (fun xy => fst xy ++ #"[[[|]]]" ++ snd xy) xys)) d = Some (o :: outs).
Proof. exact p_c122_align_many. Qed.
Print Assumptions C122_align.
Example C122_append_ex : let ms := [m_if [] #"x"; m_line ([], #"never"); m_else #"  "; m_line ([(#"a", #"y")], []); m_endif []] in
  Forall plain_mline ms /\ make_lines (lines_text (map mline_text ms ++ [#"b"])) [(#"x", VNone); (#"y", VStr #"0")] = Some [#"a0"; #"b"] /\
  make_lines (lines_text (map mline_text ms ++ [#"b"; #"[[[SET x=1]]]"; #"c[[[x]]]"])) [(#"x", VNone); (#"y", VStr #"0")] = Some [#"a0"; #"b"; #"c1"] /\
  make_lines (lines_text [#"f([[[>]]]a,"; #"[[[|]]]b,"; #"  [[[|]]]c);"]) [] = Some [#"f(a,"; #"  b,"; #"  c);"].
Proof.
  split; [|vm_compute; auto]. constructor; [split; [constructor|split; [discriminate|now apply key_check]]|].
  constructor; [refine (Forall_inv (plain_check [([], #"never")] _)); reflexivity|]. constructor; [repeat constructor|].
  constructor; [refine (Forall_inv (plain_check [([(#"a", #"y")], [])] _)); reflexivity|]. repeat constructor.
Qed.

(** Nested blocks with ELIF and ELSE; "missing" is not in the dictionary. *)
Definition text_line (s : str) : tline := ([], s).
Definition sample_tmpl : tmpl :=
  t_line (text_line #"start") (
  t_if [] #"no" (t_if [] #"missing" (t_line (text_line #"never") t_end) b_end [] t_end)
    (b_elif [] #"yes" (t_line ([(#"a ", #"who")], #" b") (t_if [] #"zero" (t_line (text_line #"never") t_end) (b_else [] (t_line (text_line #"inner") t_end)) [] t_end))
    (b_elif [] #"missing" (t_line (text_line #"never") t_end) b_end)) []
  (t_line (text_line #"end") t_end)).
Definition sample_env : dict := [(#"no", VStr []); (#"yes", VList [[]]); (#"zero", VOther #"0"); (#"who", VStr #"JEB")].
Definition sample_cond (k : str) : bool := str_eqb k #"yes".
Example C122_sample : plain_tmpl sample_tmpl /\ unindented sample_tmpl /\
  Forall (fun k => if sample_cond k then holds sample_env k else fails sample_env k) (asked sample_cond sample_tmpl) /\
  asked sample_cond sample_tmpl = [#"no"; #"yes"; #"zero"] /\
  map tline_text (chosen sample_cond sample_tmpl) = [#"start"; #"a [[[who]]] b"; #"inner"; #"end"] /\
  make_lines (lines_text (tmpl_lines sample_tmpl)) sample_env = Some [#"start"; #"a JEB b"; #"inner"; #"end"] /\
  lines_text (tmpl_lines sample_tmpl) = lines_text [#"start"; #"[[[IF no]]]"; #"[[[IF missing]]]"; #"never"; #"[[[ENDIF]]]"; #"[[[ELIF yes]]]";
    #"a [[[who]]] b"; #"[[[IF zero]]]"; #"never"; #"[[[ELSE]]]"; #"inner"; #"[[[ENDIF]]]"; #"[[[ELIF missing]]]"; #"never"; #"[[[ENDIF]]]"; #"end"].
Proof.
  assert (forall l, forallb plain_tlineb [l] = true -> plain_tline l) as K by (intros l Hl; apply plain_check in Hl; now apply Forall_cons_iff in Hl as [? _]).
  assert (forall k, forallb key_charb k = true -> Forall key_char k) as KC by (intros k Hk; now apply key_check).
  repeat split; try (apply K; vm_compute; reflexivity); try (apply KC; vm_compute; reflexivity); try discriminate; try constructor.
  - exists (VStr []). split; [apply bound_first; reflexivity|reflexivity].
  - constructor; [|constructor; [|constructor]].
    + exists (VList [[]]). split; [apply bound_first; reflexivity|discriminate].
    + exists (VOther #"0"). split; [apply bound_first; reflexivity|]. intros b [<-|[]]. reflexivity.
Qed.
Example C122_more : make_lines (lines_text [#"int f([[[>]]]int a,"; #"[[[|]]]int b);"]) [] = Some [#"int f(int a,"; #"      int b);"] /\
  make_lines (lines_text [#"[[[SET x=a b]]]"; #"-[[[x]]]-"]) [] = Some [#"-a b-"] /\
  make_lines (lines_text [#"a"; #"[[[ENDIF]]]"]) [] = None /\ make_lines (lines_text [#"[[[IF x]]]"; #"a"]) [(#"x", VNone)] = None.
Proof. vm_compute. auto. Qed.

(** Without "yes" in the dictionary the condition of the ELIF is missing. *)
Example C122_missing_ex : asked sample_cond sample_tmpl = [#"no"] ++ #"yes" :: [#"zero"] /\
  (let d := [(#"no", VStr []); (#"zero", VOther #"0"); (#"who", VStr #"JEB")] in
   Forall (fun k => if sample_cond k then holds d k else fails d k) [#"no"] /\ (forall v, ~ In (#"yes", v) d)).
Proof.
  split; [reflexivity|]. split; [|intros v; cbn; intuition discriminate]. constructor; [|constructor].
  exists (VStr []). split; [apply bound_first; reflexivity|reflexivity].
Qed.
(** An indented block with a list in it: the blanks of the marker turn up. *)
Example C122_every_ex : let d := [(#"a", VOther #"1"); (#"b", VList [#"x,"; #"y"]); (#"z", VNone)] in
  let t := t_if #" " #"a" (t_line ([(#"  ", #"b")], []) t_end) b_end #" " t_end in
  plain_tmpl t /\ Forall (fun k => if str_eqb k #"a" then holds d k else fails d k) (asked (fun k => str_eqb k #"a") t) /\ nothing d #"z" /\ plain_key #"z" /\
  filled_in d 0 (chosen_with #"z" (fun k => str_eqb k #"a") t) [#"  x,"; #"   y"] /\
  make_lines (lines_text (tmpl_lines t)) d = Some [#"  x,"; #"   y"].
Proof.
  intros d t. assert (KC : forall k, forallb key_charb k = true -> Forall key_char k) by (intros k Hk; now apply key_check).
  assert (nothing d #"z") as HZ by (left; apply bound_first; reflexivity).
  assert (LO : forall k, nothing d k -> left_out d [(#" ", k)] [] #" ").
  { intros k Hk. split; [reflexivity|]. split; [apply Forall_forall; intros x [<-|[]]; left; reflexivity|]. exists [], (#" ", k). auto. }
  split; [|split; [|split; [exact HZ|split; [split; [apply KC; reflexivity|split; intros z; discriminate]|split; [|reflexivity]]]]].
  - assert (indent #" ") by (constructor; [now left|constructor]). assert (plain_tline ([(#"  ", #"b")], [])) by (refine (Forall_inv (plain_check [([(#"  ", #"b")], [])] _)); reflexivity).
    cbn [plain_tmpl plain_branches t]. repeat (split; [first [assumption|discriminate|apply KC; reflexivity|exact I]|]). tauto.
  - constructor; [|constructor]. exists (VOther #"1"). split; [apply bound_first; reflexivity|]. exists x31. split; [now left|discriminate].
  - apply (filled_in_left_out d 0 [(#" ", #"z")] [] _ [] #" " 1 [#"  x,"; #"   y"]); [|apply LO; exact HZ|].
    + apply (line_run_step d [] 0 #" " #"z" _ [] #" " 1 []); [now apply filled_nothing|constructor].
    + apply (filled_in_line d 1 [(#"  ", #"b")] [] _ [#"  x,"] #"   y" 4 #"   y" []).
      * apply (line_run_step d [] 1 #"  " #"b" _ [#"  x,"] #"   y" 4 []); [|constructor].
        apply (filled_rows d #"  " 3 #"b" #"x," [] #"y" #"  " #"   " [] #"   y" 4); [apply bound_first; reflexivity| |reflexivity|].
        -- left. exists #"x,". split; [reflexivity|]. split; [repeat constructor|]. exists x78, #",". repeat split; discriminate.
        -- apply (put_plain [] 0 #"   y"). cbn. intuition discriminate.
      * intros (_ & HW & _). rewrite Forall_forall in HW. specialize (HW x79 ltac:(cbn; tauto)). unfold white in HW. change (u8 x79) with 0x79 in HW. lia.
      * now apply stripped_check.
      * apply (filled_in_left_out d 0 [(#" ", #"z")] [] _ [] #" " 1 []); [|apply LO; exact HZ|constructor].
        apply (line_run_step d [] 0 #" " #"z" _ [] #" " 1 []); [now apply filled_nothing|constructor].
Qed.
