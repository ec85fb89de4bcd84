(** C129: what the template processor asks of the objects and functions that
    stand for the values. *)
From Coq Require Import String.
From Verif Require Import Base Model.Codegen Model.Expanders Spec.Template Spec.Blocks Spec.Expanders Proofs.CodegenLemmas Proofs.BlockLemmas Proofs.ExpanderLemmas Proofs.ExpanderBlocks Proofs.ExpanderEvery.
Local Notation "'#' s" := (list_byte_of_string s%string) (at level 5, only parsing).

(** The calls: one for each marker, in the order of the template, with the key, the
    parameters without white space, the margin of the line so far and the number
    of bytes in it; the values go where the markers are. *)
Theorem C129_calls : forall (E : Type) (X : expander E) e lines calls e' out, Calls X e lines calls e' out -> lines <> [] -> Forall plain_texts lines ->
  g_make_lines (watched X) (lines_text (map tline_text lines)) (e, []) = Some (out, (e', calls)).
Proof. exact (@p_c129_calls). Qed.
Print Assumptions C129_calls.
(** Every value: with the column that the processor keeps (see Spec/Template.v for
    where that is not the column), this is exactly when the template is expanded, and
    into what. *)
Theorem C129_exactly : forall (E : Type) (X : expander E) e lines calls e' out, lines <> [] -> Forall plain_texts lines -> Forall plain_markers lines ->
  g_make_lines (watched X) (lines_text (map tline_text lines)) (e, []) = Some (out, (e', calls)) <-> exists col, Answers X e 0 lines calls e' col out.
Proof. exact (@p_c129_exactly). Qed.
Print Assumptions C129_exactly.
(** An exception of the expander ends the expansion; nothing behind it is asked. *)
Theorem C129_refused : forall (E : Type) (X : expander E) e before calls e1 col out ps t m qs tail after calls2 em e2 cur col2 last k params ind,
  Answers X e 0 before calls e1 col out -> LineAnswers X e1 [] col None ps calls2 em e2 cur col2 last ->
  marker_call m k params -> margin (cur ++ t) ind -> ask X e2 k params (ind, col2 + length t)%nat = None ->
  let lines := before ++ (ps ++ (t, m) :: qs, tail) :: after in
  Forall plain_texts lines -> Forall plain_markers lines -> g_make_lines X (lines_text (map tline_text lines)) e = None.
Proof. exact (@p_c129_refused). Qed.
Print Assumptions C129_refused.
(** The calls of a template with blocks, at any depth: a condition is asked when its
    block is reached and no branch before it was taken. *)
Theorem C129_blocks : forall (E : Type) (X : expander E) e t calls e' out, BlockCalls X e t calls e' out -> plain_tmpl t -> unindented t -> t <> t_end ->
  g_make_lines (watched X) (lines_text (tmpl_lines t)) (e, []) = Some (out, (e', calls)).
Proof. exact (@p_c129_blocks). Qed.
Print Assumptions C129_blocks.
(** Watching makes no difference. *)
Theorem C129_watched : forall (E : Type) (X : expander E) template e l,
  option_map (fun r => (fst r, fst (snd r))) (g_make_lines (watched X) template (e, l)) = g_make_lines X template e.
Proof. exact (@p_c129_watched). Qed.
Print Assumptions C129_watched.

(** A dictionary expander is a dictionary: the other theorems are about it. *)
Theorem C129_dictionary : forall template d, make_lines template d = option_map fst (g_make_lines dict_expander template d).
Proof. exact p_c129_dictionary. Qed.
Print Assumptions C129_dictionary.
(** A function that answers what a dictionary has makes the same text, whatever
    else it does; the template has no SET. *)
Theorem C129_function : forall (S : Type) (f : S -> str -> list str -> context -> option (value * S)) assign (s0 : S) d template,
  (forall u v, template <> u ++ #"[[[SET " ++ v) ->
  (forall s k ps ctx, match dict_get d k with None => f s k ps ctx = None | Some v => exists s', f s k ps ctx = Some (v, s') end) ->
  option_map fst (g_make_lines (func_expander f assign) template s0) = make_lines template d.
Proof. exact (@p_c129_function). Qed.
Print Assumptions C129_function.
(** An object whose attributes are not methods makes the text that the dictionary
    of its attributes makes, with SET or without. *)
Theorem C129_values : forall own d template,
  option_map fst (g_make_lines (object_expander own) template (map (fun p => (fst p, AValue (snd p))) d)) = make_lines template d.
Proof. exact p_c129_values. Qed.
Print Assumptions C129_values.
(** A method is called with the context added to that of the object. *)
Theorem C129_method : forall own a key f ps ctx, (exists u w, a = u ++ (key, AMethod f) :: w /\ Forall (fun p => fst p <> key) u) ->
  ask (object_expander own) a key ps ctx = option_map (fun v => (v, a)) (f ps (fst own ++ fst ctx, snd own + snd ctx)%nat).
Proof. exact p_c129_method. Qed.
Print Assumptions C129_method.

(** SET passes the key and the text to the expander. *)
Theorem C129_set : forall (E : Type) (X : expander E) e k v s, k <> [] -> Forall key_char k -> ~ In x5d v -> ~ In x0a v ->
  g_make_lines X (#"[[[SET " ++ k ++ #"=" ++ v ++ #"]]]" ++ x0a :: s) e =
  match tell X e k v with None => None | Some e' => g_make_lines X s e' end.
Proof. exact (@p_c129_set). Qed.
Print Assumptions C129_set.
(** Without a function for it, SET does nothing. *)
Theorem C129_set_nothing : forall (S : Type) (f : S -> str -> list str -> context -> option (value * S)) e k v s, k <> [] -> Forall key_char k -> ~ In x5d v -> ~ In x0a v ->
  g_make_lines (func_expander f None) (#"[[[SET " ++ k ++ #"=" ++ v ++ #"]]]" ++ x0a :: s) e = g_make_lines (func_expander f None) s e.
Proof. exact (fun S f => @p_c129_set S (func_expander f None)). Qed.
Print Assumptions C129_set_nothing.

(** The markers of a branch that is not taken are not asked. *)
Theorem C129_untaken : forall (E : Type) (X : expander E) e k v e1 body s, k <> [] -> Forall key_char k -> body <> [] -> Forall plain_tline body ->
  ask X e k [] ([], 0%nat) = Some (v, e1) -> falsy v ->
  g_make_lines X (#"[[[IF " ++ k ++ #"]]]" ++ x0a :: lines_text (map tline_text body) ++ x0a :: #"[[[ENDIF]]]" ++ x0a :: s) e = g_make_lines X s e1.
Proof. exact (@p_c129_untaken). Qed.
Print Assumptions C129_untaken.

(** Behind a line that is left out the number in the context is not the length of
    the line: the width of that line is added. *)
Theorem C129_column_refuted : forall (E : Type) (X : expander E) e e1 w v t, ask X e #"a" [] ([], 2%nat) = Some (VNone, e1) ->
  ask X e1 #"b" [] ([], 4%nat) = Some (v, w) -> line_value v t -> (forall u c, t = u ++ [c] -> ~ white c) -> t <> [] ->
  g_make_lines (watched X) (lines_text [#"  [[[a]]]"; #"  [[[b]]]"]) (e, []) = Some ([#"  " ++ t], (w, [(#"a", [], ([], 2%nat)); (#"b", [], ([], 4%nat))])).
Proof. exact (@p_c129_column). Qed.
Print Assumptions C129_column_refuted.

(** A function that counts its calls, and answers with the parameter. *)
Example C129_sample : Forall plain_texts counted /\
  Calls counter 0%nat counted
    [(#"f", [#"ab"; #"c"], (#"  ", 3%nat)); (#"g", [], (#"  ", 6%nat)); (#"h", [], ([], 0%nat))] 3%nat [#"  xab-g;"; []; #"h!"].
Proof. exact p_c129_sample. Qed.
Example C129_sample_lines : lines_text (map tline_text counted) = #"  x[[[f( ab ,c)]]]-[[[g]]]; " ++ [x0a; x0a] ++ #"[[[h]]]!".
Proof. reflexivity. Qed.
(** The first condition is false, the second true, the third is not asked; in the
    branch taken a line is left out. *)
Definition asking : expander nat := func_expander (fun (n : nat) k _ _ => Some (match n with O => VStr [] | S (S O) => VNone | _ => VOther k end, S n)) None.
Definition asking_tmpl : tmpl :=
  t_if [] #"a" (t_line ([], #"never") t_end)
    (b_elif [] #"b" (t_line ([([], #"x")], []) (t_line ([(#"- ", #"y")], []) t_end)) (b_elif [] #"c" t_end (b_else [] t_end))) [] (t_line ([([], #"z")], []) t_end).
Example C129_blocks_sample : plain_tmpl asking_tmpl /\ unindented asking_tmpl /\
  BlockCalls asking 0%nat asking_tmpl
    [(#"a", [], ([], 0%nat)); (#"b", [], ([], 0%nat)); (#"x", [], ([], 0%nat)); (#"y", [], ([], 2%nat)); (#"z", [], ([], 0%nat))] 5%nat [#"- y"; #"z"].
Proof.
  assert (forall l, forallb plain_tlineb [l] = true -> plain_tline l) as K by (intros l Hl; apply plain_check in Hl; now apply Forall_cons_iff in Hl as [? _]).
  assert (forall k, forallb key_charb k = true -> Forall key_char k) as KC by (intros k Hk; now apply key_check).
  split; [|split].
  - repeat split; try (apply K; vm_compute; reflexivity); try (apply KC; vm_compute; reflexivity); try discriminate; constructor.
  - repeat split.
  - apply (bc_if asking 0%nat [] #"a" _ _ [] _ [(#"a", [], ([], 0%nat)); (#"b", [], ([], 0%nat)); (#"x", [], ([], 0%nat)); (#"y", [], ([], 2%nat))] 4%nat [#"- y"] [(#"z", [], ([], 0%nat))] 5%nat [#"z"]).
    + apply rc_not_taken with (VStr []) 1%nat; [reflexivity|right; now left|]. apply rc_taken with (VOther #"b") 2%nat; [reflexivity|exists x62; split; [now left|discriminate]|].
      apply bc_nothing with VNone 3%nat; [reflexivity|now left|].
      apply (bc_line asking 3%nat [(#"- ", #"y")] [] [(#"y", [], ([], 2%nat))] 4%nat #"- y" #"- y" t_end [] 4%nat []); [|apply stripped_check; reflexivity|constructor].
      apply (lc_marker asking 3%nat [] #"- " #"y" #"y" [] [] (VOther #"y") 4%nat #"y" [] [] 4%nat #"- y"); [split; [split; [apply KC; reflexivity|split; intros z; discriminate]|left; auto]|left; exists #"- "; split; [reflexivity|split; [constructor|exists x2d, [x20]; split; [reflexivity|split; discriminate]]]|reflexivity|split; [cbn; intuition discriminate|now left]|constructor].
    + apply (bc_line asking 4%nat [([], #"z")] [] [(#"z", [], ([], 0%nat))] 5%nat #"z" #"z" t_end [] 5%nat []); [|apply stripped_check; reflexivity|constructor].
      apply (lc_marker asking 4%nat [] [] #"z" #"z" [] [] (VOther #"z") 5%nat #"z" [] [] 5%nat #"z"); [split; [split; [apply KC; reflexivity|split; intros z; discriminate]|left; auto]|right; split; [constructor|reflexivity]|reflexivity|split; [cbn; intuition discriminate|now left]|constructor].
Qed.
Example C129_method_sample :
  option_map fst (g_make_lines (object_expander (#"  ", 2%nat)) #"a [[[f(1)]]]" [(#"f", AMethod (fun ps c => Some (VList (ps ++ [fst c]))))]) =
  Some [#"a 1"; #""].
Proof. vm_compute. reflexivity. Qed.
Example C129_untaken_sample :
  ask counter 0%nat #"0" [] ([], 0%nat) = Some (VOther #"0", 1%nat) /\
  g_make_lines counter (#"[[[IF 0]]]" ++ x0a :: #"[[[a]]]" ++ x0a :: #"[[[ENDIF]]]" ++ x0a :: #"[[[b]]]") 0%nat = Some ([#"b"], 2%nat).
Proof. split; vm_compute; reflexivity. Qed.
Example C129_column_sample : line_value (VOther #"b") #"b" /\ (forall u c, #"b" = u ++ [c] -> ~ white c) /\
  ask (func_expander (fun (n : nat) k _ _ => Some (if n then VNone else VOther k, S n)) None) 0%nat #"a" [] ([], 2%nat) = Some (VNone, 1%nat).
Proof.
  split; [split; [cbn; intuition discriminate|now left]|split; [|reflexivity]]. intros [|x [|y u]] c E; try discriminate. injection E as <-. unfold white. change (u8 x62) with 0x62. lia.
Qed.

(** A list, nothing, a line that is left out, and a text with a line feed. *)
Definition mixed : expander nat := func_expander (fun (n : nat) k ps c =>
  match n with 0 => Some (VList [k; #"b"; fst c], 1) | 1 => Some (VNone, 2) | 2 => Some (VStr [], 3) | 3 => Some (VStr (k ++ x0a :: fst c ++ k), 4) | _ => None end%nat) None.
Definition mixed_lines : list tline := [([(#" x ", #"f(1)"); (#";", #"g")], []); ([(#" ", #"h")], []); ([(#"  ", #"i")], #"!")].
Example C129_exactly_ex : Forall plain_texts mixed_lines /\ Forall plain_markers mixed_lines /\
  exists col, Answers mixed 0%nat 0 mixed_lines
    [(#"f", [#"1"], (#" ", 3%nat)); (#"g", [], (#"    ", 5%nat)); (#"h", [], ([], 1%nat)); (#"i", [], ([], 3%nat))] 4%nat col [#" x f"; #"   b"; #"    ;"; #"  i"; #"i!"].
Proof.
  assert (HT : Forall plain_texts mixed_lines).
  { apply (plain_texts_like [([(#" x ", #"f"); (#";", #"g")], []); ([(#" ", #"h")], []); ([(#"  ", #"i")], #"!")]); [apply plain_check; reflexivity|]. repeat constructor. }
  assert (HM : Forall plain_markers mixed_lines).
  { assert (PK : forall k, In k [#"f"; #"g"; #"h"; #"i"] -> plain_key k).
    { intros k [<-|[<-|[<-|[<-|[]]]]]; (split; [apply key_check; reflexivity|split; intros v; discriminate]). }
    constructor; [|constructor; [|constructor; [|constructor]]]; intros p Hp; cbn [fst In] in Hp.
    - destruct Hp as [<-|[<-|[]]]; cbn [snd].
      + exists #"f", [#"1"]. split; [apply PK; now left|]. right. exists [#"1"], []. split; [reflexivity|]. split; [discriminate|].
        split; [|split; [repeat constructor; discriminate|constructor]]. constructor; [|constructor]. exists [], []. split; [reflexivity|]. split; [constructor|]. split; [constructor|]. split.
        * intros c r EQ. injection EQ as <- _. unfold white. change (u8 x31) with 0x31. lia.
        * intros [|x [|y u]] c EQ; try discriminate. injection EQ as <-. unfold white. change (u8 x31) with 0x31. lia.
      + exists #"g", []. apply key_call, PK. cbn. tauto.
    - destruct Hp as [<-|[]]. exists #"h", []. apply key_call, PK. cbn. tauto.
    - destruct Hp as [<-|[]]. exists #"i", []. apply key_call, PK. cbn. tauto. }
  split; [exact HT|]. split; [exact HM|]. apply C129_exactly; [discriminate|exact HT|exact HM|]. vm_compute. reflexivity.
Qed.
