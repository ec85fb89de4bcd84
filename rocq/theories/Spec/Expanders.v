(** What the template processor asks its expander (codegen.py). *)
From Coq Require Import String.
From Verif Require Import Base Model.Codegen Model.Expanders Spec.Template Spec.Blocks.
Local Notation "'#' s" := (list_byte_of_string s%string) (at level 5, only parsing).

(** A call: key, parameters and context. *)
Definition call : Type := str * list str * context.

(** The same expander, watched: it answers the same, and the calls it is asked
    are noted in their order. *)
Definition watched {E} (X : expander E) : expander (E * list call) := Expand
  (fun s k ps ctx => match ask X (fst s) k ps ctx with None => None | Some (v, e) => Some (v, (e, snd s ++ [(k, ps, ctx)])) end)
  (fun s k v => match tell X (fst s) k v with None => None | Some e => Some (e, snd s) end).

(** [trimmed a b]: [b] is [a] without the white space at both ends. *)
Definition trimmed (a b : str) : Prop :=
  exists u w, a = u ++ b ++ w /\ Forall white u /\ Forall white w /\ (forall c r, b = c :: r -> ~ white c) /\ (forall r c, b = r ++ [c] -> ~ white c).
(** Texts with commas between them. *)
Fixpoint commas (l : list str) : str := match l with [] => [] | [x] => x | x :: l' => x ++ #"," ++ commas l' end.
(** [marker_call m k ps]: the marker [m] asks for the key [k] with the parameters
    [ps]: those between the parentheses, separated by commas, without the white
    space around them. *)
Definition marker_call (m k : str) (ps : list str) : Prop :=
  plain_key k /\
  ((m = k /\ ps = []) \/
   exists raw more, m = k ++ #"(" ++ commas raw ++ #")" ++ more /\ raw <> [] /\ Forall2 trimmed raw ps /\
     Forall (Forall (fun c => c <> x0a /\ c <> x5d /\ c <> x29 /\ c <> x2c)) raw /\ Forall param_char more).

(** A value that is written as the text [t] into a line. *)
Definition line_value (v : value) (t : str) : Prop := ~ In x0a t /\ (v = VOther t \/ (t <> [] /\ v = VStr t)).

(** [LineCalls X e cur ps calls e' cur']: the line is [cur] so far; the texts and
    markers [ps] are asked in [calls] and extend it to [cur'].  The context is the
    margin of the line so far and its length. *)
Inductive LineCalls {E} (X : expander E) : E -> str -> list (str * str) -> list call -> E -> str -> Prop :=
| lc_end e cur : LineCalls X e cur [] [] e cur
| lc_marker e cur t m k params ind v e1 tx ps calls e2 cur2 :
    marker_call m k params -> margin (cur ++ t) ind ->
    ask X e k params (ind, length (cur ++ t)) = Some (v, e1) -> line_value v tx ->
    LineCalls X e1 (cur ++ t ++ tx) ps calls e2 cur2 ->
    LineCalls X e cur ((t, m) :: ps) ((k, params, (ind, length (cur ++ t))) :: calls) e2 cur2.
Inductive Calls {E} (X : expander E) : E -> list tline -> list call -> E -> list str -> Prop :=
| calls_end e : Calls X e [] [] e []
| calls_line e ps tail calls e1 cur o lines calls2 e2 out :
    LineCalls X e [] ps calls e1 cur -> stripped (cur ++ tail) o -> Calls X e1 lines calls2 e2 out ->
    Calls X e ((ps, tail) :: lines) (calls ++ calls2) e2 (o :: out).

(** The texts of a line between its markers. *)
Definition plain_texts (l : tline) : Prop :=
  Forall (fun p => ~ In x0a (fst p) /\ no_marker (fst p) /\ (forall u, fst p <> u ++ #"[")) (fst l) /\ ~ In x0a (snd l) /\ no_marker (snd l).

(** The values that IF takes for false. *)
Definition falsy (v : value) : Prop := v = VNone \/ v = VStr [] \/ v = VList [] \/ v = VOther #"0".

(** The others; numbers are written with digits. *)
Definition truthy (v : value) : Prop :=
  match v with VNone => False | VStr s => s <> [] | VList l => l <> [] | VOther s => exists c, In c s /\ c <> x30 end.

(** [BlockCalls X e t calls e' out]: the template [t] with its blocks is asked in
    [calls] and makes the lines [out].  The condition of a branch is asked when no
    branch before it was taken; what is not taken is not asked.  A line that has
    only a marker for nothing is left out. *)
Inductive BlockCalls {E} (X : expander E) : E -> tmpl -> list call -> E -> list str -> Prop :=
| bc_end e : BlockCalls X e t_end [] e []
| bc_line e ps tail calls e1 cur o rest calls2 e2 out :
    LineCalls X e [] ps calls e1 cur -> stripped (cur ++ tail) o -> BlockCalls X e1 rest calls2 e2 out ->
    BlockCalls X e (t_line (ps, tail) rest) (calls ++ calls2) e2 (o :: out)
| bc_nothing e k v e1 rest calls e2 out :
    ask X e k [] ([], 0%nat) = Some (v, e1) -> v = VNone \/ v = VStr [] \/ v = VList [] -> BlockCalls X e1 rest calls e2 out ->
    BlockCalls X e (t_line ([([], k)], []) rest) ((k, [], ([], 0%nat)) :: calls) e2 out
| bc_if e ind key body more ind2 rest calls e1 out calls2 e2 out2 :
    BranchCalls X e (b_elif ind key body more) calls e1 out -> BlockCalls X e1 rest calls2 e2 out2 ->
    BlockCalls X e (t_if ind key body more ind2 rest) (calls ++ calls2) e2 (out ++ out2)
with BranchCalls {E} (X : expander E) : E -> branches -> list call -> E -> list str -> Prop :=
| rc_end e : BranchCalls X e b_end [] e []
| rc_taken e ind key body more v e1 calls e2 out :
    ask X e key [] ([], 0%nat) = Some (v, e1) -> truthy v -> BlockCalls X e1 body calls e2 out ->
    BranchCalls X e (b_elif ind key body more) ((key, [], ([], 0%nat)) :: calls) e2 out
| rc_not_taken e ind key body more v e1 calls e2 out :
    ask X e key [] ([], 0%nat) = Some (v, e1) -> falsy v -> BranchCalls X e1 more calls e2 out ->
    BranchCalls X e (b_elif ind key body more) ((key, [], ([], 0%nat)) :: calls) e2 out
| rc_else e ind body calls e1 out :
    BlockCalls X e body calls e1 out -> BranchCalls X e (b_else ind body) calls e1 out.

(** Every value.  [shown cur col v em cur' col']: the value [v] is written behind
    [cur], as in [filled] (Spec/Template.v). *)
Definition no_value (v : value) : Prop := v = VNone \/ v = VStr [] \/ v = VList [].
Inductive shown (cur : str) (col : nat) : value -> list str -> str -> nat -> Prop :=
| shown_nothing v : no_value v -> shown cur col v [] cur col
| shown_text v t em cur' col' : v = VOther t \/ (t <> [] /\ v = VStr t) -> put cur col t em cur' col' -> shown cur col v em cur' col'
| shown_row r : shown cur col (VList [r]) [] (cur ++ r) col
| shown_rows r rs z ind pad em cur' col' : margin (cur ++ r) ind ->
    pad = ind ++ repeat x20 (col - length ind) -> put [] 0 (pad ++ z) em cur' col' ->
    shown cur col (VList (r :: rs ++ [z])) ((cur ++ r) :: map (fun x => match x with [] => [] | _ => pad ++ x end) rs ++ em) cur' col'.
(** The texts and markers of a line: the calls, the lines that are finished, what
    the line is then, and the last value. *)
Inductive LineAnswers {E} (X : expander E) : E -> str -> nat -> option value -> list (str * str) -> list call -> list str -> E -> str -> nat -> option value -> Prop :=
| la_end e cur col last : LineAnswers X e cur col last [] [] [] e cur col last
| la_marker e cur col last t m k params ind v e1 em cur1 col1 ps calls em2 e2 cur2 col2 last2 :
    marker_call m k params -> margin (cur ++ t) ind ->
    ask X e k params (ind, col + length t)%nat = Some (v, e1) -> shown (cur ++ t) (col + length t) v em cur1 col1 ->
    LineAnswers X e1 cur1 col1 (Some v) ps calls em2 e2 cur2 col2 last2 ->
    LineAnswers X e cur col last ((t, m) :: ps) ((k, params, (ind, col + length t)%nat) :: calls) (em ++ em2) e2 cur2 col2 last2.
(** A line is left out if it has only white space and its last marker, behind which
    there is nothing, stands for nothing. *)
Definition dropped (last : option value) (tail text : str) : Prop := tail = [] /\ Forall white text /\ exists v, last = Some v /\ no_value v.
Inductive Answers {E} (X : expander E) : E -> nat -> list tline -> list call -> E -> nat -> list str -> Prop :=
| an_end e col : Answers X e col [] [] e col []
| an_line e col ps tail calls em e1 cur col1 last o lines calls2 e2 col2 out :
    LineAnswers X e [] col None ps calls em e1 cur col1 last -> ~ dropped last tail (cur ++ tail) -> stripped (cur ++ tail) o ->
    Answers X e1 0 lines calls2 e2 col2 out ->
    Answers X e col ((ps, tail) :: lines) (calls ++ calls2) e2 col2 (em ++ o :: out)
| an_dropped e col ps tail calls em e1 cur col1 last lines calls2 e2 col2 out :
    LineAnswers X e [] col None ps calls em e1 cur col1 last -> dropped last tail (cur ++ tail) ->
    Answers X e1 col1 lines calls2 e2 col2 out ->
    Answers X e col ((ps, tail) :: lines) (calls ++ calls2) e2 col2 (em ++ out).
(** The markers of a line are well-formed. *)
Definition plain_markers (l : tline) : Prop := forall p, In p (fst l) -> exists k params, marker_call (snd p) k params.
