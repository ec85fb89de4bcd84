(** Conditional blocks in templates (codegen.py). *)
From Coq Require Import String.
From Verif Require Import Base Model.Codegen Spec.Template.
Local Notation "'#' s" := (list_byte_of_string s%string) (at level 5, only parsing).

(** A template: lines and blocks.  Every marker of a block is alone in its line,
    with blanks in front of it. *)
Inductive tmpl : Type :=
| t_end
| t_line (l : tline) (rest : tmpl)
| t_if (blanks key : str) (body : tmpl) (more : branches) (blanks2 : str) (rest : tmpl)
with branches : Type :=
| b_end
| b_elif (blanks key : str) (body : tmpl) (more : branches)
| b_else (blanks : str) (body : tmpl).

Fixpoint tmpl_lines (t : tmpl) : list str :=
  match t with
  | t_end => []
  | t_line l rest => tline_text l :: tmpl_lines rest
  | t_if ind key body more ind2 rest =>
    (ind ++ #"[[[IF " ++ key ++ #"]]]") :: tmpl_lines body ++ branch_lines more ++ (ind2 ++ #"[[[ENDIF]]]") :: tmpl_lines rest
  end
with branch_lines (b : branches) : list str :=
  match b with
  | b_end => []
  | b_elif ind key body more => (ind ++ #"[[[ELIF " ++ key ++ #"]]]") :: tmpl_lines body ++ branch_lines more
  | b_else ind body => (ind ++ #"[[[ELSE]]]") :: tmpl_lines body
  end.

(** Only blanks in front of the markers, keys that are not empty, and lines as in C118. *)
Fixpoint plain_tmpl (t : tmpl) : Prop :=
  match t with
  | t_end => True
  | t_line l rest => plain_tline l /\ plain_tmpl rest
  | t_if ind key body more ind2 rest =>
    indent ind /\ key <> [] /\ Forall key_char key /\ plain_tmpl body /\ plain_branches more /\ indent ind2 /\ plain_tmpl rest
  end
with plain_branches (b : branches) : Prop :=
  match b with
  | b_end => True
  | b_elif ind key body more => indent ind /\ key <> [] /\ Forall key_char key /\ plain_tmpl body /\ plain_branches more
  | b_else ind body => indent ind /\ plain_tmpl body
  end.

(** What counts as true and as false: a number 0, an empty text, an empty list
    and None are false. *)
Definition holds (d : dict) (k : str) : Prop :=
  exists v, bound d k v /\
    match v with VNone => False | VStr s => s <> [] | VList l => l <> [] | VOther s => exists c, In c s /\ c <> x30 end.
Definition fails (d : dict) (k : str) : Prop :=
  exists v, bound d k v /\
    match v with VNone => True | VStr s => s = [] | VList l => l = [] | VOther s => forall c, In c s -> c = x30 end.

(** The lines that are used if the conditions are as [c] says: of every block the
    first branch whose condition is true, otherwise the ELSE branch. *)
Fixpoint chosen (c : str -> bool) (t : tmpl) : list tline :=
  match t with
  | t_end => []
  | t_line l rest => l :: chosen c rest
  | t_if _ key body more _ rest => (if c key then chosen c body else chosen_branch c more) ++ chosen c rest
  end
with chosen_branch (c : str -> bool) (b : branches) : list tline :=
  match b with
  | b_end => []
  | b_elif _ key body more => if c key then chosen c body else chosen_branch c more
  | b_else _ body => chosen c body
  end.
(** The conditions that matter for this. *)
Fixpoint asked (c : str -> bool) (t : tmpl) : list str :=
  match t with
  | t_end => []
  | t_line _ rest => asked c rest
  | t_if _ key body more _ rest => key :: (if c key then asked c body else asked_branch c more) ++ asked c rest
  end
with asked_branch (c : str -> bool) (b : branches) : list str :=
  match b with
  | b_end => []
  | b_elif _ key body more => key :: (if c key then asked c body else asked_branch c more)
  | b_else _ body => asked c body
  end.
(** No blanks in front of the markers of the blocks. *)
Fixpoint unindented (t : tmpl) : Prop :=
  match t with
  | t_end => True
  | t_line _ rest => unindented rest
  | t_if ind _ body more ind2 rest => ind = [] /\ unindented body /\ unindented_branches more /\ ind2 = [] /\ unindented rest
  end
with unindented_branches (b : branches) : Prop :=
  match b with
  | b_end => True
  | b_elif ind _ body more => ind = [] /\ unindented body /\ unindented_branches more
  | b_else ind body => ind = [] /\ unindented body
  end.

(** The same with the markers that the processor meets outside of lines it
    skips, which it treats like a line that has only a marker for nothing (see
    [Expanded]: such a line is left out, but its blanks can turn up later). *)
Definition marker_line (none : str) (ind : str) : tline := ([(ind, none)], []).
Definition next_blanks (more : branches) (ind2 : str) : str :=
  match more with b_end => ind2 | b_elif ind _ _ _ => ind | b_else ind _ => ind end.
Fixpoint chosen_with (none : str) (c : str -> bool) (t : tmpl) : list tline :=
  match t with
  | t_end => []
  | t_line l rest => l :: chosen_with none c rest
  | t_if ind key body more ind2 rest =>
    marker_line none ind ::
    (if c key then chosen_with none c body ++ [marker_line none (next_blanks more ind2)] else chosen_branch_with none c more ind2)
    ++ chosen_with none c rest
  end
with chosen_branch_with (none : str) (c : str -> bool) (b : branches) (ind2 : str) : list tline :=
  match b with
  | b_end => []
  | b_elif _ key body more =>
    if c key then chosen_with none c body ++ [marker_line none (next_blanks more ind2)] else chosen_branch_with none c more ind2
  | b_else _ body => chosen_with none c body ++ [marker_line none ind2]
  end.

(** Templates without regard to how their blocks nest: a list of lines. *)
Inductive mline : Type :=
| m_line (l : tline)
| m_if (blanks key : str)
| m_elif (blanks key : str)
| m_else (blanks : str)
| m_endif (blanks : str).
Definition mline_text (m : mline) : str :=
  match m with
  | m_line l => tline_text l
  | m_if ind key => ind ++ #"[[[IF " ++ key ++ #"]]]"
  | m_elif ind key => ind ++ #"[[[ELIF " ++ key ++ #"]]]"
  | m_else ind => ind ++ #"[[[ELSE]]]"
  | m_endif ind => ind ++ #"[[[ENDIF]]]"
  end.
Definition plain_mline (m : mline) : Prop :=
  match m with
  | m_line l => plain_tline l
  | m_if ind key | m_elif ind key => indent ind /\ key <> [] /\ Forall key_char key
  | m_else ind | m_endif ind => indent ind
  end.
(** The number of blocks that start, and that end, in these lines. *)
Fixpoint ifs (l : list mline) : nat := match l with [] => 0 | m_if _ _ :: l' => S (ifs l') | _ :: l' => ifs l' end.
Fixpoint endifs (l : list mline) : nat := match l with [] => 0 | m_endif _ :: l' => S (endifs l') | _ :: l' => endifs l' end.
Definition inside (m : mline) : Prop := match m with m_line _ | m_if _ _ => False | _ => True end.
(** Every block that starts ends, and the markers of a block are inside of one. *)
Definition balanced (l : list mline) : Prop :=
  ifs l = endifs l /\
  forall a m b, l = a ++ m :: b -> (endifs a <= ifs a)%nat /\ (inside m -> (endifs a < ifs a)%nat).
