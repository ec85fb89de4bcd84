(** Model of tools/unicode_character_tables/codegen.py: the template processor
    with a [DictExpander], as [make_text] runs it.  [None] stands for a Python
    exception.  The other expanders are in Expanders.v, [LineBuilder],
    [join] and the functions for names are in LineBuilder.v. *)
From Coq Require Import String.
From Verif Require Import Base Model.PyText.
Local Notation "'#' s" := (list_byte_of_string s%string) (at level 5, only parsing).

Inductive token : Type :=
| TText (s : str) | TNewline | TExpand (key : str)
| TIf (key : str) | TElif (key : str) | TElse | TEndif | TSet (s : str)
| TPush | TAlign | TPop.

(** codegen.py:30-43: the token for [line[start:end]].  [rest] is [line[start:]],
    [inner] is [line[start:end]]. *)
Definition marker_token (rest inner : str) : option token :=
  if prefix_eqb #"IF " rest then
    match py_words inner with [_; key] => Some (TIf key) | _ => None end    (* only pairs can be unpacked *)
  else if prefix_eqb #"ELIF " rest then
    match py_words inner with [_; key] => Some (TElif key) | _ => None end
  else if str_eqb inner #"|" then Some TAlign
  else if str_eqb inner #">" then Some TPush
  else if str_eqb inner #"<" then Some TPop
  else if prefix_eqb #"ELSE" rest then Some TElse
  else if prefix_eqb #"ENDIF" rest then Some TEndif
  else if prefix_eqb #"SET " rest then Some (TSet (py_lstrip (skipn 4 inner)))
  else Some (TExpand inner).

(** codegen.py:17-44, one line from [line[start:]] on *)
Fixpoint tokenize_line (fuel : nat) (line : str) : option (list token) :=
  match fuel with
  | O => None
  | S fuel' =>
    match py_cut #"[[[" line with
    | None => Some (match line with [] => [TNewline] | _ => [TText line; TNewline] end)
    | Some (text, rest) =>
      match py_cut #"]]]" rest with
      | None => None
      | Some (inner, after) =>
        match marker_token rest inner, tokenize_line fuel' after with
        | Some t, Some ts => Some (TText text :: t :: ts)
        | _, _ => None
        end
      end
    end
  end.
(** codegen.py:15-44 [_tokenize]; that it is a generator does not matter, as an
    exception ends everything. *)
Fixpoint tokenize_lines (lines : list str) : option (list token) :=
  match lines with
  | [] => Some []
  | l :: ls =>
    match tokenize_line (S (length l)) l, tokenize_lines ls with
    | Some a, Some b => Some (a ++ b)
    | _, _ => None
    end
  end.
Definition tokenize (template : str) : option (list token) := tokenize_lines (py_split x0a template).

(** The values in the dictionary.  A number stands for its decimal digits. *)
Inductive value : Type := VNone | VStr (s : str) | VList (l : list str) | VOther (digits : str).
Definition dict : Type := list (str * value).
(** codegen.py:68-69: KeyError if the key is missing *)
Definition dict_get (d : dict) (key : str) : option value :=
  match find (fun e => str_eqb (fst e) key) d with Some e => Some (snd e) | None => None end.
(** codegen.py:71-72; the newest entry comes first *)
Definition dict_set (d : dict) (key : str) (v : value) : dict := (key, v) :: d.

Inductive scope_state : Type := Active | Inactive | Done.

(** codegen.py:94-102.  [p_cur] is ["".join(self.cur_line)]; the line number is
    only used in messages. *)
Record processor : Type := Proc {
  p_dict : dict; p_lines : list str; p_cur : str; p_column : nat; p_scope : list scope_state; p_align : list str }.

(** codegen.py:89-90 *)
Definition is_empty_or_space (s : str) : bool := match s with [] => true | _ => py_isspace s end.

(** codegen.py:268-273: the characters before the first one that is not a tab or
    space, and nothing if there is none *)
Fixpoint blanks (s : str) : str * bool :=
  match s with
  | [] => ([], false)
  | c :: s' => if byte_eqb c x09 || byte_eqb c x20 then let (b, f) := blanks s' in (c :: b, f) else ([], true)
  end.
Definition indentation (cur : str) : str := let (b, found) := blanks cur in if found then b else [].
(** codegen.py:275-277; [" " * n] is empty if [n] is negative *)
Definition alignment (p : processor) : str :=
  let ind := indentation (p_cur p) in ind ++ repeat x20 (p_column p - length ind).

(** codegen.py:243-251 *)
Definition add_text (p : processor) (text : str) : processor :=
  match py_rcut_newline text with
  | None => Proc (p_dict p) (p_lines p) (p_cur p ++ text) (p_column p + length text) (p_scope p) (p_align p)
  | Some (a, b) =>
    (* len(text) - npos + 1, and npos is the length of a *)
    Proc (p_dict p) (p_lines p ++ [p_cur p ++ a]) b (length text - length a + 1) (p_scope p) (p_align p)
  end.

(** codegen.py:227-241; the lists have no element in place of [lines[1:-1]] and
    [lines[-1]] if there is only one line *)
Definition add_lines (p : processor) (lines : list str) : processor :=
  match lines with
  | [] => p
  | l :: ls =>
    let p := Proc (p_dict p) (p_lines p) (p_cur p ++ l) (p_column p) (p_scope p) (p_align p) in
    match ls with
    | [] => p
    | _ =>
      let align := alignment p in
      let middle := map (fun x : str => match x with [] => [] | _ => align ++ x end) (removelast ls) in
      add_text (Proc (p_dict p) (p_lines p ++ [p_cur p] ++ middle) [] 0 (p_scope p) (p_align p)) (align ++ last ls [])
    end
  end.

(** codegen.py:254-266 [_split_key], [_expand]: the parameters in parentheses are
    not used by the dictionary *)
Definition expand (p : processor) (key : str) : option value :=
  match py_split1 x28 key with
  | (k, None) => dict_get (p_dict p) k
  | (k, Some params) => match py_split1 x29 params with (_, None) => None | (_, Some _) => dict_get (p_dict p) k end
  end.

Definition top (p : processor) : scope_state := match p_scope p with s :: _ => s | [] => Active end.
Definition set_top (p : processor) (s : scope_state) : processor :=
  Proc (p_dict p) (p_lines p) (p_cur p) (p_column p) (s :: tl (p_scope p)) (p_align p).

(** codegen.py:156-162 *)
Definition handle_newline (p : processor) : processor :=
  match top p with
  | Active => Proc (p_dict p) (p_lines p ++ [py_rstrip (p_cur p)]) [] 0 (p_scope p) (p_align p)
  | _ => p
  end.
(** codegen.py:164-180; the second component is the result.  The callers have
    checked that the scope is active. *)
Definition handle_expand (p : processor) (key : str) : option (processor * bool) :=
  match expand p key with
  | None => None
  | Some VNone => Some (p, false)
  | Some (VStr []) => Some (p, false)
  | Some (VStr s) => Some (add_text p s, true)
  | Some (VList []) => Some (p, false)
  | Some (VList l) => Some (add_lines p l, true)
  | Some (VOther s) => Some (add_text p s, true)
  end.
(** [bool(value)]; a number other than 0 *)
Definition truth (v : value) : bool :=
  match v with VNone => false | VStr [] => false | VStr _ => true | VList [] => false | VList _ => true
  | VOther s => negb (forallb (byte_eqb x30) s) end.
(** codegen.py:182-188 *)
Definition handle_if (p : processor) (key : str) : option processor :=
  let push s := Proc (p_dict p) (p_lines p) (p_cur p) (p_column p) (s :: p_scope p) (p_align p) in
  match top p with
  | Active => match expand p key with None => None | Some v => Some (push (if truth v then Active else Inactive)) end
  | _ => Some (push Done)
  end.
(** codegen.py:190-193 *)
Definition handle_endif (p : processor) : option processor :=
  match p_scope p with
  | _ :: (_ :: _) as s => Some (Proc (p_dict p) (p_lines p) (p_cur p) (p_column p) s (p_align p))
  | _ => None
  end.
(** codegen.py:195-201 *)
Definition handle_elif (p : processor) (key : str) : option processor :=
  match p_scope p with
  | _ :: _ :: _ =>
    match top p with
    | Active => Some (set_top p Done)
    | Inactive => match expand p key with None => None | Some v => Some (if truth v then set_top p Active else p) end
    | Done => Some p
    end
  | _ => None
  end.
(** codegen.py:203-209 *)
Definition handle_else (p : processor) : option processor :=
  match p_scope p with
  | _ :: _ :: _ => Some (match top p with Active => set_top p Done | Inactive => set_top p Active | Done => p end)
  | _ => None
  end.
(** codegen.py:211-216 *)
Definition handle_set (p : processor) (text : str) : option processor :=
  match py_split1 x3d text with
  | (_, None) => None
  | ([], _) => None
  | (k, Some v) => Some (Proc (dict_set (p_dict p) k (VStr v)) (p_lines p) (p_cur p) (p_column p) (p_scope p) (p_align p))
  end.
(** codegen.py:218-225 *)
Definition push_alignment (p : processor) : processor :=
  Proc (p_dict p) (p_lines p) (p_cur p) (p_column p) (p_scope p) (alignment p :: p_align p).
Definition align (p : processor) : option processor :=
  match p_align p with
  | [] => None
  | a :: _ => Some (Proc (p_dict p) (p_lines p) (p_cur p ++ skipn (p_column p) a) (p_column p) (p_scope p) (p_align p))
  end.
Definition pop_alignment (p : processor) : option processor :=
  match p_align p with
  | [] => None
  | _ :: l => Some (Proc (p_dict p) (p_lines p) (p_cur p) (p_column p) (p_scope p) l)
  end.

(** codegen.py:116-149, the body of the loop after the check of [ignore_newline];
    the second component is the new [ignore_newline] *)
Definition blank (p : processor) : bool := is_empty_or_space (p_cur p).
Definition and_ignore (p : option processor) : option (processor * bool) :=
  match p with None => None | Some p => Some (p, blank p) end.
Definition and_keep (p : option processor) : option (processor * bool) :=
  match p with None => None | Some p => Some (p, false) end.
Definition handle (p : processor) (t : token) : option (processor * bool) :=
  match t with
  | TNewline => Some (handle_newline p, false)
  | TIf key => and_ignore (handle_if p key)
  | TEndif => and_ignore (handle_endif p)
  | _ =>
    match top p with
    | Done => Some (p, false)
    | s =>
      match t with
      | TElif key => and_ignore (handle_elif p key)
      | TElse => and_ignore (handle_else p)
      | _ =>
        match s with
        | Inactive => Some (p, false)
        | _ =>
          match t with
          | TText s => Some (add_text p s, false)
          | TExpand key =>
            match handle_expand p key with None => None | Some (p, done) => Some (p, negb done && blank p) end
          | TSet s => and_ignore (handle_set p s)
          | TPush => Some (push_alignment p, false)
          | TAlign => and_keep (align p)
          | _ => and_keep (pop_alignment p)
          end
        end
      end
    end
  end.
(** codegen.py:107-114: a line end that is ignored *)
Definition step (p : processor) (ignore : bool) (t : token) : option (processor * bool) :=
  match ignore, t with
  | true, TNewline =>
    Some (Proc (p_dict p) (p_lines p) (if blank p then [] else p_cur p) (p_column p) (p_scope p) (p_align p), false)
  | _, _ => handle p t
  end.
Fixpoint run (p : processor) (ignore : bool) (ts : list token) : option processor :=
  match ts with
  | [] => Some p
  | t :: ts' => match step p ignore t with None => None | Some (p, ignore) => run p ignore ts' end
  end.
(** codegen.py:280-283 [make_lines]; codegen.py:150-152: every IF must have its ENDIF *)
Definition make_lines (template : str) (d : dict) : option (list str) :=
  match tokenize template with
  | None => None
  | Some ts =>
    match run (Proc d [] [] 0 [Active] []) false ts with
    | None => None
    | Some p => match p_scope p with [_] => Some (p_lines p) | _ => None end
    end
  end.
(** codegen.py:286-287 [make_text] *)
Definition make_text (template : str) (d : dict) : option str :=
  match make_lines template d with None => None | Some ls => Some (py_join [x0a] ls) end.
