(** Model of codegen.py's template processor for every expander: the classes
    Expander, DictExpander and FuncExpander.  Codegen.v has the same with the
    dictionary built in; the methods that do not ask the expander are taken from
    there (their [p_dict] is not used here and stays empty).  [None] stands for a
    Python exception. *)
From Coq Require Import String.
From Verif Require Import Base Model.PyText Model.Codegen.
Local Notation "'#' s" := (list_byte_of_string s%string) (at level 5, only parsing).

(** codegen.py:266: the context is the indentation and the column *)
Definition context : Type := str * nat.

(** codegen.py:254-262 [_split_key] *)
Definition split_key (text : str) : option (str * list str) :=
  match py_split1 x28 text with
  | (k, None) => Some (k, [])
  | (k, Some r) =>
    match py_split1 x29 r with
    | (_, None) => None
    | (ps, Some _) => Some (k, map py_strip (py_split x2c ps))
    end
  end.

(** An expander with a state of type [E]: [ask] is its [__call__], [tell] its
    [assign_value_]. *)
Record expander (E : Type) : Type := Expand {
  ask : E -> str -> list str -> context -> option (value * E);
  tell : E -> str -> str -> option E }.
Arguments Expand {E}. Arguments ask {E}. Arguments tell {E}.

Section Processor.
Context {E : Type} (X : expander E).

(** codegen.py:94-102 *)
Record gproc : Type := GProc { g_state : E; g_proc : processor }.

(** codegen.py:264-266 [_expand] *)
Definition g_expand (g : gproc) (key : str) : option (value * E) :=
  match split_key key with
  | None => None
  | Some (k, params) => ask X (g_state g) k params (indentation (p_cur (g_proc g)), p_column (g_proc g))
  end.
(** codegen.py:164-180 *)
Definition g_handle_expand (g : gproc) (key : str) : option (gproc * bool) :=
  match g_expand g key with
  | None => None
  | Some (VNone, e) => Some (GProc e (g_proc g), false)
  | Some (VStr [], e) => Some (GProc e (g_proc g), false)
  | Some (VStr s, e) => Some (GProc e (add_text (g_proc g) s), true)
  | Some (VList [], e) => Some (GProc e (g_proc g), false)
  | Some (VList l, e) => Some (GProc e (add_lines (g_proc g) l), true)
  | Some (VOther s, e) => Some (GProc e (add_text (g_proc g) s), true)
  end.
(** codegen.py:182-188 *)
Definition push_scope (p : processor) (s : scope_state) : processor :=
  Proc (p_dict p) (p_lines p) (p_cur p) (p_column p) (s :: p_scope p) (p_align p).
Definition g_handle_if (g : gproc) (key : str) : option gproc :=
  match top (g_proc g) with
  | Active =>
    match g_expand g key with
    | None => None
    | Some (v, e) => Some (GProc e (push_scope (g_proc g) (if truth v then Active else Inactive)))
    end
  | _ => Some (GProc (g_state g) (push_scope (g_proc g) Done))
  end.
(** codegen.py:195-201 *)
Definition g_handle_elif (g : gproc) (key : str) : option gproc :=
  match p_scope (g_proc g) with
  | _ :: _ :: _ =>
    match top (g_proc g) with
    | Active => Some (GProc (g_state g) (set_top (g_proc g) Done))
    | Inactive =>
      match g_expand g key with
      | None => None
      | Some (v, e) => Some (GProc e (if truth v then set_top (g_proc g) Active else g_proc g))
      end
    | Done => Some g
    end
  | _ => None
  end.
(** codegen.py:211-216 *)
Definition g_handle_set (g : gproc) (text : str) : option gproc :=
  match py_split1 x3d text with
  | (_, None) => None
  | ([], _) => None
  | (k, Some v) => match tell X (g_state g) k v with None => None | Some e => Some (GProc e (g_proc g)) end
  end.

(** codegen.py:116-149 *)
Definition g_lift (g : gproc) (p : option processor) : option gproc :=
  match p with None => None | Some p => Some (GProc (g_state g) p) end.
Definition g_ignore (g : option gproc) : option (gproc * bool) :=
  match g with None => None | Some g => Some (g, blank (g_proc g)) end.
Definition g_keep (g : option gproc) : option (gproc * bool) :=
  match g with None => None | Some g => Some (g, false) end.
Definition g_handle (g : gproc) (t : token) : option (gproc * bool) :=
  match t with
  | TNewline => Some (GProc (g_state g) (handle_newline (g_proc g)), false)
  | TIf key => g_ignore (g_handle_if g key)
  | TEndif => g_ignore (g_lift g (handle_endif (g_proc g)))
  | _ =>
    match top (g_proc g) with
    | Done => Some (g, false)
    | s =>
      match t with
      | TElif key => g_ignore (g_handle_elif g key)
      | TElse => g_ignore (g_lift g (handle_else (g_proc g)))
      | _ =>
        match s with
        | Inactive => Some (g, false)
        | _ =>
          match t with
          | TText s => Some (GProc (g_state g) (add_text (g_proc g) s), false)
          | TExpand key =>
            match g_handle_expand g key with None => None | Some (g, done) => Some (g, negb done && blank (g_proc g)) end
          | TSet s => g_ignore (g_handle_set g s)
          | TPush => Some (GProc (g_state g) (push_alignment (g_proc g)), false)
          | TAlign => g_keep (g_lift g (align (g_proc g)))
          | _ => g_keep (g_lift g (pop_alignment (g_proc g)))
          end
        end
      end
    end
  end.
(** codegen.py:107-114 *)
Definition g_step (g : gproc) (ignore : bool) (t : token) : option (gproc * bool) :=
  match ignore, t with
  | true, TNewline =>
    let p := g_proc g in
    Some (GProc (g_state g) (Proc (p_dict p) (p_lines p) (if blank p then [] else p_cur p) (p_column p) (p_scope p) (p_align p)), false)
  | _, _ => g_handle g t
  end.
Fixpoint g_run (g : gproc) (ignore : bool) (ts : list token) : option gproc :=
  match ts with
  | [] => Some g
  | t :: ts' => match g_step g ignore t with None => None | Some (g, ignore) => g_run g ignore ts' end
  end.
(** codegen.py:280-283 [make_lines], with the state the expander is left in *)
Definition g_make_lines (template : str) (e : E) : option (list str * E) :=
  match tokenize template with
  | None => None
  | Some ts =>
    match g_run (GProc e (Proc [] [] [] 0 [Active] [])) false ts with
    | None => None
    | Some g => match p_scope (g_proc g) with [_] => Some (p_lines (g_proc g), g_state g) | _ => None end
    end
  end.
(** codegen.py:286-287 [make_text] *)
Definition g_make_text (template : str) (e : E) : option str :=
  match g_make_lines template e with None => None | Some (ls, _) => Some (py_join [x0a] ls) end.
End Processor.

(** codegen.py:63-72 DictExpander *)
Definition dict_expander : expander dict := Expand
  (fun d key _ _ => match dict_get d key with None => None | Some v => Some (v, d) end)
  (fun d key v => Some (dict_set d key (VStr v))).

(** codegen.py:75-86 FuncExpander: functions that may have effects on a state of
    type [S] *)
Definition func_expander {S : Type} (expand_func : S -> str -> list str -> context -> option (value * S))
    (assign_func : option (S -> str -> str -> option S)) : expander S := Expand
  expand_func
  (fun s key v => match assign_func with Some f => f s key v | None => Some s end).

(** codegen.py:47-60 Expander: the attributes of the object are values or
    methods.  [own] is [self.context]; simplified: that it and the two methods of
    the class are attributes, too, is left out, and methods do not change
    attributes. *)
Inductive attribute : Type := AValue (v : value) | AMethod (f : list str -> context -> option value).
Definition attributes : Type := list (str * attribute).
Definition get_attribute (a : attributes) (key : str) : option attribute :=
  match find (fun e => str_eqb (fst e) key) a with Some e => Some (snd e) | None => None end.
Definition object_expander (own : context) : expander attributes := Expand
  (fun a key params ctx =>
     match get_attribute a key with
     | None => None
     | Some (AMethod f) =>
       match f params (fst own ++ fst ctx, snd own + snd ctx)%nat with None => None | Some v => Some (v, a) end
     | Some (AValue v) => Some (v, a)
     end)
  (fun a key v => Some ((key, AValue (VStr v)) :: a)).
