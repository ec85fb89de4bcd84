(** Model of the rest of tools/unicode_character_tables/codegen.py: [LineBuilder],
    [join], [make_macro_name] and [variable_name]. *)
From Coq Require Import String.
From Verif Require Import Base Model.PyText.
Local Notation "'#' s" := (list_byte_of_string s%string) (at level 5, only parsing).

(** codegen.py:290-295 *)
Record builder : Type := Builder { b_width : nat; b_lines : list str; b_cur : list str; b_cur_width : nat }.
Definition new_builder (width : nat) : builder := Builder width [] [] 0.

(** codegen.py:341-343 [_add_text]: empty texts are not added *)
Definition add_texts (b : builder) (l : list str) : builder :=
  Builder (b_width b) (b_lines b) (b_cur b ++ filter (fun s => match s with [] => false | _ => true end) l)
    (b_cur_width b + fold_right (fun s n => length s + n)%nat 0%nat l).
(** codegen.py:331-334 *)
Definition newline (b : builder) : builder := Builder (b_width b) (b_lines b ++ [concat (b_cur b)]) [] 0.
(** codegen.py:303-304 and others: [self.cur_line.append(newline_sep)], [self.newline()] *)
Definition end_line (b : builder) (cur : list str) (newline_sep : str) : builder :=
  newline (Builder (b_width b) (b_lines b) (cur ++ [newline_sep]) (b_cur_width b)).
(** codegen.py:297-316.  [None]: [self.cur_line[-1]] of an empty list (IndexError)
    or a recursion that is too deep. *)
Fixpoint append (fuel : nat) (b : builder) (text sep newline_sep first_sep : str) : option builder :=
  match fuel with
  | O => None
  | S fuel' =>
    if (b_cur_width b =? 0)%nat then Some (add_texts b [first_sep; text])
    else if (b_cur_width b + length text + length sep <=? b_width b)%nat then Some (add_texts b [sep; text])
    else if (b_cur_width b + length newline_sep <=? b_width b)%nat then Some (add_texts (end_line b (b_cur b) newline_sep) [text])
    else if (length (b_cur b) =? 1)%nat then Some (add_texts (end_line b (b_cur b) newline_sep) [text])
    else match rev (b_cur b) with
         | [] => None
         | last :: _ =>
           (* del self.cur_line[-2:] *)
           append fuel' (add_texts (end_line b (removelast (removelast (b_cur b))) newline_sep) [last]) text sep newline_sep []
         end
  end.
(** codegen.py:318-329: the first text with its own separators, then the others.
    [fuel] stands for the depth of the recursion that Python allows. *)
Fixpoint append_all (fuel : nat) (b : builder) (strings : list str) (sep newline_sep : str) : option builder :=
  match strings with
  | [] => Some b
  | s :: l => match append fuel b s sep newline_sep [] with None => None | Some b => append_all fuel b l sep newline_sep end
  end.
Definition builder_join (fuel : nat) (b : builder) (strings : list str) (sep newline_sep first_sep first_newline_sep : str) : option builder :=
  match strings with
  | [] => Some b
  | s :: l => match append fuel b s first_sep first_newline_sep [] with None => None | Some b => append_all fuel b l sep newline_sep end
  end.
(** codegen.py:336-339 *)
Definition build (b : builder) : list str := match b_cur b with [] => b_lines b | _ => b_lines (newline b) end.
(** codegen.py:346-349 *)
Definition join (fuel : nat) (strings : list str) (width : nat) (sep newline_sep first_sep first_newline_sep : str) : option (list str) :=
  option_map build (builder_join fuel (new_builder width) strings sep newline_sep first_sep first_newline_sep).

(** codegen.py:352-359 *)
Definition translate_to_space (s chars : str) : str := map (fun c => if existsb (byte_eqb c) chars then x20 else c) s.
(** codegen.py:365 *)
Definition BadCppChars : str := #"'!""#$%&/()=?+*@.:,;<>^`-_[]{}".
(** [s.upper()] of ASCII text *)
Definition py_upper (s : str) : str := map (fun c => if (0x61 <=? u8 c) && (u8 c <=? 0x7A) then to_char (u8 c - 32) else c) s.
(** codegen.py:368-373 *)
Definition make_macro_name (s : str) : str := py_join [x5f] (py_words (translate_to_space (py_upper s) BadCppChars)).
Definition variable_name (s : str) : str := py_join [x5f] (py_words (translate_to_space s BadCppChars)).
