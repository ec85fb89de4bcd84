(** What expanding a template means (codegen.py). *)
From Coq Require Import String.
From Verif Require Import Base Model.Codegen.
Local Notation "'#' s" := (list_byte_of_string s%string) (at level 5, only parsing).

(** Lines put together; there is a line feed between them, none behind the last. *)
Fixpoint lines_text (l : list str) : str :=
  match l with [] => [] | [x] => x | x :: l' => x ++ [x0a] ++ lines_text l' end.

(** A line of a template: texts, each followed by a marker, and a last text. *)
Definition tline : Type := (list (str * str)) * str.
Definition tline_text (l : tline) : str := concat (map (fun p => fst p ++ #"[[[" ++ snd p ++ #"]]]") (fst l)) ++ snd l.

(** Keys: letters, digits and underscores, not starting with one of two of the
    processor's own words. *)
Definition key_char (c : byte) : Prop :=
  0x30 <= u8 c <= 0x39 \/ 0x41 <= u8 c <= 0x5A \/ 0x61 <= u8 c <= 0x7A \/ u8 c = 0x5F.
Definition plain_key (k : str) : Prop :=
  Forall key_char k /\ (forall v, k <> #"ELSE" ++ v) /\ (forall v, k <> #"ENDIF" ++ v).
(** Texts: no line feed and nothing that starts a marker or becomes a part of one. *)
Definition no_marker (t : str) : Prop := forall u v, t <> u ++ #"[[[" ++ v.
Definition plain_tline (l : tline) : Prop :=
  Forall (fun p => ~ In x0a (fst p) /\ no_marker (fst p) /\ (forall u, fst p <> u ++ #"[") /\ plain_key (snd p)) (fst l) /\
  ~ In x0a (snd l) /\ no_marker (snd l).

(** The value of a key: its first entry. *)
Definition bound (d : dict) (k : str) (v : value) : Prop :=
  exists u w, d = u ++ (k, v) :: w /\ Forall (fun e => fst e <> k) u.
(** A value written into a line: some text without line feeds. *)
Definition inline (d : dict) (k t : str) : Prop :=
  ~ In x0a t /\ (bound d k (VOther t) \/ (t <> [] /\ bound d k (VStr t))).
Definition nothing (d : dict) (k : str) : Prop := bound d k VNone \/ bound d k (VStr []) \/ bound d k (VList []).

Definition white (c : byte) : Prop := u8 c = 0x20 \/ 0x09 <= u8 c <= 0x0D \/ 0x1C <= u8 c <= 0x1F.
(** [stripped s t]: [t] is [s] without the white space at its end. *)
Definition stripped (s t : str) : Prop :=
  exists w, s = t ++ w /\ Forall white w /\ (forall u c, t = u ++ [c] -> ~ white c).
(** Blanks, and a text that does not start with one. *)
Definition indent (s : str) : Prop := Forall (fun c => c = x20 \/ c = x09) s.
Definition row_start (r : str) : Prop := exists c r', r = c :: r' /\ c <> x20 /\ c <> x09.
(** The margin of a line: the blanks it starts with; none if it has nothing else. *)
Definition margin (s ind : str) : Prop := (exists r, s = ind ++ r /\ indent ind /\ row_start r) \/ (indent s /\ ind = []).

(** What a marker in a line becomes, and the width it is given: the text of its
    value, nothing, or the only element of a list.  This is the first place where
    the processor errs: such an element does not count. *)
Inductive part (d : dict) (k : str) : str -> nat -> Prop :=
| part_text t : inline d k t -> part d k t (length t)
| part_nothing : nothing d k -> part d k [] 0
| part_row r : bound d k (VList [r]) -> part d k r 0.
Definition parts (d : dict) (ps : list (str * str)) (vs : list (str * nat)) : Prop :=
  Forall2 (fun p v => part d (snd p) (fst v) (snd v)) ps vs.
Definition written (ps : list (str * str)) (vs : list (str * nat)) : str :=
  concat (map (fun q : (str * str) * (str * nat) => fst (fst q) ++ fst (snd q)) (combine ps vs)).
Definition width (ps : list (str * str)) (vs : list (str * nat)) : nat :=
  list_sum (map (fun q : (str * str) * (str * nat) => (length (fst (fst q)) + snd (snd q))%nat) (combine ps vs)).

(** A line that ends with a marker for nothing and otherwise has only white space
    is left out. *)
Definition left_out (d : dict) (ps : list (str * str)) (tail text : str) : Prop :=
  tail = [] /\ Forall white text /\ exists ps' p, ps = ps' ++ [p] /\ nothing d (snd p).

(** [Expanded d spill lines out]: what becomes of the lines.
    - Values in a line are put in place of the markers.
    - A list is written one element a line, from the second one with the margin
      of the first line in front of it and then blanks up to the column where the
      first one is; there is at most one list with more than one element in a line.
    - A line can be left out. This is the second place where the processor errs: it
      counts the columns of the line it left out ([spill]), and if the next line has
      a list, all but the first element get so many blanks in addition. *)
Inductive Expanded (d : dict) : nat -> list tline -> list str -> Prop :=
| ex_end spill : Expanded d spill [] []
| ex_line spill ps tail vs out lines o :
    parts d ps vs -> ~ left_out d ps tail (written ps vs ++ tail) ->
    stripped (written ps vs ++ tail) o ->
    Expanded d 0 lines out -> Expanded d spill ((ps, tail) :: lines) (o :: out)
| ex_left_out spill ps tail vs out lines :
    parts d ps vs -> left_out d ps tail (written ps vs ++ tail) ->
    Expanded d (spill + width ps vs) lines out -> Expanded d spill ((ps, tail) :: lines) out
| ex_list spill ps vs t k qs ws tail r rs z ind pad o lines out :
    parts d ps vs -> bound d k (VList (r :: rs ++ [z])) -> parts d qs ws -> ~ In x0a z ->
    margin (written ps vs ++ t ++ r) ind ->
    pad = ind ++ repeat x20 (spill + width ps vs + length t - length ind) ->
    ~ left_out d qs tail (pad ++ z ++ written qs ws ++ tail) ->
    stripped (pad ++ z ++ written qs ws ++ tail) o ->
    Expanded d 0 lines out ->
    Expanded d spill ((ps ++ (t, k) :: qs, tail) :: lines)
      ((written ps vs ++ t ++ r) :: map (fun x => match x with [] => [] | _ => pad ++ x end) rs ++ o :: out).

(** Values written into a line that may themselves have line feeds: only white
    space at the end of the last line is removed. *)
Definition value_text (d : dict) (k t : str) : Prop := bound d k (VOther t) \/ (t <> [] /\ bound d k (VStr t)).
Definition stripped_last (s t : str) : Prop :=
  exists a b b', (a = [] \/ exists a', a = a' ++ [x0a]) /\ s = a ++ b /\ ~ In x0a b /\ stripped b b' /\ t = a ++ b'.

(** A marker with parameters: a key, then text in parentheses, and possibly more
    behind them. *)
Definition param_char (c : byte) : Prop := c <> x0a /\ c <> x5d.
Definition with_params (k m : str) : Prop :=
  m = k \/ exists ps more, m = k ++ #"(" ++ ps ++ #")" ++ more /\ Forall param_char ps /\ Forall param_char more.
(** A marker whose parameters do not end. *)
Definition open_params (k m : str) : Prop := exists ps, m = k ++ #"(" ++ ps /\ Forall param_char ps /\ ~ In x29 ps.
(** The same line with other markers. *)
Definition remarked (R : str -> str -> Prop) (l l' : tline) : Prop :=
  Forall2 (fun p p' => fst p = fst p' /\ R (snd p) (snd p')) (fst l) (fst l') /\ snd l = snd l'.

(** Every value, any number of lists in a line.  A line being written has a text
    [cur] and the width [col] that the processor keeps for it (see above for where
    that is not its length).

    [put cur col t em cur' col']: [t] is written behind [cur]; the lines [em] are
    finished.  This is the third place where the processor errs: behind a line feed
    the width is two more than the length. *)
Inductive put (cur : str) (col : nat) : str -> list str -> str -> nat -> Prop :=
| put_plain t : ~ In x0a t -> put cur col t [] (cur ++ t) (col + length t)
| put_lines a b : ~ In x0a b -> put cur col (a ++ [x0a] ++ b) [cur ++ a] b (length b + 2).
(** What a marker becomes: nothing, a text, the only element of a list (which is
    given no width), or the elements of a longer list, one a line. *)
Inductive filled (d : dict) (cur : str) (col : nat) (k : str) : list str -> str -> nat -> Prop :=
| filled_nothing : nothing d k -> filled d cur col k [] cur col
| filled_text t em cur' col' : value_text d k t -> put cur col t em cur' col' -> filled d cur col k em cur' col'
| filled_row r : bound d k (VList [r]) -> filled d cur col k [] (cur ++ r) col
| filled_rows r rs z ind pad em cur' col' : bound d k (VList (r :: rs ++ [z])) -> margin (cur ++ r) ind ->
    pad = ind ++ repeat x20 (col - length ind) -> put [] 0 (pad ++ z) em cur' col' ->
    filled d cur col k ((cur ++ r) :: map (fun x => match x with [] => [] | _ => pad ++ x end) rs ++ em) cur' col'.
(** The texts and markers of a line, one behind the other. *)
Inductive line_run (d : dict) : str -> nat -> list (str * str) -> list str -> str -> nat -> Prop :=
| line_run_end cur col : line_run d cur col [] [] cur col
| line_run_step cur col t k ps em cur1 col1 em' cur' col' :
    filled d (cur ++ t) (col + length t) k em cur1 col1 -> line_run d cur1 col1 ps em' cur' col' ->
    line_run d cur col ((t, k) :: ps) (em ++ em') cur' col'.
(** The lines; a line that is left out leaves its width to the next one. *)
Inductive filled_in (d : dict) : nat -> list tline -> list str -> Prop :=
| filled_in_end col : filled_in d col [] []
| filled_in_line col ps tail lines em cur col' o out :
    line_run d [] col ps em cur col' -> ~ left_out d ps tail (cur ++ tail) -> stripped (cur ++ tail) o ->
    filled_in d 0 lines out -> filled_in d col ((ps, tail) :: lines) (em ++ o :: out)
| filled_in_left_out col ps tail lines em cur col' out :
    line_run d [] col ps em cur col' -> left_out d ps tail (cur ++ tail) ->
    filled_in d col' lines out -> filled_in d col ((ps, tail) :: lines) (em ++ out).
