(** Putting escaped texts together.  C117. *)
From Coq Require Import String.
From Verif Require Import Base Spec.Utf8Spec Spec.Strings Spec.Escape Spec.Embed Spec.Iterate Model.Escape Model.Unescape
  Proofs.UnescapeLemmas Proofs.EmbedLemmas.
Local Notation "'#' s" := (list_byte_of_string s%string) (at level 5, only parsing).

(** C117.  Something escaped can be put in front of anything: it comes out
    unchanged, followed by what the rest is by itself.  [omap (app x) r] is [r]
    with [x] put in front if [r] is a result, and [r] if it is an exception or
    a read out of bounds. *)
Theorem C117_escaped_then_any : forall x e t, Fits x -> Fits (e ++ t) -> escape_json x = Ok e ->
  unescape (e ++ t) = omap (app x) (unescape t).
Proof. exact p_c117_embed. Qed.
Print Assumptions C117_escaped_then_any.

(** So can any text without a backslash. *)
Theorem C117_literal_then_any : forall l t, Fits (l ++ t) -> ~ In x5c l ->
  unescape (l ++ t) = omap (app l) (unescape t).
Proof. exact p_c117_literal. Qed.
Print Assumptions C117_literal_then_any.

(** In general: a text can be put in front of anything unless it ends in a
    hexadecimal digit or just after the first half of a surrogate pair. *)
Theorem C117_concat : forall s a t, Fits (s ++ t) -> unescape s = Ok a -> ~ loose_end s ->
  unescape (s ++ t) = omap (app a) (unescape t).
Proof. exact p_c117_concat. Qed.
Print Assumptions C117_concat.

(** More precisely: unless its last escape sequence could go on. *)
Theorem C117_closed : forall s a t, Fits (s ++ t) -> Reads closed s [] a ->
  unescape (s ++ t) = omap (app a) (unescape t).
Proof. exact (fun s a t => p_c117 s a t). Qed.
Print Assumptions C117_closed.

(** A template: escaped text inserted between two texts. *)
Theorem C117_template : forall p a x e q b, Fits x -> Fits (p ++ e ++ q) ->
  unescape p = Ok a -> ~ loose_end p -> escape_json x = Ok e -> unescape q = Ok b ->
  unescape (p ++ e ++ q) = Ok (a ++ x ++ b).
Proof. exact p_c117_template. Qed.
Print Assumptions C117_template.

(** Any number of escaped texts with text without backslashes between them. *)
Theorem C117_all : forall ls es xs, length ls = length xs ->
  Forall2 (fun x e => Fits x /\ escape_json x = Ok e) xs es -> Forall (fun l => ~ In x5c l) ls ->
  Fits (concat (interleave ls es)) ->
  unescape (concat (interleave ls es)) = Ok (concat (interleave ls xs)).
Proof. exact p_c117_all. Qed.
Print Assumptions C117_all.

(** The same for [unescape_next], called until it has nothing more to return:
    the code points of the text, then those of what follows. *)
Theorem C117_iterate : forall x cs e t L, Fits x -> Text x cs -> escape_json x = Ok e ->
  (Iterated (e ++ t) L <-> exists ds, L = cs ++ ds /\ Iterated t ds).
Proof. exact p_c117_iterate. Qed.
Print Assumptions C117_iterate.

(** The exceptions are needed. *)
Example C117_hex : unescape #"\x41" = Ok #"A" /\ unescape #"2" = Ok #"2" /\ unescape #"\x412" = Ok [xd0; x92].
Proof. vm_compute. repeat split. Qed.
Example C117_pair : unescape #"\ud83d" = Ok [xed; xa0; xbd] /\ unescape #"\ude00" = Ok [xed; xb8; x80] /\
  unescape #"\ud83d\ude00" = Ok [xf0; x9f; x98; x80].
Proof. vm_compute. repeat split. Qed.
(** Hypotheses met: a text ending in an escape sequence of fixed length. *)
Example C117_ex_closed : ~ loose_end #"a\n" /\ unescape #"a\n" = Ok [x61; x0a].
Proof.
  split; [|vm_compute; reflexivity]. intros [(p & c & d & E & H)|(p & ds & v & q & E & H1 & _)].
  - change #"a\n" with ([x61; x5c] ++ [x6e]) in E. apply app_inj_tail in E. destruct E as [_ <-]. cbn in H.
    unfold hex_digit in H. change (u8 x6e) with 110 in H. lia.
  - apply (f_equal (@length byte)) in E. rewrite !app_length in E. rewrite H1 in E. cbn in E. lia.
Qed.
(** A template with a name in quotation marks, filled with a text that has one itself. *)
Example C117_ex_template : escape_json #"a""b" = Ok #"a\""b" /\
  unescape (#"{\x22name\x22:" ++ #"a\""b" ++ #"}") = Ok (#"{""name"":" ++ #"a""b" ++ #"}").
Proof. vm_compute. split; reflexivity. Qed.
(** An exception in the second part remains one. *)
Example C117_throw : unescape #"\x4" = Throw YstringException /\ unescape #"a\x4" = Throw YstringException.
Proof. vm_compute. split; reflexivity. Qed.
