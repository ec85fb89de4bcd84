(** C143: quoted texts end where they should. *)
From Coq Require Import String.
From Verif Require Import Base Spec.Utf8Spec Spec.Strings Spec.Escape Spec.Quoted Model.Decode Model.Subrange Model.Search Model.Escape Model.Unescape
  Proofs.QuotedLemmas.
Local Notation "'#' s" := (list_byte_of_string s%string) (at level 5, only parsing).

(** Behind an opening quotation mark an escaped text is read to its end and no further. *)
Theorem C143_ends : forall x e t, Fits x -> escape_json x = Ok e -> forall e' t', Literal (e ++ x22 :: t) e' t' <-> e' = e /\ t' = t.
Proof. exact p_c143_ends. Qed.
Print Assumptions C143_ends.
(** A document of plain text and quoted escaped texts is read back as it was put together. *)
Theorem C143_document : forall l fields xs, ~ In x22 l -> Forall (fun f => ~ In x22 (snd f)) fields -> Forall Fits xs ->
  Forall2 (fun x e => escape_json x = Ok e) xs (map fst fields) ->
  forall ls es, Document (document l fields) ls es <-> ls = l :: map snd fields /\ es = map fst fields.
Proof. exact p_c143_document. Qed.
Print Assumptions C143_document.
(** So no inserted text can pass for another one or for part of the document. *)
Theorem C143_injective : forall l fields xs l' fields' xs', ~ In x22 l -> Forall (fun f => ~ In x22 (snd f)) fields -> Forall Fits xs ->
  Forall2 (fun x e => escape_json x = Ok e) xs (map fst fields) ->
  ~ In x22 l' -> Forall (fun f => ~ In x22 (snd f)) fields' -> Forall Fits xs' ->
  Forall2 (fun x e => escape_json x = Ok e) xs' (map fst fields') ->
  document l fields = document l' fields' -> l = l' /\ fields = fields' /\ xs = xs'.
Proof. exact p_c143_injective. Qed.
Print Assumptions C143_injective.
(** The library's finders lead from the opening quotation mark to the closing one and to no other place. *)
Theorem C143_finders : forall pre x e t, Fits x -> escape_json x = Ok e -> Fits (pre ++ e ++ x22 :: t) ->
  forall q, Walk (pre ++ e ++ x22 :: t) (size pre) q <-> q = size (pre ++ e).
Proof. exact p_c143_finders. Qed.
Print Assumptions C143_finders.
(** They do so for every JSON string, whoever wrote it. *)
Theorem C143_any_json : forall e t, JsonBody e -> Literal (e ++ x22 :: t) e t /\
  forall pre, Fits (pre ++ e ++ x22 :: t) -> Walk (pre ++ e ++ x22 :: t) (size pre) (size (pre ++ e)).
Proof. intros e t H. split; [now apply json_literal|]. intros pre HF. exact (json_walk e t H pre [] HF ltac:(constructor)). Qed.
Print Assumptions C143_any_json.
(** A text made to break out of its quotation marks does not. *)
Example C143_ex : escape_json #"a"",""b\" = Ok #"a\"",\""b\\" /\
  document #"[" [(#"a\"",\""b\\", #",");(#"c", #"]")] = #"[""a\"",\""b\\"",""c""]" /\
  find_first_escapable_char #"[""a\"",\""b\\"",""c""]" 2 = Ok (Sub 3 1) /\ find_first_escaped_char #"[""a\"",\""b\\"",""c""]" 3 = Ok (Sub 3 2) /\
  find_first_escapable_char #"[""a\"",\""b\\"",""c""]" 11 = Ok (Sub 11 1) /\ size (#"[""" ++ #"a\"",\""b\\") = 11.
Proof. repeat split; vm_compute; reflexivity. Qed.
