(** C123, C124: [join], [variable_name] and [make_macro_name] of codegen.py. *)
From Coq Require Import String.
From Verif Require Import Base Model.PyText Model.LineBuilder Spec.Wrap Proofs.WrapLemmas.
Local Notation "'#' s" := (list_byte_of_string s%string) (at level 5, only parsing).

(** The texts are put into lines, in order and none lost; a recursion depth of 2
    is enough. *)
Theorem C123_wrap_partial : forall fuel words width sep nl fs fn,
  (2 <= fuel)%nat -> sep <> [] \/ nl = [] -> Forall (fun w => w <> []) words ->
  exists gs, wrapped width sep nl words gs /\ join fuel words width sep nl fs fn = Some (group_lines sep nl gs).
Proof. exact p_c123_wrap. Qed.
Print Assumptions C123_wrap_partial.
(** No line is too long but those with a single text. *)
Theorem C123_width_partial : forall fuel words width sep nl fs fn,
  (2 <= fuel)%nat -> sep <> [] \/ nl = [] -> (length nl <= length sep + 1)%nat -> Forall (fun w => w <> []) words ->
  exists out, join fuel words width sep nl fs fn = Some out /\
    forall l, In l out -> (length l <= width)%nat \/ (exists w, In w words /\ (l = w \/ l = w ++ nl)).
Proof. exact p_c123_width. Qed.
Print Assumptions C123_width_partial.
(** Without a separator texts can get lost (here the second). *)
Theorem C123_lost_refuted : join 1000 [#"a"; #"b"; #"c"; #"d"] 3 [] #"\" [] [] = Some [#"a\"; #"cd"].
Proof. reflexivity. Qed.
Print Assumptions C123_lost_refuted.
(** With a long text for line ends a line can be too long (here 6 characters instead of 5). *)
Theorem C123_long_refuted : join 1000 [#"aaa"; #"b"; #"c"] 5 #" " #" \\" [] [] = Some [#"aaa \\"; #"b c"].
Proof. reflexivity. Qed.
Print Assumptions C123_long_refuted.
(** The separators for the first text are never used. *)
Theorem C123_first_unused : forall fuel words width sep nl fs fn fs' fn',
  join fuel words width sep nl fs fn = join fuel words width sep nl fs' fn'.
Proof. exact p_c123_first. Qed.
Print Assumptions C123_first_unused.

Example C123_ex : join 1000 [#"one"; #"two"; #"three"; #"four"; #"abcdefghijklm"; #"five"] 10 #", " #"," [] [] =
    Some [#"one, two,"; #"three,"; #"four,"; #"abcdefghijklm,"; #"five"] /\
  wrapped 10 #", " #"," [#"one"; #"two"; #"three"; #"four"; #"abcdefghijklm"; #"five"]
    [[#"one"; #"two"]; [#"three"]; [#"four"]; [#"abcdefghijklm"]; [#"five"]].
Proof.
  split; [reflexivity|]. split; [reflexivity|]. split; [repeat constructor; discriminate|]. split.
  - repeat (apply Forall_cons; [cbn; lia|]). apply Forall_nil.
  - cbn. repeat split; lia.
Qed.

(** The parts between bad characters, with underscores between them. *)
Theorem C124_variable_name : forall s, exists ps, parts s ps /\ variable_name s = joined [x5f] ps.
Proof. exact p_c124_variable. Qed.
Print Assumptions C124_variable_name.
Theorem C124_macro_name : forall s, exists s' ps, Forall2 ascii_upper s s' /\ parts s' ps /\ make_macro_name s = joined [x5f] ps.
Proof. exact p_c124_macro. Qed.
Print Assumptions C124_macro_name.
(** There is one way to divide a text. *)
Theorem C124_unique : forall s ps ps', parts s ps -> parts s ps' -> ps = ps'.
Proof. exact p_c124_unique. Qed.
Print Assumptions C124_unique.
(** Names are left as they are. *)
Theorem C124_idempotent : forall s, variable_name (variable_name s) = variable_name s /\ make_macro_name (make_macro_name s) = make_macro_name s.
Proof. exact (fun s => conj (p_c124_idem s) (p_c124_macro_idem s)). Qed.
Print Assumptions C124_idempotent.
Example C124_ex : variable_name #" std::vector<Foo-bar> x2" = #"std_vector_Foo_bar_x2" /\ make_macro_name #"my/file.hpp" = #"MY_FILE_HPP" /\ variable_name #"[]" = [].
Proof. vm_compute. auto. Qed.
