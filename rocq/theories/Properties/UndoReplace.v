(** C142: replacing can be undone. *)
From Verif Require Import Base Spec.Utf8Spec Spec.Strings Model.Decode Model.Encode Model.Subrange Model.Search
  Proofs.UndoReplace.

(** [to] has no byte in common with [s]: whatever number of replacements was made, from
    either end, replacing [to] by [from] everywhere, from either end, gives [s] back.
    [from] may be anything, also empty. *)
Theorem C142_undo : forall s from to m r n, to <> [] -> Fits s -> Fits r -> (forall x, In x to -> ~ In x s) -> (- 0x8000000000000000 < m)%Z ->
  replace s from to m = Ok r -> (- 0x8000000000000000 < n)%Z -> (Z.of_N (size r) <= Z.abs n)%Z -> replace r to from n = Ok s.
Proof. exact p_c142_undo. Qed.
Print Assumptions C142_undo.
(** Hence no two such texts become equal, not even with different numbers of replacements. *)
Theorem C142_injective : forall s s' from to m m' r, to <> [] -> Fits s -> Fits s' -> (forall x, In x to -> ~ In x s /\ ~ In x s') ->
  (- 0x8000000000000000 < m)%Z -> (- 0x8000000000000000 < m')%Z ->
  replace s from to m = Ok r -> replace s' from to m' = Ok r -> s = s'.
Proof. exact p_c142_injective. Qed.
Print Assumptions C142_injective.
(** [to] has no byte in common with [from]: after replacing everywhere nothing is left to replace. *)
Theorem C142_gone : forall s from to m r, from <> [] -> to <> [] -> (forall x, In x to -> ~ In x from) -> Fits s ->
  (- 0x8000000000000000 < m)%Z -> (Z.of_N (size s) <= Z.abs m)%Z -> replace s from to m = Ok r ->
  (forall i, ~ occurs_at from r i) /\ (forall to' n, Fits r -> (- 0x8000000000000000 < n)%Z -> replace r from to' n = Ok r).
Proof. exact p_c142_gone. Qed.
Print Assumptions C142_gone.
(** Code points: enough that [b] is not a code point of the text. *)
Theorem C142_codepoints : forall s cs a b m r n, Text s cs -> Fits s -> a <= 0x10FFFF -> b <= 0x10FFFF -> ~ In b cs ->
  (- 0x8000000000000000 < m)%Z -> replace_codepoint s a b m = Ok r -> Fits r ->
  (- 0x8000000000000000 < n)%Z -> (Z.of_N (size r) <= Z.abs n)%Z -> replace_codepoint r b a n = Ok s.
Proof. exact p_c142_codepoints. Qed.
Print Assumptions C142_codepoints.
(** aabaab with aa -> xy, once from the back, then all back again. *)
Example C142_ex : replace [x61; x61; x62; x61; x61; x62] [x61; x61] [x78; x79] (-1) = Ok [x61; x61; x62; x78; x79; x62] /\
  (forall x, In x [x78; x79] -> ~ In x [x61; x61; x62; x61; x61; x62]) /\
  replace [x61; x61; x62; x78; x79; x62] [x78; x79] [x61; x61] 6 = Ok [x61; x61; x62; x61; x61; x62] /\
  replace_codepoint [x41; x42; x41] 0x41 0xE5 1 = Ok [xc3; xa5; x42; x41] /\
  replace_codepoint [xc3; xa5; x42; x41] 0xE5 0x41 (-4) = Ok [x41; x42; x41].
Proof.
  repeat split; try (vm_compute; reflexivity). intros x [<-|[<-|[]]] H; cbn in H; decompose [or] H; try discriminate; assumption.
Qed.
(** The conditions are needed: a shared byte, in the text or in the pattern. *)
Example C142_needed : replace [x61; x78] [x61] [x78] 2 = Ok [x78; x78] /\ replace [x78; x78] [x78] [x61] 2 = Ok [x61; x61] /\
  replace [x61; x61; x62; x62] [x61; x62] [x62; x61] 4 = Ok [x61; x62; x61; x62].
Proof. repeat split; vm_compute; reflexivity. Qed.
