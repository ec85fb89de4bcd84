(** C144: reversing mirrors the other functions.  [mirrored s s'] (Spec/Mirror.v): [s] is
    valid text without combining marks, and [reverse s] is [s']. *)
From Verif Require Import Base Spec.Utf8Spec Spec.Strings Spec.Mirror
  Model.Decode Model.Subrange Model.Search Model.Split Model.CharClass Model.Chars Proofs.MirrorLemmas.

(** Every such text has a mirror image, whose mirror image it is. *)
Theorem C144_exists : forall s, unmarked s -> Fits s -> exists s', mirrored s s' /\ mirrored s' s /\ size s' = size s.
Proof.
  intros s HU HF. destruct (p_c144_exists s HU HF) as (s' & H). exists s'. split; [exact H|]. split; [now apply p_c144_sym|].
  exact (p_c144_size s s' H).
Qed.
Print Assumptions C144_exists.
Theorem C144_append : forall a a' b b', mirrored a a' -> mirrored b b' -> Fits (a ++ b) -> mirrored (a ++ b) (b' ++ a').
Proof. exact p_c144_append. Qed.
Print Assumptions C144_append.
(** Prefixes become suffixes. *)
Theorem C144_starts : forall s s' p p', mirrored s s' -> mirrored p p' -> starts_with s p = ends_with s' p' /\ ends_with s p = starts_with s' p'.
Proof. exact p_c144_starts. Qed.
Print Assumptions C144_starts.
(** The first occurrence becomes the last one; nothing found becomes nothing found. *)
Theorem C144_find : forall s s' p p', mirrored s s' -> mirrored p p' -> p <> [] ->
  (exists i, i + size p <= size s /\ find_first s p 0 = Ok (Sub i (size p)) /\ find_last s' p' npos = Ok (Sub (size s - (i + size p)) (size p))) \/
  (find_first s p 0 = Ok (Sub (size s) 0) /\ find_last s' p' npos = Ok (Sub 0 0)).
Proof. exact p_c144_find. Qed.
Print Assumptions C144_find.
Theorem C144_find_chars : forall s s' chars, mirrored s s' ->
  (exists i n c, i + n <= size s /\ find_first_of s chars 0 = Ok (Sub i n, c) /\ find_last_of s' chars npos = Ok (Sub (size s - (i + n)) n, c)) \/
  (find_first_of s chars 0 = Ok (Sub npos 0, INVALID_CHAR) /\ find_last_of s' chars npos = Ok (Sub npos 0, INVALID_CHAR)).
Proof. exact p_c144_find_chars. Qed.
Print Assumptions C144_find_chars.
(** [m] replacements from one end become [m] replacements from the other. *)
Theorem C144_replace : forall s s' p p' t t' m, mirrored s s' -> mirrored p p' -> mirrored t t' -> p <> [] ->
  (- 0x8000000000000000 < m < 0x8000000000000000)%Z ->
  exists r r', replace s p t m = Ok r /\ replace s' p' t' (- m) = Ok r' /\ (Fits r -> mirrored r r').
Proof. exact p_c144_replace. Qed.
Print Assumptions C144_replace.
(** Trimming the start becomes trimming the end, trimming both ends stays. *)
Theorem C144_trim : forall s s' f, mirrored s s' ->
  (exists m m', trim_start_where s f = Ok m /\ trim_end_where s' f = Ok m' /\ mirrored m m') /\
  (exists m m', trim_where s f = Ok m /\ trim_where s' f = Ok m' /\ mirrored m m').
Proof. exact p_c144_trim. Qed.
Print Assumptions C144_trim.
Theorem C144_trim_chars : forall s s' chars, mirrored s s' ->
  (exists m m', trim_start s chars = Ok m /\ trim_end s' chars = Ok m' /\ mirrored m m') /\
  (exists m m', trim s chars = Ok m /\ trim s' chars = Ok m' /\ mirrored m m').
Proof. intros s s' chars H. exact (p_c144_trim s s' (fun c => u32_contains chars c) H). Qed.
Print Assumptions C144_trim_chars.
(** The parts come in the opposite order, each reversed. *)
Theorem C144_split : forall s s' chars ignore_empty, mirrored s s' ->
  exists ps qs, split_chars s chars SIZE_MAX ignore_empty = Ok ps /\ split_chars s' chars SIZE_MAX ignore_empty = Ok qs /\ Forall2 mirrored ps (rev qs).
Proof. exact p_c144_split. Qed.
Print Assumptions C144_split.
Theorem C144_join : forall l l' d d', Forall2 mirrored l l' -> mirrored d d' -> Fits (join l d) -> mirrored (join l d) (join (rev l') d').
Proof. exact p_c144_join. Qed.
Print Assumptions C144_join.

(** "aåb" mirrored is "båa"; "ab,c" split and replaced; a combining mark is not covered,
    and there the claim fails: "a" + U+0301 ends with U+0301, its mirror image does not start with it. *)
Example C144_ex : mirrored [x61; xc3; xa5; x62] [x62; xc3; xa5; x61] /\ mirrored [x61] [x61] /\
  find_first [x61; xc3; xa5; x62] [x61] 0 = Ok (Sub 0 1) /\ find_last [x62; xc3; xa5; x61] [x61] npos = Ok (Sub 3 1) /\
  split_chars [x61; x62; x2c; x63] [0x2c] SIZE_MAX false = Ok [[x61; x62]; [x63]] /\
  split_chars [x63; x2c; x62; x61] [0x2c] SIZE_MAX false = Ok [[x63]; [x62; x61]] /\
  replace [x61; x61; x61] [x61; x61] [x78; x79] 1 = Ok [x78; x79; x61] /\
  replace [x61; x61; x61] [x61; x61] [x79; x78] (-1) = Ok [x61; x79; x78].
Proof.
  split; [|split].
  - split; [|split; [vm_compute; reflexivity|vm_compute; reflexivity]]. exists [0x61; 0xE5; 0x62]. split.
    + apply (Text_cons [x61] 0x61). { apply (uchar1 x61). vm_compute. reflexivity. }
      apply (Text_cons [xc3; xa5] 0xE5). { apply (uchar2 xc3 xa5); vm_compute; split; congruence. }
      apply (Text_cons [x62] 0x62). { apply (uchar1 x62). vm_compute. reflexivity. }
      constructor.
    + repeat constructor; vm_compute; reflexivity.
  - split; [|split; vm_compute; reflexivity]. exists [0x61]. split.
    + apply (Text_cons [x61] 0x61). { apply (uchar1 x61). vm_compute. reflexivity. }
      constructor.
    + repeat constructor; vm_compute; reflexivity.
  - repeat split; vm_compute; reflexivity.
Qed.
Example C144_marks : ends_with [x61; xcc; x81] [xcc; x81] = Ok true /\ reverse [x61; xcc; x81] = Ok [x61; xcc; x81] /\
  starts_with [x61; xcc; x81] [xcc; x81] = Ok false.
Proof. repeat split; vm_compute; reflexivity. Qed.
