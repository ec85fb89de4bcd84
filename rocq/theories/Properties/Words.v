(** C141: the words of a text. *)
From Verif Require Import Base Spec.Utf8Spec Spec.Strings Spec.Words
  Model.Decode Model.Encode Model.Subrange Model.Search Model.Split Proofs.Utf8Lemmas Proofs.WordLemmas.

(** Splitting at a set of code points and leaving out empty parts gives the words of the
    text, for exactly the texts that have words, the valid ones. *)
Theorem C141_words : forall chars s ws, Fits s -> (split_chars s chars SIZE_MAX true = Ok ws <-> Words chars s ws).
Proof. exact p_c141_words. Qed.
Print Assumptions C141_words.
Theorem C141_every_text : forall chars s cs, Text s cs -> exists ws, Words chars s ws.
Proof. exact words_exist. Qed.
Print Assumptions C141_every_text.
(** Trimming does not change the words, whatever the bytes are. *)
Theorem C141_trim : forall chars s t, Fits s -> trim s chars = Ok t \/ trim_start s chars = Ok t \/ trim_end s chars = Ok t ->
  split_chars t chars SIZE_MAX true = split_chars s chars SIZE_MAX true.
Proof. exact p_c141_trim. Qed.
Print Assumptions C141_trim.
(** Two texts with a gap between them. *)
Theorem C141_concat : forall chars a g b ws wt, Fits (a ++ g ++ b) -> Gap chars g -> g <> [] ->
  split_chars a chars SIZE_MAX true = Ok ws -> split_chars b chars SIZE_MAX true = Ok wt ->
  split_chars (a ++ g ++ b) chars SIZE_MAX true = Ok (ws ++ wt).
Proof. exact p_c141_concat. Qed.
Print Assumptions C141_concat.
(** The words joined with a gap: same words, nothing to trim. *)
Theorem C141_uniform : forall chars s ws d, Fits s -> Gap chars d -> d <> [] -> split_chars s chars SIZE_MAX true = Ok ws -> Fits (join ws d) ->
  split_chars (join ws d) chars SIZE_MAX true = Ok ws /\ trim (join ws d) chars = Ok (join ws d).
Proof. exact p_c141_uniform. Qed.
Print Assumptions C141_uniform.
(** Two texts become the same exactly if they have the same words. *)
Theorem C141_same : forall chars s t ws wt d, Fits s -> Fits t -> Gap chars d -> d <> [] ->
  split_chars s chars SIZE_MAX true = Ok ws -> split_chars t chars SIZE_MAX true = Ok wt -> Fits (join ws d) ->
  (join ws d = join wt d <-> ws = wt).
Proof. exact p_c141_same. Qed.
Print Assumptions C141_same.
(** "  ab  c " with blanks and U+3000 as gaps. *)
Example C141_ex : Fits [x20; x61; x62; xe3; x80; x80; x20; x63; x20] /\ Gap [0x20; 0x3000] [xe3; x80; x80; x20] /\
  split_chars [x20; x61; x62; xe3; x80; x80; x20; x63; x20] [0x20; 0x3000] SIZE_MAX true = Ok [[x61; x62]; [x63]] /\
  join [[x61; x62]; [x63]] [x20] = [x61; x62; x20; x63] /\
  trim [x20; x61; x62; xe3; x80; x80; x20; x63; x20] [0x20; 0x3000] = Ok [x61; x62; xe3; x80; x80; x20; x63].
Proof.
  split; [reflexivity|]. split; [|repeat split; vm_compute; reflexivity].
  exists [0x3000; 0x20]. split; [|constructor; [cbn; auto|constructor; [cbn; auto|constructor]]].
  pose proof (uchar3 xe3 x80 x80 ltac:(now split) ltac:(now split) ltac:(now split)) as A. pose proof (uchar1 x20 ltac:(reflexivity)) as B.
  exact (Text_cons _ _ _ _ A (Text_cons _ _ _ _ B Text_nil)).
Qed.
