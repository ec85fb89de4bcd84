(** C138: making the line ends of a text uniform. *)
From Verif Require Import Base Spec.Utf8Spec Spec.Strings Spec.Newline Spec.Visits Spec.LineEnds
  Model.Decode Model.Encode Model.Subrange Model.Search Model.Split Proofs.SplitLemmas Proofs.LineEndLemmas.

(** The lines of a text joined with the newline [d]: the result has the same
    lines, and every newline found in it, searching on behind the one found
    before, is [d]. *)
Theorem C138_uniform : forall after extra s ls d, followed_by after extra -> one_newline d -> Fits s ->
  split_lines after s SIZE_MAX false = Ok ls -> Fits (join ls d) ->
  split_lines after (join ls d) SIZE_MAX false = Ok ls /\
  exists rs, Visits (find_first_newline after (join ls d)) sub_end 0 rs /\ (length rs + 1 = length ls)%nat /\
    Forall (fun x => covers (join ls d) x d) rs.
Proof. exact p_c138_uniform. Qed.
Print Assumptions C138_uniform.
(** It is the text itself exactly if each of its newlines was [d] already. *)
Theorem C138_unchanged : forall after extra s ls d rs, followed_by after extra -> one_newline d -> Fits s ->
  split_lines after s SIZE_MAX false = Ok ls -> Visits (find_first_newline after s) sub_end 0 rs ->
  (join ls d = s <-> Forall (fun x => covers s x d) rs).
Proof. exact p_c138_unchanged. Qed.
Print Assumptions C138_unchanged.
(** Two texts become the same exactly if they have the same lines. *)
Theorem C138_same : forall after extra s t ls lt d, followed_by after extra -> one_newline d -> Fits s -> Fits t ->
  split_lines after s SIZE_MAX false = Ok ls -> split_lines after t SIZE_MAX false = Ok lt -> Fits (join ls d) ->
  (join ls d = join lt d <-> ls = lt).
Proof. exact p_c138_same. Qed.
Print Assumptions C138_same.
(** "a CR LF b CR c LF", made uniform with LF and with CR LF. *)
Example C138_ex : followed_by [0] [] /\ one_newline [x0a] /\ one_newline [x0d; x0a] /\
  split_lines [0] [x61; x0d; x0a; x62; x0d; x63; x0a] SIZE_MAX false = Ok [[x61]; [x62]; [x63]; []] /\
  join [[x61]; [x62]; [x63]; []] [x0a] = [x61; x0a; x62; x0a; x63; x0a] /\
  join [[x61]; [x62]; [x63]; []] [x0d; x0a] = [x61; x0d; x0a; x62; x0d; x0a; x63; x0d; x0a] /\
  Visits (find_first_newline [0] [x61; x0d; x0a; x62]) sub_end 0 [Sub 1 2] /\ covers [x61; x0d; x0a; x62] (Sub 1 2) [x0d; x0a].
Proof.
  split; [exists []; split; [reflexivity|apply Forall_nil]|]. split; [left; exists 0x0A; split; [apply (uchar1 x0a); reflexivity|now left]|].
  split; [right; exists [x0d], [x0a]; split; [reflexivity|]; split; [apply (uchar1 x0d)|apply (uchar1 x0a)]; reflexivity|].
  split; [reflexivity|]. split; [reflexivity|]. split; [reflexivity|]. split.
  - eapply visits_step; [reflexivity|discriminate|]. eapply visits_end; reflexivity.
  - exists [x61], [x62]. repeat split; reflexivity.
Qed.
