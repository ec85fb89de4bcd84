(** C136: splitting in stages. *)
From Verif Require Import Base Spec.Utf8Spec Spec.Strings Spec.Newline Spec.Split Model.Decode Model.Encode Model.Search Model.Split Model.CaseInsensitive Proofs.StageLemmas.

(** Splitting at the characters of one set, and each part at those of another, is
    splitting at both; with or without the empty parts. *)
Theorem C136_two_sets : forall s first second ign parts, Fits s -> split_chars s first SIZE_MAX ign = Ok parts ->
  exists pieces, Forall2 (fun p q => split_chars p second SIZE_MAX ign = Ok q) parts pieces /\
    split_chars s (first ++ second) SIZE_MAX ign = Ok (concat pieces).
Proof. exact p_c136_two. Qed.
Print Assumptions C136_two_sets.
(** When empty parts are ignored it does not matter whether the string is trimmed
    first; valid UTF-8 or not. *)
Theorem C136_trim_first : forall s t chars, Fits s -> trim s chars = Ok t ->
  split_chars t chars SIZE_MAX true = split_chars s chars SIZE_MAX true.
Proof. exact p_c136_trim. Qed.
Print Assumptions C136_trim_first.
(** Splitting at most [n] times and going on with the last part, if there are more
    than [n] parts, is splitting without a limit: the same parts, or the same
    exception. *)
Theorem C136_go_on_sep : forall s sep n ign parts, Fits s -> 1 <= n -> split_sep s sep n ign = Ok parts ->
  (N.of_nat (length parts) <= n -> split_sep s sep SIZE_MAX ign = Ok parts) /\
  (forall init last, parts = init ++ [last] -> N.of_nat (length init) = n ->
     split_sep s sep SIZE_MAX ign = omap (app init) (split_sep last sep SIZE_MAX ign)) /\
  N.of_nat (length parts) <= n + 1.
Proof. exact p_c136_rest_sep. Qed.
Print Assumptions C136_go_on_sep.
Theorem C136_go_on_chars : forall s chars n ign parts, Fits s -> 1 <= n -> split_chars s chars n ign = Ok parts ->
  (N.of_nat (length parts) <= n -> split_chars s chars SIZE_MAX ign = Ok parts) /\
  (forall init last, parts = init ++ [last] -> N.of_nat (length init) = n ->
     split_chars s chars SIZE_MAX ign = omap (app init) (split_chars last chars SIZE_MAX ign)) /\
  N.of_nat (length parts) <= n + 1.
Proof. exact p_c136_rest_chars. Qed.
Print Assumptions C136_go_on_chars.
(** [extra] is what counts as a newline besides the documented ones (C20). *)
Theorem C136_go_on_lines : forall after extra s n ign parts, followed_by after extra -> Fits s -> 1 <= n -> split_lines after s n ign = Ok parts ->
  (N.of_nat (length parts) <= n -> split_lines after s SIZE_MAX ign = Ok parts) /\
  (forall init last, parts = init ++ [last] -> N.of_nat (length init) = n ->
     split_lines after s SIZE_MAX ign = omap (app init) (split_lines after last SIZE_MAX ign)) /\
  N.of_nat (length parts) <= n + 1.
Proof. exact p_c136_rest_lines. Qed.
Print Assumptions C136_go_on_lines.
(** The case-insensitive ones. *)
Theorem C136_go_on_ci_sep : forall sep cs s n ign parts, cs <> [] -> Text sep cs -> Fits s -> 1 <= n -> ci_split_sep s sep n ign = Ok parts ->
  (N.of_nat (length parts) <= n -> ci_split_sep s sep SIZE_MAX ign = Ok parts) /\
  (forall init last, parts = init ++ [last] -> N.of_nat (length init) = n ->
     ci_split_sep s sep SIZE_MAX ign = omap (app init) (ci_split_sep last sep SIZE_MAX ign)) /\
  N.of_nat (length parts) <= n + 1.
Proof. exact p_c136_rest_ci_sep. Qed.
Print Assumptions C136_go_on_ci_sep.
Theorem C136_go_on_ci_chars : forall s chars n ign parts, Forall (fun d => d < 0x100000000) chars -> Fits s -> 1 <= n -> ci_split_chars s chars n ign = Ok parts ->
  (N.of_nat (length parts) <= n -> ci_split_chars s chars SIZE_MAX ign = Ok parts) /\
  (forall init last, parts = init ++ [last] -> N.of_nat (length init) = n ->
     ci_split_chars s chars SIZE_MAX ign = omap (app init) (ci_split_chars last chars SIZE_MAX ign)) /\
  N.of_nat (length parts) <= n + 1.
Proof. exact p_c136_rest_ci_chars. Qed.
Print Assumptions C136_go_on_ci_chars.
(** a,b;c,,d *)
Example C136_ex : let s := [x61; x2c; x62; x3b; x63; x2c; x2c; x64] in
  split_chars s [0x3b] SIZE_MAX false = Ok [[x61; x2c; x62]; [x63; x2c; x2c; x64]] /\
  split_chars s [0x3b; 0x2c] SIZE_MAX false = Ok [[x61]; [x62]; [x63]; []; [x64]] /\
  split_sep s [x2c] 1 false = Ok [[x61]; [x62; x3b; x63; x2c; x2c; x64]] /\
  trim ([x2c] ++ s) [0x2c] = Ok s.
Proof. repeat split; vm_compute; reflexivity. Qed.
