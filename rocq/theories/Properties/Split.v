(** C36-C40: splitting. *)
From Verif Require Import Base Spec.Utf8Spec Spec.Strings Spec.Newline Spec.Split Spec.Tokens
  Model.Decode Model.Encode Model.Subrange Model.Search Model.Split Proofs.SplitLemmas Proofs.StrayLemmas Proofs.TokenLemmas.

(** C36 *)
Theorem C36_join_split : forall s sep n, sep <> [] -> Fits s -> 1 <= n ->
  exists parts, split_sep s sep n false = Ok parts /\ join parts sep = s /\
    N.of_nat (length parts) <= n + 1 /\ (size s < n -> Forall (fun p => forall i, ~ occurs_at sep p i) parts).
Proof. exact p_c36_join. Qed.
Print Assumptions C36_join_split.
Theorem C36_cuts : forall s sep n, sep <> [] -> Fits s -> 1 <= n ->
  exists cuts rest, Cuts (first_sep sep) s cuts rest /\
    stopped (fun t => forall i, ~ occurs_at sep t i) false n cuts rest /\
    split_sep s sep n false = Ok (map fst cuts ++ [rest]).
Proof. exact p_c36. Qed.
Print Assumptions C36_cuts.
Theorem C36_empty_separator : forall s n ign, Fits s -> 1 <= n -> split_sep s [] n ign = Ok (kept ign [s]).
Proof. exact p_c36_empty. Qed.
Print Assumptions C36_empty_separator.
Example C36_ex : split_sep [x61; x2c; x2c; x62; x2c] [x2c] SIZE_MAX false = Ok [[x61]; []; [x62]; []] /\
  split_sep [x61; x2c; x2c; x62; x2c] [x2c] 1 false = Ok [[x61]; [x2c; x62; x2c]].
Proof. split; reflexivity. Qed.

(** C37 *)
Theorem C37_split_codepoints : forall s cs chars ign, Fits s -> Text s cs ->
  exists parts, Forall2 Text parts (split_on (fun c => existsb (N.eqb c) chars) cs) /\
    split_chars s chars SIZE_MAX ign = Ok (kept ign parts).
Proof. exact p_c37_codepoints. Qed.
Print Assumptions C37_split_codepoints.
Theorem C37_split_chars : forall s chars n ign cuts rest, Fits s -> Cuts (first_char chars) s cuts rest ->
  stopped (no_char chars) ign n cuts rest ->
  split_chars s chars n ign = Ok (kept ign (map fst cuts ++ [rest])).
Proof. exact p_c37. Qed.
Print Assumptions C37_split_chars.
Theorem C37_cuts_exist : forall s cs chars n ign, Text s cs -> 1 <= n ->
  exists cuts rest, Cuts (first_char chars) s cuts rest /\ stopped (no_char chars) ign n cuts rest.
Proof. exact p_c37_exists. Qed.
Print Assumptions C37_cuts_exist.
(** Nothing is lost: the parts and the separators are the text. *)
Theorem C37_cuts_concat : forall first s cuts rest, Cuts first s cuts rest ->
  s = concat (map (fun p => fst p ++ snd p) cuts) ++ rest.
Proof. exact Cuts_concat. Qed.
Print Assumptions C37_cuts_concat.
Theorem C37_malformed : forall s chars, (forall cs, ~ Text s cs) -> Fits s ->
  forall ign, split_chars s chars SIZE_MAX ign = Throw YstringException.
Proof. exact p_c37_malformed. Qed.
Print Assumptions C37_malformed.
(** A malformed sequence is noticed exactly when it is reached before the limit. *)
Theorem C37_malformed_limit : forall s chars n ign cuts u us r, Fits s -> Cuts (first_char chars) s cuts (u ++ r) ->
  Text u us -> Forall (fun x => ~ In x chars) us -> Malformed r ->
  N.of_nat (length (kept ign (map fst cuts))) < n ->
  split_chars s chars n ign = Throw YstringException.
Proof. exact p_c37_throw. Qed.
Print Assumptions C37_malformed_limit.
(** Any bytes, any limit: one of the two. *)
Theorem C37_every_string : forall s chars n ign, Fits s -> 1 <= n -> exists cuts rest, Cuts (first_char chars) s cuts rest /\
  (stopped (no_char chars) ign n cuts rest /\ split_chars s chars n ign = Ok (kept ign (map fst cuts ++ [rest])) \/
   N.of_nat (length (kept ign (map fst cuts))) < n /\ malformed_first chars rest /\ split_chars s chars n ign = Throw YstringException).
Proof. exact p_c37_all. Qed.
Print Assumptions C37_every_string.
Example C37_ex : split_chars [x61; xe2; x82; xac; x2c; x62] [0x2C; 0x20AC] SIZE_MAX false = Ok [[x61]; []; [x62]] /\
  split_on (fun c => existsb (N.eqb c) [0x2C; 0x20AC]) [0x61; 0x20AC; 0x2C; 0x62] = [[0x61]; []; [0x62]].
Proof. split; reflexivity. Qed.

(** C38, when the memory after the array NEWLINES holds a zero (see C20). *)
Theorem C38_split_lines : forall after s cs ign, Fits s -> Text s cs ->
  exists parts, Forall2 Text parts (split_at_newlines cs) /\ split_lines (0 :: after) s SIZE_MAX ign = Ok (kept ign parts).
Proof. exact p_c38_codepoints. Qed.
Print Assumptions C38_split_lines.
Theorem C38_limited : forall after s n ign cuts rest, Fits s -> Cuts first_line_end s cuts rest ->
  stopped no_line_end ign n cuts rest ->
  split_lines (0 :: after) s n ign = Ok (kept ign (map fst cuts ++ [rest])).
Proof. exact p_c38. Qed.
Print Assumptions C38_limited.
Theorem C38_cuts_exist : forall s cs n ign, Text s cs -> 1 <= n ->
  exists cuts rest, Cuts first_line_end s cuts rest /\ stopped no_line_end ign n cuts rest.
Proof. exact p_c38_exists. Qed.
Print Assumptions C38_cuts_exist.
Theorem C38_malformed : forall after s, (forall cs, ~ Text s cs) -> Fits s ->
  forall ign, split_lines (0 :: after) s SIZE_MAX ign = Throw YstringException.
Proof. exact p_c38_malformed. Qed.
Print Assumptions C38_malformed.
(** C38 for every content of the memory behind the array NEWLINES. *)
Theorem C38_any_memory : forall after,
  (Forall (fun c => c <> 0) after -> forall s n ign, 0 < n -> split_lines after s n ign = UB) /\
  (forall extra, followed_by after extra ->
     (forall s cs ign, Fits s -> Text s cs -> exists parts,
        Forall2 Text parts (split_at_line_ends extra cs) /\ split_lines after s SIZE_MAX ign = Ok (kept ign parts)) /\
     (forall s n ign cuts rest, Fits s -> Cuts (first_line_end_of extra) s cuts rest ->
        stopped (no_line_end_of extra) ign n cuts rest ->
        split_lines after s n ign = Ok (kept ign (map fst cuts ++ [rest]))) /\
     (forall s ign, (forall cs, ~ Text s cs) -> Fits s -> split_lines after s SIZE_MAX ign = Throw YstringException)).
Proof. exact p_c38_all. Qed.
Print Assumptions C38_any_memory.
Theorem C38_any_memory_cuts_exist : forall extra s cs n ign, Text s cs -> 1 <= n ->
  exists cuts rest, Cuts (first_line_end_of extra) s cuts rest /\ stopped (no_line_end_of extra) ign n cuts rest.
Proof. exact p_c38_cuts. Qed.
Print Assumptions C38_any_memory_cuts_exist.
(** Any bytes, any limit. *)
Theorem C38_every_string : forall after extra s n ign, followed_by after extra -> Fits s -> 1 <= n ->
  exists cuts rest, Cuts (first_line_end_of extra) s cuts rest /\
  (stopped (no_line_end_of extra) ign n cuts rest /\ split_lines after s n ign = Ok (kept ign (map fst cuts ++ [rest])) \/
   N.of_nat (length (kept ign (map fst cuts))) < n /\ malformed_in_line extra rest /\ split_lines after s n ign = Throw YstringException).
Proof. exact p_c38_every. Qed.
Print Assumptions C38_every_string.
Example C38_every_ex : split_lines [0] [x61; x0a; x62; x0d; xff] 1 false = Ok [[x61]; [x62; x0d; xff]] /\
  split_lines [0] [x61; x0a; x62; x0d; xff] 2 false = Throw YstringException.
Proof. split; reflexivity. Qed.
Example C38_memory_ex : split_lines [0x2E; 0] [x61; x0d; x0a; x62; x2e] SIZE_MAX false = Ok [[x61]; [x62]; []] /\
  split_at_line_ends [0x2E] [0x61; 0x0D; 0x0A; 0x62; 0x2E] = [[0x61]; [0x62]; []].
Proof. split; reflexivity. Qed.
Example C38_ex : split_lines [0] [x61; x0d; x0a; x62; x0a; x0d] SIZE_MAX false = Ok [[x61]; [x62]; []; []].
Proof. reflexivity. Qed.

(** C39.  Limits are at least 1 here, and also part of C36-C38; for 0 see C90. *)
Theorem C39_ignore_empty_any_finder : forall finder s, finds_range Sub finder -> Fits s ->
  split_where s finder SIZE_MAX true = omap (filter non_empty) (split_where s finder SIZE_MAX false).
Proof. exact split_where_ignore. Qed.
Print Assumptions C39_ignore_empty_any_finder.
Theorem C39_ignore_empty : forall s, Fits s ->
  (forall sep, split_sep s sep SIZE_MAX true = omap (filter non_empty) (split_sep s sep SIZE_MAX false)) /\
  (forall chars, split_chars s chars SIZE_MAX true = omap (filter non_empty) (split_chars s chars SIZE_MAX false)) /\
  (forall after, split_lines after s SIZE_MAX true = omap (filter non_empty) (split_lines after s SIZE_MAX false)).
Proof.
  exact (fun s HF => conj (fun sep => p_c39_sep s sep HF)
    (conj (fun chars => p_c39_chars s chars HF) (fun after => p_c39_lines after s HF))).
Qed.
Print Assumptions C39_ignore_empty.
(** With a limit too, for separators: the text after the last counted cut is returned untouched. *)
Theorem C39_limit : forall s sep n ign cuts rest, sep <> [] -> Fits s -> Cuts (first_sep sep) s cuts rest ->
  stopped (fun t => forall i, ~ occurs_at sep t i) ign n cuts rest ->
  split_sep s sep n ign = Ok (kept ign (map fst cuts ++ [rest])).
Proof. exact p_c39_limit. Qed.
Print Assumptions C39_limit.
Example C39_ex : split_sep [x2c; x61; x2c; x2c; x62; x2c; x63] [x2c] 1 true = Ok [[x61]; [x2c; x62; x2c; x63]] /\
  finds_range Sub (fun t => find_first t [x2c] 0).
Proof. split; [reflexivity|exact (finds_sep [x2c])]. Qed.

(** C40 *)
Theorem C40_partition : forall finder s t v tokens, Fits s -> TokenRun finder s t v tokens ->
  s = concat (map (fun p => fst p ++ snd p) tokens) ++ v /\
  (forall u g w, v = u ++ g ++ w -> g <> [] -> finder v = Ok (Sub (size u) (size g)) ->
     exists t', ti_next finder t = Ok (true, t') /\ ti_bool t' = true /\
       ti_part t' = Ok u /\ ti_remainder t' = Ok w /\ TokenRun finder s t' w (tokens ++ [(u, g)])) /\
  (forall o, finder v = Ok (Sub o 0) ->
     exists t', ti_next finder t = Ok (true, t') /\ ti_bool t' = false /\
       ti_part t' = Ok v /\ ti_get_token t' = Ok [] /\ ti_remainder t' = Ok [] /\
       ti_next finder t' = Ok (false, t')) /\
  (forall e, finder v = Throw e -> ti_next finder t = Throw e).
Proof. exact p_c40. Qed.
Print Assumptions C40_partition.
(** The remainder is the text not yet searched, also before the first next(),
    when there is no part and no token yet. *)
Theorem C40_remainder : forall finder s t v tokens, Fits s -> TokenRun finder s t v tokens ->
  ti_remainder t = Ok v /\ (tokens = [] -> ti_bool t = false /\ ti_part t = Ok [] /\ ti_get_token t = Ok []).
Proof. exact p_c40_remainder. Qed.
Print Assumptions C40_remainder.
(** token() is right only for a token at the very start or the very end ... *)
Theorem C40_token_partial : forall finder s t v tokens u g w t', Fits s -> TokenRun finder s t v tokens ->
  v = u ++ g ++ w -> g <> [] -> finder v = Ok (Sub (size u) (size g)) -> ti_next finder t = Ok (true, t') ->
  u = [] \/ w = [] -> ti_get_token t' = Ok g.
Proof. exact p_c40_token_ok. Qed.
Print Assumptions C40_token_partial.
(** ... and otherwise always too long. *)
Theorem C40_token_refuted : forall finder s t v tokens u g w t', Fits s -> TokenRun finder s t v tokens ->
  v = u ++ g ++ w -> g <> [] -> finder v = Ok (Sub (size u) (size g)) -> ti_next finder t = Ok (true, t') ->
  u <> [] -> w <> [] -> exists x, ti_get_token t' = Ok (g ++ x) /\ x <> [].
Proof. exact p_c40_token_bad. Qed.
Print Assumptions C40_token_refuted.
Example C40_ex : let finder t := find_first t [x2c] 0 in
  exists t', ti_next finder (ti_init [x61; x2c; x62]) = Ok (true, t') /\
    ti_part t' = Ok [x61] /\ ti_get_token t' = Ok [x2c; x62] /\ ti_remainder t' = Ok [x62].
Proof. eexists. repeat split; reflexivity. Qed.
