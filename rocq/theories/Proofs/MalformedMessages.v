(** C126: the messages about malformed text. *)
From Coq Require Import String.
From Verif Require Import Base Model.Decode Model.Encode Model.Subrange Model.Search Model.CharClass Model.Chars Model.ConvertCase
  Model.CodepointSet Model.Split Model.CaseInsensitive Model.Normalize Model.Print Model.Messages Model.MessagesMore.
From Verif Require Import Spec.Utf8Spec Spec.Strings Spec.Print Spec.Messages Spec.Complaints.
From Verif Require Import Spec.Case Spec.UnicodeData Proofs.Utf8Lemmas Proofs.DecodeLemmas Proofs.CodepointLemmas Proofs.ReplaceCpLemmas Proofs.TableLemmas
  Proofs.CharClassLemmas Proofs.CaseLemmas Proofs.CaseStringLemmas Proofs.SkipLemmas Proofs.EncodeLemmas Proofs.SearchLemmas Proofs.PrintLemmas Proofs.MessageLemmas.
From Coq Require Import ZifyBool ZifyNat ZifyN.

Section Tells.
Context (P : str -> Prop).
Lemma tells_ok {A} (a : A) : tells P (MOk a) (Ok a).
Proof. split; [reflexivity|discriminate]. Qed.
Lemma tells_fuel {A} : tells P (@MFuel A) OutOfFuel.
Proof. split; [reflexivity|discriminate]. Qed.
Lemma tells_ub {A} : tells P (@MUB A) UB.
Proof. split; [reflexivity|discriminate]. Qed.
Lemma tells_what {A} w : P w -> tells P (@MWhat A w) (Throw YstringException).
Proof. intros H. split; [reflexivity|]. intros _. exists w. split; [reflexivity|exact H]. Qed.
Lemma tells_lift {A} (o : outcome A) : o <> Throw YstringException -> tells P (mlift o) o.
Proof. intros H. split; [apply erase_lift|contradiction]. Qed.
Lemma tells_bind {A B} (m : mout A) o (k : A -> mout B) k' : tells P m o -> (forall a, tells P (k a) (k' a)) -> tells P (mbind m k) (bind o k').
Proof.
  intros [E1 E2] K. subst o. destruct m as [a|w|e| |]; cbn in *; try (split; [reflexivity|]; discriminate).
  - apply K.
  - split; [reflexivity|]. intros _. destruct (E2 eq_refl) as [msg [X Y]]. injection X as <-. exists w. split; [reflexivity|exact Y].
  - split; [reflexivity|]. intros X. injection X as ->. destruct (E2 eq_refl) as [msg [Z _]]. discriminate.
Qed.
End Tells.
Lemma tells_weaken {A} (P Q : str -> Prop) (m : mout A) o : (forall w, P w -> Q w) -> tells P m o -> tells Q m o.
Proof. intros H [E1 E2]. split; [exact E1|]. intros X. destruct (E2 X) as [msg [Y Z]]. exists msg. split; [exact Y|apply H, Z]. Qed.

(** ** Functions that throw no YstringException *)
Definition mute {A} (o : outcome A) : Prop := o <> Throw YstringException.
Lemma mute_ok {A} (a : A) : mute (Ok a).
Proof. discriminate. Qed.
Lemma mute_bind {A B} (o : outcome A) (k : A -> outcome B) : mute o -> (forall a, mute (k a)) -> mute (bind o k).
Proof. unfold mute. intros H K. destruct o; cbn; [apply K|intros X; apply H; congruence|discriminate..]. Qed.
Create HintDb mu discriminated.
Ltac mu := repeat (cbn zeta; match goal with
  | |- forall _, _ => intros ?
  | |- mute (bind _ _) => apply mute_bind
  | |- mute (Ok _) => apply mute_ok
  | |- mute (if ?b then _ else _) => destruct b
  | |- mute (let (_, _) := ?p in _) => destruct p
  | |- mute (match ?p with None => _ | Some _ => _ end) => destruct p
  | |- mute (match ?p with [] => _ | _ :: _ => _ end) => destruct p
  | |- mute _ => first [solve [auto with mu nocore] | discriminate]
  end).
Lemma mute_deref {A} (s : list A) i : mute (deref s i).
Proof. unfold deref. mu. Qed.
#[export] Hint Resolve mute_deref : mu.
Lemma mute_begin_plus s o : mute (begin_plus s o).
Proof. unfold begin_plus. mu. Qed.
Lemma mute_substr s o n : mute (substr s o n).
Proof. unfold substr. mu. Qed.
Lemma mute_signed z : mute (signed z).
Proof. unfold signed. mu. Qed.
#[export] Hint Resolve mute_begin_plus mute_substr mute_signed : mu.
Lemma mute_substr_from s o : mute (substr_from s o).
Proof. unfold substr_from. mu. Qed.
Lemma mute_view mem : mute (u32view_of_ptr mem).
Proof. induction mem as [|c mem IH]; cbn [u32view_of_ptr]; mu. Qed.
#[export] Hint Resolve mute_substr_from mute_view : mu.
Lemma mute_ti_part t : mute (ti_part t).
Proof. unfold ti_part. mu. Qed.
Lemma mute_ti_remainder t : mute (ti_remainder t).
Proof. unfold ti_remainder. mu. Qed.
Lemma mute_replace_subrange s r t : mute (replace_subrange s r t).
Proof. unfold replace_subrange. mu. Qed.
Lemma mute_ci_back s to l : forall n r, mute (ci_replace_back_loop s to l n r).
Proof. induction l as [|x l IH]; intros n r; cbn [ci_replace_back_loop]; mu. Qed.
Lemma mute_append_range r s a b : mute (append_range r s a b).
Proof. unfold append_range. mu. Qed.
#[export] Hint Resolve mute_ti_part mute_ti_remainder mute_replace_subrange mute_ci_back mute_append_range : mu.

Lemma mute_decode_next_loop s k : forall i r it, mute (decode_next_loop s k i r it).
Proof. induction k as [|k IH]; intros i r it; cbn [decode_next_loop]; mu; apply IH. Qed.
#[export] Hint Resolve mute_decode_next_loop : mu.
Lemma mute_decode_next s it : mute (decode_next s it).
Proof. unfold decode_next. mu. Qed.
Lemma mute_decode_prev_loop s it : forall r n, mute (decode_prev_loop s it r n).
Proof. induction it as [|it IH]; intros r n; cbn [decode_prev_loop]; mu; apply IH. Qed.
#[export] Hint Resolve mute_decode_next mute_decode_prev_loop : mu.
Lemma mute_decode_prev s it : mute (decode_prev s it).
Proof. unfold decode_prev. destruct it; mu. destruct a0 as [x|[[x n] y]]; mu. Qed.
Lemma mute_skip_next_loop s k : forall n it, mute (skip_next_loop s k n it).
Proof. induction k as [|k IH]; intros n it; cbn [skip_next_loop]; mu; apply IH. Qed.
#[export] Hint Resolve mute_decode_prev mute_skip_next_loop : mu.
Lemma mute_skip_next s it : mute (skip_next s it).
Proof. unfold skip_next. mu. Qed.
Lemma mute_skip_prev_loop s it : forall n, mute (skip_prev_loop s it n).
Proof. induction it as [|it IH]; intros n; cbn [skip_prev_loop]; mu; destruct it; mu; apply IH. Qed.
#[export] Hint Resolve mute_skip_next mute_skip_prev_loop : mu.
Lemma mute_skip_prev s it : mute (skip_prev s it).
Proof. unfold skip_prev. destruct it; mu. destruct a as [x|[n y]]; mu. Qed.
#[export] Hint Resolve mute_skip_prev : mu.
Lemma mute_skip_next_n fuel s : forall pos it, mute (skip_next_n fuel s pos it).
Proof. induction fuel as [|fuel IH]; intros pos it; cbn [skip_next_n]; mu; apply IH. Qed.
Lemma mute_skip_prev_n fuel s l : forall pos it, mute (skip_prev_n fuel s l pos it).
Proof. induction fuel as [|fuel IH]; intros pos it; cbn [skip_prev_n]; mu; apply IH. Qed.
Lemma mute_find_composed b c m : mute (find_composed b c m).
Proof. unfold find_composed. mu. Qed.
Lemma mute_decomposed_size fuel : forall m n, mute (decomposed_size_loop fuel m n).
Proof. induction fuel as [|fuel IH]; intros m n; cbn [decomposed_size_loop]; mu; apply IH. Qed.
#[export] Hint Resolve mute_skip_next_n mute_skip_prev_n mute_find_composed mute_decomposed_size : mu.
Lemma mute_get_decomposed_size c : mute (get_decomposed_size c).
Proof. unfold get_decomposed_size. mu. Qed.
Lemma mute_set_nth b i v : mute (set_nth b i v).
Proof. unfold set_nth. mu. Qed.
#[export] Hint Resolve mute_get_decomposed_size mute_set_nth : mu.
Lemma mute_decompose_loop fuel ch : forall buf i n m, mute (decompose_loop fuel ch buf i n m).
Proof. induction fuel as [|fuel IH]; intros buf i n m; cbn [decompose_loop]; mu; apply IH. Qed.
#[export] Hint Resolve mute_decompose_loop : mu.
Lemma mute_decompose_char c b : mute (decompose_char c b).
Proof. unfold decompose_char. mu. destruct a0 as [[x y]|[[x y] z]]; mu. Qed.
#[export] Hint Resolve mute_decompose_char : mu.
Lemma mute_decompose_until fuel c : forall ok sz b, mute (decompose_until fuel c ok sz b).
Proof. induction fuel as [|fuel IH]; intros ok sz b; cbn [decompose_until]; mu; apply IH. Qed.
#[export] Hint Resolve mute_decompose_until : mu.

(** ** Every exception about malformed text *)
Create HintDb tl discriminated.
Ltac tl := repeat (cbn zeta; match goal with
  | |- forall _, _ => intros ?
  | |- tells _ (mbind _ _) (bind _ _) => apply tells_bind
  | |- tells _ (MOk _) (Ok _) => apply tells_ok
  | |- tells _ MFuel OutOfFuel => apply tells_fuel
  | |- tells _ (mlift _) _ => apply tells_lift; solve [change (mute _); auto with mu nocore | match goal with |- ?o <> _ => change (mute o) end; auto with mu nocore]
  | |- tells _ (if ?b then _ else _) _ => destruct b
  | |- tells _ (let (_, _) := ?p in _) _ => destruct p
  | |- tells _ (match ?p with None => _ | Some _ => _ end) _ => destruct p
  | |- tells _ (match ?p with [] => _ | _ :: _ => _ end) _ => destruct p
  | |- tells _ _ _ => solve [auto with tl nocore]
  end).

Section Malformed.
Context (file : source -> str) (P : str -> Prop).
Context (HN : P (ystring_throw file DecodeUtf8_hpp 189 (lit "Invalid UTF-8 string."))).
Context (HP : P (ystring_throw file DecodeUtf8_hpp 200 (lit "Invalid UTF-8 string."))).
Lemma t_safe_decode_next s it : tells P (safe_decode_next_m file s it) (safe_decode_next s it).
Proof. unfold safe_decode_next_m, safe_decode_next. tl. apply tells_what, HN. Qed.
Lemma t_safe_decode_prev s it : tells P (safe_decode_prev_m file s it) (safe_decode_prev s it).
Proof. unfold safe_decode_prev_m, safe_decode_prev. tl. apply tells_what, HP. Qed.
Hint Resolve t_safe_decode_next t_safe_decode_prev : tl.
Lemma t_pop s : tells P (pop_utf8_codepoint_m file s) (pop_utf8_codepoint s).
Proof. unfold pop_utf8_codepoint_m, pop_utf8_codepoint. tl. Qed.
Lemma t_pop_last s : tells P (pop_last_utf8_codepoint_m file s) (pop_last_utf8_codepoint s).
Proof. unfold pop_last_utf8_codepoint_m, pop_last_utf8_codepoint. tl. Qed.
Lemma t_to_utf32_loop fuel s it result : tells P (to_utf32_loop_m file fuel s it result) (to_utf32_loop fuel s it result).
Proof. revert s it result. induction fuel as [|fuel IH]; intros s it result; cbn [to_utf32_loop_m to_utf32_loop]; tl. Qed.
Hint Resolve t_to_utf32_loop : tl.
Lemma t_to_utf32 s : tells P (to_utf32_m file s) (to_utf32 s).
Proof. unfold to_utf32_m, to_utf32. tl. Qed.
Hint Resolve t_to_utf32 : tl.
Lemma t_contains_loop fuel s chr it : tells P (contains_loop_m file fuel s chr it) (contains_loop fuel s chr it).
Proof. revert s chr it. induction fuel as [|fuel IH]; intros s chr it; cbn [contains_loop_m contains_loop]; tl. Qed.
Hint Resolve t_contains_loop : tl.
Lemma t_contains s chr : tells P (contains_m file s chr) (contains s chr).
Proof. unfold contains_m, contains. tl. Qed.
Hint Resolve t_contains : tl.
Lemma t_find_first_where_loop fuel s pred prev it : tells P (find_first_where_loop_m file fuel s pred prev it) (find_first_where_loop fuel s pred prev it).
Proof. revert s pred prev it. induction fuel as [|fuel IH]; intros s pred prev it; cbn [find_first_where_loop_m find_first_where_loop]; tl. Qed.
Hint Resolve t_find_first_where_loop : tl.
Lemma t_find_first_where s pred offset : tells P (find_first_where_m file s pred offset) (find_first_where s pred offset).
Proof. unfold find_first_where_m, find_first_where. tl. Qed.
Hint Resolve t_find_first_where : tl.
Lemma t_find_last_where_loop fuel s pred it e : tells P (find_last_where_loop_m file fuel s pred it e) (find_last_where_loop fuel s pred it e).
Proof. revert s pred it e. induction fuel as [|fuel IH]; intros s pred it e; cbn [find_last_where_loop_m find_last_where_loop]; tl. Qed.
Hint Resolve t_find_last_where_loop : tl.
Lemma t_find_last_where s pred offset : tells P (find_last_where_m file s pred offset) (find_last_where s pred offset).
Proof. unfold find_last_where_m, find_last_where. tl. Qed.
Hint Resolve t_find_last_where : tl.
Lemma t_find_first_of s chars offset : tells P (find_first_of_m file s chars offset) (find_first_of s chars offset).
Proof. unfold find_first_of_m, find_first_of. tl. Qed.
Hint Resolve t_find_first_of : tl.
Lemma t_find_last_of s chars offset : tells P (find_last_of_m file s chars offset) (find_last_of s chars offset).
Proof. unfold find_last_of_m, find_last_of. tl. Qed.
Hint Resolve t_find_last_of : tl.
Lemma t_find_first_newline after s offset : tells P (find_first_newline_m file after s offset) (find_first_newline after s offset).
Proof. unfold find_first_newline_m, find_first_newline. tl. Qed.
Hint Resolve t_find_first_newline : tl.
Lemma t_find_last_newline after s offset : tells P (find_last_newline_m file after s offset) (find_last_newline after s offset).
Proof. unfold find_last_newline_m, find_last_newline. tl. Qed.
Hint Resolve t_find_last_newline : tl.
Lemma t_get_codepoint s pos : tells P (get_codepoint_m file s pos) (get_codepoint s pos).
Proof. unfold get_codepoint_m, get_codepoint. tl. Qed.
Hint Resolve t_get_codepoint : tl.
Lemma t_trim_end_where s pred : tells P (trim_end_where_m file s pred) (trim_end_where s pred).
Proof. unfold trim_end_where_m, trim_end_where. tl. Qed.
Hint Resolve t_trim_end_where : tl.
Lemma t_trim_start_where s pred : tells P (trim_start_where_m file s pred) (trim_start_where s pred).
Proof. unfold trim_start_where_m, trim_start_where. tl. Qed.
Hint Resolve t_trim_start_where : tl.
Lemma t_trim_where s pred : tells P (trim_where_m file s pred) (trim_where s pred).
Proof. unfold trim_where_m, trim_where. tl. Qed.
Hint Resolve t_trim_where : tl.
Lemma t_trim_end s chars : tells P (trim_end_m file s chars) (trim_end s chars).
Proof. unfold trim_end_m, trim_end. tl. Qed.
Hint Resolve t_trim_end : tl.
Lemma t_trim_start s chars : tells P (trim_start_m file s chars) (trim_start s chars).
Proof. unfold trim_start_m, trim_start. tl. Qed.
Hint Resolve t_trim_start : tl.
Lemma t_trim s chars : tells P (trim_m file s chars) (trim s chars).
Proof. unfold trim_m, trim. tl. Qed.
Hint Resolve t_trim : tl.
Lemma t_trim_default after s : tells P (trim_default_m file after s) (trim_default after s).
Proof. unfold trim_default_m, trim_default. tl. Qed.
Hint Resolve t_trim_default : tl.
Lemma t_trim_start_default after s : tells P (trim_start_default_m file after s) (trim_start_default after s).
Proof. unfold trim_start_default_m, trim_start_default. tl. Qed.
Hint Resolve t_trim_start_default : tl.
Lemma t_trim_end_default after s : tells P (trim_end_default_m file after s) (trim_end_default after s).
Proof. unfold trim_end_default_m, trim_end_default. tl. Qed.
Hint Resolve t_trim_end_default : tl.
Lemma t_next_char_loop fuel s it e : tells P (next_char_loop_m file fuel s it e) (next_char_loop fuel s it e).
Proof. revert s it e. induction fuel as [|fuel IH]; intros s it e; cbn [next_char_loop_m next_char_loop]; tl. Qed.
Hint Resolve t_next_char_loop : tl.
Lemma t_get_next_char_range s offset : tells P (get_next_char_range_m file s offset) (get_next_char_range s offset).
Proof. unfold get_next_char_range_m, get_next_char_range. tl. Qed.
Hint Resolve t_get_next_char_range : tl.
Lemma t_prev_char_loop fuel s it : tells P (prev_char_loop_m file fuel s it) (prev_char_loop fuel s it).
Proof. revert s it. induction fuel as [|fuel IH]; intros s it; cbn [prev_char_loop_m prev_char_loop]; tl. Qed.
Hint Resolve t_prev_char_loop : tl.
Lemma t_get_prev_char_range s offset : tells P (get_prev_char_range_m file s offset) (get_prev_char_range s offset).
Proof. unfold get_prev_char_range_m, get_prev_char_range. tl. Qed.
Hint Resolve t_get_prev_char_range : tl.
Lemma t_count_chars_loop fuel s offset count : tells P (count_chars_loop_m file fuel s offset count) (count_chars_loop fuel s offset count).
Proof. revert s offset count. induction fuel as [|fuel IH]; intros s offset count; cbn [count_chars_loop_m count_chars_loop]; tl. Qed.
Hint Resolve t_count_chars_loop : tl.
Lemma t_count_chars s : tells P (count_chars_m file s) (count_chars s).
Proof. unfold count_chars_m, count_chars. tl. Qed.
Hint Resolve t_count_chars : tl.
Lemma t_char_pos_fwd fuel s pos offset : tells P (char_pos_fwd_m file fuel s pos offset) (char_pos_fwd fuel s pos offset).
Proof. revert s pos offset. induction fuel as [|fuel IH]; intros s pos offset; cbn [char_pos_fwd_m char_pos_fwd]; tl. Qed.
Hint Resolve t_char_pos_fwd : tl.
Lemma t_char_pos_bwd fuel s pos offset : tells P (char_pos_bwd_m file fuel s pos offset) (char_pos_bwd fuel s pos offset).
Proof. revert s pos offset. induction fuel as [|fuel IH]; intros s pos offset; cbn [char_pos_bwd_m char_pos_bwd]; tl. Qed.
Hint Resolve t_char_pos_bwd : tl.
Lemma t_get_char_pos s pos : tells P (get_char_pos_m file s pos) (get_char_pos s pos).
Proof. unfold get_char_pos_m, get_char_pos. tl. Qed.
Hint Resolve t_get_char_pos : tl.
Lemma t_get_char_range s pos : tells P (get_char_range_m file s pos) (get_char_range s pos).
Proof. unfold get_char_range_m, get_char_range. tl. Qed.
Hint Resolve t_get_char_range : tl.
Lemma t_get_capped_char_pos s pos : tells P (get_capped_char_pos_m file s pos) (get_capped_char_pos s pos).
Proof. unfold get_capped_char_pos_m, get_capped_char_pos. tl. Qed.
Hint Resolve t_get_capped_char_pos : tl.
Lemma t_get_char_substring_range s start_index end_index : tells P (get_char_substring_range_m file s start_index end_index) (get_char_substring_range s start_index end_index).
Proof. unfold get_char_substring_range_m, get_char_substring_range. tl. Qed.
Hint Resolve t_get_char_substring_range : tl.
Lemma t_get_char_substring s start_index end_index : tells P (get_char_substring_m file s start_index end_index) (get_char_substring s start_index end_index).
Proof. unfold get_char_substring_m, get_char_substring. tl. Qed.
Hint Resolve t_get_char_substring : tl.
Lemma t_replace_chars s start end_ repl : tells P (replace_chars_m file s start end_ repl) (replace_chars s start end_ repl).
Proof. unfold replace_chars_m, replace_chars. tl. Qed.
Hint Resolve t_replace_chars : tl.
Lemma t_reverse_loop fuel s offset result : tells P (reverse_loop_m file fuel s offset result) (reverse_loop fuel s offset result).
Proof. revert s offset result. induction fuel as [|fuel IH]; intros s offset result; cbn [reverse_loop_m reverse_loop]; tl. Qed.
Hint Resolve t_reverse_loop : tl.
Lemma t_reverse s : tells P (reverse_m file s) (reverse s).
Proof. unfold reverse_m, reverse. tl. Qed.
Hint Resolve t_reverse : tl.
Lemma t_find_first_of_set s chars offset : tells P (find_first_of_set_m file s chars offset) (find_first_of_set s chars offset).
Proof. unfold find_first_of_set_m, find_first_of_set. tl. Qed.
Hint Resolve t_find_first_of_set : tl.
Lemma t_find_last_of_set s chars offset : tells P (find_last_of_set_m file s chars offset) (find_last_of_set s chars offset).
Proof. unfold find_last_of_set_m, find_last_of_set. tl. Qed.
Hint Resolve t_find_last_of_set : tl.
Lemma t_ti_next fm f t : (forall s, tells P (fm s) (f s)) -> tells P (ti_next_m fm t) (ti_next f t).
Proof. intros H. unfold ti_next_m, ti_next. tl. Qed.
Lemma t_split_loop fm f n ign : (forall s, tells P (fm s) (f s)) -> forall fuel t r, tells P (split_loop_m fuel fm n ign t r) (split_loop fuel f n ign t r).
Proof. intros H. induction fuel as [|fuel IH]; intros t r; cbn [split_loop_m split_loop]; tl. apply t_ti_next, H. Qed.
Lemma t_split_where s fm f n ign : (forall s, tells P (fm s) (f s)) -> tells P (split_where_m s fm n ign) (split_where s f n ign).
Proof. intros H. unfold split_where_m, split_where. tl. apply t_split_loop, H. Qed.
Hint Resolve t_ti_next t_split_loop t_split_where : tl.
Lemma t_split_chars s chars max_splits ignore_empty : tells P (split_chars_m file s chars max_splits ignore_empty) (split_chars s chars max_splits ignore_empty).
Proof. unfold split_chars_m, split_chars. apply t_split_where; tl. Qed.
Hint Resolve t_split_chars : tl.
Lemma t_split_lines after s max_splits ignore_empty : tells P (split_lines_m file after s max_splits ignore_empty) (split_lines after s max_splits ignore_empty).
Proof. unfold split_lines_m, split_lines. apply t_split_where; tl. Qed.
Hint Resolve t_split_lines : tl.
Lemma t_ci_compare_loop fuel s cmp s_it c_it : tells P (ci_compare_loop_m file fuel s cmp s_it c_it) (ci_compare_loop fuel s cmp s_it c_it).
Proof. revert s cmp s_it c_it. induction fuel as [|fuel IH]; intros s cmp s_it c_it; cbn [ci_compare_loop_m ci_compare_loop]; tl. Qed.
Hint Resolve t_ci_compare_loop : tl.
Lemma t_ci_compare s cmp : tells P (ci_compare_m file s cmp) (ci_compare s cmp).
Proof. unfold ci_compare_m, ci_compare. tl. Qed.
Hint Resolve t_ci_compare : tl.
Lemma t_ci_equal_loop fuel s cmp s_it c_it : tells P (ci_equal_loop_m file fuel s cmp s_it c_it) (ci_equal_loop fuel s cmp s_it c_it).
Proof. revert s cmp s_it c_it. induction fuel as [|fuel IH]; intros s cmp s_it c_it; cbn [ci_equal_loop_m ci_equal_loop]; tl. Qed.
Hint Resolve t_ci_equal_loop : tl.
Lemma t_ci_equal s cmp : tells P (ci_equal_m file s cmp) (ci_equal s cmp).
Proof. unfold ci_equal_m, ci_equal. tl. Qed.
Hint Resolve t_ci_equal : tl.
Lemma t_ci_less_loop fuel s cmp s_it c_it : tells P (ci_less_loop_m file fuel s cmp s_it c_it) (ci_less_loop fuel s cmp s_it c_it).
Proof. revert s cmp s_it c_it. induction fuel as [|fuel IH]; intros s cmp s_it c_it; cbn [ci_less_loop_m ci_less_loop]; tl. Qed.
Hint Resolve t_ci_less_loop : tl.
Lemma t_ci_less s cmp : tells P (ci_less_m file s cmp) (ci_less s cmp).
Proof. unfold ci_less_m, ci_less. tl. Qed.
Hint Resolve t_ci_less : tl.
Lemma t_next_ci_mismatch fuel s1 s2 beg1 beg2 : tells P (next_ci_mismatch_m file fuel s1 s2 beg1 beg2) (next_ci_mismatch fuel s1 s2 beg1 beg2).
Proof. revert s1 s2 beg1 beg2. induction fuel as [|fuel IH]; intros s1 s2 beg1 beg2; cbn [next_ci_mismatch_m next_ci_mismatch]; tl. Qed.
Hint Resolve t_next_ci_mismatch : tl.
Lemma t_prev_ci_mismatch fuel s1 s2 end1 end2 : tells P (prev_ci_mismatch_m file fuel s1 s2 end1 end2) (prev_ci_mismatch fuel s1 s2 end1 end2).
Proof. revert s1 s2 end1 end2. induction fuel as [|fuel IH]; intros s1 s2 end1 end2; cbn [prev_ci_mismatch_m prev_ci_mismatch]; tl. Qed.
Hint Resolve t_prev_ci_mismatch : tl.
Lemma t_ci_starts_with s cmp : tells P (ci_starts_with_m file s cmp) (ci_starts_with s cmp).
Proof. unfold ci_starts_with_m, ci_starts_with. tl. Qed.
Hint Resolve t_ci_starts_with : tl.
Lemma t_ci_ends_with s cmp : tells P (ci_ends_with_m file s cmp) (ci_ends_with s cmp).
Proof. unfold ci_ends_with_m, ci_ends_with. tl. Qed.
Hint Resolve t_ci_ends_with : tl.
Lemma t_ci_find_first_loop fuel s cmp ch_cmp it_cmp it_str it_str_next : tells P (ci_find_first_loop_m file fuel s cmp ch_cmp it_cmp it_str it_str_next) (ci_find_first_loop fuel s cmp ch_cmp it_cmp it_str it_str_next).
Proof. revert s cmp ch_cmp it_cmp it_str it_str_next. induction fuel as [|fuel IH]; intros s cmp ch_cmp it_cmp it_str it_str_next; cbn [ci_find_first_loop_m ci_find_first_loop]; tl. Qed.
Hint Resolve t_ci_find_first_loop : tl.
Lemma t_ci_find_first s cmp offset : tells P (ci_find_first_m file s cmp offset) (ci_find_first s cmp offset).
Proof. unfold ci_find_first_m, ci_find_first. tl. Qed.
Hint Resolve t_ci_find_first : tl.
Lemma t_ci_find_last_loop fuel s cmp ch_cmp it_cmp it_str it_str_prev : tells P (ci_find_last_loop_m file fuel s cmp ch_cmp it_cmp it_str it_str_prev) (ci_find_last_loop fuel s cmp ch_cmp it_cmp it_str it_str_prev).
Proof. revert s cmp ch_cmp it_cmp it_str it_str_prev. induction fuel as [|fuel IH]; intros s cmp ch_cmp it_cmp it_str it_str_prev; cbn [ci_find_last_loop_m ci_find_last_loop]; tl. Qed.
Hint Resolve t_ci_find_last_loop : tl.
Lemma t_ci_find_last s cmp offset : tells P (ci_find_last_m file s cmp offset) (ci_find_last s cmp offset).
Proof. unfold ci_find_last_m, ci_find_last. tl. Qed.
Hint Resolve t_ci_find_last : tl.
Lemma t_ci_find_first_of s chars offset : tells P (ci_find_first_of_m file s chars offset) (ci_find_first_of s chars offset).
Proof. unfold ci_find_first_of_m, ci_find_first_of. tl. Qed.
Hint Resolve t_ci_find_first_of : tl.
Lemma t_ci_find_first_of_set s chars offset : tells P (ci_find_first_of_set_m file s chars offset) (ci_find_first_of_set s chars offset).
Proof. unfold ci_find_first_of_set_m, ci_find_first_of_set. tl. Qed.
Hint Resolve t_ci_find_first_of_set : tl.
Lemma t_ci_find_last_of s chars offset : tells P (ci_find_last_of_m file s chars offset) (ci_find_last_of s chars offset).
Proof. unfold ci_find_last_of_m, ci_find_last_of. tl. Qed.
Hint Resolve t_ci_find_last_of : tl.
Lemma t_ci_find_last_of_set s chars offset : tells P (ci_find_last_of_set_m file s chars offset) (ci_find_last_of_set s chars offset).
Proof. unfold ci_find_last_of_set_m, ci_find_last_of_set. tl. Qed.
Hint Resolve t_ci_find_last_of_set : tl.
Lemma t_ci_replace_front_loop fuel s from to m result : tells P (ci_replace_front_loop_m file fuel s from to m result) (ci_replace_front_loop fuel s from to m result).
Proof. revert s from to m result. induction fuel as [|fuel IH]; intros s from to m result; cbn [ci_replace_front_loop_m ci_replace_front_loop]; tl. Qed.
Hint Resolve t_ci_replace_front_loop : tl.
Lemma t_ci_collect_last fuel tmp from m matches : tells P (ci_collect_last_m file fuel tmp from m matches) (ci_collect_last fuel tmp from m matches).
Proof. revert tmp from m matches. induction fuel as [|fuel IH]; intros tmp from m matches; cbn [ci_collect_last_m ci_collect_last]; tl. Qed.
Hint Resolve t_ci_collect_last : tl.
Lemma t_ci_replace s from to max_replacements : tells P (ci_replace_m file s from to max_replacements) (ci_replace s from to max_replacements).
Proof. unfold ci_replace_m, ci_replace. tl. Qed.
Hint Resolve t_ci_replace : tl.
Lemma t_ci_split_chars s chars max_splits ignore_empty : tells P (ci_split_chars_m file s chars max_splits ignore_empty) (ci_split_chars s chars max_splits ignore_empty).
Proof. unfold ci_split_chars_m, ci_split_chars. apply t_split_where; tl. Qed.
Hint Resolve t_ci_split_chars : tl.
Lemma t_ci_split_sep s sep max_splits ignore_empty : tells P (ci_split_sep_m file s sep max_splits ignore_empty) (ci_split_sep s sep max_splits ignore_empty).
Proof. unfold ci_split_sep_m, ci_split_sep. apply t_split_where; tl. Qed.
Hint Resolve t_ci_split_sep : tl.
Lemma t_to_decomposed_loop inner_fuel fuel s buf from it to result : tells P (to_decomposed_loop_m file inner_fuel fuel s buf from it to result) (to_decomposed_loop inner_fuel fuel s buf from it to result).
Proof. revert inner_fuel s buf from it to result. induction fuel as [|fuel IH]; intros inner_fuel s buf from it to result; cbn [to_decomposed_loop_m to_decomposed_loop]; tl. Qed.
Hint Resolve t_to_decomposed_loop : tl.
Lemma t_to_decomposed inner_fuel s : tells P (to_decomposed_m file inner_fuel s) (to_decomposed inner_fuel s).
Proof. unfold to_decomposed_m, to_decomposed. tl. Qed.
Hint Resolve t_to_decomposed : tl.
Lemma t_compose_inner adjacent fuel s ch mark it base : tells P (compose_inner_m file adjacent fuel s ch mark it base) (compose_inner adjacent fuel s ch mark it base).
Proof. revert adjacent s ch mark it base. induction fuel as [|fuel IH]; intros adjacent s ch mark it base; cbn [compose_inner_m compose_inner]; tl. Qed.
Hint Resolve t_compose_inner : tl.
Lemma t_to_composed_loop adjacent fuel s ch from it to prev result : tells P (to_composed_loop_m file adjacent fuel s ch from it to prev result) (to_composed_loop adjacent fuel s ch from it to prev result).
Proof. revert adjacent s ch from it to prev result. induction fuel as [|fuel IH]; intros adjacent s ch from it to prev result; cbn [to_composed_loop_m to_composed_loop]; tl. Qed.
Hint Resolve t_to_composed_loop : tl.
Lemma t_to_composed adjacent s : tells P (to_composed_m file adjacent s) (to_composed adjacent s).
Proof. unfold to_composed_m, to_composed. tl. Qed.
Hint Resolve t_to_composed : tl.
End Malformed.

(** ** Case conversion *)
Section Case.
Context (file : source -> str).
Lemma erase_tells {A} (P : str -> Prop) (m : mout A) o : tells P m o -> erase m = o.
Proof. now intros [E _]. Qed.
Hint Rewrite (erase_safe_next file) (erase_append file) : er.
Lemma e_lower_loop fuel : forall s it r, erase (to_lower_loop_m file fuel s it r) = to_lower_loop fuel s it r.
Proof. induction fuel as [|fuel IH]; intros s it r; cbn [to_lower_loop_m to_lower_loop]; er; apply IH. Qed.
Lemma e_upper_loop fuel : forall s it r, erase (to_upper_loop_m file fuel s it r) = to_upper_loop fuel s it r.
Proof. induction fuel as [|fuel IH]; intros s it r; cbn [to_upper_loop_m to_upper_loop]; er; apply IH. Qed.
Lemma e_title_loop fuel : forall s it b r, erase (to_title_loop_m file fuel s it b r) = to_title_loop fuel s it b r.
Proof. induction fuel as [|fuel IH]; intros s it b r; cbn [to_title_loop_m to_title_loop]; er; apply IH. Qed.

(** One step of a loop with messages behaves as without while nothing is thrown. *)
Lemma m_next_uchar pre g c w : uchar g c -> safe_decode_next_m file (pre ++ g ++ w) (length pre) = MOk (Some (c, (length pre + length g)%nat)).
Proof. intros H. apply erase_ok. rewrite erase_safe_next. now apply safe_decode_next_uchar. Qed.
Lemma m_append_ok s c r : append s c = Ok r -> append_m file s c = MOk r.
Proof. intros H. apply erase_ok. now rewrite erase_append. Qed.

Lemma m_lower_loop cs : forall pre t r fuel acc, Text t cs -> inrange cs -> exists o,
  to_lower_loop_m file (length cs + fuel) (pre ++ t ++ r) (length pre) acc
  = to_lower_loop_m file fuel ((pre ++ t) ++ r) (length (pre ++ t)) (acc ++ o).
Proof.
  induction cs as [|c cs IH]; intros pre t r fuel acc HT HR.
  - apply Text_nil_inv in HT. subst t. exists []. now rewrite !app_nil_r.
  - apply Text_cons_inv in HT. destruct HT as (g & t' & -> & Hg & HT). inversion HR as [|? ? Hc HR']; subst.
    rewrite <- app_assoc. cbn [length plus to_lower_loop_m]. rewrite m_next_uchar with (c := c) by exact Hg. cbn [mbind].
    rewrite to_lower_spec by (apply W32_bound, (uchar_bound g); exact Hg).
    destruct (append_ok acc (simple_lower c)) as (e & He & _ & E1); [now apply simple_lower_bound|].
    rewrite (m_append_ok _ _ _ E1). cbn [mbind]. destruct (IH (pre ++ g) t' r fuel (acc ++ e) HT HR') as (o & E).
    exists (e ++ o). rewrite <- app_length. replace (pre ++ g ++ t' ++ r) with ((pre ++ g) ++ t' ++ r) by now rewrite <- app_assoc.
    rewrite E. now rewrite <- !app_assoc.
Qed.
Lemma m_upper_loop cs : forall pre t r fuel acc, Text t cs -> inrange cs -> exists o,
  to_upper_loop_m file (length cs + fuel) (pre ++ t ++ r) (length pre) acc
  = to_upper_loop_m file fuel ((pre ++ t) ++ r) (length (pre ++ t)) (acc ++ o).
Proof.
  induction cs as [|c cs IH]; intros pre t r fuel acc HT HR.
  - apply Text_nil_inv in HT. subst t. exists []. now rewrite !app_nil_r.
  - apply Text_cons_inv in HT. destruct HT as (g & t' & -> & Hg & HT). inversion HR as [|? ? Hc HR']; subst.
    rewrite <- app_assoc. cbn [length plus to_upper_loop_m]. rewrite m_next_uchar with (c := c) by exact Hg. cbn [mbind].
    assert (K : forall e, exists o, to_upper_loop_m file (length cs + fuel) (pre ++ g ++ t' ++ r) (length pre + length g) (acc ++ e)
      = to_upper_loop_m file fuel ((pre ++ g ++ t') ++ r) (length (pre ++ g ++ t')) (acc ++ o)).
    { intros e. destruct (IH (pre ++ g) t' r fuel (acc ++ e) HT HR') as (o & E). exists (e ++ o). rewrite <- app_length.
      replace (pre ++ g ++ t' ++ r) with ((pre ++ g) ++ t' ++ r) by now rewrite <- app_assoc. rewrite E. now rewrite <- !app_assoc. }
    destruct (negb (c =? SHARP_S)); [|apply K].
    rewrite to_upper_spec by (apply W32_bound, (uchar_bound g); exact Hg).
    destruct (append_ok acc (simple_upper c)) as (e & He & _ & E1); [now apply simple_upper_bound|].
    rewrite (m_append_ok _ _ _ E1). cbn [mbind]. apply K.
Qed.
Lemma m_title_loop cs : forall pre t r fuel acc b, Text t cs -> inrange cs -> exists b' o,
  to_title_loop_m file (length cs + fuel) (pre ++ t ++ r) (length pre) b acc
  = to_title_loop_m file fuel ((pre ++ t) ++ r) (length (pre ++ t)) b' (acc ++ o).
Proof.
  induction cs as [|c cs IH]; intros pre t r fuel acc b HT HR.
  - apply Text_nil_inv in HT. subst t. exists b, []. now rewrite !app_nil_r.
  - apply Text_cons_inv in HT. destruct HT as (g & t' & -> & Hg & HT). inversion HR as [|? ? Hc HR']; subst.
    rewrite <- app_assoc. cbn [length plus to_title_loop_m]. rewrite m_next_uchar with (c := c) by exact Hg. cbn [mbind].
    assert (HW : c < W32) by (apply W32_bound, (uchar_bound g); exact Hg).
    assert (K : forall b' e, exists b'' o, to_title_loop_m file (length cs + fuel) (pre ++ g ++ t' ++ r) (length pre + length g) b' (acc ++ e)
      = to_title_loop_m file fuel ((pre ++ g ++ t') ++ r) (length (pre ++ g ++ t')) b'' (acc ++ o)).
    { intros b' e. destruct (IH (pre ++ g) t' r fuel (acc ++ e) b' HT HR') as (b'' & o & E). exists b'', (e ++ o). rewrite <- app_length.
      replace (pre ++ g ++ t' ++ r) with ((pre ++ g) ++ t' ++ r) by now rewrite <- app_assoc. rewrite E. now rewrite <- !app_assoc. }
    assert (A : forall d, d <= 0x10FFFF -> exists e, append_m file acc d = MOk (acc ++ e)).
    { intros d Hd. destruct (append_ok acc d Hd) as (e & _ & _ & E1). exists e. now apply m_append_ok. }
    destruct (negb (is_letter c)); [destruct (A c Hc) as [e ->]; cbn [mbind]; apply K|].
    destruct b.
    { rewrite to_lower_spec by exact HW. destruct (A (simple_lower c) (simple_lower_bound c Hc)) as [e ->]. cbn [mbind]. apply K. }
    destruct (negb (c =? SHARP_S)); [|apply K].
    rewrite to_title_spec by exact HW. destruct (A (simple_title c) (simple_title_bound c Hc)) as [e ->]. cbn [mbind]. apply K.
Qed.

Lemma m_next_malformed pre r : Malformed r -> safe_decode_next_m file (pre ++ r) (length pre) =
  MWhat (ystring_throw file DecodeUtf8_hpp 189 (lit "Invalid UTF-8 string.")).
Proof.
  intros H. pose proof (safe_decode_next_malformed pre r H) as E.
  destruct (t_safe_decode_next file (fun w => w = ystring_throw file DecodeUtf8_hpp 189 (lit "Invalid UTF-8 string.") \/
     w = ystring_throw file DecodeUtf8_hpp 200 (lit "Invalid UTF-8 string.")) (or_introl eq_refl) (pre ++ r) (length pre)) as [_ X].
  destruct (X E) as (msg & Y & _). revert Y. clear. unfold safe_decode_next_m. destruct (Nat.eqb _ _); [discriminate|].
  destruct (decode_next _ _) as [[c i]|e| |]; cbn; try discriminate. destruct (_ =? _); [reflexivity|discriminate].
Qed.

Lemma p_c126_case_malformed u us r : Text u us -> inrange us -> Malformed r ->
  exists a b c, to_lower_str_m file (u ++ r) = MWhat a /\ to_upper_str_m file (u ++ r) = MWhat b /\ to_title_str_m file (u ++ r) = MWhat c /\
    invalid_utf8 (file DecodeUtf8_hpp) a /\ invalid_utf8 (file DecodeUtf8_hpp) b /\ invalid_utf8 (file DecodeUtf8_hpp) c.
Proof.
  intros HT HR Hr. unfold to_lower_str_m, to_upper_str_m, to_title_str_m. rewrite (fuel_split us) by (rewrite app_length; apply Text_length in HT; lia).
  destruct (m_lower_loop us [] u r (S (length (u ++ r) - length us)) [] HT HR) as (o1 & E1).
  destruct (m_upper_loop us [] u r (S (length (u ++ r) - length us)) [] HT HR) as (o2 & E2).
  destruct (m_title_loop us [] u r (S (length (u ++ r) - length us)) [] false HT HR) as (b3 & o3 & E3).
  cbn [app] in E1, E2, E3. change (length (@nil byte)) with 0%nat in E1, E2, E3. rewrite E1, E2, E3.
  cbn [to_lower_loop_m to_upper_loop_m to_title_loop_m]. rewrite (m_next_malformed u r Hr). cbn [mbind].
  do 3 eexists. do 3 (split; [reflexivity|]). repeat split; apply located.
Qed.
Lemma p_c126_case_large u us g c w : Text u us -> inrange us -> uchar g c -> 0x10FFFF < c ->
  exists msg ds, Decimal ds c /\ Located (file Algorithms_cpp) msg (lit "Invalid code point: " ++ ds) /\
    to_lower_str_m file (u ++ g ++ w) = MWhat msg /\ to_upper_str_m file (u ++ g ++ w) = MWhat msg /\ to_title_str_m file (u ++ g ++ w) = MWhat msg.
Proof.
  intros HT HR Hg Hc. unfold to_lower_str_m, to_upper_str_m, to_title_str_m. rewrite (fuel_split us) by (rewrite app_length; apply Text_length in HT; lia).
  destruct (m_lower_loop us [] u (g ++ w) (S (length (u ++ g ++ w) - length us)) [] HT HR) as (o1 & E1).
  destruct (m_upper_loop us [] u (g ++ w) (S (length (u ++ g ++ w) - length us)) [] HT HR) as (o2 & E2).
  destruct (m_title_loop us [] u (g ++ w) (S (length (u ++ g ++ w) - length us)) [] false HT HR) as (b3 & o3 & E3).
  cbn [app] in E1, E2, E3. change (length (@nil byte)) with 0%nat in E1, E2, E3. rewrite E1, E2, E3.
  cbn [to_lower_loop_m to_upper_loop_m to_title_loop_m]. rewrite (m_next_uchar u g c w Hg). cbn [mbind].
  assert (HW : c < W32) by (apply W32_bound, (uchar_bound g); exact Hg).
  unfold SHARP_S. rewrite (proj2 (N.eqb_neq c 0xDF)) by lia. cbn [negb].
  rewrite to_lower_spec, simple_lower_above, to_upper_spec, simple_upper_above, to_title_spec, simple_title_above by (try exact Hc; exact HW).
  assert (A : forall s, append_m file s c = MWhat (ystring_throw file Algorithms_cpp 35 (lit "Invalid code point: " ++ print_decimal c))).
  { intros s. unfold append_m, append_to_m. rewrite (encode_large c Hc). reflexivity. }
  rewrite !A. cbn [mbind]. do 2 eexists. split; [apply print_decimal_ok|]. split; [apply located|]. split; [reflexivity|]. split; [reflexivity|].
  destruct (negb (is_letter c)), b3; reflexivity.
Qed.
Lemma p_c126_case_same s :
  erase (to_lower_str_m file s) = to_lower_str s /\ erase (to_upper_str_m file s) = to_upper_str s /\ erase (to_title_str_m file s) = to_title_str s.
Proof. split; [apply e_lower_loop|]. split; [apply e_upper_loop|apply e_title_loop]. Qed.

(** ** insert_char and insert_chars *)
Lemma p_c126_insert s k c t :
  erase (insert_char_m file s k c) = insert_char s k c /\ erase (insert_chars_m file s k t) = insert_chars s k t /\
  (get_char_pos s k = Throw YstringException ->
     exists msg, insert_char_m file s k c = MWhat msg /\ insert_chars_m file s k t = MWhat msg /\ invalid_utf8 (file DecodeUtf8_hpp) msg) /\
  (get_char_pos s k = Ok npos ->
     (exists msg, insert_char_m file s k c = MWhat msg /\ Located (file AlgorithmUtilities_cpp) msg (lit "string position is out of bounds")) /\
     (t <> [] -> exists msg, insert_chars_m file s k t = MWhat msg /\ Located (file AlgorithmUtilities_cpp) msg (lit "string position is out of bounds"))) /\
  (forall o, get_char_pos s k = Ok o -> o <> npos -> 0x10FFFF < c ->
     exists msg ds, insert_char_m file s k c = MWhat msg /\ Decimal ds c /\ Located (file Algorithms_cpp) msg (lit "Invalid code point: " ++ ds)).
Proof.
  pose proof (t_get_char_pos file (invalid_utf8 (file DecodeUtf8_hpp)) (located _ _ _ _) (located _ _ _ _) s k) as [T1 T2].
  unfold insert_char_m, insert_char, insert_chars_m, insert_chars. rewrite !erase_bind, T1.
  split; [apply bind_ext; intros; apply erase_insert_cp|]. split; [apply bind_ext; intros; apply erase_insert_str|].
  split; [|split].
  - intros H. destruct (T2 H) as (msg & -> & X). exists msg. cbn [mbind]. auto.
  - intros H. rewrite H in T1. apply erase_ok in T1. rewrite T1. cbn [mbind]. unfold insert_at_offset_cp_m, insert_at_offset_str_m. rewrite N.eqb_refl.
    split; [eexists; split; [reflexivity|apply located]|]. intros Ht. destruct t; [congruence|]. eexists. split; [reflexivity|apply located].
  - intros o H Ho Hc. rewrite H in T1. apply erase_ok in T1. rewrite T1. cbn [mbind]. unfold insert_at_offset_cp_m.
    rewrite (proj2 (N.eqb_neq o npos)) by exact Ho. unfold substr at 1. replace (size s <? 0) with false by (symmetry; apply N.ltb_ge; lia). cbn [mlift mbind].
    destruct (p_c113_append file (firstn (N.to_nat (N.min o (size s - 0))) (skipn (N.to_nat 0) s)) c Hc) as (msg & ds & -> & HD & HL).
    exists msg, ds. cbn [mbind]. auto.
Qed.
End Case.

(** ** C126 *)
Lemma p_c126_decoding file s k :
  let says {A} := @tells A (invalid_utf8 (file DecodeUtf8_hpp)) in
  says (pop_utf8_codepoint_m file s) (pop_utf8_codepoint s) /\
  says (pop_last_utf8_codepoint_m file s) (pop_last_utf8_codepoint s) /\
  says (to_utf32_m file s) (to_utf32 s) /\
  says (get_codepoint_m file s k) (get_codepoint s k).
Proof. intros says; subst says; cbv beta. split; [apply t_pop; apply located|]. split; [apply t_pop_last; apply located|]. split; [apply t_to_utf32; apply located|]. apply t_get_codepoint; apply located. Qed.
Lemma p_c126_searching file s c pred chars set after o :
  let says {A} := @tells A (invalid_utf8 (file DecodeUtf8_hpp)) in
  says (contains_m file s c) (contains s c) /\
  says (find_first_where_m file s pred o) (find_first_where s pred o) /\
  says (find_last_where_m file s pred o) (find_last_where s pred o) /\
  says (find_first_of_m file s chars o) (find_first_of s chars o) /\
  says (find_last_of_m file s chars o) (find_last_of s chars o) /\
  says (find_first_of_set_m file s set o) (find_first_of_set s set o) /\
  says (find_last_of_set_m file s set o) (find_last_of_set s set o) /\
  says (find_first_newline_m file after s o) (find_first_newline after s o) /\
  says (find_last_newline_m file after s o) (find_last_newline after s o).
Proof. intros says; subst says; cbv beta. split; [apply t_contains; apply located|]. split; [apply t_find_first_where; apply located|]. split; [apply t_find_last_where; apply located|]. split; [apply t_find_first_of; apply located|]. split; [apply t_find_last_of; apply located|]. split; [apply t_find_first_of_set; apply located|]. split; [apply t_find_last_of_set; apply located|]. split; [apply t_find_first_newline; apply located|]. apply t_find_last_newline; apply located. Qed.
Lemma p_c126_trimming file s pred chars after :
  let says {A} := @tells A (invalid_utf8 (file DecodeUtf8_hpp)) in
  says (trim_where_m file s pred) (trim_where s pred) /\
  says (trim_start_where_m file s pred) (trim_start_where s pred) /\
  says (trim_end_where_m file s pred) (trim_end_where s pred) /\
  says (trim_m file s chars) (trim s chars) /\
  says (trim_start_m file s chars) (trim_start s chars) /\
  says (trim_end_m file s chars) (trim_end s chars) /\
  says (trim_default_m file after s) (trim_default after s) /\
  says (trim_start_default_m file after s) (trim_start_default after s) /\
  says (trim_end_default_m file after s) (trim_end_default after s).
Proof. intros says; subst says; cbv beta. split; [apply t_trim_where; apply located|]. split; [apply t_trim_start_where; apply located|]. split; [apply t_trim_end_where; apply located|]. split; [apply t_trim; apply located|]. split; [apply t_trim_start; apply located|]. split; [apply t_trim_end; apply located|]. split; [apply t_trim_default; apply located|]. split; [apply t_trim_start_default; apply located|]. apply t_trim_end_default; apply located. Qed.
Lemma p_c126_splitting file s chars sep after n ign :
  let says {A} := @tells A (invalid_utf8 (file DecodeUtf8_hpp)) in
  says (split_chars_m file s chars n ign) (split_chars s chars n ign) /\
  says (split_lines_m file after s n ign) (split_lines after s n ign) /\
  says (ci_split_chars_m file s chars n ign) (ci_split_chars s chars n ign) /\
  says (ci_split_sep_m file s sep n ign) (ci_split_sep s sep n ign).
Proof. intros says; subst says; cbv beta. split; [apply t_split_chars; apply located|]. split; [apply t_split_lines; apply located|]. split; [apply t_ci_split_chars; apply located|]. apply t_ci_split_sep; apply located. Qed.
Lemma p_c126_characters file s o i j t :
  let says {A} := @tells A (invalid_utf8 (file DecodeUtf8_hpp)) in
  says (get_next_char_range_m file s o) (get_next_char_range s o) /\
  says (get_prev_char_range_m file s o) (get_prev_char_range s o) /\
  says (count_chars_m file s) (count_chars s) /\
  says (get_char_pos_m file s i) (get_char_pos s i) /\
  says (get_char_range_m file s i) (get_char_range s i) /\
  says (get_char_substring_m file s i j) (get_char_substring s i j) /\
  says (replace_chars_m file s i j t) (replace_chars s i j t) /\
  says (reverse_m file s) (reverse s).
Proof. intros says; subst says; cbv beta. split; [apply t_get_next_char_range; apply located|]. split; [apply t_get_prev_char_range; apply located|]. split; [apply t_count_chars; apply located|]. split; [apply t_get_char_pos; apply located|]. split; [apply t_get_char_range; apply located|]. split; [apply t_get_char_substring; apply located|]. split; [apply t_replace_chars; apply located|]. apply t_reverse; apply located. Qed.
Lemma p_c126_case_insensitive file s t u chars set o m :
  let says {A} := @tells A (invalid_utf8 (file DecodeUtf8_hpp)) in
  says (ci_compare_m file s t) (ci_compare s t) /\
  says (ci_equal_m file s t) (ci_equal s t) /\
  says (ci_less_m file s t) (ci_less s t) /\
  says (ci_starts_with_m file s t) (ci_starts_with s t) /\
  says (ci_ends_with_m file s t) (ci_ends_with s t) /\
  says (ci_find_first_m file s t o) (ci_find_first s t o) /\
  says (ci_find_last_m file s t o) (ci_find_last s t o) /\
  says (ci_find_first_of_m file s chars o) (ci_find_first_of s chars o) /\
  says (ci_find_last_of_m file s chars o) (ci_find_last_of s chars o) /\
  says (ci_find_first_of_set_m file s set o) (ci_find_first_of_set s set o) /\
  says (ci_find_last_of_set_m file s set o) (ci_find_last_of_set s set o) /\
  says (ci_replace_m file s t u m) (ci_replace s t u m).
Proof. intros says; subst says; cbv beta. split; [apply t_ci_compare; apply located|]. split; [apply t_ci_equal; apply located|]. split; [apply t_ci_less; apply located|]. split; [apply t_ci_starts_with; apply located|]. split; [apply t_ci_ends_with; apply located|]. split; [apply t_ci_find_first; apply located|]. split; [apply t_ci_find_last; apply located|]. split; [apply t_ci_find_first_of; apply located|]. split; [apply t_ci_find_last_of; apply located|]. split; [apply t_ci_find_first_of_set; apply located|]. split; [apply t_ci_find_last_of_set; apply located|]. apply t_ci_replace; apply located. Qed.
Lemma p_c126_normalizing file fuel adjacent s :
  let says {A} := @tells A (invalid_utf8 (file DecodeUtf8_hpp)) in
  says (to_decomposed_m file fuel s) (to_decomposed fuel s) /\
  says (to_composed_m file adjacent s) (to_composed adjacent s).
Proof. intros says; subst says; cbv beta. split; [apply t_to_decomposed; apply located|]. apply t_to_composed; apply located. Qed.
