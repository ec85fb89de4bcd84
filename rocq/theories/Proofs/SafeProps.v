(** Proofs for C80-C82. *)
From Verif Require Import Base Spec.Utf8Spec Spec.Strings Spec.Safety Model.Decode Model.Encode Model.Subrange Model.Search Model.Split
  Model.CharClass Model.ConvertCase Model.CodepointSet Model.Chars Model.CaseInsensitive
  Proofs.Utf8Lemmas Proofs.DecodeLemmas Proofs.SkipLemmas Proofs.EncodeLemmas Proofs.CodepointLemmas Proofs.Utf8Props Proofs.SearchLemmas Proofs.SafeLemmas Proofs.SafeLemmas2 Proofs.SafeLemmas3 Proofs.SafeLemmas4 Proofs.SyncLemmas.

Lemma runs_defined {A} (Q : A -> Prop) m : runs False Q m -> defined m.
Proof. destruct m; cbn; intros H; try contradiction; [left|right]; eauto. Qed.
Lemma runs_defined_or {A} (U : Prop) (Q : A -> Prop) m : runs U Q m -> U \/ defined m.
Proof. destruct m; cbn; intros H; try contradiction; [right; left|right; right|left]; eauto. Qed.
Lemma runs_returns {A} (U : Prop) (Q : A -> Prop) m : runs U Q m -> returns Q m.
Proof. intros H a ->. exact H. Qed.
Lemma returns_weaken {A} (Q Q' : A -> Prop) m : returns Q m -> (forall a, Q a -> Q' a) -> returns Q' m.
Proof. intros H W a E. apply W, H, E. Qed.

Lemma remove_runs s : runs False any (remove_utf8_codepoint s).
Proof. unfold remove_utf8_codepoint. rb (skip_next_runs False s 0%nat ltac:(lia)). intros [j|] _; exact I. Qed.
Lemma pop_runs s : runs False any (pop_utf8_codepoint s).
Proof. unfold pop_utf8_codepoint. rb (safe_next_runs False s 0%nat ltac:(lia)). intros [[c j]|] _; exact I. Qed.
Lemma remove_last_runs s : runs False any (remove_last_utf8_codepoint s).
Proof. unfold remove_last_utf8_codepoint. rb (skip_prev_runs False s (length s) ltac:(lia)). intros [j|] _; exact I. Qed.
Lemma pop_last_runs s : runs (long_run s) any (pop_last_utf8_codepoint s).
Proof. unfold pop_last_utf8_codepoint. rb (safe_prev_runs s (length s) ltac:(lia)). intros [[c j]|] _; exact I. Qed.
Lemma starts_runs s p : runs False any (starts_with s p).
Proof. unfold starts_with. destruct (size p <=? size s); [|exact I]. rb (substr_any False s 0 (size p)). intros; exact I. Qed.
Lemma ends_runs s p : runs False any (ends_with s p).
Proof. unfold ends_with, substr_from. destruct (size p <=? size s); [|exact I]. rb (substr_any False s (sub64 (size s) (size p)) npos). intros; exact I. Qed.
Lemma char_pos_nonneg s p : Fits s -> (0 <= p)%Z -> runs False (pos_ok s) (get_char_pos s p).
Proof. intros HF Hp. unfold get_char_pos. replace (0 <=? p)%Z with true by lia. apply char_pos_fwd_runs; auto; lia. Qed.
Lemma char_range_nonneg s p : Fits s -> (0 <= p)%Z -> runs False (inside s) (get_char_range s p).
Proof.
  intros HF Hp. unfold get_char_range. replace (0 <=? p)%Z with true by lia.
  rb (char_pos_nonneg s p HF Hp). intros n Hn. destruct (N.eqb_spec n npos); [apply inside_none|]. destruct Hn as [Hn|Hn]; [contradiction|].
  eapply runs_weaken; [apply (next_char_runs False s n HF Hn)|auto|cbv beta]. intros r (H1 & H2 & _). right. lia.
Qed.
Lemma p_c80_decode : forall (s : str) (i : nat), (i <= length s)%nat ->
  defined (decode_next s i) /\
  defined (safe_decode_next s i) /\
  defined (skip_next s i) /\
  defined (skip_prev s i).
Proof.
  intros s i H. 
  split; [eapply runs_defined, (decode_next_runs False s i H)|].
  split; [eapply runs_defined, (safe_next_runs False s i H)|].
  split; [eapply runs_defined, (skip_next_runs False s i H)|].
  eapply runs_defined, (skip_prev_runs False s i H).
Qed.
Lemma p_c80_view : forall s : str,
  defined (remove_utf8_codepoint s) /\
  defined (pop_utf8_codepoint s) /\
  defined (remove_last_utf8_codepoint s).
Proof.
  intros s . 
  split; [eapply runs_defined, (remove_runs s)|].
  split; [eapply runs_defined, (pop_runs s)|].
  eapply runs_defined, (remove_last_runs s).
Qed.
Lemma p_c80_scan : forall (s : str) (c : N),
  defined (contains s c) /\
  defined (count_codepoints s) /\
  defined (is_valid_utf8 s) /\
  defined (to_utf32 s) /\
  defined (to_lower_str s) /\
  defined (to_upper_str s) /\
  defined (to_title_str s) /\
  defined (append s c) /\
  defined (replace_invalid_utf8 s c) /\
  defined (replace_invalid_utf8_inplace s c).
Proof.
  intros s c . 
  split; [eapply runs_defined, (contains_runs False s c)|].
  split; [eapply runs_defined, (count_codepoints_runs False s)|].
  split; [eapply runs_defined, (is_valid_runs False s)|].
  split; [eapply runs_defined, (to_utf32_runs False s)|].
  split; [eapply runs_defined, (to_lower_runs False s)|].
  split; [eapply runs_defined, (to_upper_runs False s)|].
  split; [eapply runs_defined, (to_title_runs False s)|].
  split; [eapply runs_defined, (append_runs False s c)|].
  split; [eapply runs_defined, (replace_invalid_runs False s c)|].
  eapply runs_defined, (replace_invalid_inplace_runs False s c).
Qed.
Lemma p_c80_search : forall (s p : str) (f : N -> bool) (after : list N) (o : N), Fits s -> o <= size s ->
  defined (find_first s p o) /\
  defined (find_last s p o) /\
  defined (find_first_where s f o) /\
  (In 0 after -> defined (find_first_newline after s o)) /\
  defined (starts_with s p) /\
  defined (ends_with s p) /\
  defined (trim_start_where s f) /\
  (In 0 after -> defined (trim_start_default after s)).
Proof.
  intros s p f after o H H0. 
  split; [eapply runs_defined, (find_first_runs False s p o H0)|].
  split; [eapply runs_defined, (find_last_runs False s p o)|].
  split; [eapply runs_defined, (ffw_runs False s f o H0)|].
  split; [intros HZ; eapply runs_defined, (find_first_newline_runs False after s o HZ H0 H)|].
  split; [eapply runs_defined, (starts_runs s p)|].
  split; [eapply runs_defined, (ends_runs s p)|].
  split; [eapply runs_defined, (trim_start_where_runs False s f)|].
  intros HZ. unfold trim_start_default. destruct (zero_view COMMON_WHITESPACE after HZ) as [l ->]. cbn [bind].
  eapply runs_defined, (trim_start_where_runs False s (fun c => u32_contains l c)).
Qed.
Lemma p_c80_codepoints : forall (s t : str) (c : N) (p q : Z), Fits s -> index p -> index q ->
  defined (get_codepoint_pos s p) /\
  defined (get_codepoint_substring s p q) /\
  defined (replace_codepoints s p q t) /\
  defined (insert_codepoint s p c) /\
  defined (insert_codepoints s p t).
Proof.
  intros s t c p q H H0 H1. 
  split; [eapply runs_defined, (get_codepoint_pos_runs False s p H0)|].
  split; [eapply runs_defined, (cp_substring_runs False s p q H H0 H1)|].
  split; [eapply runs_defined, (replace_codepoints_runs False s p q t H H0 H1)|].
  split; [eapply runs_defined, (insert_codepoint_runs False s p c H0)|].
  eapply runs_defined, (insert_codepoints_runs False s p t H0).
Qed.
Lemma p_c80_chars : forall (s : str) (o : N) (p : Z), Fits s -> o <= size s -> (0 <= p)%Z ->
  defined (get_next_char_range s o) /\
  defined (count_chars s) /\
  defined (get_char_pos s p) /\
  defined (get_char_range s p).
Proof.
  intros s o p H H0 H1. 
  split; [eapply runs_defined, (next_char_runs False s o H H0)|].
  split; [eapply runs_defined, (count_chars_runs False s H)|].
  split; [eapply runs_defined, (char_pos_nonneg s p H H1)|].
  eapply runs_defined, (char_range_nonneg s p H H1).
Qed.
Lemma p_c80_split : forall (s sep : str) (chars : u32str) (after : list N) (m : N) (ig : bool), Fits s ->
  defined (split_sep s sep m ig) /\
  defined (split_chars s chars m ig) /\
  (In 0 after -> defined (split_lines after s m ig)) /\
  defined (ci_split_sep s sep m ig) /\
  defined (ci_split_chars s chars m ig).
Proof.
  intros s sep chars after m ig H. 
  split; [eapply runs_defined, (split_sep_runs False s sep m ig H)|].
  split; [eapply runs_defined, (split_chars_runs False s chars m ig H)|].
  split; [intros HZ; eapply runs_defined, (split_lines_runs False after s m ig HZ H)|].
  split; [eapply runs_defined, (ci_split_sep_runs False s sep m ig H)|].
  eapply runs_defined, (ci_split_chars_runs False s chars m ig H).
Qed.
Lemma p_c80_replace : forall (s from to : str) (a b : N) (m : Z), index m ->
  defined (replace s from to m) /\
  defined (replace_codepoint s a b m).
Proof.
  intros s from to a b m H. 
  split; [eapply runs_defined, (replace_runs False s from to m H)|].
  eapply runs_defined, (replace_codepoint_runs False s a b m H).
Qed.
Lemma p_c80_ignoring_case : forall (s t : str) (o : N), o <= size s ->
  defined (ci_compare s t) /\
  defined (ci_equal s t) /\
  defined (ci_less s t) /\
  defined (ci_starts_with s t) /\
  defined (ci_find_first s t o).
Proof.
  intros s t o H. 
  split; [eapply runs_defined, (ci_compare_runs False s t)|].
  split; [eapply runs_defined, (ci_equal_runs False s t)|].
  split; [eapply runs_defined, (ci_less_runs False s t)|].
  split; [eapply runs_defined, (ci_starts_with_runs False s t)|].
  eapply runs_defined, (ci_find_first_runs False s t o H).
Qed.

Lemma p_c81_from : forall (s p : str) (f : N -> bool) (after : list N) (o : N), Fits s -> o <= size s ->
  let ok r := inside s r /\ (sub_length r <> 0 -> o <= sub_offset r) in
  returns ok (find_first s p o) /\ (In 0 after -> returns ok (find_first_newline after s o)) /\ returns ok (ci_find_first s p o) /\
  returns (fun r => ok (fst r)) (find_first_where s f o).
Proof.
  intros s p f after o HF Ho ok. split; [exact (runs_returns False _ _ (find_first_runs False s p o Ho))|]. split; [intros HZ; exact (runs_returns False _ _ (find_first_newline_runs False after s o HZ Ho HF))|].
  split; [exact (runs_returns False _ _ (ci_find_first_runs False s p o Ho))|]. exact (runs_returns False _ _ (find_first_where_runs False s f o Ho)).
Qed.
Lemma p_c81_before : forall (s p : str) (f : N -> bool) (after : list N) (o : N), Fits s ->
  let ok r := inside s r /\ (sub_length r <> 0 -> sub_offset r + sub_length r <= o) in
  returns ok (find_last s p o) /\ (In 0 after -> returns ok (find_last_newline after s o)) /\ returns ok (ci_find_last s p o) /\
  returns (fun r => ok (fst r)) (find_last_where s f o).
Proof.
  intros s p f after o HF ok. split; [exact (runs_returns False _ _ (find_last_runs False s p o))|]. split; [intros HZ; exact (runs_returns _ _ _ (find_last_newline_runs after s o HZ HF))|].
  split; [exact (runs_returns _ _ _ (ci_find_last_runs s p o))|]. exact (runs_returns _ _ _ (find_last_where_runs s f o)).
Qed.
Lemma p_c81_pos : forall (s : str) (p : Z), Fits s ->
  returns (fun n => n = npos \/ n <= size s) (get_codepoint_pos s p) /\
  returns (fun n => n = npos \/ n <= size s) (get_char_pos s p) /\
  returns (fun r => inside s (fst r)) (get_codepoint s p) /\
  returns (inside s) (get_char_range s p).
Proof.
  intros s p HF. split; [|split; [exact (runs_returns _ _ _ (get_char_pos_runs s p HF))|split; [exact (runs_returns _ _ _ (get_codepoint_runs s p))|exact (runs_returns _ _ _ (get_char_range_runs s p HF))]]].
  unfold get_codepoint_pos, signed. destruct (is_ptrdiff (Z.abs p)) eqn:E; [|discriminate].
  unfold is_ptrdiff in E. apply andb_true_iff in E as [E1 E2]. assert (index p) as Hp by (unfold index, PTRDIFF_MIN, PTRDIFF_MAX in *; lia).
  pose proof (runs_returns _ _ _ (get_codepoint_pos_runs False s p Hp)) as H. unfold get_codepoint_pos, signed in H. unfold is_ptrdiff in H. rewrite E1, E2 in H. exact H.
Qed.
Lemma p_c81_ranges : forall (s : str) (o : N), Fits s -> o <= size s ->
  returns (fun r => sub_offset r = o /\ o + sub_length r <= size s /\ (sub_length r = 0 -> o = size s)) (get_next_char_range s o) /\
  returns (fun r => sub_offset r + sub_length r = o /\ (sub_length r = 0 -> o = 0)) (get_prev_char_range s o).
Proof. intros s o HF Ho. split; [exact (runs_returns _ _ _ (next_char_runs False s o HF Ho))|exact (runs_returns _ _ _ (prev_char_runs s o HF Ho))]. Qed.
Lemma p_c81_pieces : forall (s : str) (f : N -> bool) (p q : Z), Fits s -> index p -> index q ->
  let part t := exists u v, s = u ++ t ++ v in
  returns part (get_codepoint_substring s p q) /\ returns part (get_char_substring s p q) /\
  returns part (trim_start_where s f) /\ returns part (trim_end_where s f) /\ returns part (trim_where s f).
Proof.
  intros s f p q HF Hp Hq part. split; [exact (runs_returns _ _ _ (cp_substring_runs False s p q HF Hp Hq))|]. split; [exact (runs_returns _ _ _ (ch_substring_runs s p q HF Hp Hq))|].
  split; [exact (runs_returns _ _ _ (trim_start_where_runs False s f))|]. split; [exact (runs_returns _ _ _ (trim_end_where_runs s f))|exact (runs_returns _ _ _ (trim_where_runs s f))].
Qed.

(** Backwards *)
Lemma p_c82_search : forall (s p : str) (f : N -> bool) (after : list N) (o : N), Fits s -> o <= size s -> ~ long_run s ->
  defined (decode_prev s (N.to_nat o)) /\ defined (safe_decode_prev s (N.to_nat o)) /\ defined (pop_last_utf8_codepoint s) /\
  defined (find_last_where s f o) /\ (In 0 after -> defined (find_last_newline after s o)) /\
  defined (trim_end_where s f) /\ defined (trim_where s f) /\
  (In 0 after -> defined (trim_end_default after s) /\ defined (trim_default after s)) /\
  defined (get_prev_char_range s o) /\ defined (reverse s).
Proof.
  intros s p f after o HF Ho HL. assert (Hl : (N.to_nat o <= length s)%nat) by (unfold size in Ho; lia).
  assert (K : forall A (Q : A -> Prop) m, runs (long_run s) Q m -> defined m) by (intros A Q m H; destruct (runs_defined_or _ _ _ H); [contradiction|assumption]).
  assert (T : In 0 after -> defined (trim_end_default after s) /\ defined (trim_default after s)).
  { intros HZ. unfold trim_end_default, trim_default. destruct (zero_view COMMON_WHITESPACE after HZ) as [l ->]. cbn [bind].
    split; [eapply K, (trim_end_where_runs s (fun c => u32_contains l c))|eapply K, (trim_where_runs s (fun c => u32_contains l c))]. }
  repeat match goal with |- _ /\ _ => split end;
  [eapply K, (decode_prev_runs s _ Hl)|eapply K, (safe_prev_runs s _ Hl)|eapply K, (pop_last_runs s)|eapply K, (flw_runs s f o)|intros HZ; eapply K, (find_last_newline_runs after s o HZ HF)
  |eapply K, (trim_end_where_runs s f)|eapply K, (trim_where_runs s f)|exact T|eapply K, (prev_char_runs s o HF Ho)|eapply K, (reverse_runs s HF)].
Qed.
Lemma p_c82_positions : forall (s t : str) (c : N) (p q : Z), Fits s -> index p -> index q -> ~ long_run s ->
  defined (get_codepoint s p) /\ defined (get_char_pos s p) /\ defined (get_char_range s p) /\
  defined (get_char_substring s p q) /\ defined (replace_chars s p q t) /\ defined (insert_char s p c) /\ defined (insert_chars s p t).
Proof.
  intros s t c p q HF Hp Hq HL.
  assert (K : forall A (Q : A -> Prop) m, runs (long_run s) Q m -> defined m) by (intros A Q m H; destruct (runs_defined_or _ _ _ H); [contradiction|assumption]).
  repeat match goal with |- _ /\ _ => split end;
  [eapply K, (get_codepoint_runs s p)|eapply K, (get_char_pos_runs s p HF)|eapply K, (get_char_range_runs s p HF)|eapply K, (ch_substring_runs s p q HF Hp Hq)
  |eapply K, (replace_chars_runs s p q t HF Hp Hq)|eapply K, (insert_char_runs s p c HF)|eapply K, (insert_chars_runs s p t HF)].
Qed.
Lemma p_c82_ci : forall (s t to : str) (o : N) (m : Z), Fits s -> ~ long_run s -> ~ long_run t ->
  defined (ci_ends_with s t) /\ defined (ci_find_last s t o) /\ defined (ci_replace s t to m).
Proof.
  intros s t to o m HF H1 H2.
  assert (K : forall A (Q : A -> Prop) x, runs (long_run s \/ long_run t) Q x -> defined x) by (intros A Q x H; destruct (runs_defined_or _ _ _ H) as [[?|?]|?]; [contradiction|contradiction|assumption]).
  split; [eapply K, ci_ends_with_runs|]. split; [eapply K, ci_find_last_runs|]. eapply K, (ci_replace_runs s t to m HF).
Qed.
(** Valid text has no long run. *)
Lemma no_run s cs : Text s cs -> forall i, ~ (forall k, (k < 7)%nat -> exists b, nth_error s (i + k) = Some b /\ cont b).
Proof.
  induction 1 as [|g c s cs Hg HT IH]; intros i H.
  - destruct (H 0%nat ltac:(lia)) as (b & E & _). destruct (i + 0)%nat; discriminate E.
  - destruct (Nat.le_gt_cases (length g) i) as [L|L].
    + apply (IH (i - length g)%nat). intros k Hk. destruct (H k Hk) as (b & E & Hb). exists b. split; [|exact Hb]. rewrite nth_error_app2 in E by lia. now replace (i - length g + k)%nat with (i + k - length g)%nat by lia.
    + destruct (H (length g - i)%nat) as (b & E & Hb); [pose proof (uchar_length g c Hg); lia|]. replace (i + (length g - i))%nat with (length g) in E by lia.
      rewrite nth_error_app2, Nat.sub_diag in E by lia. pose proof (Text_at_lead s cs HT) as HL. destruct s as [|b' s']; [discriminate E|]. cbn in E. replace b' with b in HL by congruence. exact (HL Hb).
Qed.
Lemma p_c82_valid : forall s cs, Text s cs -> ~ long_run s.
Proof.
  intros s cs HT (u & b & g & v & -> & L & F). apply (no_run _ cs HT (length u + 1)%nat). intros k Hk.
  destruct (nth_error g k) as [x|] eqn:E; [|apply nth_error_None in E; lia]. exists x. split; [|rewrite Forall_forall in F; apply F; eapply nth_error_In; eauto].
  rewrite nth_error_app2 by lia. replace (length u + 1 + k - length u)%nat with (S k) by lia. cbn [nth_error]. rewrite nth_error_app1 by lia. exact E.
Qed.
(** A text that ends with the long run. *)
Lemma p_c82_tail : forall u b g, length g = 7%nat -> Forall cont g -> Fits (u ++ b :: g) -> let s := u ++ b :: g in
  (forall f, find_last_where s f npos = UB) /\ (forall f, trim_end_where s f = UB) /\ reverse s = UB /\
  get_char_range s (-1) = UB /\ get_codepoint s (-1) = UB /\ (forall t, ci_ends_with s t = UB).
Proof.
  intros u b g L F HF s.
  assert (HL : long_cont_tail s) by (exists (u ++ [b]), g; rewrite <- app_assoc; repeat split; auto; destruct u; discriminate).
  pose proof (safe_decode_prev_long s [] HL) as E. rewrite app_nil_r in E.
  assert (Hb : N.to_nat (N.min npos (size s)) = length s) by (unfold Fits, npos, SIZE_MAX in *; fold s in HF; unfold size in *; lia).
  assert (B : begin_plus s (N.min npos (size s)) = Ok (length s)) by (unfold begin_plus; rewrite Hb; replace (_ <=? _) with true by lia; reflexivity).
  assert (B2 : begin_plus s (size s) = Ok (length s)) by (unfold begin_plus; rewrite N.leb_refl; unfold size; now rewrite Nat2N.id).
  assert (Hn : length s <> 0%nat) by (unfold s; rewrite app_length; cbn; lia).
  assert (W : forall f, find_last_where s f npos = UB).
  { intros f. unfold find_last_where. cbv zeta. rewrite B. cbn [bind find_last_where_loop]. rewrite E. reflexivity. }
  assert (P : get_prev_char_range s (size s) = UB).
  { unfold get_prev_char_range. rewrite B2. cbn [bind prev_char_loop]. rewrite E. reflexivity. }
  split; [exact W|]. split; [intros f; unfold trim_end_where; rewrite W; reflexivity|]. split; [|split; [exact P|split]].
  - unfold reverse. cbn [reverse_loop]. replace (size s =? 0) with false by (unfold size; lia). cbn [negb]. rewrite P. reflexivity.
  - unfold get_codepoint. cbn [Z.leb Z.compare]. change (skip_prev_n (S (length s)) s (-1) (-1) (length s)) with (Ok ((-1)%Z, length s)). cbn [bind]. rewrite E. reflexivity.
  - intros t. unfold ci_ends_with. cbn [prev_ci_mismatch]. rewrite E. reflexivity.
Qed.
