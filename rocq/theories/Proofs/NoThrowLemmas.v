(** Valid text is never rejected (C125): collected from the exact descriptions
    of the single functions. *)
From Verif Require Import Base Spec.Utf8Spec Spec.Strings Spec.WellFormed Spec.Safety Spec.Slices Spec.Split Spec.CaseFold Spec.Replace Spec.Escape Spec.Normalization
  Spec.Newline Spec.Success
  Model.Decode Model.Encode Model.Subrange Model.Search Model.Split Model.CharClass Model.ConvertCase Model.CodepointSet Model.Chars Model.CaseInsensitive Model.Escape Model.Unescape Model.Normalize
  Proofs.Utf8Lemmas Proofs.Utf8Props Proofs.CodepointLemmas Proofs.SearchLemmas Proofs.BackwardLemmas Proofs.NewlineLemmas Proofs.PositionProps Proofs.CharLemmas Proofs.SliceLemmas Proofs.CaseStringLemmas Proofs.ReplaceLemmas
  Proofs.ReplaceCpLemmas Proofs.ReplaceUnits Proofs.SplitLemmas Proofs.StrayLemmas Proofs.CiLemmas Proofs.CiFindLemmas Proofs.CiFindLastLemmas Proofs.CiTotal Proofs.CiReplaceLemmas
  Proofs.EncodeLemmas Proofs.NormLemmas Proofs.ClosureMore Proofs.ComposeLoop Proofs.NormProps Proofs.EscapeLemmas Proofs.ExtremeLemmas Proofs.ClosureLemmas Proofs.SafeProps Proofs.SafeMore Proofs.CharMalformed Proofs.CharCross.

Lemma p_c125_scan : forall s c, is_valid_utf8 s = Ok true -> Fits s ->
  succeeds (contains s c) /\ succeeds (count_codepoints s) /\ succeeds (to_utf32 s) /\
  succeeds (count_chars s) /\ succeeds (reverse s).
Proof.
  intros s c H F. apply valid_text in H. destruct H as [cs T].
  split; [|split; [|split; [|split]]].
  - destruct (p_c12 s cs [] c T (or_introl eq_refl)) as (A & B & _). rewrite app_nil_r in A, B.
    destruct (in_dec N.eq_dec c cs) as [I|I]; eexists; auto.
  - eexists. apply (count_text s cs); assumption.
  - destruct (p_c06 s) as [A _]. eexists. exact (proj2 (A cs T)).
  - destruct (p_c21_exists s cs T) as (ps & P & <- & _). eexists. exact (proj1 (p_c21_agree ps P F)).
  - destruct (p_c21_exists s cs T) as (ps & P & <- & _). eexists. exact (reverse_spec ps P F).
Qed.


Lemma malformed_end_not_text r cs : MalformedEnd r -> ~ Text r cs.
Proof.
  intros M T. destruct cs as [|c0 cs0].
  - inversion T; subst. now apply (proj1 M).
  - destruct (exists_last (l := c0 :: cs0)) as (ds & c & E); [discriminate|]. rewrite E in T.
    destruct (Text_last r ds c T) as (t & g & -> & _ & U). exact (proj2 M g c t U eq_refl).
Qed.
Lemma malformed_end_split r u us cs : MalformedEnd r -> Text u us -> ~ Text (r ++ u) cs.
Proof.
  intros M U T. pose proof (first_before_last (r ++ u) cs [] r u us T M U (app_nil_r _)) as L.
  rewrite app_length in L. destruct u as [|b u]; [|cbn in L; lia]. rewrite app_nil_r in T. exact (malformed_end_not_text r cs M T).
Qed.
Lemma malformed_split u us r cs : Text u us -> Malformed r -> ~ Text (u ++ r) cs.
Proof. intros U M T. destruct (Text_app_inv u us r cs U T) as (ds & _ & H). exact (Malformed_not_Text r ds M H). Qed.

Lemma p_c125_view : forall s, is_valid_utf8 s = Ok true ->
  succeeds (pop_utf8_codepoint s) /\ succeeds (pop_last_utf8_codepoint s) /\ succeeds (remove_utf8_codepoint s) /\ succeeds (remove_last_utf8_codepoint s).
Proof.
  intros s H. apply valid_text in H. destruct H as [cs T].
  destruct (p_c11_pop_all s) as ((A0 & B0) & A & B & _). destruct (p_c11_remove s) as ((C0 & D0) & C & D).
  destruct T as [|g c t us U T].
  - repeat split; eexists; eassumption.
  - assert (L : exists t' g' c', g ++ t = t' ++ g' /\ uchar g' c').
    { destruct (exists_last (l := c :: us)) as (ds & d & E); [discriminate|].
      assert (T' : Text (g ++ t) (ds ++ [d])) by (rewrite <- E; now constructor).
      destruct (Text_last _ _ _ T') as (t' & g' & E' & _ & U'). now exists t', g', d. }
    destruct L as (t' & g' & c' & E & U').
    split; [|split; [|split]]; eexists; [exact (A g c t eq_refl U)|exact (B t' g' c' E U')|exact (C g c t eq_refl U)|exact (D t' g' c' E U')].
Qed.

(** Where a valid text is cut between two code points both halves are valid. *)
Lemma cut_text pre r : is_valid_utf8 pre = Ok true -> is_valid_utf8 r = Ok true -> exists ps rs, Text pre ps /\ Text r rs.
Proof. intros A B. apply valid_text in A, B. destruct A as [ps A], B as [rs B]. eauto. Qed.

Lemma first_where_ok f pre r rs : Text r rs -> succeeds (find_first_where (pre ++ r) f (size pre)).
Proof.
  intros T. destruct (p_c16 f pre) as (A & B & _). destruct (first_where_cases f r) as [(u & us & g & c & v & -> & U & N0 & G & P)|[(us & U & N0)|(u & us & w & -> & U & _ & M)]].
  - eexists. eapply A; eauto.
  - eexists. eapply B; eauto.
  - exfalso. exact (malformed_split u us w rs U M T).
Qed.
Lemma last_where_ok f pre post ps o : Text pre ps -> N.min o (size (pre ++ post)) = size pre -> succeeds (find_last_where (pre ++ post) f o).
Proof.
  intros T L. destruct (p_c17 f post o) as (A & B & _). destruct (last_where_cases f pre) as [(v & g & c & u & us & -> & U & N0 & G & P)|[(us & U & N0)|(r & u & us & -> & U & _ & M)]].
  - rewrite <- !app_assoc in *. eexists. eapply A; eauto.
  - eexists. eapply B; eauto.
  - exfalso. exact (malformed_end_split r u us ps M U T).
Qed.

Lemma p_c125_where : forall (f : N -> bool) pre post, is_valid_utf8 pre = Ok true -> is_valid_utf8 post = Ok true ->
  succeeds (find_first_where (pre ++ post) f (size pre)) /\ succeeds (find_last_where (pre ++ post) f (size pre)) /\
  (forall o, size (pre ++ post) <= o -> succeeds (find_last_where (pre ++ post) f o)).
Proof.
  intros f pre post A B. destruct (cut_text pre post A B) as (ps & rs & T & R). split; [|split].
  - eapply first_where_ok; eauto.
  - eapply last_where_ok; eauto. rewrite size_app. lia.
  - intros o L. rewrite <- (app_nil_r (pre ++ post)). eapply last_where_ok; [exact (Text_app _ _ _ _ T R)|]. rewrite app_nil_r. lia.
Qed.


Lemma p_c125_trim : forall (f : N -> bool) s, is_valid_utf8 s = Ok true -> Fits s ->
  succeeds (trim_where s f) /\ succeeds (trim_start_where s f) /\ succeeds (trim_end_where s f).
Proof.
  intros f s H F. apply valid_text in H. destruct H as [cs T]. split; [|split].
  - destruct (p_trim_where f) as (_ & _ & C).
    destruct (p_trim_division f s cs T) as (u & us & m & ms & v & vs & -> & U & M & V & IU & IV & FO & LO). eexists. eapply C; eauto.
  - destruct (proj1 (p_trim_any_cases f s)) as (u & us & r & -> & U & I & [->|[M|(g & c & v & -> & G & P)]]).
    + eexists. exact (proj1 (p_trim_start_any f u us [] F U I) eq_refl).
    + exfalso. exact (malformed_split u us r cs U M T).
    + eexists. exact (proj1 (proj2 (p_trim_start_any f u us (g ++ v) F U I)) g c v eq_refl G P).
  - destruct (proj2 (p_trim_any_cases f s)) as (r & u & us & -> & U & I & [->|[M|(g & c & v & -> & G & P)]]).
    + eexists. exact (proj1 (p_trim_end_any f [] u us F U I) eq_refl).
    + exfalso. exact (malformed_end_split r u us cs M U T).
    + eexists. exact (proj1 (proj2 (p_trim_end_any f (v ++ g) u us F U I)) g c v eq_refl G P).
Qed.


Lemma units_of s cs : Text s cs -> exists ps, concat ps = s /\ Forall2 uchar ps cs /\ Codepoints ps.
Proof.
  intros T. apply codepoint_list in T. destruct T as (ps & E & P). exists ps. split; [exact E|split; [exact P|]].
  clear E. induction P as [|g c ps cs U P IH]; constructor; eauto.
Qed.
Lemma units_length (ps : list str) (cs : list N) : Forall2 uchar ps cs -> length ps = length cs.
Proof. induction 1; cbn; congruence. Qed.
Lemma unit_at ps k p : Codepoints ps -> nth_error ps k = Some p -> exists c, uchar p c.
Proof. intros P E. apply nth_error_In in E. unfold Codepoints in P. rewrite Forall_forall in P. exact (P p E). Qed.

Lemma p_c125_codepoints : forall s i j, is_valid_utf8 s = Ok true -> Fits s -> index i -> index j ->
  succeeds (get_codepoint s i) /\ succeeds (get_codepoint_pos s i) /\ succeeds (get_codepoint_substring s i j).
Proof.
  intros s i j H F Hi Hj. apply valid_text in H. destruct H as [cs T]. destruct (units_of s cs T) as (ps & <- & _ & P).
  pose proof (or_introl P : CodeUnits ps) as C. unfold index, PTRDIFF_MIN, PTRDIFF_MAX in Hi, Hj.
  split; [|split].
  - destruct (p_c25 ps i C) as (A & B & D & E).
    destruct (Z.ltb_spec i 0) as [S|S].
    + destruct (Z.ltb_spec i (- Z.of_nat (length ps))) as [L|L]; [eexists; now apply E|].
      destruct (nth_error ps (Z.to_nat (Z.of_nat (length ps) + i))) as [p|] eqn:X.
      * destruct (unit_at ps _ p P X) as (c & U). eexists. apply (B p c); auto; unfold in_order, char_in_order, cp_ok, isz, PTRDIFF_MIN, PTRDIFF_MAX in *; lia.
      * apply nth_error_None in X. lia.
    + destruct (Z.ltb_spec i (Z.of_nat (length ps))) as [L|L]; [|eexists; now apply D].
      destruct (nth_error ps (Z.to_nat i)) as [p|] eqn:X.
      * destruct (unit_at ps _ p P X) as (c & U). eexists. now apply (A p c).
      * apply nth_error_None in X. lia.
  - eexists. apply get_codepoint_pos_spec; auto.
  - destruct (Z.ltb_spec i 0) as [A|A], (Z.ltb_spec j 0) as [B|B].
    + destruct (Z.ltb_spec i j) as [O|O]; eexists; [apply cp_substring_ok|apply cp_substring_reversed]; auto; unfold in_order, char_in_order, cp_ok, isz, PTRDIFF_MIN, PTRDIFF_MAX in *; lia.
    + eexists. apply cp_substring_crossed; auto; unfold in_order, char_in_order, cp_ok, isz, PTRDIFF_MIN, PTRDIFF_MAX in *; lia.
    + eexists. apply cp_substring_ok; auto; unfold in_order, char_in_order, cp_ok, isz, PTRDIFF_MIN, PTRDIFF_MAX in *; lia.
    + eexists. apply cp_substring_ok; auto; unfold in_order, char_in_order, cp_ok, isz, PTRDIFF_MIN, PTRDIFF_MAX in *; lia.
Qed.

Lemma p_c125_chars : forall s i j t, is_valid_utf8 s = Ok true -> Fits s -> index i -> index j ->
  succeeds (get_char_pos s i) /\ succeeds (get_char_range s i) /\ succeeds (get_char_substring s i j) /\ succeeds (replace_chars s i j t).
Proof.
  intros s i j t H F Hi Hj. apply valid_text in H. destruct H as [cs T]. destruct (p_c21_exists s cs T) as (ps & P & <- & _).
  unfold index, PTRDIFF_MIN, PTRDIFF_MAX in Hi, Hj. split; [|split; [|split]].
  - eexists. now apply p_c22.
  - destruct (get_char_range_spec ps i P F) as (A & B & D & E).
    destruct (Z.ltb_spec i 0) as [S|S].
    + destruct (Z.ltb_spec i (- Z.of_nat (length ps))) as [L|L]; [eexists; now apply E|].
      destruct (nth_error ps (Z.to_nat (Z.of_nat (length ps) + i))) as [p|] eqn:X.
      * eexists. apply (B p); auto; unfold in_order, char_in_order, cp_ok, isz, PTRDIFF_MIN, PTRDIFF_MAX in *; lia.
      * apply nth_error_None in X. lia.
    + destruct (Z.ltb_spec i (Z.of_nat (length ps))) as [L|L]; [|eexists; now apply D].
      destruct (nth_error ps (Z.to_nat i)) as [p|] eqn:X.
      * eexists. now apply (A p).
      * apply nth_error_None in X. lia.
  - destruct (Z.ltb_spec i 0) as [A|A], (Z.ltb_spec j 0) as [B|B].
    + destruct (Z.ltb_spec i j) as [O|O]; eexists; [apply char_substring_ok|apply char_substring_reversed]; auto; unfold in_order, char_in_order, cp_ok, isz, PTRDIFF_MIN, PTRDIFF_MAX in *; lia.
    + eexists. apply char_substring_ok; auto; unfold in_order, char_in_order, cp_ok, isz, PTRDIFF_MIN, PTRDIFF_MAX in *; lia.
    + eexists. apply p_c27_crossed_exact; auto; unfold in_order, char_in_order, cp_ok, isz, PTRDIFF_MIN, PTRDIFF_MAX in *; lia.
    + eexists. apply char_substring_ok; auto; unfold in_order, char_in_order, cp_ok, isz, PTRDIFF_MIN, PTRDIFF_MAX in *; lia.
  - destruct (Z.ltb_spec i 0) as [A|A], (Z.ltb_spec j 0) as [B|B].
    + destruct (Z.ltb_spec i j) as [O|O]; eexists; [apply char_replace_ok; auto; unfold in_order, char_in_order, cp_ok, isz, PTRDIFF_MIN, PTRDIFF_MAX in *; lia|].
      destruct (p_c30_reversed ps i j t F) as [_ R]; [lia|]. now apply R.
    + eexists. apply char_replace_ok; auto; unfold in_order, char_in_order, cp_ok, isz, PTRDIFF_MIN, PTRDIFF_MAX in *; lia.
    + eexists. apply p_c30_chars_crossed; auto; unfold in_order, char_in_order, cp_ok, isz, PTRDIFF_MIN, PTRDIFF_MAX in *; lia.
    + eexists. apply char_replace_ok; auto; unfold in_order, char_in_order, cp_ok, isz, PTRDIFF_MIN, PTRDIFF_MAX in *; lia.
Qed.

(** Replacing code points by index: only when the end counts from the start and
    the start from the end can there be an exception, std::out_of_range. *)
Lemma p_c125_replace_codepoints : forall s i j t, is_valid_utf8 s = Ok true -> Fits s -> index i -> index j ->
  (~ (i < 0 <= j)%Z -> succeeds (replace_codepoints s i j t)) /\ replace_codepoints s i j t <> Throw YstringException.
Proof.
  intros s i j t H F Hi Hj. apply valid_text in H. destruct H as [cs T]. destruct (units_of s cs T) as (ps & <- & _ & P).
  pose proof (or_introl P : CodeUnits ps) as C. unfold index, PTRDIFF_MIN, PTRDIFF_MAX in Hi, Hj.
  assert (G : ~ (i < 0 <= j)%Z -> succeeds (replace_codepoints (concat ps) i j t)).
  { intros O. destruct (Z.ltb_spec i 0) as [A|A], (Z.ltb_spec j 0) as [B|B].
    - destruct (Z.ltb_spec i j) as [O'|O']; eexists; [apply cp_replace_ok; auto; unfold in_order, char_in_order, cp_ok, isz, PTRDIFF_MIN, PTRDIFF_MAX in *; lia|].
      destruct (p_c30_reversed ps i j t F) as [R _]; [lia|]. now apply R.
    - lia.
    - eexists. apply cp_replace_ok; auto; unfold in_order, char_in_order, cp_ok, isz, PTRDIFF_MIN, PTRDIFF_MAX in *; lia.
    - eexists. apply cp_replace_ok; auto; unfold in_order, char_in_order, cp_ok, isz, PTRDIFF_MIN, PTRDIFF_MAX in *; lia. }
  split; [exact G|]. intros E. destruct (Z_lt_le_dec i 0) as [A|A]; [|destruct G as [r G]; [lia|congruence]].
  destruct (Z_lt_le_dec j 0) as [B|B]; [destruct G as [r G]; [lia|congruence]|].
  rewrite (p_c30_cp_crossed ps i j t C F Hi Hj (conj A B)) in E. destruct (_ <=? _) in E; discriminate.
Qed.

(** Inserting throws exactly when there is no such place or no such code point. *)
Lemma p_c125_insert_codepoint : forall s k c t, is_valid_utf8 s = Ok true -> Fits s -> index k ->
  exists n, count_codepoints s = Ok n /\
    (succeeds (insert_codepoint s k c) <-> Z.abs_N k <= n /\ c <= 0x10FFFF) /\
    (succeeds (insert_codepoints s k t) <-> Z.abs_N k <= n \/ t = []).
Proof.
  intros s k c t H F Hk. apply valid_text in H. destruct H as [cs T]. destruct (units_of s cs T) as (ps & <- & P2 & P).
  pose proof (or_introl P : CodeUnits ps) as C. unfold index, PTRDIFF_MIN, PTRDIFF_MAX in Hk.
  exists (N.of_nat (length cs)). split; [now apply count_text|]. rewrite <- (units_length _ _ P2).
  assert (D : Z.abs_N k <= N.of_nat (length ps) <-> (Z.abs k <= Z.of_nat (length ps))%Z) by lia. rewrite D.
  assert (X : forall e, ~ succeeds (@Throw str e)) by (intros e [r E]; discriminate).
  split.
  - split.
    + intros S. destruct (Z_le_gt_dec (Z.abs k) (Z.of_nat (length ps))) as [L|L].
      * split; [exact L|]. destruct (N.le_gt_cases c 0x10FFFF) as [Lc|Lc]; [exact Lc|].
        exfalso. rewrite (p_c28_no_codepoint ps k c C F Hk Lc) in S. now apply X in S.
      * exfalso. rewrite (proj1 (cp_insert_out ps k c t C F Hk (Z.gt_lt _ _ L))) in S. now apply X in S.
    + intros [L Lc]. destruct (cp_insert_cp ps k c C F Hk L Lc) as (g & _ & E). eexists. exact E.
  - split.
    + intros S. destruct (Z_le_gt_dec (Z.abs k) (Z.of_nat (length ps))) as [L|L]; [now left|right].
      destruct t as [|b t]; [reflexivity|exfalso]. rewrite (proj1 (proj2 (cp_insert_out ps k c (b :: t) C F Hk (Z.gt_lt _ _ L)))) in S by discriminate. now apply X in S.
    + intros L. destruct (Z_le_gt_dec (Z.abs k) (Z.of_nat (length ps))) as [L'|L'].
      * eexists. now apply cp_insert_str.
      * destruct L as [L| ->]; [lia|]. eexists. exact (proj2 (proj2 (cp_insert_out ps k c [] C F Hk (Z.gt_lt _ _ L')))).
Qed.
Lemma p_c125_insert_char : forall s k c t, is_valid_utf8 s = Ok true -> Fits s -> index k ->
  exists n, count_chars s = Ok n /\
    (succeeds (insert_char s k c) <-> Z.abs_N k <= n /\ c <= 0x10FFFF) /\
    (succeeds (insert_chars s k t) <-> Z.abs_N k <= n \/ t = []).
Proof.
  intros s k c t H F Hk. apply valid_text in H. destruct H as [cs T]. destruct (p_c21_exists s cs T) as (ps & P & <- & _).
  unfold index, PTRDIFF_MIN, PTRDIFF_MAX in Hk.
  exists (N.of_nat (length ps)). split; [exact (proj1 (p_c21_agree ps P F))|].
  assert (D : Z.abs_N k <= N.of_nat (length ps) <-> (Z.abs k <= Z.of_nat (length ps))%Z) by lia. rewrite D.
  assert (X : forall e, ~ succeeds (@Throw str e)) by (intros e [r E]; discriminate).
  split.
  - split.
    + intros S. destruct (Z_le_gt_dec (Z.abs k) (Z.of_nat (length ps))) as [L|L].
      * split; [exact L|]. destruct (N.le_gt_cases c 0x10FFFF) as [Lc|Lc]; [exact Lc|].
        exfalso. rewrite (p_c29_no_codepoint ps k c P F Lc) in S. now apply X in S.
      * exfalso. rewrite (proj1 (char_insert_out ps k c t P F (Z.gt_lt _ _ L))) in S. now apply X in S.
    + intros [L Lc]. destruct (char_insert_cp ps k c P F L Lc) as (g & _ & E). eexists. exact E.
  - split.
    + intros S. destruct (Z_le_gt_dec (Z.abs k) (Z.of_nat (length ps))) as [L|L]; [now left|right].
      destruct t as [|b t]; [reflexivity|exfalso]. rewrite (proj1 (proj2 (char_insert_out ps k c (b :: t) P F (Z.gt_lt _ _ L)))) in S by discriminate. now apply X in S.
    + intros L. destruct (Z_le_gt_dec (Z.abs k) (Z.of_nat (length ps))) as [L'|L'].
      * eexists. now apply char_insert_str.
      * destruct L as [L| ->]; [lia|]. eexists. exact (proj2 (proj2 (char_insert_out ps k c [] P F (Z.gt_lt _ _ L')))).
Qed.

(** Splitting. *)
Lemma p_c125_split : forall s sep chars n ign, is_valid_utf8 s = Ok true -> Fits s ->
  succeeds (split_sep s sep n ign) /\ succeeds (split_chars s chars n ign).
Proof.
  intros s sep chars n ign H F. apply valid_text in H. destruct H as [cs T].
  destruct (N.eq_dec n 0) as [->|Hn]; [split; eexists; reflexivity|]. assert (L : 1 <= n) by lia. split.
  - destruct sep as [|b sep]; [eexists; now apply p_c36_empty|].
    destruct (cuts_limited (first_sep (b :: sep)) (fun t => forall i, ~ occurs_at (b :: sep) t i) ign n s L) as (cuts & rest & C & S).
    { intros u g v [-> _]. discriminate. }
    { intros t. now apply sep_cases. }
    eexists. eapply p_c39_limit; eauto. discriminate.
  - destruct (p_c37_exists s cs chars n ign T L) as (cuts & rest & C & S). eexists. eapply p_c37; eauto.
Qed.

(** Newlines. *)
Lemma followed_exists after : In 0 after -> exists extra, followed_by after extra.
Proof. intros Z0. destruct (memory_cases after) as [H|H]; [|exact H]. rewrite Forall_forall in H. now apply H in Z0. Qed.

Lemma first_newline_ok after pre post rs : In 0 after -> Text post rs -> Fits (pre ++ post) -> succeeds (find_first_newline after (pre ++ post) (size pre)).
Proof.
  intros Z0 R F. destruct (followed_exists after Z0) as (extra & E).
  destruct (proj2 (p_c18_all after pre) extra E) as (A1 & A2 & A3 & _).
  destruct (first_where_cases (u32_contains (NEWLINES ++ extra)) post) as [(u & us & g & c & v & -> & U & N0 & G & P)|[(us & U & N0)|(u & us & w & -> & U & _ & M)]].
  - apply no_line_ends_nonep in N0. apply line_end_contains in P.
    destruct (Text_app_inv u us (g ++ v) rs U R) as (ds & _ & R'). destruct (Text_app_inv g [c] v ds (Text_one g c G) R') as (vs & _ & V).
    destruct V as [|h d w ws D W].
    + eexists. eapply A1; eauto.
    + destruct (N.eq_dec c 0x0D) as [->|NC].
      * destruct (N.eq_dec d 0x0A) as [->|ND].
        -- eexists. eapply A2; eauto.
        -- eexists. eapply A1; eauto. right; right. exists d, w. split; [exact ND|]. now exists h.
      * eexists. eapply A1; eauto.
  - apply no_line_ends_nonep in N0. eexists. eapply A3; eauto.
  - exfalso. exact (malformed_split u us w rs U M R).
Qed.
Lemma last_newline_ok after pre post ps o : In 0 after -> Text pre ps -> Fits (pre ++ post) -> N.min o (size (pre ++ post)) = size pre ->
  succeeds (find_last_newline after (pre ++ post) o).
Proof.
  intros Z0 T F L. destruct (followed_exists after Z0) as (extra & E).
  destruct (proj2 (p_c19_all after post o) extra E) as (A1 & A2 & A3 & _).
  destruct (last_where_cases (u32_contains (NEWLINES ++ extra)) pre) as [(v & g & c & u & us & -> & U & N0 & G & P)|[(us & U & N0)|(r & u & us & -> & U & _ & M)]].
  - apply no_line_ends_nonep in N0. apply line_end_contains in P.
    assert (V : exists vs, Text v vs).
    { destruct (text_suffix (length v) v (le_n _)) as (r & w & ws & -> & W & [->|M]); [now exists ws|exfalso].
      apply (malformed_end_split r (w ++ g ++ u) (ws ++ [c] ++ us) ps M); [|now rewrite !app_assoc in *].
      apply Text_app; [exact W|]. apply Text_app; [now apply Text_one|exact U]. }
    destruct V as [vs V]. rewrite <- !app_assoc in *.
    destruct vs as [|v0 vs0].
    + inversion V; subst v. eexists. eapply A1; eauto.
    + destruct (exists_last (l := v0 :: vs0)) as (ds & d & Ed); [discriminate|]. rewrite Ed in V. destruct (Text_last v ds d V) as (w & h & -> & W & D).
      destruct (N.eq_dec c 0x0A) as [->|NC].
      * destruct (N.eq_dec d 0x0D) as [->|ND].
        -- rewrite <- !app_assoc in *. eexists. eapply A2; eauto.
        -- eexists. eapply A1; eauto. right; right. exists d, w. split; [exact ND|]. now exists h.
      * eexists. eapply A1; eauto.
  - apply no_line_ends_nonep in N0. eexists. eapply A3; eauto.
  - exfalso. exact (malformed_end_split r u us ps M U T).
Qed.
Lemma p_c125_newlines : forall after pre post, In 0 after -> is_valid_utf8 pre = Ok true -> is_valid_utf8 post = Ok true -> Fits (pre ++ post) ->
  succeeds (find_first_newline after (pre ++ post) (size pre)) /\ succeeds (find_last_newline after (pre ++ post) (size pre)) /\
  (forall o, size (pre ++ post) <= o -> succeeds (find_last_newline after (pre ++ post) o)).
Proof.
  intros after pre post Z0 A B F. destruct (cut_text pre post A B) as (ps & rs & T & R). split; [|split].
  - eapply first_newline_ok; eauto.
  - eapply last_newline_ok; eauto. rewrite size_app. lia.
  - intros o L. rewrite <- (app_nil_r (pre ++ post)) in *. eapply last_newline_ok; [exact Z0|exact (Text_app _ _ _ _ T R)|exact F|]. rewrite app_nil_r in *. lia.
Qed.

Lemma p_c125_split_lines : forall after s n ign, is_valid_utf8 s = Ok true -> Fits s -> In 0 after ->
  succeeds (split_lines after s n ign).
Proof.
  intros after s n ign H F Z0. apply valid_text in H. destruct H as [cs T].
  destruct (N.eq_dec n 0) as [->|Hn]; [eexists; reflexivity|]. assert (L : 1 <= n) by lia.
  destruct (followed_exists after Z0) as (extra & E).
  destruct (p_c38_cuts extra s cs n ign T L) as (cuts & rest & C & S).
  eexists. exact (proj1 (proj2 (proj2 (p_c38_all after) extra E)) s n ign cuts rest F C S).
Qed.

(** Case-insensitively, with a valid pattern. *)
Lemma p_c125_ci : forall s p, is_valid_utf8 s = Ok true -> is_valid_utf8 p = Ok true ->
  succeeds (ci_compare s p) /\ succeeds (ci_equal s p) /\ succeeds (ci_less s p) /\ succeeds (ci_starts_with s p) /\ succeeds (ci_ends_with s p).
Proof.
  intros s p A B. destruct (cut_text s p A B) as (cs & ps & S & P).
  destruct (p_c46_lex s cs p ps S P) as (z & E & _). split; [eexists; exact E|].
  destruct (p_c47_text s cs p ps S P) as (e & E1 & _). split; [eexists; exact E1|].
  split; [rewrite p_c48, E; eexists; reflexivity|].
  destruct (p_c49_starts s cs p ps S P) as (b & E2 & _). destruct (p_c49_ends s cs p ps S P) as (b' & E3 & _).
  split; eexists; eassumption.
Qed.
Lemma p_c125_ci_find : forall pre post p, is_valid_utf8 pre = Ok true -> is_valid_utf8 post = Ok true -> is_valid_utf8 p = Ok true ->
  succeeds (ci_find_first (pre ++ post) p (size pre)) /\ succeeds (ci_find_last (pre ++ post) p (size pre)).
Proof.
  intros pre post p A B C. destruct (cut_text pre post A B) as (xs & rs & T & R). apply valid_text in C. destruct C as [ps P].
  destruct ps as [|p0 ps0]. { inversion P; subst. split; eexists; reflexivity. }
  assert (NE : p0 :: ps0 <> []) by discriminate. set (ps := p0 :: ps0) in *. split.
  - destruct (p_c50_first ps p pre NE P) as (A1 & A2 & _).
    destruct (first_ci_cases ps post NE) as [(u & g & v & -> & M)|[M|(u & us & r & -> & U & M & _)]].
    + eexists. now apply A1.
    + eexists. now apply A2.
    + exfalso. exact (malformed_split u us r rs U M R).
  - destruct (p_c50_last ps p post (size pre) NE P) as (A1 & A2 & _).
    destruct (last_ci_all ps pre NE) as [(u & g & v & -> & M)|[M|(r & u & us & -> & U & M & _)]].
    + rewrite <- !app_assoc in *. eexists. apply A1; [exact M|]. rewrite !size_app. lia.
    + eexists. apply A2; [exact M|]. rewrite !size_app. lia.
    + exfalso. exact (malformed_end_split r u us xs M U T).
Qed.
Lemma p_c125_ci_split : forall s sep chars n ign, is_valid_utf8 s = Ok true -> is_valid_utf8 sep = Ok true -> Fits s ->
  succeeds (ci_split_sep s sep n ign) /\ (Forall (fun d => d < 0x100000000) chars -> succeeds (ci_split_chars s chars n ign)).
Proof.
  intros s sep chars n ign H Hp F. destruct (cut_text s sep H Hp) as (cs & ps & T & P).
  destruct (N.eq_dec n 0) as [->|Hn]; [split; [|intros _]; eexists; reflexivity|]. assert (L : 1 <= n) by lia. split.
  - destruct ps as [|p0 ps0]. { inversion P; subst. eexists. now apply p_c52_empty. }
    destruct (p_c52_exists (p0 :: ps0) sep ltac:(discriminate) P s cs n ign T L) as (cuts & rest & C & S).
    eexists. eapply p_c52; eauto. discriminate.
  - intros B. destruct (p_c52_chars_exists chars B s cs n ign T L) as (cuts & rest & C & S). eexists. eapply p_c52_chars; eauto.
Qed.

(** Replacing. *)
Lemma p_c125_replace : forall s from to a b m, is_valid_utf8 s = Ok true -> Fits s -> index m ->
  succeeds (replace s from to m) /\ (a <= 0x10FFFF -> b <= 0x10FFFF -> succeeds (replace_codepoint s a b m)) /\
  (is_valid_utf8 from = Ok true -> succeeds (ci_replace s from to m)).
Proof.
  intros s from to a b m H F Hm. apply valid_text in H. destruct H as [cs T]. unfold index in Hm. split; [|split].
  - destruct (Z_lt_le_dec m 0) as [L|L].
    + destruct from as [|x from]; [eexists; apply replace_back_empty; lia|].
      destruct (replace_back s (x :: from) to m) as (r & E & _); [discriminate|exact F|lia|]. eexists; exact E.
    + destruct from as [|x from].
      * destruct s as [|y s]; [eexists; now apply replace_front_nothing|]. eexists. apply replace_front_empty; [discriminate|exact L].
      * destruct (replace_front s (x :: from) to m) as (r & E & _); [discriminate|exact L|]. eexists; exact E.
  - intros Ha Hb. destruct (units_of s cs T) as (ps & <- & _ & P).
    destruct (p_c33_units ps a b m P F Ha Hb) as (f & t & _ & _ & E); [unfold PTRDIFF_MIN in Hm; lia|]. eexists; exact E.
  - intros V. apply valid_text in V. destruct V as [ps P].
    destruct ps as [|p0 ps0]. { inversion P; subst. eexists. now apply p_c51_empty. }
    assert (NE : p0 :: ps0 <> []) by discriminate. destruct (Z_lt_le_dec m 0) as [L|L].
    + destruct (p_c51_back_exists s cs (p0 :: ps0) to NE T (Z.to_N (- m))) as (r & R). eexists. eapply p_c51_back; eauto.
    + destruct (p_c51_front_exists s cs (p0 :: ps0) to NE T (Z.to_N m)) as (r & R). eexists. eapply p_c51_front; eauto.
Qed.

(** Case conversion accepts exactly the texts whose code points exist. *)
Lemma p_c125_case : forall s cs, to_utf32 s = Ok cs ->
  (succeeds (to_lower_str s) <-> Forall (fun c => c <= 0x10FFFF) cs) /\
  (succeeds (to_upper_str s) <-> Forall (fun c => c <= 0x10FFFF) cs) /\
  (succeeds (to_title_str s) <-> Forall (fun c => c <= 0x10FFFF) cs).
Proof.
  intros s cs E. assert (T : Text s cs).
  { destruct (text_prefix s) as (u & us & r & -> & U & [->|M]).
    - rewrite app_nil_r in *. destruct (p_c06 u) as [A _]. rewrite (proj2 (A us U)) in E. now injection E as ->.
    - exfalso. destruct (p_c06 (u ++ r)) as [_ B]. rewrite (proj2 (B (fun cs' => malformed_split u us r cs' U M))) in E. discriminate. }
  assert (X : forall e, ~ succeeds (@Throw str e)) by (intros e [r E']; discriminate).
  destruct (Forall_dec (fun c => c <= 0x10FFFF) (fun c => match N.leb_spec0 c 0x10FFFF with ReflectT _ H => left H | ReflectF _ H => right H end) cs) as [G|G].
  - split; [|split]; (split; [intros _; exact G|intros _]).
    + destruct (to_lower_str_ok s cs T G) as (r & R & _). now exists r.
    + destruct (to_upper_str_ok s cs T G) as (r & R & _). now exists r.
    + destruct (to_title_str_ok s cs T G) as (r & R & _). now exists r.
  - assert (B : forall cs', Text s cs' -> ~ Forall (fun c => c <= 0x10FFFF) cs').
    { intros cs' T'. now rewrite (Text_fun s cs' cs T' T). }
    destruct (case_all_bad s B) as (L & U & Ti). rewrite L, U, Ti.
    split; [|split]; (split; [intros S; now apply X in S|intros S; contradiction]).
Qed.
Lemma p_c125_rfc : forall s, rfc3629_valid s -> succeeds (to_lower_str s) /\ succeeds (to_upper_str s) /\ succeeds (to_title_str s) /\ is_valid_utf8 s = Ok true.
Proof.
  intros s (cs & E & S). pose proof (scalar_range cs S) as B. pose proof (Encoded_Text s cs E B) as T.
  destruct (to_lower_str_ok s cs T B) as (r1 & R1 & _). destruct (to_upper_str_ok s cs T B) as (r2 & R2 & _). destruct (to_title_str_ok s cs T B) as (r3 & R3 & _).
  repeat split; [now exists r1|now exists r2|now exists r3|]. apply valid_text. now exists cs.
Qed.

Lemma DecomposedTo_cut s r t : DecomposedTo s r t -> exists u us, s = u ++ r /\ Text u us.
Proof.
  induction 1 as [s|g c s r t G _ _ (u & us & -> & U)|g c ds b s r t G _ _ _ _ (u & us & -> & U)].
  - exists [], []. split; [reflexivity|constructor].
  - exists (g ++ u), (c :: us). split; [now rewrite app_assoc|now constructor].
  - exists (g ++ u), (c :: us). split; [now rewrite app_assoc|now constructor].
Qed.

(** Normalisation: valid text may make it loop or be undefined (C67, C70), but
    there is no exception. *)
Lemma p_c125_normalize : forall inner adjacent s, is_valid_utf8 s = Ok true -> ~ throws (to_decomposed inner s) /\ ~ throws (to_composed adjacent s).
Proof.
  intros inner adjacent s H. apply valid_text in H. destruct H as [cs T]. split; intros [e X].
  - destruct (p_c67_cases s) as (r & t & D & [->|[M|(g & c & ds & r' & -> & G & FD & L)]]).
    + rewrite (p_c67_ok inner s t D) in X. discriminate.
    + destruct (DecomposedTo_cut s r t D) as (u & us & -> & U). exact (malformed_split u us r cs U M T).
    + rewrite (p_c67_loops inner s g c ds r' t D G FD) in X by lia. discriminate.
  - destruct (p_c70_cases adjacent s) as [->|[M|[(segs & c & C)|[(t & segs & c & r & -> & C & M)|(t & segs & c & g & m & r & -> & C & G & O)]]]].
    + discriminate.
    + exact (Malformed_not_Text s cs M T).
    + rewrite (p_c68_result adjacent s segs c C) in X. discriminate.
    + destruct (Composing_text adjacent t segs c C) as (us & U). exact (malformed_split t us r cs U M T).
    + rewrite (proj2 (p_c70_iff adjacent (t ++ g ++ r))) in X; [discriminate|]. now exists t, segs, c, g, m, r.
Qed.

(** These look at bytes only and accept everything. *)
Lemma p_c125_bytes : forall s p o, Fits s -> o <= size s ->
  succeeds (find_first s p o) /\ (forall o, succeeds (find_last s p o)) /\ succeeds (starts_with s p) /\ succeeds (ends_with s p) /\
  succeeds (count_codepoints s) /\ succeeds (is_valid_utf8 s) /\ succeeds (escape_json s) /\ succeeds (has_escapable_chars s) /\
  succeeds (find_first_escapable_char s o).
Proof.
  intros s p o F L. assert (BP : forall o, o <= size s -> exists i, begin_plus s o = Ok i).
  { intros o' L'. unfold begin_plus. apply N.leb_le in L'. rewrite L'. eexists; reflexivity. }
  split; [|split; [|split; [|split; [|split; [|split; [|split; [|split]]]]]]].
  - destruct (BP o L) as [i E]. unfold find_first. rewrite E. cbn [bind]. destruct (Nat.eqb _ _); eexists; reflexivity.
  - intros o'. destruct (BP (N.min o' (size s))) as [i E]; [lia|]. unfold find_last. rewrite E. cbn [bind]. destruct (search_last _ _ _). eexists; reflexivity.
  - destruct (starts_with_spec s p) as (b & E & _). eexists; exact E.
  - destruct (ends_with_spec s p F) as (b & E & _). eexists; exact E.
  - destruct (p_c80_scan s 0) as (_ & [[n E]|[e E]] & _); [eexists; exact E|]. now apply p_c09_throw in E.
  - destruct (is_valid_spec s) as (b & E & _). eexists; exact E.
  - destruct (p_c57 s F) as (e & E & _). eexists; exact E.
  - destruct (p_c59_has s F) as (b & E & _). eexists; exact E.
  - destruct (BP o L) as [i E]. unfold find_first_escapable_char. rewrite E. cbn [bind]. eexists; reflexivity.
Qed.

(** What reads the whole text rejects text that is not valid. *)
Lemma p_c125_rejected : forall inner adjacent after s chars ign, is_valid_utf8 s <> Ok true -> Fits s -> In 0 after ->
  throws (to_utf32 s) /\ throws (to_lower_str s) /\ throws (to_upper_str s) /\ throws (to_title_str s) /\ throws (count_chars s) /\
  throws (split_chars s chars SIZE_MAX ign) /\ throws (split_lines after s SIZE_MAX ign) /\
  ~ succeeds (reverse s) /\ ~ succeeds (to_decomposed inner s) /\ ~ succeeds (to_composed adjacent s).
Proof.
  intros inner adjacent after s chars ign H F Z0. assert (B : forall cs, ~ Text s cs) by (intros cs T; apply H, valid_text; now exists cs).
  split; [eexists; exact (proj2 (proj2 (p_c06 s) B))|].
  destruct (case_all_bad s (fun cs T => False_ind _ (B cs T))) as (L & U & Ti).
  split; [eexists; exact L|split; [eexists; exact U|split; [eexists; exact Ti|]]].
  split.
  { destruct (text_prefix s) as (u & us & r & -> & T & [->|M]); [exfalso; rewrite app_nil_r in B; exact (B us T)|].
    eexists. exact (count_chars_bad u us r T M F). }
  split; [eexists; exact (p_c37_malformed s chars B F ign)|].
  split. { destruct (followed_exists after Z0) as (extra & E). eexists. exact (proj2 (proj2 (proj2 (p_c38_all after) extra E)) s ign B F). }
  split; [|split]; intros [r X].
  - destruct (text_suffix (length s) s (le_n _)) as (w & u & us & -> & T & [->|M]); [exact (B us T)|].
    destruct (reverse_bad w u us T M F) as [A1 A2]. destruct (long_cont_tail_dec w) as [Y|Y]; [rewrite (A2 Y) in X|rewrite (A1 Y) in X]; discriminate.
  - destruct (p_c67_cases s) as (q & t & D & [->|[M|(g & c & ds & r' & -> & G & FD & L')]]).
    + destruct (DecomposedTo_cut s [] t D) as (u & us & -> & T). rewrite app_nil_r in B. exact (B us T).
    + rewrite (p_c67_throw inner s q t D M) in X. discriminate.
    + rewrite (p_c67_loops inner s g c ds r' t D G FD) in X by lia. discriminate.
  - destruct (p_c70_cases adjacent s) as [->|[M|[(segs & c & C)|[(t & segs & c & q & -> & C & M)|(t & segs & c & g & m & q & -> & C & G & O)]]]].
    + exact (B [] Text_nil).
    + rewrite (p_c68_throw0 adjacent s M) in X. discriminate.
    + destruct (Composing_text adjacent s segs c C) as (us & T). exact (B us T).
    + rewrite (p_c68_throw adjacent t segs c q C M) in X. discriminate.
    + rewrite (proj2 (p_c70_iff adjacent (t ++ g ++ q))) in X; [discriminate|]. now exists t, segs, c, g, m, q.
Qed.
