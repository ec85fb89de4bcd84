(** C121: pieces of pieces. *)
From Verif Require Import Base Spec.Utf8Spec Spec.Strings Spec.Slices Spec.Counts Model.Decode Model.Encode Model.Subrange Model.Search
  Model.CharClass Model.Chars
  Proofs.Utf8Lemmas Proofs.DecodeLemmas Proofs.SkipLemmas Proofs.EncodeLemmas Proofs.CodepointLemmas Proofs.Utf8Props Proofs.SearchLemmas
  Proofs.SliceLemmas Proofs.CharLemmas Proofs.PieceLemmas Proofs.AnyStringLemmas Proofs.PositionProps Proofs.AgreeLemmas Proofs.UndoLemmas Proofs.CountLemmas.
From Coq Require Import ZifyBool ZifyNat ZifyN.
Ltac Zify.zify_post_hook ::= Z.div_mod_to_equations.

Lemma resolve_nonneg n i : (0 <= i)%Z -> resolve n i = Nat.min (Z.to_nat i) n.
Proof. intros H. unfold resolve. now replace (i <? 0)%Z with false by lia. Qed.
Lemma firstn_min {A} (l : list A) k : firstn (Nat.min k (length l)) l = firstn k l.
Proof.
  destruct (Nat.le_gt_cases k (length l)); [now rewrite Nat.min_l|]. rewrite Nat.min_r by lia.
  rewrite firstn_all, firstn_all2; [reflexivity|lia].
Qed.
Lemma skipn_min {A} (l : list A) k : skipn (Nat.min k (length l)) l = skipn k l.
Proof.
  destruct (Nat.le_gt_cases k (length l)); [now rewrite Nat.min_l|]. rewrite Nat.min_r by lia.
  rewrite skipn_all, skipn_all2; [reflexivity|lia].
Qed.
(** With indices from the start the clamping makes no difference. *)
Lemma units_nonneg (ps : list str) i j : (0 <= i)%Z -> (0 <= j)%Z -> units_between ps i j = firstn (Z.to_nat j - Z.to_nat i) (skipn (Z.to_nat i) ps).
Proof.
  intros Hi Hj. unfold units_between. rewrite !resolve_nonneg by assumption. rewrite skipn_min.
  rewrite <- (firstn_min (skipn (Z.to_nat i) ps) (Z.to_nat j - Z.to_nat i)), <- (firstn_min (skipn (Z.to_nat i) ps) (Nat.min (Z.to_nat j) _ - _)).
  rewrite skipn_length. f_equal. lia.
Qed.
Lemma units_nested (ps : list str) i j k l : (0 <= i)%Z -> (0 <= j)%Z -> (0 <= k)%Z -> (0 <= l)%Z ->
  units_between (units_between ps i j) k l = units_between ps (Z.min (i + k) j) (Z.min (i + l) j).
Proof.
  intros. rewrite !units_nonneg by lia. rewrite skipn_firstn_comm, firstn_firstn, SearchLemmas.skipn_skipn.
  destruct (Z.le_gt_cases (i + k) j).
  - f_equal; [lia|f_equal; lia].
  - replace (Nat.min _ _) with 0%nat by lia. replace (_ - _)%nat with 0%nat by lia. reflexivity.
Qed.
Lemma units_adjacent (ps : list str) i j k : (resolve (length ps) i <= resolve (length ps) j)%nat -> (resolve (length ps) j <= resolve (length ps) k)%nat ->
  units_between ps i k = units_between ps i j ++ units_between ps j k.
Proof.
  unfold units_between. intros A B. set (a := resolve _ i) in *. set (b := resolve _ j) in *. set (c := resolve _ k) in *.
  rewrite <- (firstn_skipn (b - a) (firstn (c - a) (skipn a ps))). f_equal.
  - rewrite firstn_firstn. f_equal. lia.
  - rewrite skipn_firstn_comm, SearchLemmas.skipn_skipn. f_equal; [lia|f_equal; lia].
Qed.
Lemma units_resolve (ps : list str) i j i' j' : resolve (length ps) i = resolve (length ps) i' -> resolve (length ps) j = resolve (length ps) j' ->
  units_between ps i j = units_between ps i' j'.
Proof. unfold units_between. now intros -> ->. Qed.
Lemma resolve_back n i : (0 <= i < Z.of_nat n)%Z -> resolve n (i - Z.of_nat n) = resolve n i.
Proof. intros H. unfold resolve. replace (_ <? 0)%Z with true by lia. replace (i <? 0)%Z with false by lia. lia. Qed.
Lemma resolve_mono n i j : (0 <= i <= j)%Z \/ (i <= j < 0)%Z -> (resolve n i <= resolve n j)%nat.
Proof. unfold resolve. intros [H|H]; [replace (i <? 0)%Z with false by lia; replace (j <? 0)%Z with false by lia|replace (i <? 0)%Z with true by lia; replace (j <? 0)%Z with true by lia]; lia. Qed.
Lemma units_concat_app (ps qs : list str) i j : (0 <= i)%Z -> (0 <= j)%Z ->
  units_between (ps ++ qs) i j = units_between ps i j ++ units_between qs (Z.max 0 (i - Z.of_nat (length ps))) (Z.max 0 (j - Z.of_nat (length ps))).
Proof.
  intros Hi Hj. rewrite !units_nonneg by lia. rewrite skipn_app, firstn_app, skipn_length. f_equal.
  destruct (Z.le_gt_cases i (Z.of_nat (length ps))).
  - replace (Z.to_nat (Z.max 0 (i - Z.of_nat (length ps)))) with 0%nat by lia. replace (Z.to_nat i - length ps)%nat with 0%nat by lia. cbn [skipn]. f_equal. lia.
  - replace (Z.to_nat (Z.max 0 (i - Z.of_nat (length ps)))) with (Z.to_nat i - length ps)%nat by lia. f_equal. lia.
Qed.

Lemma Fits_units (ps : list str) i j : Fits (concat ps) -> Fits (concat (units_between ps i j)).
Proof.
  intros HF. unfold units_between. rewrite (concat_firstn_skipn ps (resolve (length ps) i)) in HF. apply Fits_app_r in HF.
  rewrite (concat_firstn_skipn (skipn _ ps) (resolve (length ps) j - resolve (length ps) i)) in HF. now apply Fits_l in HF.
Qed.
Lemma CodeUnits_between ps i j : CodeUnits ps -> CodeUnits (units_between ps i j).
Proof. intros. unfold units_between. now apply CodeUnits_firstn, CodeUnits_skipn. Qed.
Lemma Chars_between ps i j : Chars ps -> Chars (units_between ps i j).
Proof. intros. unfold units_between. now apply Chars_firstn, Chars_skipn. Qed.

Definition index (i : Z) : Prop := (0 <= i <= 0x7FFFFFFFFFFFFFFF)%Z.
Lemma index_cp i : index i -> cp_ok i.
Proof. unfold index, cp_ok. lia. Qed.
Lemma index_isz i : index i -> isz i.
Proof. unfold index, isz, PTRDIFF_MIN, PTRDIFF_MAX. lia. Qed.

Lemma p_c121_nested s i j k l : indexable s -> index i -> index j -> index k -> index l -> exists t r,
  get_codepoint_substring s i j = Ok t /\ get_codepoint_substring t k l = Ok r /\ get_codepoint_substring s (Z.min (i + k) j) (Z.min (i + l) j) = Ok r.
Proof.
  intros HI Hi Hj Hk Hl. destruct (units_of s HI) as (ps & HC & <-). destruct HI as [HF _].
  exists (concat (units_between ps i j)), (concat (units_between (units_between ps i j) k l)).
  split; [apply cp_substring_ok; auto using index_cp; left; unfold index in *; lia|]. split.
  - apply cp_substring_ok; auto using index_cp, CodeUnits_between, Fits_units. left; unfold index in *; lia.
  - rewrite units_nested by (unfold index in *; lia). apply cp_substring_ok; auto; [| |left]; unfold index, cp_ok in *; lia.
Qed.
Lemma p_c121_nested_chars s cs i j k l : Text s cs -> Fits s -> index i -> index j -> index k -> index l -> exists t r,
  get_char_substring s i j = Ok t /\ get_char_substring t k l = Ok r /\ get_char_substring s (Z.min (i + k) j) (Z.min (i + l) j) = Ok r.
Proof.
  intros HT HF Hi Hj Hk Hl. destruct (Chars_exist s cs HT) as (ps & HC & <-).
  exists (concat (units_between ps i j)), (concat (units_between (units_between ps i j) k l)).
  split; [apply char_substring_ok; auto using index_isz; left; unfold index in *; lia|]. split.
  - apply char_substring_ok; auto using index_isz, Chars_between, Fits_units. left; unfold index in *; lia.
  - rewrite units_nested by (unfold index in *; lia). apply char_substring_ok; auto; [| |left]; unfold index, isz, PTRDIFF_MIN, PTRDIFF_MAX in *; lia.
Qed.
(** Adjacent pieces. *)
Lemma p_c121_adjacent s i j k : indexable s -> cp_ok i -> cp_ok j -> cp_ok k -> (0 <= i <= j /\ j <= k)%Z \/ (i < j /\ j < k < 0)%Z -> exists a b,
  get_codepoint_substring s i j = Ok a /\ get_codepoint_substring s j k = Ok b /\ get_codepoint_substring s i k = Ok (a ++ b).
Proof.
  intros HI Hi Hj Hk O. destruct (units_of s HI) as (ps & HC & <-). destruct HI as [HF _].
  exists (concat (units_between ps i j)), (concat (units_between ps j k)). rewrite <- concat_app, <- units_adjacent by (apply resolve_mono; lia).
  repeat split; apply cp_substring_ok; auto; unfold in_order; lia.
Qed.
Lemma p_c121_adjacent_chars s cs i j k : Text s cs -> Fits s -> isz i -> isz j -> isz k -> (0 <= i <= j /\ j <= k)%Z \/ (i < j /\ j < k < 0)%Z -> exists a b,
  get_char_substring s i j = Ok a /\ get_char_substring s j k = Ok b /\ get_char_substring s i k = Ok (a ++ b).
Proof.
  intros HT HF Hi Hj Hk O. destruct (Chars_exist s cs HT) as (ps & HC & <-).
  exists (concat (units_between ps i j)), (concat (units_between ps j k)). rewrite <- concat_app, <- units_adjacent by (apply resolve_mono; lia).
  repeat split; apply char_substring_ok; auto; unfold char_in_order; lia.
Qed.
(** Indices from the end. *)
Lemma p_c121_from_end s n i j : indexable s -> count_codepoints s = Ok n -> (0 <= i)%Z -> (0 <= j)%Z ->
  (i <= 0x7FFFFFFFFFFFFFFF)%Z ->
  (i < j < Z.of_N n -> get_codepoint_substring s (i - Z.of_N n) (j - Z.of_N n) = get_codepoint_substring s i j)%Z /\
  (j < Z.of_N n -> get_codepoint_substring s i (j - Z.of_N n) = get_codepoint_substring s i j)%Z /\
  (i < Z.of_N n -> get_codepoint_substring s (i - Z.of_N n) 0x7FFFFFFFFFFFFFFF = get_codepoint_substring s i 0x7FFFFFFFFFFFFFFF)%Z.
Proof.
  intros HI HN Hi Hj Hm. destruct (units_of s HI) as (ps & HC & <-). destruct HI as [HF _]. pose proof (units_le ps HC) as HL.
  rewrite (count_code_units ps HC HF) in HN. injection HN as <-. pose proof HF as HF'. unfold Fits, size in HF'.
  replace (Z.of_N (N.of_nat (length ps))) with (Z.of_nat (length ps)) by lia.
  split; [|split]; intros H.
  - rewrite !cp_substring_ok by (auto; unfold cp_ok, in_order; lia). do 2 f_equal. apply units_resolve; apply resolve_back; lia.
  - rewrite !cp_substring_ok by (auto; unfold cp_ok, in_order; lia). do 2 f_equal. apply units_resolve; [reflexivity|]. apply resolve_back; lia.
  - rewrite (cp_substring_ok ps i) by (auto; unfold cp_ok, in_order; lia). rewrite p_c26_end by (auto; unfold cp_ok; lia).
    do 2 f_equal. apply units_resolve; [|reflexivity]. apply resolve_back; lia.
Qed.
Lemma p_c121_from_end_chars s cs n i j : Text s cs -> Fits s -> count_chars s = Ok n -> (0 <= i)%Z -> (0 <= j <= 0x7FFFFFFFFFFFFFFF)%Z ->
  (i < j < Z.of_N n -> get_char_substring s (i - Z.of_N n) (j - Z.of_N n) = get_char_substring s i j)%Z /\
  (i < Z.of_N n -> get_char_substring s (i - Z.of_N n) j = get_char_substring s i j)%Z.
Proof.
  intros HT HF HN Hi Hj. destruct (Chars_exist s cs HT) as (ps & HC & <-). assert (length ps <= length (concat ps))%nat as HL by (now apply nonempty_length, chars_ne).
  rewrite (count_chars_spec ps HC HF) in HN. injection HN as <-. pose proof HF as HF'. unfold Fits, size in HF'.
  replace (Z.of_N (N.of_nat (length ps))) with (Z.of_nat (length ps)) by lia.
  split; intros H.
  - rewrite !char_substring_ok by (auto; unfold isz, PTRDIFF_MIN, PTRDIFF_MAX, char_in_order; lia). do 2 f_equal. apply units_resolve; apply resolve_back; lia.
  - rewrite !char_substring_ok by (auto; unfold isz, PTRDIFF_MIN, PTRDIFF_MAX, char_in_order; lia). do 2 f_equal. apply units_resolve; [|reflexivity]. apply resolve_back; lia.
Qed.
(** Pieces of two texts put together. *)
Lemma p_c121_concat s cs t ts n i j : Text s cs -> Text t ts -> Fits (s ++ t) -> count_codepoints s = Ok n -> index i -> index j -> exists a b,
  get_codepoint_substring s i j = Ok a /\ get_codepoint_substring t (Z.max 0 (i - Z.of_N n)) (Z.max 0 (j - Z.of_N n)) = Ok b /\
  get_codepoint_substring (s ++ t) i j = Ok (a ++ b).
Proof.
  intros Hs Ht HF HN Hi Hj. destruct (SliceLemmas.Text_Codepoints s cs Hs) as (ps & HP & <- & _). destruct (SliceLemmas.Text_Codepoints t ts Ht) as (qs & HQ & <- & _).
  assert (Fits (concat ps)) as F1 by (now apply Fits_app_l in HF). assert (Fits (concat qs)) as F2 by (now apply Fits_app_r in HF).
  assert (CodeUnits ps) as C1 by (now left). assert (CodeUnits qs) as C2 by (now left). rewrite (count_code_units ps C1 F1) in HN. injection HN as <-.
  replace (Z.of_N (N.of_nat (length ps))) with (Z.of_nat (length ps)) by lia. unfold index in *.
  exists (concat (units_between ps i j)), (concat (units_between qs (Z.max 0 (i - Z.of_nat (length ps))) (Z.max 0 (j - Z.of_nat (length ps))))).
  rewrite <- !concat_app, <- units_concat_app by lia. rewrite <- concat_app in HF.
  split; [|split]; apply cp_substring_ok; auto; try (unfold cp_ok, in_order; lia). left. now apply Codepoints_app.
Qed.
Lemma Chars_app ps qs t : Chars ps -> Chars qs -> concat qs = t -> (t = [] \/ exists d ds, Text t (d :: ds) /\ combining d = false) -> Chars (ps ++ qs).
Proof.
  intros [P1 P2] [Q1 Q2] <- HT. split; [now apply Forall_app|].
  destruct ps as [|p ps]; [exact Q2|]. cbn [app tl] in *. apply Forall_app. split; [exact P2|].
  destruct qs as [|q qs]; [constructor|]. cbn [tl] in Q2. constructor; [|exact Q2]. apply Forall_cons_iff in Q1. destruct Q1 as [(g & c & u & us & -> & Hg & HU & HM) _].
  exists g, c, u. split; [reflexivity|]. split; [exact Hg|]. cbn [concat] in HT. rewrite <- app_assoc in HT. destruct HT as [E|(d & ds & HT & Hd)].
  - apply app_eq_nil in E. destruct E as [-> _]. apply uchar_length in Hg. cbn in Hg. lia.
  - apply Text_cons_inv in HT. destruct HT as (g' & t' & E & Hg' & _). destruct (uchar_prefix_unique g c _ g' d t' Hg Hg' E) as (_ & -> & _).
    rewrite mark_combining by (now apply uchar_bound in Hg). exact Hd.
Qed.
Lemma p_c121_concat_chars s cs t ts n i j : Text s cs -> Text t ts -> (forall d ds, ts = d :: ds -> combining d = false) ->
  Fits (s ++ t) -> count_chars s = Ok n -> index i -> index j -> exists a b,
  get_char_substring s i j = Ok a /\ get_char_substring t (Z.max 0 (i - Z.of_N n)) (Z.max 0 (j - Z.of_N n)) = Ok b /\
  get_char_substring (s ++ t) i j = Ok (a ++ b).
Proof.
  intros Hs Ht Hd HF HN Hi Hj. destruct (Chars_exist s cs Hs) as (ps & HP & <-). destruct (Chars_exist t ts Ht) as (qs & HQ & Eq).
  assert (Chars (ps ++ qs)) as HC.
  { eapply Chars_app; eauto. destruct ts as [|d ds]; [left; now apply Text_nil_inv|right]. exists d, ds. split; [exact Ht|eauto]. }
  subst t.
  assert (Fits (concat ps)) as F1 by (now apply Fits_app_l in HF). assert (Fits (concat qs)) as F2 by (now apply Fits_app_r in HF).
  rewrite (count_chars_spec ps HP F1) in HN. injection HN as <-.
  replace (Z.of_N (N.of_nat (length ps))) with (Z.of_nat (length ps)) by lia. unfold index in *.
  exists (concat (units_between ps i j)), (concat (units_between qs (Z.max 0 (i - Z.of_nat (length ps))) (Z.max 0 (j - Z.of_nat (length ps))))).
  rewrite <- !concat_app, <- units_concat_app by lia. rewrite <- concat_app in HF.
  split; [|split]; apply char_substring_ok; auto; unfold isz, PTRDIFF_MIN, PTRDIFF_MAX, char_in_order; lia.
Qed.
(** Positions. *)
Lemma position_app (ps qs : list str) k p : (0 <= k)%Z -> position qs k = p -> p <> npos ->
  position (ps ++ qs) (Z.of_nat (length ps) + k) = size (concat ps) + p.
Proof.
  intros Hk <-. unfold position. destruct (Z.ltb_spec (Z.of_nat (length qs)) (Z.abs k)) as [L|L]; [congruence|]. intros _.
  rewrite app_length. destruct (Z.ltb_spec (Z.of_nat (length ps + length qs)) (Z.abs (Z.of_nat (length ps) + k))); [lia|].
  unfold offset_of. rewrite !resolve_nonneg by lia. rewrite firstn_app. rewrite firstn_all2 by lia.
  rewrite concat_app, size_app. do 2 f_equal. f_equal. f_equal. lia.
Qed.
Lemma p_c121_position s cs t ts n k p : Text s cs -> Text t ts -> Fits (s ++ t) -> count_codepoints s = Ok n -> (0 <= k)%Z ->
  get_codepoint_pos t k = Ok p -> p <> npos -> cp_ok k -> get_codepoint_pos (s ++ t) (Z.of_N n + k) = Ok (size s + p).
Proof.
  intros Hs Ht HF HN Hk HP Hne Hc. destruct (SliceLemmas.Text_Codepoints s cs Hs) as (ps & HPs & <- & _). destruct (SliceLemmas.Text_Codepoints t ts Ht) as (qs & HQ & <- & _).
  assert (Fits (concat ps)) as F1 by (now apply Fits_app_l in HF). assert (Fits (concat qs)) as F2 by (now apply Fits_app_r in HF).
  assert (CodeUnits ps) as C1 by (now left). assert (CodeUnits qs) as C2 by (now left). rewrite (count_code_units ps C1 F1) in HN. injection HN as <-.
  replace (Z.of_N (N.of_nat (length ps))) with (Z.of_nat (length ps)) by lia.
  rewrite get_codepoint_pos_spec in HP by assumption. injection HP as HP.
  assert (Z.abs k <= Z.of_nat (length qs))%Z as HL.
  { unfold position in HP. destruct (Z.ltb_spec (Z.of_nat (length qs)) (Z.abs k)); [congruence|lia]. }
  pose proof (units_le ps C1). pose proof (units_le qs C2). pose proof HF as HF'. unfold Fits in HF'. rewrite size_app in HF'. unfold size in HF'.
  rewrite <- concat_app in *. rewrite get_codepoint_pos_spec; [|left; now apply Codepoints_app|exact HF|unfold cp_ok in *; lia].
  f_equal. now apply position_app.
Qed.
Lemma p_c121_position_chars s cs t ts n k p : Text s cs -> Text t ts -> (forall d ds, ts = d :: ds -> combining d = false) ->
  Fits (s ++ t) -> count_chars s = Ok n -> (0 <= k)%Z ->
  get_char_pos t k = Ok p -> p <> npos -> get_char_pos (s ++ t) (Z.of_N n + k) = Ok (size s + p).
Proof.
  intros Hs Ht Hd HF HN Hk HP Hne. destruct (Chars_exist s cs Hs) as (ps & HPs & <-). destruct (Chars_exist t ts Ht) as (qs & HQ & Eq).
  assert (Chars (ps ++ qs)) as HC.
  { eapply Chars_app; eauto. destruct ts as [|d ds]; [left; now apply Text_nil_inv|right]. exists d, ds. split; [exact Ht|eauto]. }
  subst t. assert (Fits (concat ps)) as F1 by (now apply Fits_app_l in HF). assert (Fits (concat qs)) as F2 by (now apply Fits_app_r in HF).
  rewrite (count_chars_spec ps HPs F1) in HN. injection HN as <-.
  replace (Z.of_N (N.of_nat (length ps))) with (Z.of_nat (length ps)) by lia.
  rewrite get_char_pos_spec in HP by auto. injection HP as HP. rewrite <- concat_app in *. rewrite get_char_pos_spec by auto.
  f_equal. now apply position_app.
Qed.
