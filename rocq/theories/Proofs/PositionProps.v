(** C21-C30, C35 in the form in which they are stated. *)
From Verif Require Import Base Spec.Utf8Spec Spec.Strings Spec.Slices Model.Decode Model.Encode Model.Subrange Model.Search
  Model.CharClass Model.Chars
  Proofs.Utf8Lemmas Proofs.CodepointLemmas Proofs.SearchLemmas Proofs.SliceLemmas Proofs.CharLemmas Proofs.PieceLemmas Proofs.AnyStringLemmas.
From Coq Require Import ZifyBool ZifyNat ZifyN.
Ltac Zify.zify_post_hook ::= Z.div_mod_to_equations.

Lemma p_c21_exists s cs : Text s cs ->
  exists ps, Characters is_mark ps /\ concat ps = s /\
    forall qs, Characters is_mark qs -> concat qs = s -> qs = ps.
Proof.
  intros H. destruct (Chars_exist s cs H) as (ps & HC & E). exists ps. split; [exact HC|]. split; [exact E|].
  intros qs HQ EQ. apply Chars_unique; auto. congruence.
Qed.

Lemma p_c21_agree (ps : list str) : Characters is_mark ps -> Fits (concat ps) ->
  count_chars (concat ps) = Ok (N.of_nat (length ps)) /\
  (forall k p, nth_error ps k = Some p ->
     get_next_char_range (concat ps) (offset_of ps k) = Ok (Sub (offset_of ps k) (size p)) /\
     get_prev_char_range (concat ps) (offset_of ps (S k)) = Ok (Sub (offset_of ps k) (size p)) /\
     p <> []) /\
  get_next_char_range (concat ps) (size (concat ps)) = Ok (Sub (size (concat ps)) 0) /\
  get_prev_char_range (concat ps) 0 = Ok (Sub 0 0).
Proof.
  intros HC HF. split; [now apply count_chars_spec|]. split; [|split; [apply next_range_end|apply prev_range_begin]].
  intros k p Hp. destruct (range_at ps k p HC HF Hp) as [H1 H2]. split; [exact H1|]. split; [exact H2|].
  destruct HC as [HC _]. rewrite Forall_forall in HC. specialize (HC p (nth_error_In _ _ Hp)). apply one_char_length in HC.
  destruct p; [cbn in HC; lia|discriminate].
Qed.

Lemma p_c22 (ps : list str) k : Characters is_mark ps -> Fits (concat ps) -> get_char_pos (concat ps) k = Ok (position ps k).
Proof. intros HC HF. now apply get_char_pos_spec. Qed.

Lemma position_both_ends (ps : list str) k : (0 <= k < Z.of_nat (length ps))%Z ->
  position ps k = position ps (k - Z.of_nat (length ps)).
Proof.
  intros H. unfold position. replace (_ <? Z.abs k)%Z with false by lia. replace (_ <? _)%Z with false by lia.
  f_equal. unfold resolve. replace (k <? 0)%Z with false by lia. replace (_ <? 0)%Z with true by lia. lia.
Qed.

Lemma p_c24_both_ends s k n : size s < 0xFFFFFFFF -> count_codepoints s = Ok n -> (0 <= k < Z.of_N n)%Z ->
  get_codepoint_pos s k = get_codepoint_pos s (k - Z.of_N n) /\ exists o, get_codepoint_pos s k = Ok o /\ o < size s.
Proof.
  intros HS HN HK. destruct (any_string_positions s HS) as (ps & E & HF & HC & HP).
  rewrite HN in HC. injection HC as ->. pose proof (nonempty_length ps HF) as HL. unfold size in HS. rewrite <- E in HS.
  rewrite nat_N_Z in *. rewrite !HP by (unfold cp_ok; lia). split.
  - f_equal. now apply position_both_ends.
  - eexists. split; [reflexivity|]. unfold position. replace (_ <? _)%Z with false by lia.
    unfold resolve. replace (k <? 0)%Z with false by lia. rewrite Nat.min_l by lia.
    destruct (nth_error ps (Z.to_nat k)) as [p|] eqn:EP.
    2:{ apply nth_error_None in EP. lia. }
    assert (p <> []) as Hp by (rewrite Forall_forall in HF; apply HF; eapply nth_error_In; eassumption).
    apply nth_error_split in EP. destruct EP as (l1 & l2 & E2 & <-). unfold offset_of. rewrite <- E, E2, firstn_length_app, concat_app, size_app.
    cbn [concat]. rewrite size_app. unfold size. destruct p; [congruence|cbn [length]; lia].
Qed.

Lemma p_c24_min s : get_codepoint_pos s (- 0x8000000000000000) = UB.
Proof. reflexivity. Qed.

Lemma p_c25 (ps : list str) k : CodeUnits ps ->
  (forall p c, (0 <= k)%Z -> nth_error ps (Z.to_nat k) = Some p -> uchar p c ->
     get_codepoint (concat ps) k = Ok (Sub (offset_of ps (Z.to_nat k)) (size p), c)) /\
  (forall p c, (- Z.of_nat (length ps) <= k < 0)%Z -> nth_error ps (Z.to_nat (Z.of_nat (length ps) + k)) = Some p -> uchar p c ->
     get_codepoint (concat ps) k = Ok (Sub (offset_of ps (Z.to_nat (Z.of_nat (length ps) + k))) (size p), c)) /\
  ((Z.of_nat (length ps) <= k)%Z -> get_codepoint (concat ps) k = Ok (Sub (size (concat ps)) 0, INVALID_CHAR)) /\
  ((k < - Z.of_nat (length ps))%Z -> get_codepoint (concat ps) k = Ok (Sub 0 0, INVALID_CHAR)).
Proof.
  intros HC. split; [|split; [|exact (get_codepoint_none ps k HC)]].
  - intros p c Hk Hn Hp. now apply (get_codepoint_fwd ps k p HC Hk Hn).
  - intros p c Hk Hn Hp. now apply (get_codepoint_bwd ps k p HC Hk Hn).
Qed.
Lemma p_c25_malformed (ps : list str) k p : CodeUnits ps -> (forall c, ~ uchar p c) ->
  ((0 <= k)%Z -> nth_error ps (Z.to_nat k) = Some p -> get_codepoint (concat ps) k = Throw YstringException) /\
  forall n, (k < 0)%Z -> (Z.of_nat n = Z.of_nat (length ps) + k)%Z -> nth_error ps n = Some p ->
    (~ long_cont_tail (concat (firstn (S n) ps)) -> get_codepoint (concat ps) k = Throw YstringException) /\
    (long_cont_tail (concat (firstn (S n) ps)) -> get_codepoint (concat ps) k = UB).
Proof.
  intros HC Hp. split.
  - intros Hk Hn. now apply (get_codepoint_fwd ps k p HC Hk Hn).
  - intros n Hk En Hn. replace n with (Z.to_nat (Z.of_nat (length ps) + k)) in * by lia.
    now apply (get_codepoint_bwd ps k p HC ltac:(lia) Hn).
Qed.

Lemma codepoint_list s cs : Text s cs <-> exists ps, concat ps = s /\ Forall2 uchar ps cs.
Proof.
  split.
  - induction 1 as [|g c s cs Hg H (ps & <- & IH)]; [exists []; split; [reflexivity|constructor]|].
    exists (g :: ps). split; [reflexivity|now constructor].
  - intros (ps & <- & H). induction H; cbn; [constructor|now constructor].
Qed.

Lemma Forall2_Codepoints ps cs : Forall2 uchar ps cs -> Codepoints ps.
Proof. induction 1; constructor; eauto. Qed.

Lemma p_c26_end (ps : list str) i j : CodeUnits ps -> Fits (concat ps) -> cp_ok i -> cp_ok j -> (i < 0)%Z ->
  (Z.of_nat (length ps) <= j)%Z ->
  get_codepoint_substring (concat ps) i j = Ok (concat (units_between ps i j)).
Proof.
  intros HC HF Hi Hj Hi0 Hj0. rewrite cp_substring_crossed by (auto; lia). f_equal.
  unfold units_between. assert (resolve (length ps) j = length ps) as ->.
  { unfold resolve. replace (j <? 0)%Z with false by lia. lia. }
  rewrite offset_all. set (a := resolve (length ps) i).
  pose proof (offset_le ps a). rewrite firstn_all2.
  - rewrite firstn_all2; [reflexivity|]. rewrite skipn_length. lia.
  - rewrite (concat_firstn_skipn ps a) in *. unfold size in *. rewrite app_length in *. lia.
Qed.

Lemma is_mark_300 : is_mark 0x300 = true /\ is_mark 0x61 = false.
Proof. split; vm_compute; reflexivity. Qed.

(** "a" U+0300 "b", then "a" "b" U+0300 etc. as witnesses. *)
Lemma p_c35_refuted : reverse [xcc; x80; x61] = Ok [x61; xcc; x80] /\ reverse [x61; xcc; x80] = Ok [x61; xcc; x80].
Proof. split; vm_compute; reflexivity. Qed.

Lemma p_c26_crossed : get_codepoint_substring [x61; x62; x63; x64] (-3) 2 = Ok [x62; x63].
Proof. vm_compute. reflexivity. Qed.
Lemma p_c27_crossed : get_char_substring [x61; x62; x63; x64; x65; x66] 2 (-1) = Ok [x63] /\
  get_char_substring [x61; x62; x63; x64; x65; x66] 4 (-1) = Ok [x65; x66].
Proof. split; vm_compute; reflexivity. Qed.
Lemma p_c30_crossed :
  replace_codepoints [x61; x62; x63; x64] (-1) 4 [x78] = Throw StdOutOfRange /\
  replace_chars [x61; x62; x63; x64; x65; x66] 4 (-1) [x78] = Ok [x61; x62; x63; x64; x78; x62; x63; x64; x65; x66].
Proof. split; vm_compute; reflexivity. Qed.
Example ex_chars : Characters is_mark [[x61; xcc; x80]; [x62]].
Proof.
  destruct is_mark_300 as [H1 H2]. assert (is_mark 0x62 = false) as H3 by (vm_compute; reflexivity).
  assert (uchar [xcc; x80] 0x300) as HM by (apply (uchar2 xcc x80); unfold cont, u8; cbn; lia).
  assert (uchar [x61] 0x61) as HA by (apply (uchar1 x61); unfold u8; cbn; lia).
  assert (uchar [x62] 0x62) as HB by (apply (uchar1 x62); unfold u8; cbn; lia).
  split.
  - constructor; [|constructor; [|constructor]].
    + exists [x61], 0x61, [xcc; x80], [0x300]. split; [reflexivity|]. split; [exact HA|]. split; [now apply Text_one|].
      constructor; [exact H1|constructor].
    + exists [x62], 0x62, [], []. split; [reflexivity|]. split; [exact HB|]. split; constructor.
  - cbn [tl]. constructor; [|constructor]. exists [x62], 0x62, []. split; [reflexivity|]. auto.
Qed.

Lemma p_c30_reversed (ps : list str) i j repl : Fits (concat ps) -> (j <= i < 0)%Z ->
  (CodeUnits ps -> cp_ok i -> cp_ok j ->
     replace_codepoints (concat ps) i j repl = Ok (repl ++ concat (skipn (resolve (length ps) i) ps))) /\
  (Characters is_mark ps ->
     replace_chars (concat ps) i j repl = Ok (repl ++ concat (skipn (resolve (length ps) i) ps))).
Proof. intros. split; intros; [now apply cp_replace_reversed|now apply char_replace_reversed]. Qed.

(** The remaining sign combinations, exactly. *)
Lemma rest_from (ps : list str) k : skipn (N.to_nat (offset_of ps k)) (concat ps) = concat (skipn k ps).
Proof. rewrite (concat_firstn_skipn ps k) at 1. unfold offset_of, size. rewrite Nat2N.id. apply skipn_length_app. Qed.

Lemma firstn_min {A} (l : list A) n m : N.of_nat (length l) <= m -> firstn (N.to_nat (N.min n m)) l = firstn (N.to_nat n) l.
Proof.
  intros H. destruct (N.le_gt_cases n m) as [L|L]; [now rewrite N.min_l|].
  rewrite N.min_r by lia. rewrite !firstn_all2; [reflexivity|lia|lia].
Qed.

Lemma p_c27_crossed_exact (ps : list str) i j : Characters is_mark ps -> Fits (concat ps) -> (j < 0 <= i)%Z ->
  get_char_substring (concat ps) i j =
  Ok (if size (concat (units_before ps i)) <=? size (concat (units_between ps i j))
      then firstn (N.to_nat (size (concat (units_between ps i j)) - size (concat (units_before ps i)))) (concat (units_after ps i i))
      else concat (units_after ps i i)).
Proof.
  intros HC HF H. unfold get_char_substring. rewrite char_range_crossed by assumption. cbn [bind sub_offset sub_length].
  rewrite length_between, <- !offset_before. unfold units_after. rewrite Nat.max_id.
  set (k := resolve (length ps) i). set (d := size (concat (units_between ps i j))).
  pose proof (offset_le ps k) as LE. unfold substr. replace (_ <? _) with false by lia. rewrite rest_from. f_equal.
  rewrite firstn_min.
  2:{ rewrite (concat_firstn_skipn ps k). unfold offset_of, size. rewrite app_length. lia. }
  assert (d <= size (concat ps)) as LD.
  { unfold d. rewrite <- length_between. pose proof (offset_le ps (resolve (length ps) j)). lia. }
  destruct (N.leb_spec (offset_of ps k) d) as [L|L].
  - rewrite sub64_small; [reflexivity|exact L|]. unfold Fits, W64 in *. lia.
  - apply firstn_all2. pose proof (concat_firstn_skipn ps k) as E. apply (f_equal size) in E. rewrite size_app in E.
    fold (offset_of ps k) in E. unfold sub64. unfold Fits in HF. unfold size in E, HF, LE, LD |- *.
    rewrite (N.mod_small (offset_of ps k)) by (unfold W64; lia).
    replace ((d + (W64 - offset_of ps k)) mod W64) with (d + (W64 - offset_of ps k)); [unfold W64; lia|].
    symmetry. apply N.mod_small. unfold W64. lia.
Qed.

Lemma p_c30_chars_crossed (ps : list str) i j repl : Characters is_mark ps -> Fits (concat ps) -> (j < 0 <= i)%Z ->
  replace_chars (concat ps) i j repl =
  Ok (concat (units_before ps i) ++ repl ++ skipn (N.to_nat (size (concat (units_between ps i j)))) (concat ps)).
Proof.
  intros HC HF H. unfold replace_chars. rewrite char_range_crossed by assumption. cbn [bind].
  unfold replace_subrange, sub_start, sub_end. cbn [sub_offset sub_length].
  rewrite substr_to_offset. cbn [bind]. rewrite length_between.
  set (k := resolve (length ps) i). set (d := size (concat (units_between ps i j))).
  pose proof (offset_le ps k) as LE.
  assert (d <= size (concat ps)) as LD.
  { unfold d. rewrite <- length_between. pose proof (offset_le ps (resolve (length ps) j)). lia. }
  assert (add64 (offset_of ps k) (sub64 d (offset_of ps k)) = d) as ->.
  { unfold add64, sub64. unfold Fits in HF. rewrite (N.mod_small (offset_of ps k)) by (unfold W64; lia).
    rewrite N.add_mod_idemp_r by (unfold W64; lia).
    replace (offset_of ps k + (d + (W64 - offset_of ps k))) with (d + 1 * W64) by (unfold W64; lia).
    rewrite N.mod_add by (unfold W64; lia). apply N.mod_small. unfold W64. lia. }
  unfold substr_from, substr. replace (_ <? _) with false by lia. cbn [bind]. do 3 f_equal.
  rewrite N.min_r by (unfold npos, SIZE_MAX, Fits in *; lia). apply firstn_all2. rewrite skipn_length. unfold size. lia.
Qed.

Lemma p_c30_cp_crossed (ps : list str) i j repl : CodeUnits ps -> Fits (concat ps) -> cp_ok i -> cp_ok j -> (i < 0 <= j)%Z ->
  let e := size (concat (units_before ps i)) + N.max (size (concat (units_before ps i))) (size (concat (units_before ps j))) in
  replace_codepoints (concat ps) i j repl =
  if e <=? size (concat ps) then Ok (concat (units_before ps i) ++ repl ++ skipn (N.to_nat e) (concat ps)) else Throw StdOutOfRange.
Proof.
  intros HC HF Hi Hj H. cbv zeta. unfold replace_codepoints. rewrite cp_range_crossed by assumption. cbn [bind].
  unfold replace_subrange, sub_start, sub_end. cbn [sub_offset sub_length].
  rewrite substr_to_offset. cbn [bind]. rewrite <- !offset_before.
  pose proof (offset_le ps (resolve (length ps) i)) as LE. pose proof (offset_le ps (resolve (length ps) j)) as LF.
  rewrite add64_small by (unfold Fits, W64 in *; lia).
  set (e := _ + N.max _ _). unfold substr_from, substr. rewrite N.leb_antisym.
  destruct (N.ltb_spec (size (concat ps)) e) as [L|L]; cbn [bind negb]; [reflexivity|]. do 3 f_equal.
  rewrite N.min_r by (unfold npos, SIZE_MAX, Fits in *; lia). apply firstn_all2. rewrite skipn_length. unfold size. lia.
Qed.

(** Reversing twice restores the text exactly when it does not start with a
    mark, or is a single character. *)
Lemma Ok_inj0 {A} (x y : A) : Ok x = Ok y -> x = y.
Proof. congruence. Qed.
Lemma Fits_rev (ps : list str) : Fits (concat ps) -> Fits (concat (rev ps)).
Proof.
  assert (length (concat (rev ps)) = length (concat ps)) as E.
  { induction ps as [|p ps IH]; [reflexivity|]. cbn [rev concat]. rewrite concat_app, !app_length. cbn [concat]. rewrite app_nil_r. lia. }
  unfold Fits, size. now rewrite E.
Qed.
Lemma reverse_twice_iff (ps : list str) : Characters is_mark ps -> Fits (concat ps) ->
  exists t, reverse (concat ps) = Ok t /\
    (reverse t = Ok (concat ps) <-> ((length ps <= 1)%nat \/ Forall (starts_unmarked is_mark) ps)).
Proof.
  intros HC HF. exists (concat (rev ps)). split; [now apply reverse_spec|]. split.
  - intros E. destruct ps as [|p0 [|q1 ps]]; [left; cbn; lia|left; cbn; lia|right].
    destruct HC as [H1 H2]. cbn [tl] in H2. constructor; [|exact H2]. inversion H1 as [|? ? Hp0 H1']; subst. inversion H1' as [|? ? Hq1 H1'']; subst.
    inversion H2 as [|? ? Uq1 H2']; subst.
    pose proof Hp0 as (g & c & u & us & E0 & Hg & HU & HM). destruct (is_mark c) eqn:Ec; [|exists g, c, u; auto].
    exfalso. assert (Hrs : Characters is_mark (rev ps ++ [q1 ++ p0])).
    { split.
      - apply Forall_app. split; [now apply Forall_rev'|]. constructor; [|constructor].
        destruct Hq1 as (g' & c' & u' & us' & -> & Hg' & HU' & HM'). exists g', c', (u' ++ g ++ u), (us' ++ c :: us). subst p0.
        split; [now rewrite <- !app_assoc|]. split; [exact Hg'|]. split; [apply Text_app; [exact HU'|now constructor]|].
        apply Forall_app. split; [exact HM'|now constructor].
      - apply Forall_tl, Forall_app. split; [now apply Forall_rev'|]. constructor; [|constructor].
        destruct Uq1 as (g' & c' & t' & -> & Hg' & Hc'). exists g', c', (t' ++ p0). rewrite <- app_assoc. auto. }
    assert (Erev : concat (rev (p0 :: q1 :: ps)) = concat (rev ps ++ [q1 ++ p0])).
    { cbn [rev]. rewrite <- app_assoc, !concat_app. cbn [concat app]. now rewrite !app_nil_r. }
    rewrite Erev in E. rewrite reverse_spec in E; [|exact Hrs|rewrite <- Erev; now apply Fits_rev].
    apply Ok_inj0 in E. rewrite rev_app_distr, rev_involutive in E. cbn [rev app concat] in E.
    destruct Uq1 as (g' & c' & t' & -> & Hg' & Hc'). rewrite E0, <- !app_assoc in E.
    destruct (uchar_prefix_unique _ _ _ _ _ _ Hg' Hg E) as (_ & -> & _). congruence.
  - intros [HL|HU].
    + destruct ps as [|p [|]]; cbn in HL; try lia; cbn [rev app]; now apply reverse_spec.
    + destruct (reverse_involutive ps HC HU HF) as (t & E1 & E2). rewrite reverse_spec in E1 by assumption. apply Ok_inj0 in E1. now subst t.
Qed.
