(** Slices, insertion and replacement by characters in malformed text. *)
From Verif Require Import Base Spec.Utf8Spec Spec.Strings Spec.Slices Model.Decode Model.Encode Model.Subrange Model.Search
  Model.CharClass Model.Chars
  Proofs.Utf8Lemmas Proofs.DecodeLemmas Proofs.SkipLemmas Proofs.EncodeLemmas Proofs.CodepointLemmas Proofs.SearchLemmas
  Proofs.SliceLemmas Proofs.CharLemmas Proofs.CharMalformed.
From Coq Require Import ZifyBool ZifyNat ZifyN.
Ltac Zify.zify_post_hook ::= Z.div_mod_to_equations.

Lemma replace_mid a b c t : Fits (a ++ b ++ c) -> replace_subrange (a ++ b ++ c) (Sub (size a) (size b)) t = Ok (a ++ t ++ c).
Proof.
  intros HF. unfold replace_subrange, sub_start, sub_end. cbn [sub_offset sub_length]. rewrite substr_prefix by reflexivity. cbn [bind].
  rewrite add64_small by (unfold Fits, W64 in *; rewrite !size_app in HF; lia). rewrite app_assoc in HF |- *.
  rewrite substr_from_app; [reflexivity|now rewrite size_app|exact HF].
Qed.
Lemma insert_mid a b t : Fits (a ++ b) -> insert_at_offset_str (a ++ b) (size a) t = Ok (a ++ t ++ b).
Proof.
  intros HF. unfold insert_at_offset_str. destruct t as [|x t]; [reflexivity|].
  pose proof (Fits_npos _ HF). rewrite size_app in H. replace (_ =? npos) with false by lia.
  rewrite substr_prefix by reflexivity. cbn [bind]. rewrite substr_from_app by auto. reflexivity.
Qed.
Lemma insert_mid_cp a b c : Fits (a ++ b) -> c <= 0x10FFFF -> exists g, encodes g c /\ insert_at_offset_cp (a ++ b) (size a) c = Ok (a ++ g ++ b).
Proof.
  intros HF Hc. unfold insert_at_offset_cp. pose proof (Fits_npos _ HF). rewrite size_app in H. replace (_ =? npos) with false by lia.
  rewrite substr_prefix by reflexivity. cbn [bind]. destruct (append_ok a c Hc) as (g & Hg & _ & ->). cbn [bind].
  rewrite substr_from_app by auto. cbn [bind]. exists g. split; [exact Hg|]. now rewrite <- app_assoc.
Qed.
Lemma bad_omap {A B} r (x : outcome A) (y : outcome B) (f : A -> outcome B) : bad_end r x -> y = bind x f -> bad_end r y.
Proof. intros H ->. now apply bad_bind. Qed.
Lemma cut_at (ps : list str) k : concat ps = concat (firstn k ps) ++ concat (skipn k ps).
Proof. apply concat_firstn_skipn. Qed.

(** *** From the start *)
Lemma p_c29_bad ps r k c t : Chars ps -> Fits (concat ps ++ r) -> Malformed r -> (0 <= k)%Z ->
  ((k = 0 \/ k < Z.of_nat (length ps))%Z ->
     insert_chars (concat ps ++ r) k t = Ok (concat (units_before ps k) ++ t ++ concat (units_after ps k k) ++ r) /\
     (c <= 0x10FFFF -> exists g, encodes g c /\
        insert_char (concat ps ++ r) k c = Ok (concat (units_before ps k) ++ g ++ concat (units_after ps k k) ++ r))) /\
  ((k <> 0 /\ Z.of_nat (length ps) <= k)%Z ->
     insert_chars (concat ps ++ r) k t = Throw YstringException /\ insert_char (concat ps ++ r) k c = Throw YstringException).
Proof.
  intros HC HF HM Hk. destruct (p_c22_malformed ps r k HC HF HM Hk) as [H1 H2]. unfold insert_chars, insert_char. split; intros H.
  - rewrite (H1 H). cbn [bind]. unfold units_before, units_after. rewrite Nat.max_id.
    assert (resolve (length ps) k = Z.to_nat k) as -> by (unfold resolve; replace (k <? 0)%Z with false by lia; lia).
    unfold offset_of. rewrite (cut_at ps (Z.to_nat k)), <- app_assoc in HF |- *. set (a := concat (firstn _ ps)) in *. set (b := concat (skipn _ ps)) in *. split.
    + now apply insert_mid.
    + intros Hc. now apply insert_mid_cp.
  - rewrite (H2 H). auto.
Qed.

Definition reach (n i j : Z) : Prop := (i = 0 \/ i < n)%Z /\ (j <= i \/ j < n)%Z.
Lemma Chars_skip ps k : Chars ps -> Chars (skipn k ps).
Proof. apply Chars_skipn. Qed.
Lemma capped_fwd_bad ps r k : Chars ps -> Fits (concat ps ++ r) -> Malformed r -> (0 <= k)%Z ->
  get_capped_char_pos (concat ps ++ r) k = if (k =? 0)%Z || (k <? Z.of_nat (length ps))%Z then Ok (offset_of ps (Z.to_nat k)) else Throw YstringException.
Proof.
  intros HC HF HM Hk. unfold get_capped_char_pos. rewrite get_char_pos_fwd_bad by assumption. destruct (_ || _); [|reflexivity]. cbn [bind].
  pose proof (offset_below ps r (Z.to_nat k) HF). replace (_ =? npos) with false by (symmetry; now apply N.eqb_neq). reflexivity.
Qed.
Lemma range_fwd_bad ps r i j : Chars ps -> Fits (concat ps ++ r) -> Malformed r -> (0 <= i)%Z -> (0 <= j)%Z -> isz i -> isz j ->
  (reach (Z.of_nat (length ps)) i j ->
     get_char_substring_range (concat ps ++ r) i j = Ok (Sub (size (concat (units_before ps i))) (size (concat (units_between ps i j))))) /\
  (~ reach (Z.of_nat (length ps)) i j -> get_char_substring_range (concat ps ++ r) i j = Throw YstringException).
Proof.
  intros HC HF HM Hi Hj Zi Zj. unfold get_char_substring_range. cbv zeta.
  replace (0 <=? i)%Z with true by lia. replace (0 <=? j)%Z with true by lia. cbn [Bool.eqb]. rewrite andb_true_r.
  set (j' := if (j <? i)%Z then i else j). assert (j' = Z.max i j) as Ej by (unfold j'; destruct (Z.ltb_spec j i); lia). rewrite Ej. clear j' Ej.
  replace (0 <=? Z.max i j)%Z with true by lia. cbn [andb]. rewrite capped_fwd_bad by assumption. unfold reach.
  destruct ((i =? 0)%Z || (i <? Z.of_nat (length ps))%Z) eqn:E1; [|split; [intros; lia|reflexivity]].
  cbn [bind]. assert (resolve (length ps) i = Z.to_nat i) as Ri by (unfold resolve; replace (i <? 0)%Z with false by lia; lia).
  assert (substr_from (concat ps ++ r) (offset_of ps (Z.to_nat i)) = Ok (concat (skipn (Z.to_nat i) ps) ++ r)) as ->.
  { rewrite (cut_at ps (Z.to_nat i)), <- app_assoc in HF |- *. now apply substr_from_app. }
  cbn [bind]. unfold signed. replace (is_ptrdiff _) with true by (unfold is_ptrdiff, isz, PTRDIFF_MAX, PTRDIFF_MIN in *; lia). cbn [bind].
  rewrite capped_fwd_bad; [|now apply Chars_skip| |exact HM|lia].
  2:{ rewrite (cut_at ps (Z.to_nat i)), <- app_assoc in HF. unfold Fits in *. rewrite !size_app in *. lia. }
  rewrite skipn_length. replace (Z.of_nat (length ps - Z.to_nat i)) with (Z.max 0 (Z.of_nat (length ps) - i)) by lia.
  destruct ((Z.max i j - i =? 0)%Z || (Z.max i j - i <? Z.max 0 (Z.of_nat (length ps) - i))%Z) eqn:E2; cbn [bind];
    (split; intros K; [try (exfalso; lia)|try (exfalso; lia); try reflexivity]).
  do 2 f_equal.
  - unfold units_before. now rewrite Ri.
  - unfold offset_of, units_between. rewrite Ri.
    assert (resolve (length ps) j - Z.to_nat i = Z.to_nat (Z.max i j - i))%nat as -> by (unfold resolve; replace (j <? 0)%Z with false by lia; lia). reflexivity.
Qed.
Lemma p_c27_bad ps r i j t : Chars ps -> Fits (concat ps ++ r) -> Malformed r -> (0 <= i)%Z -> (0 <= j)%Z -> isz i -> isz j ->
  (((i = 0 \/ i < Z.of_nat (length ps)) /\ (j <= i \/ j < Z.of_nat (length ps)))%Z ->
     get_char_substring (concat ps ++ r) i j = Ok (concat (units_between ps i j)) /\
     replace_chars (concat ps ++ r) i j t = Ok (concat (units_before ps i) ++ t ++ concat (units_after ps i j) ++ r)) /\
  ((i <> 0 /\ Z.of_nat (length ps) <= i \/ i < j /\ Z.of_nat (length ps) <= j)%Z ->
     get_char_substring (concat ps ++ r) i j = Throw YstringException /\ replace_chars (concat ps ++ r) i j t = Throw YstringException).
Proof.
  intros HC HF HM Hi Hj Zi Zj. destruct (range_fwd_bad ps r i j HC HF HM Hi Hj Zi Zj) as [H1 H2]. unfold get_char_substring, replace_chars. split; intros H.
  - rewrite (H1 H). cbn [bind sub_offset sub_length]. rewrite (units_concat ps i j) in HF |- *. rewrite <- !app_assoc in *. split; [now apply substr_mid|now apply replace_mid].
  - rewrite H2 by (unfold reach; lia). auto.
Qed.

(** *** From the end *)
Lemma p_c29_bad_end r m us ps k c t : Text m us -> marks us -> MalformedEnd r -> unmarked_chars ps -> Fits (r ++ m ++ concat ps) -> (k < 0)%Z ->
  ((- k <= Z.of_nat (length ps))%Z ->
     insert_chars (r ++ m ++ concat ps) k t = Ok (r ++ m ++ concat (units_before ps k) ++ t ++ concat (units_after ps k k)) /\
     (c <= 0x10FFFF -> exists g, encodes g c /\
        insert_char (r ++ m ++ concat ps) k c = Ok (r ++ m ++ concat (units_before ps k) ++ g ++ concat (units_after ps k k)))) /\
  ((Z.of_nat (length ps) < - k)%Z -> bad_end r (insert_chars (r ++ m ++ concat ps) k t) /\ bad_end r (insert_char (r ++ m ++ concat ps) k c)).
Proof.
  intros HT HM HR HC HF Hk. destruct (get_char_pos_bwd_bad r m us ps k HT HM HR HC HF Hk) as [H1 H2]. unfold insert_chars, insert_char. split; intros H.
  - rewrite (H1 H). cbn [bind]. unfold units_before, units_after. rewrite Nat.max_id.
    assert (resolve (length ps) k = length ps - Z.to_nat (- k))%nat as -> by (unfold resolve; replace (k <? 0)%Z with true by lia; lia).
    rewrite (cut_at ps (length ps - Z.to_nat (- k))) in HF |- *.
    assert (forall x, r ++ m ++ concat (firstn (length ps - Z.to_nat (- k)) ps) ++ x = (r ++ m ++ concat (firstn (length ps - Z.to_nat (- k)) ps)) ++ x) as A
      by (intros; now rewrite <- !app_assoc). rewrite A in HF. rewrite !A. split.
    + now apply insert_mid.
    + intros Hc. destruct (insert_mid_cp _ _ c HF Hc) as (g & Hg & E). exists g. split; [exact Hg|]. now rewrite E, A.
  - split; apply bad_bind; now apply H2.
Qed.
Lemma unmarked_firstn ps k : unmarked_chars ps -> unmarked_chars (firstn k ps).
Proof. intros [H1 H2]. split; apply Forall_forall; intros x Hx; [rewrite Forall_forall in H1; apply H1|rewrite Forall_forall in H2; apply H2]; rewrite <- (firstn_skipn k ps); apply in_or_app; now left. Qed.
Lemma capped_bwd_bad r m us ps k : Text m us -> marks us -> MalformedEnd r -> unmarked_chars ps -> Fits (r ++ m ++ concat ps) -> (k < 0)%Z ->
  ((- k <= Z.of_nat (length ps))%Z ->
     get_capped_char_pos (r ++ m ++ concat ps) k = Ok (size (r ++ m ++ concat (firstn (length ps - Z.to_nat (- k)) ps)))) /\
  ((Z.of_nat (length ps) < - k)%Z -> bad_end r (get_capped_char_pos (r ++ m ++ concat ps) k)).
Proof.
  intros HT HM HR HC HF Hk. destruct (get_char_pos_bwd_bad r m us ps k HT HM HR HC HF Hk) as [H1 H2]. unfold get_capped_char_pos. split; intros H.
  - rewrite (H1 H). cbn [bind]. pose proof (Fits_npos _ HF) as L. rewrite (cut_at ps (length ps - Z.to_nat (- k))) in L. rewrite !size_app in *.
    replace (_ =? npos) with false by lia. reflexivity.
  - apply bad_bind; auto.
Qed.
Lemma range_bwd_bad r m us ps i j : Text m us -> marks us -> MalformedEnd r -> unmarked_chars ps -> Fits (r ++ m ++ concat ps) ->
  (i < j < 0)%Z -> isz i ->
  ((- i <= Z.of_nat (length ps))%Z ->
     get_char_substring_range (r ++ m ++ concat ps) i j = Ok (Sub (size (r ++ m ++ concat (units_before ps i))) (size (concat (units_between ps i j))))) /\
  ((Z.of_nat (length ps) < - i)%Z -> bad_end r (get_char_substring_range (r ++ m ++ concat ps) i j)).
Proof.
  intros HT HM HR HC HF H Zi. unfold get_char_substring_range. cbv zeta.
  replace (j <? i)%Z with false by lia. cbn [andb]. replace (0 <=? i)%Z with false by lia. replace (i <? 0)%Z with true by lia. replace (j <? 0)%Z with true by lia. cbn [andb].
  destruct (capped_bwd_bad r m us ps j HT HM HR HC HF (proj2 H)) as [J1 J2].
  destruct (Z.le_gt_cases (- j) (Z.of_nat (length ps))) as [L|L].
  2:{ split; intros K; [lia|]. apply bad_bind. apply J2. lia. }
  rewrite (J1 L). cbn [bind]. set (b := (length ps - Z.to_nat (- j))%nat).
  assert (substr (r ++ m ++ concat ps) 0 (size (r ++ m ++ concat (firstn b ps))) = Ok (r ++ m ++ concat (firstn b ps))) as ->.
  { rewrite (cut_at ps b) at 1. assert (r ++ m ++ concat (firstn b ps) ++ concat (skipn b ps) = (r ++ m ++ concat (firstn b ps)) ++ concat (skipn b ps)) as -> by now rewrite <- !app_assoc.
    now apply substr_prefix. }
  cbn [bind]. unfold signed. replace (is_ptrdiff (i - j)) with true by (unfold is_ptrdiff, isz, PTRDIFF_MAX, PTRDIFF_MIN in *; lia). cbn [bind].
  assert (Fits (r ++ m ++ concat (firstn b ps))) as HF' by (rewrite (cut_at ps b) in HF; unfold Fits in *; rewrite !size_app in *; lia).
  destruct (capped_bwd_bad r m us (firstn b ps) (i - j) HT HM HR (unmarked_firstn ps b HC) HF' ltac:(lia)) as [I1 I2].
  rewrite firstn_length in I1, I2. rewrite Nat.min_l in I1, I2 by (unfold b; lia).
  split; intros K; [|apply bad_bind, I2; unfold b; lia].
  rewrite I1 by (unfold b; lia). cbn [bind]. assert (resolve (length ps) i = b - Z.to_nat (- (i - j)))%nat as Ri by (unfold b, resolve; replace (i <? 0)%Z with true by lia; lia).
  assert (resolve (length ps) j = b)%nat as Rj by (unfold b, resolve; replace (j <? 0)%Z with true by lia; lia).
  rewrite firstn_firstn, Nat.min_l by lia. rewrite <- Ri. unfold units_before, units_between. rewrite Rj. do 2 f_equal.
  assert (firstn b ps = firstn (resolve (length ps) i) ps ++ firstn (b - resolve (length ps) i) (skipn (resolve (length ps) i) ps)) as ->.
  { rewrite firstn_skipn_comm. replace (resolve (length ps) i + (b - resolve (length ps) i))%nat with b by lia.
    rewrite <- (firstn_skipn (resolve (length ps) i) (firstn b ps)) at 1. rewrite firstn_firstn, Nat.min_l by lia. reflexivity. }
  set (x := firstn (resolve _ i) ps) in *. set (y := firstn _ (skipn _ ps)).
  assert (size (concat (x ++ y)) = size (concat x) + size (concat y)) as E by now rewrite concat_app, size_app.
  rewrite !size_app, E in *. rewrite sub64_small; [lia|lia|].
  assert (size (concat (x ++ y)) <= size (concat ps)).
  { rewrite (cut_at ps b), size_app. unfold x, y.
    assert (firstn b ps = firstn (resolve (length ps) i) ps ++ firstn (b - resolve (length ps) i) (skipn (resolve (length ps) i) ps)) as <-; [|lia].
    rewrite firstn_skipn_comm. replace (resolve (length ps) i + (b - resolve (length ps) i))%nat with b by lia.
    rewrite <- (firstn_skipn (resolve (length ps) i) (firstn b ps)) at 1. rewrite firstn_firstn, Nat.min_l by lia. reflexivity. }
  unfold Fits in HF. rewrite !size_app in HF. unfold W64. lia.
Qed.
Lemma p_c27_bad_end r m us ps i j t : Text m us -> marks us -> MalformedEnd r -> unmarked_chars ps -> Fits (r ++ m ++ concat ps) ->
  (i < j < 0)%Z -> isz i ->
  ((- i <= Z.of_nat (length ps))%Z ->
     get_char_substring (r ++ m ++ concat ps) i j = Ok (concat (units_between ps i j)) /\
     replace_chars (r ++ m ++ concat ps) i j t = Ok (r ++ m ++ concat (units_before ps i) ++ t ++ concat (units_after ps i j))) /\
  ((Z.of_nat (length ps) < - i)%Z ->
     bad_end r (get_char_substring (r ++ m ++ concat ps) i j) /\ bad_end r (replace_chars (r ++ m ++ concat ps) i j t)).
Proof.
  intros HT HM HR HC HF H Zi. destruct (range_bwd_bad r m us ps i j HT HM HR HC HF H Zi) as [H1 H2]. unfold get_char_substring, replace_chars. split; intros K.
  - rewrite (H1 K). cbn [bind sub_offset sub_length]. rewrite (units_concat ps i j) in HF |- *.
    assert (forall x, r ++ m ++ concat (units_before ps i) ++ x = (r ++ m ++ concat (units_before ps i)) ++ x) as A by (intros; now rewrite <- !app_assoc).
    rewrite A in HF. rewrite !A. split; [now apply substr_mid|now apply replace_mid].
  - split; apply bad_bind; auto.
Qed.
Lemma p_c27_bad' ps r i j : Chars ps -> Fits (concat ps ++ r) -> Malformed r -> (0 <= i)%Z -> (0 <= j)%Z -> isz i -> isz j ->
  (((i = 0 \/ i < Z.of_nat (length ps)) /\ (j <= i \/ j < Z.of_nat (length ps)))%Z ->
     get_char_substring (concat ps ++ r) i j = Ok (concat (units_between ps i j))) /\
  ((i <> 0 /\ Z.of_nat (length ps) <= i \/ i < j /\ Z.of_nat (length ps) <= j)%Z ->
     get_char_substring (concat ps ++ r) i j = Throw YstringException).
Proof. intros HC HF HM Hi Hj Zi Zj. destruct (p_c27_bad ps r i j [] HC HF HM Hi Hj Zi Zj) as [H1 H2]. split; intros H; [apply (proj1 (H1 H))|apply (proj1 (H2 H))]. Qed.
Lemma p_c30_bad' ps r i j t : Chars ps -> Fits (concat ps ++ r) -> Malformed r -> (0 <= i)%Z -> (0 <= j)%Z -> isz i -> isz j ->
  (((i = 0 \/ i < Z.of_nat (length ps)) /\ (j <= i \/ j < Z.of_nat (length ps)))%Z ->
     replace_chars (concat ps ++ r) i j t = Ok (concat (units_before ps i) ++ t ++ concat (units_after ps i j) ++ r)) /\
  ((i <> 0 /\ Z.of_nat (length ps) <= i \/ i < j /\ Z.of_nat (length ps) <= j)%Z ->
     replace_chars (concat ps ++ r) i j t = Throw YstringException).
Proof. intros HC HF HM Hi Hj Zi Zj. destruct (p_c27_bad ps r i j t HC HF HM Hi Hj Zi Zj) as [H1 H2]. split; intros H; [apply (proj2 (H1 H))|apply (proj2 (H2 H))]. Qed.
Lemma p_c27_bad_end' r m us ps i j : Text m us -> marks us -> MalformedEnd r -> unmarked_chars ps -> Fits (r ++ m ++ concat ps) ->
  (i < j < 0)%Z -> isz i ->
  ((- i <= Z.of_nat (length ps))%Z -> get_char_substring (r ++ m ++ concat ps) i j = Ok (concat (units_between ps i j))) /\
  ((Z.of_nat (length ps) < - i)%Z -> bad_end r (get_char_substring (r ++ m ++ concat ps) i j)).
Proof. intros HT HM HR HC HF H Zi. destruct (p_c27_bad_end r m us ps i j [] HT HM HR HC HF H Zi) as [H1 H2]. split; intros K; [apply (proj1 (H1 K))|apply (proj1 (H2 K))]. Qed.
Lemma p_c30_bad_end' r m us ps i j t : Text m us -> marks us -> MalformedEnd r -> unmarked_chars ps -> Fits (r ++ m ++ concat ps) ->
  (i < j < 0)%Z -> isz i ->
  ((- i <= Z.of_nat (length ps))%Z ->
     replace_chars (r ++ m ++ concat ps) i j t = Ok (r ++ m ++ concat (units_before ps i) ++ t ++ concat (units_after ps i j))) /\
  ((Z.of_nat (length ps) < - i)%Z -> bad_end r (replace_chars (r ++ m ++ concat ps) i j t)).
Proof. intros HT HM HR HC HF H Zi. destruct (p_c27_bad_end r m us ps i j t HT HM HR HC HF H Zi) as [H1 H2]. split; intros K; [apply (proj2 (H1 K))|apply (proj2 (H2 K))]. Qed.
