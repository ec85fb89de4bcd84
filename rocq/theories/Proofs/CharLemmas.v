(** Characters: a code point and its marks. *)
From Verif Require Import Base Spec.Utf8Spec Spec.Strings Spec.Slices Model.Decode Model.Encode Model.Subrange Model.Search
  Model.CharClass Model.Chars
  Proofs.Utf8Lemmas Proofs.DecodeLemmas Proofs.SkipLemmas Proofs.EncodeLemmas Proofs.CodepointLemmas Proofs.SearchLemmas
  Proofs.SliceLemmas.
From Coq Require Import ZifyBool ZifyNat ZifyN.
Ltac Zify.zify_post_hook ::= Z.div_mod_to_equations.

Notation Chars := (Characters is_mark).
Notation marks := (Forall (fun m => is_mark m = true)).

(** [v] ends a character: it is empty or starts with an unmarked code point. *)
Definition char_end (v : str) : Prop := v = [] \/ starts_unmarked is_mark v.

Lemma next_char_loop_spec us : forall pre u v fuel, Text u us -> marks us -> char_end v -> (length us < fuel)%nat ->
  next_char_loop fuel (pre ++ u ++ v) (length pre) (length pre) = Ok (length (pre ++ u)).
Proof.
  induction us as [|c us IH]; intros pre u v [|fuel] HT HM HE Hf; try (cbn in Hf; lia).
  - apply Text_nil_inv in HT. subst u. cbn [app next_char_loop]. rewrite app_nil_r.
    destruct HE as [->|(g & c & t & -> & Hg & Hc)].
    + rewrite app_nil_r, safe_decode_next_end. reflexivity.
    + rewrite safe_decode_next_uchar with (c := c) by assumption. cbn [bind]. now rewrite Hc.
  - apply Text_cons_inv in HT. destruct HT as (g & t & -> & Hg & HT).
    apply Forall_cons_iff in HM. destruct HM as [Hc HM].
    cbn [next_char_loop]. rewrite <- (app_assoc g t v). rewrite safe_decode_next_uchar with (c := c) by assumption.
    cbn [bind]. rewrite Hc. rewrite (app_assoc pre g (t ++ v)), <- app_length. cbn in Hf.
    rewrite IH by (assumption || lia). now rewrite <- app_assoc.
Qed.

Lemma bp_size u v : begin_plus (u ++ v) (size u) = Ok (length u).
Proof. unfold size. apply begin_plus_ok. rewrite app_length. lia. Qed.

Lemma one_char_length p : one_char is_mark p -> (1 <= length p)%nat.
Proof. intros (g & c & u & us & -> & Hg & _). rewrite app_length. apply uchar_length in Hg. lia. Qed.

Lemma next_range_spec pre p v : one_char is_mark p -> char_end v -> Fits (pre ++ p ++ v) ->
  get_next_char_range (pre ++ p ++ v) (size pre) = Ok (Sub (size pre) (size p)).
Proof.
  intros (g & c & u & us & -> & Hg & HT & HM) HE HF. unfold get_next_char_range.
  rewrite bp_size. cbn [bind]. rewrite <- (app_assoc g u v).
  rewrite safe_decode_next_uchar with (c := c) by assumption. cbn [bind].
  pose proof (Text_length _ _ HT).
  rewrite (app_assoc pre g (u ++ v)), <- app_length.
  rewrite next_char_loop_spec with (us := us) by (auto; rewrite !app_length; lia). cbn [bind].
  do 2 f_equal. unfold size. rewrite sub64_small.
  - rewrite !app_length. lia.
  - rewrite !app_length. lia.
  - unfold Fits, size, W64 in *. rewrite !app_length in *. lia.
Qed.

Lemma next_range_end s : get_next_char_range s (size s) = Ok (Sub (size s) 0).
Proof.
  unfold get_next_char_range. unfold size at 1. rewrite begin_plus_ok by lia. cbn [bind].
  rewrite safe_decode_next_end. reflexivity.
Qed.

Lemma prev_char_loop_marks us : forall pre g c u v fuel, Text u us -> marks us -> uchar g c ->
  (is_mark c = false \/ pre = []) -> (S (length us) < fuel)%nat ->
  prev_char_loop fuel (pre ++ g ++ u ++ v) (length (pre ++ g ++ u)) = Ok (length pre).
Proof.
  intros pre g c u v fuel HT. revert pre g c v fuel.
  induction HT as [|g' c' u us Hg' HT IH] using Text_rev_ind; intros pre g c v [|fuel] HM Hg Hor Hf; try lia; cbn [prev_char_loop].
  - cbn [app]. rewrite app_nil_r, app_length. rewrite safe_decode_prev_uchar with (c := c) by assumption. cbn [bind].
    destruct Hor as [-> | ->]; [reflexivity|]. destruct (is_mark c); [|reflexivity].
    destruct fuel as [|fuel]; [cbn in Hf; lia|]. cbn [prev_char_loop length]. rewrite safe_decode_prev_begin. reflexivity.
  - apply Forall_app in HM. destruct HM as [HM Hc']. apply Forall_inv in Hc'.
    replace (pre ++ g ++ (u ++ g') ++ v) with ((pre ++ g ++ u) ++ g' ++ v) by now rewrite <- !app_assoc.
    replace (length (pre ++ g ++ u ++ g')) with (length (pre ++ g ++ u) + length g')%nat by (rewrite !app_length; lia).
    rewrite safe_decode_prev_uchar with (c := c') by assumption. cbn [bind]. rewrite Hc'.
    rewrite <- !app_assoc. rewrite app_length in Hf. cbn in Hf.
    eapply IH; eassumption || lia.
Qed.

Lemma prev_range_spec pre p v : one_char is_mark p -> (pre = [] \/ starts_unmarked is_mark p) -> Fits (pre ++ p ++ v) ->
  get_prev_char_range (pre ++ p ++ v) (size (pre ++ p)) = Ok (Sub (size pre) (size p)).
Proof.
  intros (g & c & u & us & -> & Hg & HT & HM) HS HF. unfold get_prev_char_range.
  rewrite app_assoc, bp_size, <- app_assoc. cbn [bind]. pose proof (Text_length _ _ HT). pose proof (uchar_length _ _ Hg).
  rewrite <- (app_assoc g u v).
  rewrite prev_char_loop_marks with (us := us) (c := c); auto.
  - cbn [bind]. do 2 f_equal. unfold size. rewrite sub64_small.
    + rewrite !app_length. lia.
    + rewrite !app_length. lia.
    + unfold Fits, size, W64 in *. rewrite !app_length in *. lia.
  - destruct HS as [->|(g' & c' & t & E & Hg' & Hc')]; [now right|left].
    destruct (uchar_prefix_unique _ _ _ _ _ _ Hg Hg' E) as (_ & -> & _). exact Hc'.
  - rewrite !app_length. lia.
Qed.

Lemma prev_range_begin s : get_prev_char_range s 0 = Ok (Sub 0 0).
Proof.
  unfold get_prev_char_range. change 0 with (N.of_nat 0) at 1. rewrite begin_plus_ok by lia. reflexivity.
Qed.

(** Lists of characters. *)
Lemma Chars_firstn ps k : Chars ps -> Chars (firstn k ps).
Proof.
  intros [H1 H2]. split.
  - rewrite <- (firstn_skipn k ps) in H1. now apply Forall_app in H1.
  - destruct ps as [|p ps], k as [|k]; cbn [firstn tl] in *; try constructor.
    rewrite <- (firstn_skipn k ps) in H2. now apply Forall_app in H2.
Qed.

Lemma Forall_tl {A} (P : A -> Prop) l : Forall P l -> Forall P (tl l).
Proof. destruct 1; [constructor|assumption]. Qed.

Lemma tl_skipn {A} (l : list A) k : tl (skipn k l) = skipn k (tl l).
Proof.
  revert l. induction k as [|k IH]; intros l; [reflexivity|].
  destruct l as [|a l]; [reflexivity|]. cbn [skipn tl]. rewrite IH. destruct l; [cbn; now destruct k|reflexivity].
Qed.

Lemma Forall_skipn {A} (P : A -> Prop) (l : list A) k : Forall P l -> Forall P (skipn k l).
Proof. intros H. rewrite <- (firstn_skipn k l) in H. now apply Forall_app in H. Qed.

Lemma Chars_skipn ps k : Chars ps -> Chars (skipn k ps).
Proof.
  intros [H1 H2]. split; [now apply Forall_skipn|]. rewrite tl_skipn. now apply Forall_skipn.
Qed.

Lemma Chars_cons p ps : Chars (p :: ps) -> one_char is_mark p /\ char_end (concat ps) /\ Chars ps.
Proof.
  intros [H1 H2]. apply Forall_cons_iff in H1. destruct H1 as [Hp H1]. cbn [tl] in H2.
  split; [exact Hp|]. split.
  - destruct ps as [|q ps]; [now left|right]. apply Forall_inv in H2. destruct H2 as (g & c & t & -> & Hg & Hc).
    cbn [concat]. exists g, c, (t ++ concat ps). rewrite app_assoc. auto.
  - split; [exact H1|]. now apply Forall_tl.
Qed.

Lemma Chars_snoc ps p : Chars (ps ++ [p]) -> Chars ps /\ one_char is_mark p /\ (concat ps = [] \/ starts_unmarked is_mark p).
Proof.
  intros H. split.
  - replace ps with (firstn (length ps) (ps ++ [p])) by apply firstn_length_app. now apply Chars_firstn.
  - destruct H as [H1 H2]. apply Forall_app in H1. destruct H1 as [_ H1]. apply Forall_inv in H1. split; [exact H1|].
    destruct ps as [|q ps]; [now left|right]. cbn [app tl] in H2. apply Forall_app in H2. destruct H2 as [_ H2].
    now apply Forall_inv in H2.
Qed.

Lemma Chars_length (ps : list str) : Forall (one_char is_mark) ps -> (length ps <= length (concat ps))%nat.
Proof.
  induction 1 as [|p ps Hp H IH]; [cbn; lia|]. cbn [concat length]. rewrite app_length.
  apply one_char_length in Hp. lia.
Qed.

Lemma size_length (s : str) : size s = N.of_nat (length s).
Proof. reflexivity. Qed.

Lemma sub_end_small u p : Fits (u ++ p) -> sub_end (Sub (size u) (size p)) = size (u ++ p).
Proof. unfold sub_end. cbn [sub_offset sub_length]. intros H. rewrite size_app. apply add64_small. unfold Fits, W64 in *. rewrite size_app in H. lia. Qed.

Lemma Fits_l u v : Fits (u ++ v) -> Fits u.
Proof. unfold Fits. rewrite size_app. intros. lia. Qed.

Lemma count_chars_loop_spec (ps : list str) : forall fuel pre n, Chars ps -> Fits (pre ++ concat ps) -> (length ps < fuel)%nat ->
  n + N.of_nat (length ps) < W64 ->
  count_chars_loop fuel (pre ++ concat ps) (size pre) n = Ok (n + N.of_nat (length ps)).
Proof.
  induction ps as [|p ps IH]; intros [|fuel] pre n HC HF Hf Hn; try (cbn in Hf; lia); cbn [count_chars_loop].
  - cbn [concat]. rewrite app_nil_r, N.eqb_refl. cbn. f_equal. lia.
  - apply Chars_cons in HC. destruct HC as (Hp & He & HC). pose proof (one_char_length _ Hp).
    cbn [concat] in *. replace (size pre =? size (pre ++ p ++ concat ps)) with false
      by (unfold size; rewrite !app_length; lia). cbn [negb].
    rewrite next_range_spec by assumption. cbn [bind]. rewrite app_assoc in HF |- *.
    rewrite sub_end_small by (apply Fits_l in HF; exact HF). cbn [length] in *.
    rewrite add64_small by (unfold W64 in *; lia).
    rewrite IH by (assumption || lia). f_equal. lia.
Qed.

Lemma count_chars_spec (ps : list str) : Chars ps -> Fits (concat ps) -> count_chars (concat ps) = Ok (N.of_nat (length ps)).
Proof.
  intros HC HF. unfold count_chars. pose proof (Chars_length ps (proj1 HC)).
  pose proof (count_chars_loop_spec ps (S (length (concat ps))) [] 0 HC HF ltac:(lia)) as E.
  cbn [app] in E. change (size []) with 0 in E. rewrite E; [f_equal|]; unfold Fits, size, W64 in *; lia.
Qed.

Lemma char_pos_fwd_spec (ps : list str) : forall fuel pre k, Chars ps -> Fits (pre ++ concat ps) -> (length ps < fuel)%nat ->
  (0 <= k)%Z ->
  char_pos_fwd fuel (pre ++ concat ps) k (size pre)
  = Ok (if (Z.of_nat (length ps) <? k)%Z then npos else size (pre ++ concat (firstn (Z.to_nat k) ps))).
Proof.
  induction ps as [|p ps IH]; intros [|fuel] pre k HC HF Hf Hk; try (cbn in Hf; lia); cbn [char_pos_fwd].
  - cbn [concat length]. rewrite firstn_nil. cbn [concat]. rewrite app_nil_r.
    destruct (Z.ltb_spec 0 k) as [L|L].
    + rewrite next_range_end. cbn [bind]. replace (Z.of_nat 0 <? k)%Z with true by lia. reflexivity.
    + replace (Z.of_nat 0 <? k)%Z with false by lia. reflexivity.
  - destruct (Z.ltb_spec 0 k) as [L|L].
    + apply Chars_cons in HC. destruct HC as (Hp & He & HC). pose proof (one_char_length _ Hp).
      cbn [concat] in *. rewrite next_range_spec by assumption. cbn [bind]. unfold sub_bool. cbn [sub_length].
      replace (size p =? 0) with false by (unfold size; lia). cbn [negb]. rewrite app_assoc in HF |- *.
      rewrite sub_end_small by (apply Fits_l in HF; exact HF). cbn [length] in *.
      rewrite IH by (assumption || lia). f_equal.
      replace (Z.of_nat (length ps) <? k - 1)%Z with (Z.of_nat (S (length ps)) <? k)%Z by lia.
      replace (Z.to_nat k) with (S (Z.to_nat (k - 1))) by lia. cbn [firstn concat]. now rewrite app_assoc.
    + replace k with 0%Z by lia. replace (_ <? 0)%Z with false by lia. cbn. now rewrite app_nil_r.
Qed.

Lemma char_pos_bwd_spec (ps : list str) : forall fuel post k, Chars ps -> Fits (concat ps ++ post) -> (length ps < fuel)%nat ->
  (k <= 0)%Z ->
  char_pos_bwd fuel (concat ps ++ post) k (size (concat ps))
  = Ok (if (Z.of_nat (length ps) <? - k)%Z then npos else size (concat (firstn (length ps - Z.to_nat (- k)) ps))).
Proof.
  induction ps as [|p ps IH] using rev_ind; intros [|fuel] post k HC HF Hf Hk; try (cbn in Hf; lia); cbn [char_pos_bwd].
  - cbn [concat length]. rewrite firstn_nil. cbn [concat]. change (size []) with 0.
    destruct (Z.ltb_spec k 0) as [L|L].
    + rewrite prev_range_begin. cbn [bind]. replace (Z.of_nat 0 <? - k)%Z with true by lia. reflexivity.
    + replace (Z.of_nat 0 <? - k)%Z with false by lia. reflexivity.
  - rewrite snoc_length in *. destruct (Z.ltb_spec k 0) as [L|L].
    + apply Chars_snoc in HC. destruct HC as (HC & Hp & He). pose proof (one_char_length _ Hp).
      rewrite concat_app in *. cbn [concat] in *. rewrite app_nil_r in *. rewrite <- app_assoc in HF |- *.
      rewrite prev_range_spec by assumption. cbn [bind]. unfold sub_bool, sub_start. cbn [sub_length sub_offset].
      replace (size p =? 0) with false by (unfold size; lia). cbn [negb].
      rewrite IH by (assumption || lia). f_equal.
      replace (Z.of_nat (length ps) <? - (k + 1))%Z with (Z.of_nat (S (length ps)) <? - k)%Z by lia.
      replace (S (length ps) - Z.to_nat (- k))%nat with (length ps - Z.to_nat (- (k + 1)))%nat by lia.
      rewrite firstn_app. replace (_ - _ - length ps)%nat with 0%nat by lia. cbn [firstn]. now rewrite app_nil_r.
    + replace k with 0%Z by lia. replace (_ <? - 0)%Z with false by lia. cbn [Z.opp Z.to_nat].
      rewrite Nat.sub_0_r, <- snoc_length with (a := p), firstn_all. reflexivity.
Qed.

Lemma get_char_pos_spec (ps : list str) k : Chars ps -> Fits (concat ps) -> True ->
  get_char_pos (concat ps) k = Ok (position ps k).
Proof.
  intros HC HF _. unfold get_char_pos, position. pose proof (Chars_length ps (proj1 HC)) as HL.
  destruct (Z.leb_spec 0 k) as [L|L].
  - pose proof (char_pos_fwd_spec ps (S (S (length (concat ps)))) [] k HC HF ltac:(lia) L) as E.
    cbn [app] in E. change (size []) with 0 in E. rewrite E. f_equal. rewrite Z.abs_eq by lia.
    destruct (Z.ltb_spec (Z.of_nat (length ps)) k); [reflexivity|]. unfold offset_of, resolve.
    replace (k <? 0)%Z with false by lia. now rewrite Nat.min_l by lia.
  - pose proof (char_pos_bwd_spec ps (S (S (length (concat ps)))) [] k HC) as E. rewrite app_nil_r in E.
    rewrite E by (assumption || lia). f_equal. rewrite Z.abs_neq by lia.
    destruct (Z.ltb_spec (Z.of_nat (length ps)) (- k)); [reflexivity|]. unfold offset_of, resolve.
    replace (k <? 0)%Z with true by lia.
    replace (length ps - Z.to_nat (- k))%nat with (Z.to_nat (Z.of_nat (length ps) + k)) by lia. reflexivity.
Qed.

(** ** get_char_range *)
Lemma range_at (ps : list str) k p : Chars ps -> Fits (concat ps) -> nth_error ps k = Some p ->
  get_next_char_range (concat ps) (offset_of ps k) = Ok (Sub (offset_of ps k) (size p)) /\
  get_prev_char_range (concat ps) (offset_of ps (S k)) = Ok (Sub (offset_of ps k) (size p)).
Proof.
  intros HC HF Hn. apply nth_error_split in Hn. destruct Hn as (l1 & l2 & -> & <-).
  assert (offset_of (l1 ++ p :: l2) (length l1) = size (concat l1)) as -> by (unfold offset_of; now rewrite firstn_length_app).
  assert (offset_of (l1 ++ p :: l2) (S (length l1)) = size (concat l1 ++ p)) as ->.
  { unfold offset_of. rewrite <- snoc_length with (a := p).
    replace (l1 ++ p :: l2) with ((l1 ++ [p]) ++ l2) by now rewrite <- app_assoc.
    rewrite firstn_length_app, concat_app. cbn [concat]. now rewrite app_nil_r. }
  rewrite concat_app in HF |- *. cbn [concat] in HF |- *.
  pose proof (Chars_skipn _ (length l1) HC) as H1. rewrite skipn_length_app in H1.
  apply Chars_cons in H1. destruct H1 as (Hp & He & _).
  pose proof (Chars_firstn _ (length (l1 ++ [p])) HC) as H2.
  replace (l1 ++ p :: l2) with ((l1 ++ [p]) ++ l2) in H2 by now rewrite <- app_assoc.
  rewrite firstn_length_app in H2. apply Chars_snoc in H2. destruct H2 as (_ & _ & Hs).
  split; [now apply next_range_spec|now apply prev_range_spec].
Qed.

Lemma get_char_range_spec (ps : list str) k : Chars ps -> Fits (concat ps) ->
  (forall p, (0 <= k)%Z -> nth_error ps (Z.to_nat k) = Some p ->
     get_char_range (concat ps) k = Ok (Sub (offset_of ps (Z.to_nat k)) (size p))) /\
  (forall p, (- Z.of_nat (length ps) <= k < 0)%Z -> nth_error ps (Z.to_nat (Z.of_nat (length ps) + k)) = Some p ->
     get_char_range (concat ps) k = Ok (Sub (offset_of ps (Z.to_nat (Z.of_nat (length ps) + k))) (size p))) /\
  ((Z.of_nat (length ps) <= k)%Z -> get_char_range (concat ps) k = Ok (Sub (size (concat ps)) 0)) /\
  ((k < - Z.of_nat (length ps))%Z -> get_char_range (concat ps) k = Ok (Sub 0 0)).
Proof.
  intros HC HF. pose proof (Fits_npos _ HF) as HN. unfold get_char_range. split; [|split; [|split]].
  - intros p Hk Hp. replace (0 <=? k)%Z with true by lia. rewrite get_char_pos_spec by auto. cbn [bind].
    assert (Z.to_nat k < length ps)%nat by (apply nth_error_Some; congruence).
    unfold position. replace (_ <? _)%Z with false by lia.
    pose proof (offset_le ps (resolve (length ps) k)). replace (_ =? npos) with false by lia.
    unfold resolve. replace (k <? 0)%Z with false by lia. rewrite Nat.min_l by lia. now apply range_at.
  - intros p Hk Hp. replace (0 <=? k)%Z with false by lia.
    destruct (range_at ps _ p HC HF Hp) as [_ E].
    destruct (Z.ltb_spec k (-1)) as [L|L].
    + rewrite get_char_pos_spec by auto. cbn [bind]. unfold position. replace (_ <? _)%Z with false by lia.
      pose proof (offset_le ps (resolve (length ps) (k + 1))). replace (_ =? npos) with false by lia.
      unfold resolve. replace (k + 1 <? 0)%Z with true by lia.
      replace (Z.to_nat (Z.of_nat (length ps) + (k + 1))) with (S (Z.to_nat (Z.of_nat (length ps) + k))) by lia. exact E.
    + rewrite <- offset_all. replace (length ps) with (S (Z.to_nat (Z.of_nat (length ps) + k))) at 1 by lia. exact E.
  - intros Hk. replace (0 <=? k)%Z with true by lia. rewrite get_char_pos_spec by auto. cbn [bind]. unfold position.
    destruct (_ <? _)%Z eqn:L.
    + rewrite N.eqb_refl. reflexivity.
    + replace k with (Z.of_nat (length ps)) by lia. unfold resolve. replace (_ <? 0)%Z with false by lia.
      rewrite Nat.min_l, Nat2Z.id, offset_all by lia. replace (_ =? npos) with false by lia. apply next_range_end.
  - intros Hk. replace (0 <=? k)%Z with false by lia. destruct (Z.ltb_spec k (-1)) as [L|L].
    + rewrite get_char_pos_spec by auto. cbn [bind]. unfold position. destruct (_ <? _)%Z eqn:L2; [reflexivity|].
      unfold resolve. replace (k + 1 <? 0)%Z with true by lia.
      replace (Z.to_nat (Z.of_nat (length ps) + (k + 1))) with 0%nat by lia. rewrite offset_zero.
      replace (0 =? npos) with false by (unfold npos, SIZE_MAX; lia). apply prev_range_begin.
    + replace ps with (@nil str) by (destruct ps; [reflexivity|cbn in *; lia]). reflexivity.
Qed.

(** ** Substrings by characters *)
Definition char_in_order (i j : Z) : Prop := (0 <= i /\ 0 <= j)%Z \/ (i < j < 0)%Z \/ (i < 0 <= j)%Z.

Lemma True_sub : forall i j : Z, (PTRDIFF_MIN <= i <= PTRDIFF_MAX)%Z -> (PTRDIFF_MIN <= j <= PTRDIFF_MAX)%Z ->
    True -> True -> ((0 <= i <= j)%Z -> True) /\ ((i < j < 0)%Z -> True).
Proof. auto. Qed.

Lemma capped_char_spec (ps : list str) k : Chars ps -> Fits (concat ps) ->
  get_capped_char_pos (concat ps) k = Ok (offset_of ps (resolve (length ps) k)).
Proof.
  intros HC HF.
  exact (capped_spec Chars get_char_pos (fun _ => True) Chars_firstn Chars_skipn get_char_pos_spec True_sub ps k HC HF I).
Qed.

Lemma char_range_ok (ps : list str) i j : Chars ps -> Fits (concat ps) -> isz i -> isz j -> char_in_order i j ->
  get_char_substring_range (concat ps) i j =
  Ok (Sub (offset_of ps (resolve (length ps) i))
          (offset_of ps (resolve (length ps) j) - offset_of ps (resolve (length ps) i))).
Proof.
  intros HC HF Hi Hj HO. unfold get_char_substring_range. cbv zeta.
  pose proof (range_pos_pos Chars get_char_pos (fun _ => True) Chars_firstn Chars_skipn get_char_pos_spec True_sub ps) as R1.
  pose proof (range_neg_neg Chars get_char_pos (fun _ => True) Chars_firstn Chars_skipn get_char_pos_spec True_sub ps) as R2.
  change (capped get_char_pos) with get_capped_char_pos in R1, R2.
  destruct HO as [[H1 H2]|[H|H]].
  - replace (Bool.eqb _ _) with true by (replace (0 <=? i)%Z with true by lia; replace (0 <=? j)%Z with true by lia; reflexivity).
    rewrite andb_true_r. replace (0 <=? i)%Z with true by lia.
    destruct (Z.ltb_spec j i) as [L|L].
    + replace (0 <=? i)%Z with true by lia. cbn [andb].
      rewrite R1 by (auto; lia).
      do 2 f_equal. assert (resolve (length ps) j <= resolve (length ps) i)%nat as M.
      { unfold resolve. replace (i <? 0)%Z with false by lia. replace (j <? 0)%Z with false by lia. lia. }
      apply (offset_mono ps) in M. lia.
    + replace (0 <=? j)%Z with true by lia. cbn [andb]. apply R1; auto; lia.
  - replace (j <? i)%Z with false by lia. cbn [andb].
    replace (0 <=? i)%Z with false by lia. replace (i <? 0)%Z with true by lia. replace (j <? 0)%Z with true by lia. cbn [andb].
    apply R2; auto; lia.
  - replace (j <? i)%Z with false by lia. cbn [andb].
    replace (0 <=? i)%Z with false by lia. replace (i <? 0)%Z with true by lia. replace (j <? 0)%Z with false by lia. cbn [andb].
    rewrite !capped_char_spec by assumption. cbn [bind]. do 2 f_equal.
    destruct (N.ltb_spec (offset_of ps (resolve (length ps) i)) (offset_of ps (resolve (length ps) j))) as [L|L]; [|lia].
    apply sub64_small; [lia|]. pose proof (offset_le ps (resolve (length ps) j)). unfold Fits, W64 in *. lia.
Qed.

Lemma char_range_reversed (ps : list str) i j : Chars ps -> Fits (concat ps) -> (j <= i < 0)%Z ->
  get_char_substring_range (concat ps) i j = Ok (Sub 0 (offset_of ps (resolve (length ps) i))).
Proof.
  intros HC HF H. unfold get_char_substring_range. cbv zeta.
  replace (Bool.eqb _ _) with true by (replace (0 <=? i)%Z with false by lia; replace (0 <=? j)%Z with false by lia; reflexivity).
  rewrite andb_true_r.
  replace (if (j <? i)%Z then i else j) with i by (destruct (Z.ltb_spec j i); lia).
  replace (0 <=? i)%Z with false by lia. replace (i <? 0)%Z with true by lia. cbn [andb].
  rewrite capped_char_spec by assumption. cbn [bind].
  rewrite substr_to_offset. cbn [bind]. rewrite Z.sub_diag.
  rewrite signed_ok by (unfold isz, PTRDIFF_MIN, PTRDIFF_MAX; lia). cbn [bind].
  rewrite capped_char_spec; [|now apply Chars_firstn|now apply Fits_firstn].
  cbn [bind]. rewrite offset_firstn, resolve_0, Nat.min_0_r, offset_zero. do 2 f_equal.
  rewrite sub64_small; [lia|lia|]. pose proof (offset_le ps (resolve (length ps) i)). unfold Fits, W64 in *. lia.
Qed.

(** From the start to the end: the length is short by the start offset. *)
Lemma char_range_crossed (ps : list str) i j : Chars ps -> Fits (concat ps) -> (j < 0 <= i)%Z ->
  get_char_substring_range (concat ps) i j =
  Ok (Sub (offset_of ps (resolve (length ps) i))
          (sub64 (offset_of ps (resolve (length ps) j) - offset_of ps (resolve (length ps) i))
                 (offset_of ps (resolve (length ps) i)))).
Proof.
  intros HC HF H. unfold get_char_substring_range. cbv zeta.
  pose proof (range_pos_neg Chars get_char_pos (fun _ => True) Chars_firstn Chars_skipn get_char_pos_spec True_sub ps) as R3.
  change (capped get_char_pos) with get_capped_char_pos in R3.
  replace (Bool.eqb _ _) with false by (replace (0 <=? i)%Z with true by lia; replace (0 <=? j)%Z with false by lia; reflexivity).
  rewrite andb_false_r. replace (0 <=? i)%Z with true by lia. replace (0 <=? j)%Z with false by lia.
  replace (i <? 0)%Z with false by lia. replace (j <? 0)%Z with true by lia. cbn [andb].
  destruct (R3 i j HC HF I I) as (a & b & -> & -> & E); [lia|lia|].
  rewrite (E _ (fun st e => Ok (Sub st (sub64 e st)))). do 3 f_equal.
  destruct (Nat.max_spec (resolve (length ps) i) (resolve (length ps) j)) as [[L ->]|[L ->]]; [reflexivity|].
  apply (offset_mono ps) in L. lia.
Qed.

Lemma char_substring_ok (ps : list str) i j : Chars ps -> Fits (concat ps) -> isz i -> isz j -> char_in_order i j ->
  get_char_substring (concat ps) i j = Ok (concat (units_between ps i j)).
Proof.
  intros. unfold get_char_substring. rewrite char_range_ok by assumption. cbn [bind sub_offset sub_length].
  apply units_between_offsets.
Qed.

Lemma char_substring_reversed (ps : list str) i j : Chars ps -> Fits (concat ps) -> (j <= i < 0)%Z ->
  get_char_substring (concat ps) i j = Ok (concat (units_before ps i)).
Proof.
  intros. unfold get_char_substring. rewrite char_range_reversed by assumption. cbn [bind sub_offset sub_length].
  apply substr_to_offset.
Qed.

Lemma char_replace_ok (ps : list str) i j repl : Chars ps -> Fits (concat ps) -> isz i -> isz j -> char_in_order i j ->
  replace_chars (concat ps) i j repl = Ok (concat (units_before ps i) ++ repl ++ concat (units_after ps i j)).
Proof.
  intros. unfold replace_chars. rewrite char_range_ok by assumption. cbn [bind].
  now apply replace_subrange_units.
Qed.

Lemma char_replace_reversed (ps : list str) i j repl : Chars ps -> Fits (concat ps) -> (j <= i < 0)%Z ->
  replace_chars (concat ps) i j repl = Ok (repl ++ concat (skipn (resolve (length ps) i) ps)).
Proof.
  intros HC HF H. unfold replace_chars. rewrite char_range_reversed by assumption. cbn [bind].
  unfold replace_subrange, sub_start, sub_end. cbn [sub_offset sub_length].
  assert (substr (concat ps) 0 0 = Ok []) as -> by (apply (substr_prefix [] (concat ps)); reflexivity). cbn [bind].
  rewrite add64_small by (pose proof (offset_le ps (resolve (length ps) i)); unfold Fits, W64 in *; lia).
  rewrite N.add_0_l, substr_from_offset by exact HF. reflexivity.
Qed.

Lemma char_insert_cp (ps : list str) k c : Chars ps -> Fits (concat ps) -> (Z.abs k <= Z.of_nat (length ps))%Z ->
  c <= 0x10FFFF -> exists g, encodes g c /\
  insert_char (concat ps) k c = Ok (concat (units_before ps k) ++ g ++ concat (units_after ps k k)).
Proof.
  intros HC HF Hn Hc. unfold insert_char. rewrite get_char_pos_spec by auto. cbn [bind].
  unfold position. replace (_ <? _)%Z with false by lia. unfold insert_at_offset_cp.
  pose proof (offset_le ps (resolve (length ps) k)). pose proof (Fits_npos _ HF).
  replace (_ =? npos) with false by lia. rewrite substr_to_offset. cbn [bind].
  destruct (append_ok (concat (firstn (resolve (length ps) k) ps)) c Hc) as (g & Hg & _ & ->).
  cbn [bind]. rewrite substr_from_offset by exact HF. cbn [bind]. exists g. split; [exact Hg|].
  rewrite <- app_assoc. unfold units_after. now rewrite Nat.max_id.
Qed.

Lemma char_insert_str (ps : list str) k t : Chars ps -> Fits (concat ps) -> (Z.abs k <= Z.of_nat (length ps))%Z ->
  insert_chars (concat ps) k t = Ok (concat (units_before ps k) ++ t ++ concat (units_after ps k k)).
Proof.
  intros HC HF Hn. unfold insert_chars. rewrite get_char_pos_spec by auto. cbn [bind].
  unfold position. replace (_ <? _)%Z with false by lia. unfold insert_at_offset_str.
  pose proof (offset_le ps (resolve (length ps) k)). pose proof (Fits_npos _ HF).
  replace (_ =? npos) with false by lia. rewrite substr_to_offset. cbn [bind].
  rewrite substr_from_offset by exact HF. cbn [bind]. unfold units_before, units_after. rewrite Nat.max_id.
  destruct t; [|reflexivity]. cbn [app]. now rewrite <- concat_firstn_skipn.
Qed.

Lemma char_insert_out (ps : list str) k c t : Chars ps -> Fits (concat ps) -> (Z.of_nat (length ps) < Z.abs k)%Z ->
  insert_char (concat ps) k c = Throw YstringException /\
  (t <> [] -> insert_chars (concat ps) k t = Throw YstringException) /\
  insert_chars (concat ps) k [] = Ok (concat ps).
Proof.
  intros HC HF Hn. unfold insert_char, insert_chars. rewrite get_char_pos_spec by auto. cbn [bind].
  unfold position. replace (_ <? _)%Z with true by lia. repeat split; try reflexivity.
  intros Ht. destruct t; [congruence|reflexivity].
Qed.

(** ** reverse *)
Lemma reverse_loop_spec (ps : list str) : forall fuel post acc, Chars ps -> Fits (concat ps ++ post) -> (length ps < fuel)%nat ->
  reverse_loop fuel (concat ps ++ post) (size (concat ps)) acc = Ok (acc ++ concat (rev ps)).
Proof.
  induction ps as [|p ps IH] using rev_ind; intros [|fuel] post acc HC HF Hf; try (cbn in Hf; lia); cbn [reverse_loop].
  - cbn. now rewrite app_nil_r.
  - apply Chars_snoc in HC. destruct HC as (HC & Hp & He). pose proof (one_char_length _ Hp).
    rewrite snoc_length in Hf. rewrite concat_app in *. cbn [concat] in *. rewrite app_nil_r in *.
    replace (size (concat ps ++ p) =? 0) with false by (unfold size; rewrite app_length; lia). cbn [negb].
    rewrite <- app_assoc in HF |- *. rewrite prev_range_spec by assumption. cbn [bind].
    assert (Fits (concat ps ++ p)) as HF2 by (rewrite app_assoc in HF; now apply Fits_l in HF).
    rewrite sub_end_small by exact HF2. unfold sub_start. cbn [sub_offset].
    rewrite bp_size. cbn [bind]. rewrite app_assoc, bp_size, <- app_assoc. cbn [bind].
    rewrite (slice_app (concat ps) p post) by (rewrite ?app_length; reflexivity).
    rewrite IH by (assumption || lia). rewrite rev_app_distr. cbn [rev app concat]. now rewrite app_assoc.
Qed.

Lemma reverse_spec (ps : list str) : Chars ps -> Fits (concat ps) -> reverse (concat ps) = Ok (concat (rev ps)).
Proof.
  intros HC HF. unfold reverse. pose proof (Chars_length ps (proj1 HC)).
  pose proof (reverse_loop_spec ps (S (length (concat ps))) [] []) as E. rewrite app_nil_r in E.
  cbn [app] in E. rewrite E by (assumption || lia). reflexivity.
Qed.

(** ** Every valid string has exactly one division into characters *)
Lemma Chars_exist s cs : Text s cs -> exists ps, Chars ps /\ concat ps = s.
Proof.
  induction 1 as [|g c s cs Hg HT (ps & HC & <-)].
  - exists []. split; [split; constructor|reflexivity].
  - destruct ps as [|q qs].
    + exists [g]. split; [|cbn; now rewrite !app_nil_r]. split; [|constructor].
      constructor; [|constructor]. exists g, c, [], []. rewrite app_nil_r. split; [reflexivity|]. split; [exact Hg|]. split; constructor.
    + assert (HO : one_char is_mark g).
      { exists g, c, [], []. rewrite app_nil_r. split; [reflexivity|]. split; [exact Hg|]. split; constructor. }
      destruct HC as [H1 H2]. cbn [tl] in H2. apply Forall_cons_iff in H1. destruct H1 as [Hq H1].
      pose proof Hq as (g' & c' & u & us & -> & Hg' & HU & HM).
      destruct (is_mark c') eqn:Em.
      * exists ((g ++ g' ++ u) :: qs). split; [|cbn [concat]; now rewrite <- !app_assoc].
        split; [|exact H2]. constructor; [|exact H1].
        exists g, c, (g' ++ u), (c' :: us). split; [reflexivity|]. split; [exact Hg|].
        split; [now constructor|now constructor].
      * exists (g :: (g' ++ u) :: qs). split; [|reflexivity].
        split; [constructor; [exact HO|now constructor]|]. cbn [tl]. constructor; [|exact H2].
        exists g', c', u. auto.
Qed.

Lemma one_char_Text p : one_char is_mark p -> exists c us, Text p (c :: us) /\ marks us.
Proof. intros (g & c & u & us & -> & Hg & HT & HM). exists c, us. split; [now constructor|exact HM]. Qed.

Lemma marks_unique u us : Text u us -> forall v u' us' v', marks us -> Text u' us' -> marks us' -> char_end v -> char_end v' ->
  u ++ v = u' ++ v' -> u = u' /\ v = v'.
Proof.
  induction 1 as [|g c u us Hg HT IH]; intros v u' us' v' HM HT' HM' Hv Hv' E.
  - destruct HT' as [|g c u' us' Hg HT']; [now split|]. exfalso. cbn [app] in E. apply Forall_inv in HM'.
    destruct Hv as [->|(g' & c' & t & -> & Hg' & Hc')].
    + apply uchar_nonempty in Hg. destruct g; [congruence|discriminate].
    + rewrite <- app_assoc in E. destruct (uchar_prefix_unique _ _ _ _ _ _ Hg' Hg E) as (_ & -> & _). congruence.
  - destruct HT' as [|g' c' u' us' Hg' HT'].
    + exfalso. cbn [app] in E. apply Forall_inv in HM. destruct Hv' as [->|(g' & c' & t & -> & Hg' & Hc')].
      * apply uchar_nonempty in Hg. destruct g; [congruence|discriminate].
      * rewrite <- app_assoc in E. destruct (uchar_prefix_unique _ _ _ _ _ _ Hg Hg' E) as (_ & -> & _). congruence.
    + rewrite <- !app_assoc in E. destruct (uchar_prefix_unique _ _ _ _ _ _ Hg Hg' E) as (-> & -> & E').
      apply Forall_cons_iff in HM. apply Forall_cons_iff in HM'.
      destruct (IH _ _ _ _ (proj2 HM) HT' (proj2 HM') Hv Hv' E') as [-> ->]. now split.
Qed.

Lemma Chars_unique (ps : list str) : forall qs, Chars ps -> Chars qs -> concat ps = concat qs -> ps = qs.
Proof.
  induction ps as [|p ps IH]; intros [|q qs] H1 H2 E.
  - reflexivity.
  - exfalso. apply Chars_cons in H2. destruct H2 as (Hq & _). apply one_char_length in Hq.
    cbn [concat] in E. destruct q; [cbn in Hq; lia|discriminate].
  - exfalso. apply Chars_cons in H1. destruct H1 as (Hq & _). apply one_char_length in Hq.
    cbn [concat] in E. destruct p; [cbn in Hq; lia|discriminate].
  - apply Chars_cons in H1. destruct H1 as ((g & c & u & us & -> & Hg & HU & HM) & He & H1).
    apply Chars_cons in H2. destruct H2 as ((g' & c' & u' & us' & -> & Hg' & HU' & HM') & He' & H2).
    cbn [concat] in E. rewrite <- !app_assoc in E.
    destruct (uchar_prefix_unique _ _ _ _ _ _ Hg Hg' E) as (-> & -> & E').
    destruct (marks_unique _ _ HU _ _ _ _ HM HU' HM' He He' E') as [-> E2].
    now rewrite (IH qs H1 H2 E2).
Qed.

(** Reversing twice, when the text does not start with a mark. *)
Lemma Forall_rev' {A} (P : A -> Prop) l : Forall P l -> Forall P (rev l).
Proof. intros H. apply Forall_forall. intros x Hx. rewrite <- in_rev in Hx. rewrite Forall_forall in H. auto. Qed.

Lemma reverse_involutive (ps : list str) : Chars ps -> Forall (starts_unmarked is_mark) ps -> Fits (concat ps) ->
  exists t, reverse (concat ps) = Ok t /\ reverse t = Ok (concat ps).
Proof.
  intros HC HU HF. exists (concat (rev ps)). split; [now apply reverse_spec|].
  rewrite <- (rev_involutive ps) at 2. apply reverse_spec.
  - split; [apply Forall_rev', HC|]. apply Forall_tl. now apply Forall_rev'.
  - assert (length (concat (rev ps)) = length (concat ps)) as E.
    { clear. induction ps as [|p ps IH]; [reflexivity|]. cbn [rev concat]. rewrite concat_app, !app_length. cbn [concat].
      rewrite app_nil_r. lia. }
    unfold Fits, size in *. now rewrite E.
Qed.

(** ** Malformed text *)
Lemma next_char_loop_bad us : forall pre u r fuel, Text u us -> marks us -> Malformed r -> (length us < fuel)%nat ->
  next_char_loop fuel (pre ++ u ++ r) (length pre) (length pre) = Throw YstringException.
Proof.
  induction us as [|c us IH]; intros pre u r [|fuel] HT HM HE Hf; try (cbn in Hf; lia).
  - apply Text_nil_inv in HT. subst u. cbn [app next_char_loop].
    rewrite safe_decode_next_malformed by exact HE. reflexivity.
  - apply Text_cons_inv in HT. destruct HT as (g & t & -> & Hg & HT).
    apply Forall_cons_iff in HM. destruct HM as [Hc HM].
    cbn [next_char_loop]. rewrite <- (app_assoc g t r). rewrite safe_decode_next_uchar with (c := c) by assumption.
    cbn [bind]. rewrite Hc. rewrite (app_assoc pre g (t ++ r)), <- app_length. cbn in Hf.
    rewrite IH by (assumption || lia). reflexivity.
Qed.

Lemma count_chars_loop_bad (ps : list str) : forall fuel pre r n, Chars ps -> Fits (pre ++ concat ps ++ r) -> Malformed r ->
  (length ps < fuel)%nat ->
  count_chars_loop fuel (pre ++ concat ps ++ r) (size pre) n = Throw YstringException.
Proof.
  induction ps as [|p ps IH]; intros [|fuel] pre r n HC HF HM Hf; try (cbn in Hf; lia); cbn [count_chars_loop].
  - cbn [concat app]. assert (r <> []) as Hne by apply HM.
    replace (size pre =? size (pre ++ r)) with false by (rewrite size_app; unfold size; destruct r; [congruence|cbn; lia]).
    cbn [negb]. unfold get_next_char_range. rewrite bp_size. cbn [bind].
    rewrite safe_decode_next_malformed by exact HM. reflexivity.
  - apply Chars_cons in HC. destruct HC as (Hp & He & HC). pose proof (one_char_length _ Hp).
    cbn [concat] in *. rewrite <- app_assoc in HF |- *.
    replace (size pre =? size (pre ++ p ++ concat ps ++ r)) with false
      by (unfold size; rewrite !app_length; lia). cbn [negb].
    destruct ps as [|q qs].
    + (* the character is followed by the malformed bytes *)
      cbn [concat app]. destruct Hp as (g & c & u & us & -> & Hg & HT & HU). unfold get_next_char_range.
      rewrite bp_size. cbn [bind]. rewrite <- (app_assoc g u r).
      rewrite safe_decode_next_uchar with (c := c) by assumption. cbn [bind].
      pose proof (Text_length _ _ HT).
      rewrite (app_assoc pre g (u ++ r)), <- app_length.
      rewrite next_char_loop_bad with (us := us) by (auto; rewrite !app_length; lia). reflexivity.
    + assert (char_end (concat (q :: qs) ++ r)) as He2.
      { destruct He as [E|(g & c & t & E & Hg & Hc)].
        - exfalso. destruct HC as [HC _]. apply Forall_inv in HC. apply one_char_length in HC. cbn [concat] in E.
          destruct q; [cbn in HC; lia|discriminate].
        - right. exists g, c, (t ++ r). rewrite E, app_assoc. auto. }
      rewrite next_range_spec by assumption. cbn [bind]. rewrite app_assoc in HF |- *.
      rewrite sub_end_small by (apply Fits_l in HF; exact HF).
      apply IH; auto. cbn in *. lia.
Qed.

Lemma count_chars_bad u cs r : Text u cs -> Malformed r -> Fits (u ++ r) -> count_chars (u ++ r) = Throw YstringException.
Proof.
  intros HT HM HF. destruct (Chars_exist u cs HT) as (ps & HC & <-). unfold count_chars.
  pose proof (Chars_length ps (proj1 HC)).
  apply (count_chars_loop_bad ps (S (length (concat ps ++ r))) [] r 0); auto. rewrite app_length. lia.
Qed.
