(** C103: editing by index, and undoing it. *)
From Verif Require Import Base Spec.Utf8Spec Spec.Strings Spec.Slices Model.Decode Model.Encode Model.Subrange Model.Search
  Model.CharClass Model.Chars
  Proofs.Utf8Lemmas Proofs.DecodeLemmas Proofs.SkipLemmas Proofs.EncodeLemmas Proofs.CodepointLemmas Proofs.Utf8Props Proofs.SearchLemmas
  Proofs.SliceLemmas Proofs.CharLemmas Proofs.PieceLemmas Proofs.AnyStringLemmas Proofs.PositionProps Proofs.AgreeLemmas.
From Coq Require Import ZifyBool ZifyNat ZifyN.
Ltac Zify.zify_post_hook ::= Z.div_mod_to_equations.

Lemma units_mid (l1 qs l2 : list str) i j : resolve (length (l1 ++ qs ++ l2)) i = length l1 ->
  resolve (length (l1 ++ qs ++ l2)) j = (length l1 + length qs)%nat ->
  units_before (l1 ++ qs ++ l2) i = l1 /\ units_between (l1 ++ qs ++ l2) i j = qs /\ units_after (l1 ++ qs ++ l2) i j = l2.
Proof.
  intros Ei Ej. unfold units_before, units_between, units_after. rewrite Ei, Ej.
  replace (Nat.max (length l1) (length l1 + length qs)) with (length qs + length l1)%nat by lia.
  replace (length l1 + length qs - length l1)%nat with (length qs) by lia.
  rewrite <- SearchLemmas.skipn_skipn. rewrite skipn_length_app, firstn_length_app, skipn_length_app, firstn_length_app. auto.
Qed.
Lemma mid_fwd (l1 qs l2 : list str) : resolve (length (l1 ++ qs ++ l2)) (Z.of_nat (length l1)) = length l1 /\
  resolve (length (l1 ++ qs ++ l2)) (Z.of_nat (length l1 + length qs)) = (length l1 + length qs)%nat.
Proof. rewrite !app_length. unfold resolve. split; (replace (_ <? 0)%Z with false by lia); lia. Qed.
Lemma mid_bwd (l1 qs l2 : list str) : (0 < length l2)%nat ->
  resolve (length (l1 ++ qs ++ l2)) (- Z.of_nat (length qs + length l2)) = length l1 /\
  resolve (length (l1 ++ qs ++ l2)) (- Z.of_nat (length l2)) = (length l1 + length qs)%nat.
Proof. intros H. rewrite !app_length. unfold resolve. split; (replace (_ <? 0)%Z with true by lia); lia. Qed.

Lemma split_at (ps : list str) k : (k <= length ps)%nat -> exists l1 l2, ps = l1 ++ l2 /\ length l1 = k.
Proof. intros H. exists (firstn k ps), (skipn k ps). rewrite firstn_skipn, firstn_length. split; [reflexivity|lia]. Qed.

(** *** By code points *)
Lemma p_c103_parts s k : indexable s -> cp_ok k -> exists u v,
  get_codepoint_substring s 0 k = Ok u /\ get_codepoint_substring s k 0x7FFFFFFFFFFFFFFF = Ok v /\ s = u ++ v.
Proof.
  intros HI Hk. destruct (units_of s HI) as (ps & HC & <-). destruct HI as [HF _]. pose proof (units_le ps HC) as HL.
  assert (cp_ok 0x7FFFFFFFFFFFFFFF) as HM by (unfold cp_ok; lia). pose proof HF as HF'. unfold Fits, size in HF'.
  exists (concat (units_between ps 0 k)), (concat (units_between ps k 0x7FFFFFFFFFFFFFFF)).
  split; [apply cp_substring_ok; auto; [apply cp_ok_zero|]; unfold in_order; lia|]. split.
  - destruct (Z.lt_ge_cases k 0) as [L|L].
    + apply p_c26_end; auto; unfold cp_ok in *; try lia.
    + apply cp_substring_ok; auto. left. lia.
  - unfold units_between. rewrite resolve_0. assert (resolve (length ps) 0x7FFFFFFFFFFFFFFF = length ps) as -> by (unfold resolve; replace (_ <? 0)%Z with false by lia; lia).
    rewrite Nat.sub_0_r. cbn [skipn]. rewrite (firstn_all2 (skipn _ _)) by (rewrite skipn_length; lia). apply concat_firstn_skipn.
Qed.
Lemma p_c103_self s i j : indexable s -> cp_ok i -> cp_ok j -> in_order i j -> exists g,
  get_codepoint_substring s i j = Ok g /\ replace_codepoints s i j g = Ok s.
Proof.
  intros HI Hi Hj O. destruct (units_of s HI) as (ps & HC & <-). destruct HI as [HF _].
  exists (concat (units_between ps i j)). split; [now apply cp_substring_ok|]. rewrite cp_replace_ok by assumption.
  now rewrite <- (units_concat ps i j).
Qed.
Lemma Codepoints_app ps qs : Codepoints ps -> Codepoints qs -> Codepoints (ps ++ qs).
Proof. unfold Codepoints. intros. now apply Forall_app. Qed.
Lemma Codepoints_app_inv ps qs : Codepoints (ps ++ qs) -> Codepoints ps /\ Codepoints qs.
Proof. unfold Codepoints. apply Forall_app. Qed.
Lemma mid_concat (l1 qs l2 : list str) : concat (l1 ++ qs ++ l2) = concat l1 ++ concat qs ++ concat l2.
Proof. now rewrite !concat_app. Qed.

Lemma cp_ok_small k (s : str) : Fits s -> (Z.abs k <= Z.of_nat (length s))%Z -> cp_ok k.
Proof. unfold Fits, size, cp_ok. lia. Qed.
Lemma isz_small k (s : str) : Fits s -> (Z.abs k <= Z.of_nat (length s))%Z -> isz k.
Proof. unfold Fits, size, isz, PTRDIFF_MAX, PTRDIFF_MIN. lia. Qed.

(** What an edit leaves at its place: [qs] between [l1] and [l2]. *)
Lemma cp_mid (l1 qs l2 : list str) t i j : Codepoints (l1 ++ qs ++ l2) -> Fits (concat (l1 ++ qs ++ l2)) ->
  (i = Z.of_nat (length l1) /\ j = Z.of_nat (length l1 + length qs))%Z \/
  ((0 < length l2)%nat /\ (0 < length qs)%nat /\ i = - Z.of_nat (length qs + length l2) /\ j = - Z.of_nat (length l2))%Z ->
  get_codepoint_substring (concat (l1 ++ qs ++ l2)) i j = Ok (concat qs) /\
  replace_codepoints (concat (l1 ++ qs ++ l2)) i j t = Ok (concat l1 ++ t ++ concat l2).
Proof.
  intros HC HF H. pose proof (Codepoints_length _ HC) as HL.
  assert (resolve (length (l1 ++ qs ++ l2)) i = length l1 /\ resolve (length (l1 ++ qs ++ l2)) j = (length l1 + length qs)%nat) as [Ei Ej].
  { destruct H as [[-> ->]|(L1 & L2 & -> & ->)]; [apply mid_fwd|now apply mid_bwd]. }
  destruct (units_mid l1 qs l2 i j Ei Ej) as (U1 & U2 & U3).
  assert (in_order i j) as HO by (unfold in_order; lia). clear Ei Ej. rewrite !app_length in HL.
  assert (cp_ok i) as Hi by (apply (cp_ok_small _ _ HF); lia). assert (cp_ok j) as Hj by (apply (cp_ok_small _ _ HF); lia).
  rewrite cp_substring_ok, cp_replace_ok by (auto; now left). now rewrite U1, U2, U3.
Qed.

Lemma p_c103_insert s cs t ts k : Text s cs -> Text t ts -> Fits (s ++ t) -> (0 <= k <= Z.of_nat (length cs))%Z -> exists r,
  insert_codepoints s k t = Ok r /\ count_codepoints r = Ok (N.of_nat (length cs + length ts)) /\
  get_codepoint_substring r k (k + Z.of_nat (length ts)) = Ok t /\ replace_codepoints r k (k + Z.of_nat (length ts)) [] = Ok s.
Proof.
  intros Hs Ht HF Hk. destruct (Text_Codepoints s cs Hs) as (ps & HP & <- & Lp). destruct (Text_Codepoints t ts Ht) as (qs & HQ & <- & Lq).
  destruct (split_at ps (Z.to_nat k)) as (l1 & l2 & -> & L1); [lia|]. apply Codepoints_app_inv in HP. destruct HP as [H1 H2].
  assert (Codepoints (l1 ++ qs ++ l2)) as HM by (now repeat apply Codepoints_app).
  assert (Fits (concat (l1 ++ qs ++ l2))) as HFM by (unfold Fits in *; rewrite mid_concat, !size_app in *; rewrite concat_app, size_app in HF; lia).
  assert (Fits (concat (l1 ++ l2))) as HF0 by (now apply (Fits_l _ (concat qs))).
  destruct (cp_mid l1 qs l2 [] k (k + Z.of_nat (length ts)) HM HFM) as (G & R); [left; lia|].
  exists (concat (l1 ++ qs ++ l2)). split; [|split; [|split; [exact G|]]].
  - assert (Codepoints (l1 ++ l2)) as HC by (now apply Codepoints_app). pose proof (Codepoints_length _ HC) as HL.
    rewrite cp_insert_str; [|now left|exact HF0|apply (cp_ok_small _ _ HF0); lia|lia].
    destruct (units_mid l1 [] l2 k k) as (U1 & _ & U3); cbn [app length]; [rewrite app_length; unfold resolve; replace (k <? 0)%Z with false by lia; lia..|].
    cbn [app] in U1, U3. now rewrite U1, U3, mid_concat.
  - rewrite count_code_units; [|now left|exact HFM]. do 2 f_equal. rewrite !app_length in *. lia.
  - rewrite R. now rewrite concat_app.
Qed.
Lemma p_c103_insert_end s cs t ts k : Text s cs -> Text t ts -> Fits (s ++ t) -> ts <> [] -> (- Z.of_nat (length cs) <= k < 0)%Z -> exists r,
  insert_codepoints s k t = Ok r /\ count_codepoints r = Ok (N.of_nat (length cs + length ts)) /\
  get_codepoint_substring r (k - Z.of_nat (length ts)) k = Ok t /\ replace_codepoints r (k - Z.of_nat (length ts)) k [] = Ok s.
Proof.
  intros Hs Ht HF Hne Hk. destruct (Text_Codepoints s cs Hs) as (ps & HP & <- & Lp). destruct (Text_Codepoints t ts Ht) as (qs & HQ & <- & Lq).
  assert (0 < length ts)%nat as Lt by (destruct ts; [congruence|cbn; lia]).
  destruct (split_at ps (Z.to_nat (Z.of_nat (length ps) + k))) as (l1 & l2 & -> & L1); [lia|]. apply Codepoints_app_inv in HP. destruct HP as [H1 H2].
  rewrite app_length in *.
  assert (Codepoints (l1 ++ qs ++ l2)) as HM by (now repeat apply Codepoints_app).
  assert (Fits (concat (l1 ++ qs ++ l2))) as HFM by (unfold Fits in *; rewrite mid_concat, !size_app in *; rewrite concat_app, size_app in HF; lia).
  assert (Fits (concat (l1 ++ l2))) as HF0 by (now apply (Fits_l _ (concat qs))).
  destruct (cp_mid l1 qs l2 [] (k - Z.of_nat (length ts)) k HM HFM) as (G & R); [right; lia|].
  exists (concat (l1 ++ qs ++ l2)). split; [|split; [|split; [exact G|]]].
  - assert (Codepoints (l1 ++ l2)) as HC by (now apply Codepoints_app). pose proof (Codepoints_length _ HC) as HL. rewrite app_length in HL.
    rewrite cp_insert_str; [|now left|exact HF0|apply (cp_ok_small _ _ HF0); lia|rewrite app_length; lia].
    destruct (units_mid l1 [] l2 k k) as (U1 & _ & U3); cbn [app length]; [rewrite app_length; unfold resolve; replace (k <? 0)%Z with true by lia; lia..|].
    cbn [app] in U1, U3. now rewrite U1, U3, mid_concat.
  - rewrite count_code_units; [|now left|exact HFM]. do 2 f_equal. rewrite !app_length in *. lia.
  - rewrite R. now rewrite concat_app.
Qed.
Lemma p_c103_replace s cs t ts i j : Text s cs -> Text t ts -> Fits (s ++ t) -> (0 <= i <= j)%Z -> (j <= Z.of_nat (length cs))%Z -> exists old r,
  get_codepoint_substring s i j = Ok old /\ replace_codepoints s i j t = Ok r /\
  get_codepoint_substring r i (i + Z.of_nat (length ts)) = Ok t /\ replace_codepoints r i (i + Z.of_nat (length ts)) old = Ok s.
Proof.
  intros Hs Ht HF Hi Hj. destruct (Text_Codepoints s cs Hs) as (ps & HP & <- & Lp). destruct (Text_Codepoints t ts Ht) as (qs & HQ & <- & Lq).
  destruct (split_at ps (Z.to_nat i)) as (l1 & l' & -> & L1); [lia|]. rewrite app_length in Lp.
  destruct (split_at l' (Z.to_nat (j - i))) as (l2 & l3 & -> & L2); [lia|]. rewrite app_length in Lp.
  pose proof HP as HP'. apply Codepoints_app_inv in HP'. destruct HP' as [H1 H2]. apply Codepoints_app_inv in H2. destruct H2 as [H2 H3].
  assert (Codepoints (l1 ++ qs ++ l3)) as HM by (now repeat apply Codepoints_app).
  assert (Fits (concat (l1 ++ qs ++ l3))) as HFM by (unfold Fits in *; rewrite !mid_concat, !size_app in *; lia).
  assert (Fits (concat (l1 ++ l2 ++ l3))) as HF0 by (now apply (Fits_l _ (concat qs))).
  destruct (cp_mid l1 l2 l3 (concat qs) i j HP HF0) as (G0 & R0); [left; lia|].
  destruct (cp_mid l1 qs l3 (concat l2) i (i + Z.of_nat (length ts)) HM HFM) as (G & R); [left; lia|].
  exists (concat l2), (concat (l1 ++ qs ++ l3)). split; [exact G0|]. split; [now rewrite R0, mid_concat|]. split; [exact G|]. rewrite R. now rewrite mid_concat.
Qed.
Lemma p_c103_get s cs k c : Text s cs -> Fits s -> c <= 0x10FFFF -> (0 <= k <= Z.of_nat (length cs))%Z -> exists r g,
  insert_codepoint s k c = Ok r /\ get_codepoint r k = Ok (g, c).
Proof.
  intros Hs HF Hc Hk. destruct (Text_Codepoints s cs Hs) as (ps & HP & <- & Lp).
  destruct (split_at ps (Z.to_nat k)) as (l1 & l2 & -> & L1); [lia|]. pose proof (Codepoints_length _ HP) as HL.
  destruct (cp_insert_cp (l1 ++ l2) k c (or_introl HP) HF) as (g & Hg & ->); [apply (cp_ok_small _ _ HF); lia|lia|exact Hc|].
  apply (encodes_uchar g c Hc) in Hg.
  destruct (units_mid l1 [] l2 k k) as (U1 & _ & U3); cbn [app length]; [rewrite app_length; unfold resolve; replace (k <? 0)%Z with false by lia; lia..|].
  cbn [app] in U1, U3. rewrite U1, U3. eexists _, _. split; [reflexivity|].
  apply Codepoints_app_inv in HP. destruct HP as [H1 H2].
  assert (concat l1 ++ g ++ concat l2 = concat (l1 ++ [g] ++ l2)) as -> by (rewrite mid_concat; cbn; now rewrite app_nil_r).
  assert (Codepoints (l1 ++ [g] ++ l2)) as HM by (apply Codepoints_app; [exact H1|]; apply Codepoints_app; [|exact H2]; constructor; [eauto|constructor]).
  apply (proj1 (p_c25 (l1 ++ [g] ++ l2) k (or_introl HM)) g c); [lia| |exact Hg].
  rewrite <- L1. rewrite nth_error_app2 by lia. now rewrite Nat.sub_diag.
Qed.

(** *** By characters *)
Lemma p_c103_parts_chars s cs k : Text s cs -> Fits s -> (0 <= k <= 0x7FFFFFFFFFFFFFFF)%Z -> exists u v,
  get_char_substring s 0 k = Ok u /\ get_char_substring s k 0x7FFFFFFFFFFFFFFF = Ok v /\ s = u ++ v.
Proof.
  intros HT HF Hk. destruct (Chars_exist s cs HT) as (ps & HC & <-). assert (length ps <= length (concat ps))%nat as HL by (now apply nonempty_length, chars_ne).
  pose proof HF as HF'. unfold Fits, size in HF'.
  exists (concat (units_between ps 0 k)), (concat (units_between ps k 0x7FFFFFFFFFFFFFFF)).
  split; [apply char_substring_ok; auto; unfold isz, PTRDIFF_MAX, PTRDIFF_MIN, char_in_order; lia|].
  split; [apply char_substring_ok; auto; unfold isz, PTRDIFF_MAX, PTRDIFF_MIN, char_in_order; lia|].
  unfold units_between. rewrite resolve_0. assert (resolve (length ps) 0x7FFFFFFFFFFFFFFF = length ps) as -> by (unfold resolve; replace (_ <? 0)%Z with false by lia; lia).
  rewrite Nat.sub_0_r. cbn [skipn]. rewrite (firstn_all2 (skipn _ _)) by (rewrite skipn_length; lia). apply concat_firstn_skipn.
Qed.
Lemma p_c103_parts_chars_neg s cs k : Text s cs -> Fits s -> (- 0x8000000000000000 <= k < 0)%Z -> exists u v,
  get_char_substring s 0 k = Ok u /\ get_char_substring s k 0x7FFFFFFFFFFFFFFF = Ok v /\ s = u ++ v.
Proof.
  intros HT HF Hk. destruct (Chars_exist s cs HT) as (ps & HC & <-). assert (length ps <= length (concat ps))%nat as HL by (now apply nonempty_length, chars_ne).
  pose proof HF as HF'. unfold Fits, size in HF'.
  exists (concat (units_between ps 0 k)), (concat (units_between ps k 0x7FFFFFFFFFFFFFFF)).
  split; [|split].
  - rewrite (p_c27_crossed_exact ps 0 k HC HF) by lia. unfold units_before, units_after. rewrite resolve_0. cbn [firstn concat Nat.max skipn].
    replace (size [] <=? _) with true by (unfold size; cbn [length]; lia). f_equal. unfold units_between. rewrite resolve_0, Nat.sub_0_r. cbn [skipn].
    set (n := resolve (length ps) k). rewrite (concat_firstn_skipn ps n) at 1.
    change (size []) with 0. rewrite N.sub_0_r. unfold size. rewrite Nat2N.id. rewrite firstn_app, Nat.sub_diag, firstn_all. cbn [firstn]. now rewrite app_nil_r.
  - apply char_substring_ok; auto; unfold isz, PTRDIFF_MAX, PTRDIFF_MIN, char_in_order; lia.
  - unfold units_between. rewrite resolve_0. assert (resolve (length ps) 0x7FFFFFFFFFFFFFFF = length ps) as -> by (unfold resolve; replace (_ <? 0)%Z with false by lia; lia).
    rewrite Nat.sub_0_r. cbn [skipn]. rewrite (firstn_all2 (skipn _ _)) by (rewrite skipn_length; lia). apply concat_firstn_skipn.
Qed.
Lemma p_c103_parts_chars_all s cs k : Text s cs -> Fits s -> (- 0x8000000000000000 <= k <= 0x7FFFFFFFFFFFFFFF)%Z -> exists u v,
  get_char_substring s 0 k = Ok u /\ get_char_substring s k 0x7FFFFFFFFFFFFFFF = Ok v /\ s = u ++ v.
Proof.
  intros HT HF Hk. destruct (Z.lt_ge_cases k 0); [apply (p_c103_parts_chars_neg s cs k)|apply (p_c103_parts_chars s cs k)]; auto; lia.
Qed.
Lemma p_c103_self_chars s cs i j : Text s cs -> Fits s -> isz i -> isz j -> char_in_order i j -> exists g,
  get_char_substring s i j = Ok g /\ replace_chars s i j g = Ok s.
Proof.
  intros HT HF Hi Hj O. destruct (Chars_exist s cs HT) as (ps & HC & <-).
  exists (concat (units_between ps i j)). split; [now apply char_substring_ok|]. rewrite char_replace_ok by assumption.
  now rewrite <- (units_concat ps i j).
Qed.
Lemma char_mid (l1 qs l2 : list str) t : Chars (l1 ++ qs ++ l2) -> Fits (concat (l1 ++ qs ++ l2)) ->
  get_char_substring (concat (l1 ++ qs ++ l2)) (Z.of_nat (length l1)) (Z.of_nat (length l1 + length qs)) = Ok (concat qs) /\
  replace_chars (concat (l1 ++ qs ++ l2)) (Z.of_nat (length l1)) (Z.of_nat (length l1 + length qs)) t = Ok (concat l1 ++ t ++ concat l2).
Proof.
  intros HC HF. assert (length (l1 ++ qs ++ l2) <= length (concat (l1 ++ qs ++ l2)))%nat as HL by (now apply nonempty_length, chars_ne).
  destruct (mid_fwd l1 qs l2) as [Ei Ej]. destruct (units_mid l1 qs l2 _ _ Ei Ej) as (U1 & U2 & U3). rewrite !app_length in HL.
  assert (isz (Z.of_nat (length l1))) as Hi by (apply (isz_small _ _ HF); lia).
  assert (isz (Z.of_nat (length l1 + length qs))) as Hj by (apply (isz_small _ _ HF); lia).
  rewrite char_substring_ok, char_replace_ok by (auto; left; lia). now rewrite U1, U2, U3.
Qed.
Lemma p_c103_replace_chars l1 l2 l3 qs : Chars (l1 ++ l2 ++ l3) -> Chars (l1 ++ qs ++ l3) ->
  Fits (concat (l1 ++ l2 ++ l3)) -> Fits (concat (l1 ++ qs ++ l3)) ->
  let i := Z.of_nat (length l1) in let j := Z.of_nat (length l1 + length l2) in let j' := Z.of_nat (length l1 + length qs) in
  exists old r, get_char_substring (concat (l1 ++ l2 ++ l3)) i j = Ok old /\ replace_chars (concat (l1 ++ l2 ++ l3)) i j (concat qs) = Ok r /\
    get_char_substring r i j' = Ok (concat qs) /\ replace_chars r i j' old = Ok (concat (l1 ++ l2 ++ l3)).
Proof.
  intros H1 H2 F1 F2. cbv zeta. destruct (char_mid l1 l2 l3 (concat qs) H1 F1) as [G R]. destruct (char_mid l1 qs l3 (concat l2) H2 F2) as [G' R'].
  exists (concat l2), (concat (l1 ++ qs ++ l3)). split; [exact G|]. split; [now rewrite R, mid_concat|]. split; [exact G'|]. now rewrite R', mid_concat.
Qed.
