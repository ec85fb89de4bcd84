(** Exactly when the functions that take character indices are undefined (C82). *)
From Verif Require Import Base Spec.Utf8Spec Spec.Strings Spec.Slices Spec.Safety Spec.Stuck Model.Decode Model.Encode Model.Subrange Model.Search
  Model.CharClass Model.Chars Proofs.Utf8Lemmas Proofs.DecodeLemmas Proofs.EncodeLemmas Proofs.CodepointLemmas Proofs.SearchLemmas Proofs.Utf8Props
  Proofs.SliceLemmas Proofs.CharLemmas Proofs.PieceLemmas Proofs.CharMalformed Proofs.PositionProps Proofs.CharSliceMalformed Proofs.BackwardLemmas Proofs.SafeLemmas Proofs.SafeLemmas3 Proofs.SafeProps Proofs.UnescapeStep.

Lemma pos_stuck s k : Fits s -> (get_char_pos s k = UB <-> stuck is_mark s k).
Proof. exact (char_pos_ub s k). Qed.
Lemma stuck_neg s k : stuck is_mark s k -> (k < 0)%Z.
Proof. intros (r & m & us & ps & _ & _ & _ & _ & H & _). lia. Qed.
Lemma pos_fwd_defined s k : Fits s -> (0 <= k)%Z -> get_char_pos s k <> UB.
Proof. intros HF Hk E. apply (pos_stuck s k HF) in E. apply stuck_neg in E. lia. Qed.

Lemma bind_ub {A B} (x : outcome A) (f : A -> outcome B) : (forall a, x = Ok a -> f a <> UB) -> (bind x f = UB <-> x = UB).
Proof. intros H. destruct x as [a|e| |]; cbn; split; try congruence. intros E. now destruct (H a eq_refl). Qed.
Lemma substr_not_ub s a b : substr s a b <> UB.
Proof. unfold substr. now destruct (size s <? a). Qed.
Lemma append_not_ub s c : append s c <> UB.
Proof. unfold append, append_to. destruct (encode_utf8 c) as [b n]. now destruct (n =? 0). Qed.
Lemma at_cp_not_ub s o c : insert_at_offset_cp s o c <> UB.
Proof.
  unfold insert_at_offset_cp. destruct (o =? npos); [discriminate|]. rewrite bind_ub; [apply substr_not_ub|]. intros a _.
  rewrite bind_ub; [apply append_not_ub|]. intros b _. rewrite bind_ub; [apply substr_not_ub|discriminate].
Qed.
Lemma at_str_not_ub s o t : insert_at_offset_str s o t <> UB.
Proof.
  unfold insert_at_offset_str. destruct t; [discriminate|]. destruct (o =? npos); [discriminate|]. rewrite bind_ub; [apply substr_not_ub|]. intros a _.
  rewrite bind_ub; [apply substr_not_ub|discriminate].
Qed.
Lemma p_c82_insert s k : Fits s ->
  (forall c, insert_char s k c = UB <-> stuck is_mark s k) /\ (forall t, insert_chars s k t = UB <-> stuck is_mark s k).
Proof.
  intros HF. split; intros x; rewrite <- (pos_stuck s k HF); apply bind_ub; intros a _; [apply at_cp_not_ub|apply at_str_not_ub].
Qed.

(** A text that ends with something that can not be decoded, or not *)
Lemma by_suffix s : Fits s -> (exists cs, Text s cs) \/
  exists r m us ps, s = r ++ m ++ concat ps /\ Text m us /\ marks us /\ MalformedEnd r /\ unmarked_chars ps /\
    forall k, (stuck is_mark s k <-> (Z.of_nat (length ps) < - k)%Z /\ long_cont_tail r).
Proof.
  intros HF. destruct (text_suffix (length s) s (le_n _)) as (r & u & cs & -> & HT & [->|HM]); [left; eauto|].
  right. destruct (unmarked_exist u cs HT) as (m & us & ps & -> & H1 & H2 & H3). exists r, m, us, ps. repeat (split; [assumption || reflexivity|]).
  intros k. rewrite <- (pos_stuck _ k HF). split.
  - intros E. assert (k < 0)%Z as Hk by (apply (stuck_neg (r ++ m ++ concat ps)), (pos_stuck _ k HF); exact E).
    destruct (get_char_pos_bwd_bad r m us ps k H1 H2 HM H3 HF Hk) as [K1 K2].
    destruct (Z.le_gt_cases (- k) (Z.of_nat (length ps))) as [L|L]; [rewrite (K1 L) in E; discriminate|]. split; [exact L|]. eapply bad_ub; [now apply K2|exact E].
  - intros [L HL]. destruct (get_char_pos_bwd_bad r m us ps k H1 H2 HM H3 HF ltac:(lia)) as [_ K2]. now apply (K2 L).
Qed.
Lemma valid_not_stuck s cs k : Fits s -> Text s cs -> ~ stuck is_mark s k.
Proof.
  intros HF HT (r & m & us & ps & E & _ & _ & _ & _ & HL). apply (p_c82_valid s cs HT). destruct HL as (y & t & -> & Hy & Ht & HC).
  apply exists_last in Hy as (y' & b & ->). exists y', b, t, (m ++ concat ps). split; [|now split]. rewrite E. now rewrite <- !app_assoc.
Qed.

Lemma p_c82_range s k : Fits s -> (get_char_range s k = UB <-> stuck is_mark s k).
Proof.
  intros HF. destruct (by_suffix s HF) as [(cs & HT)|(r & m & us & ps & -> & H1 & H2 & HM & H3 & HS)].
  - split; [|intros H; now destruct (valid_not_stuck s cs k HF HT)]. intros E.
    destruct (runs_defined_or _ _ _ (get_char_range_runs s k HF)) as [H|[[a H]|[e H]]]; [now destruct (p_c82_valid s cs HT)|congruence..].
  - rewrite HS. destruct (Z.ltb_spec k 0) as [Hk|Hk].
    + destruct (get_char_range_bwd_bad r m us ps k H1 H2 HM H3 HF Hk) as [K1 K2]. split.
      * intros E. destruct (Z.le_gt_cases (- k) (Z.of_nat (length ps))) as [L|L].
        -- destruct (nth_error ps (Z.to_nat (Z.of_nat (length ps) + k))) as [p|] eqn:En; [|apply nth_error_None in En; lia].
           assert (Z.of_nat (Z.to_nat (Z.of_nat (length ps) + k)) = (Z.of_nat (length ps) + k)%Z) as Ez by (apply Z2Nat.id; lia).
           rewrite (K1 _ p Ez En) in E. discriminate.
        -- split; [exact L|]. eapply bad_ub; [now apply K2|exact E].
      * intros [L HL]. now apply (K2 L).
    + split; [|intros [L _]; pose proof (Zle_0_nat (length ps)); lia]. intros E. exfalso. unfold get_char_range in E. replace (0 <=? k)%Z with true in E by lia.
      pose proof (get_char_pos_runs _ k HF) as HP.
      destruct (get_char_pos (r ++ m ++ concat ps) k) as [o|e| |] eqn:Ep; try discriminate; [|apply pos_fwd_defined in Ep; [contradiction|exact HF|lia]]. cbn [bind] in E.
      destruct (o =? npos) eqn:Eo; [discriminate|]. apply N.eqb_neq in Eo. destruct HP as [HP|HP]; [contradiction|].
      pose proof (next_char_runs False (r ++ m ++ concat ps) o HF HP) as HN. rewrite E in HN. exact HN.
Qed.

Lemma capped_ub s k : get_capped_char_pos s k = UB <-> get_char_pos s k = UB.
Proof. unfold get_capped_char_pos. apply bind_ub. intros a _. now destruct (negb (a =? npos)). Qed.
Lemma pos_zero s : get_char_pos s 0 = Ok 0.
Proof. reflexivity. Qed.
Lemma substring_ub s i j : get_char_substring s i j = UB <-> get_char_substring_range s i j = UB.
Proof. unfold get_char_substring. apply bind_ub. intros a _. apply substr_not_ub. Qed.
Lemma replace_ub s i j t : replace_chars s i j t = UB <-> get_char_substring_range s i j = UB.
Proof.
  unfold replace_chars. apply bind_ub. intros a _. unfold replace_subrange. rewrite bind_ub; [apply substr_not_ub|]. intros b _.
  rewrite bind_ub; [apply substr_not_ub|discriminate].
Qed.
Lemma fits_from s o t : Fits s -> substr_from s o = Ok t -> Fits t /\ exists u, s = u ++ t /\ size u = o.
Proof.
  unfold substr_from, substr. intros HF. destruct (N.ltb_spec (size s) o) as [L|L]; [discriminate|]. intros E. injection E as <-.
  assert (firstn (N.to_nat (N.min npos (size s - o))) (skipn (N.to_nat o) s) = skipn (N.to_nat o) s) as ->.
  { apply firstn_all2. rewrite skipn_length. unfold Fits, size, npos, SIZE_MAX, PTRDIFF_MAX in *. lia. }
  split.
  - unfold Fits, size in *. rewrite skipn_length. lia.
  - exists (firstn (N.to_nat o) s). split; [now rewrite firstn_skipn|]. unfold size in *. rewrite firstn_length. lia.
Qed.

(** Start counted from the end *)
Lemma range_start_end s i j : Fits s -> index i -> index j -> (i < 0)%Z -> (get_char_substring_range s i j = UB <-> stuck is_mark s i).
Proof.
  intros HF Hi Hj Hn. destruct (Z.ltb_spec j 0) as [Lj|Lj].
  - destruct (Z.ltb_spec i j) as [L|L].
    + destruct (by_suffix s HF) as [(cs & HT)|(r & m & us & ps & -> & H1 & H2 & HM & H3 & HS)].
      * split; [|intros H; now destruct (valid_not_stuck s cs i HF HT)]. intros E. pose proof (ch_range_runs s i j HF Hi Hj) as HR. rewrite E in HR.
        now destruct (p_c82_valid s cs HT).
      * rewrite HS. assert (isz i) as HZ by (unfold isz, index in *; lia).
        destruct (range_bwd_bad r m us ps i j H1 H2 HM H3 HF (conj L Lj) HZ) as [K1 K2]. split.
        -- intros E. destruct (Z.le_gt_cases (- i) (Z.of_nat (length ps))) as [L'|L']; [rewrite (K1 L') in E; discriminate|].
           split; [exact L'|]. eapply bad_ub; [now apply K2|exact E].
        -- intros [L' HL]. now apply (K2 L').
    + rewrite <- (pos_stuck s i HF), <- (capped_ub s i). unfold get_char_substring_range. cbv zeta.
      replace (if ((j <? i) && Bool.eqb (0 <=? i) (0 <=? j))%Z then i else j) with i.
      2: { destruct (Z.ltb_spec j i); [|cbn; lia]. replace (0 <=? i)%Z with false by lia. now replace (0 <=? j)%Z with false by lia. }
      replace (0 <=? i)%Z with false by lia. replace (i <? 0)%Z with true by lia. cbn [andb].
      apply bind_ub. intros e _. rewrite bind_ub; [apply substr_not_ub|]. intros t _. rewrite Z.sub_diag. rewrite signed_ok by (unfold isz, PTRDIFF_MIN, PTRDIFF_MAX; lia).
      cbn [bind]. rewrite bind_ub; [|discriminate]. rewrite capped_ub. discriminate.
  - rewrite <- (pos_stuck s i HF), <- (capped_ub s i). unfold get_char_substring_range. cbv zeta.
    replace (if ((j <? i) && Bool.eqb (0 <=? i) (0 <=? j))%Z then i else j) with j by (replace (j <? i)%Z with false by lia; reflexivity).
    replace (0 <=? i)%Z with false by lia. replace (i <? 0)%Z with true by lia. replace (j <? 0)%Z with false by lia. cbn [andb].
    apply bind_ub. intros st _. rewrite bind_ub; [|discriminate]. rewrite capped_ub. now apply pos_fwd_defined.
Qed.
Lemma range_fwd_defined s i j : Fits s -> index i -> index j -> (0 <= i)%Z -> (0 <= j)%Z -> get_char_substring_range s i j <> UB.
Proof.
  intros HF Hi Hj H1 H2. unfold get_char_substring_range. cbv zeta. set (j' := if ((j <? i) && Bool.eqb (0 <=? i) (0 <=? j))%Z then i else j).
  assert (i <= j')%Z as Hj'. { unfold j'. destruct (Z.ltb_spec j i); [|cbn; lia]. replace (0 <=? i)%Z with true by lia. replace (0 <=? j)%Z with true by lia. cbn. lia. }
  assert (index j') as Hx by (unfold j'; now destruct (_ && _)).
  replace ((0 <=? i) && (0 <=? j'))%Z with true by lia. rewrite bind_ub; [rewrite capped_ub; now apply pos_fwd_defined|].
  intros st Est. destruct (substr_from s st) as [t|e| |] eqn:Et; try discriminate; [|now apply substr_not_ub in Et]. cbn [bind].
  destruct (fits_from s st t HF Et) as [HFt _]. rewrite signed_ok by (unfold isz, index, PTRDIFF_MIN, PTRDIFF_MAX in *; lia). cbn [bind].
  rewrite bind_ub; [|discriminate]. rewrite capped_ub. apply pos_fwd_defined; [exact HFt|lia].
Qed.
Lemma range_to_end s i j : Fits s -> (0 <= i)%Z -> (j < 0)%Z -> (get_char_substring_range s i j = UB <->
  exists u v, s = u ++ v /\ get_char_pos s i = Ok (size u) /\ stuck is_mark v j).
Proof.
  intros HF H1 H2. unfold get_char_substring_range. cbv zeta.
  replace (if ((j <? i) && Bool.eqb (0 <=? i) (0 <=? j))%Z then i else j) with j.
  2: { replace (0 <=? i)%Z with true by lia. replace (0 <=? j)%Z with false by lia. cbn [Bool.eqb]. now rewrite andb_false_r. }
  replace (0 <=? i)%Z with true by lia. replace (0 <=? j)%Z with false by lia. replace (j <? 0)%Z with true by lia. replace (i <? 0)%Z with false by lia. cbn [andb].
  pose proof (pos_fwd_defined s i HF H1) as HD. unfold get_capped_char_pos at 1.
  assert (forall (v : str), stuck is_mark v j -> v <> []) as HV.
  { intros v (r & m & us & ps & -> & _ & _ & _ & _ & (y & t & -> & _ & Lt & _)) E. destruct t; [discriminate|]. destruct y; discriminate. }
  destruct (get_char_pos s i) as [o|e| |] eqn:Ep; try (split; [discriminate|intros (u & v & _ & E & _); discriminate]); [|contradiction]. cbn [bind].
  pose proof (get_char_pos_runs s i HF) as HP. rewrite Ep in HP. destruct HP as [->|HP].
  - split.
    + rewrite N.eqb_refl. cbn [negb bind]. intros E. exfalso. destruct (Z.ltb_spec 0 i) as [L|L].
      * destruct (substr_from s (size s)) as [t|e| |] eqn:Et; try discriminate; [|now apply substr_not_ub in Et]. cbn [bind] in E.
        destruct (fits_from s (size s) t HF Et) as (HFt & u & Hu & Lu). rewrite bind_ub in E by discriminate. rewrite capped_ub in E. apply (pos_stuck t j HFt), HV in E.
        apply E. rewrite Hu in Lu. unfold size in Lu. rewrite app_length in Lu. destruct t; [reflexivity|cbn in Lu; lia].
      * replace i with 0%Z in Ep by lia. rewrite pos_zero in Ep. discriminate.
    + intros (u & v & -> & E & _). injection E as E. unfold Fits, size, npos, SIZE_MAX, PTRDIFF_MAX in *. rewrite app_length in HF. lia.
  - assert ((o =? npos) = false) as -> by (apply N.eqb_neq; unfold Fits, size, npos, SIZE_MAX, PTRDIFF_MAX in *; lia). cbn [negb bind].
    split.
    + intros E. destruct (substr_from s o) as [t|e| |] eqn:Et; try discriminate; [|now apply substr_not_ub in Et]. cbn [bind] in E.
      destruct (fits_from s o t HF Et) as (HFt & u & Hu & Lu). rewrite bind_ub in E by discriminate. rewrite capped_ub in E. apply (pos_stuck t j HFt) in E.
      exists u, t. split; [exact Hu|]. split; [now rewrite Lu|exact E].
    + intros (u & v & Es & E & HS). injection E as ->. destruct (substr_from s (size u)) as [t|e| |] eqn:Et.
      2-4: unfold substr_from, substr in Et; replace (size s <? size u) with false in Et by lia; discriminate.
      destruct (fits_from s _ t HF Et) as (HFt & u' & Hu & Lu). cbn [bind].
      assert (u' = u /\ t = v) as [-> ->]. { apply app_inj_len; [unfold size in Lu; lia|congruence]. }
      rewrite bind_ub by discriminate. rewrite capped_ub. now apply pos_stuck.
Qed.
Lemma p_c82_substring s i j t : Fits s -> index i -> index j ->
  ((i < 0)%Z -> (get_char_substring s i j = UB <-> stuck is_mark s i) /\ (replace_chars s i j t = UB <-> stuck is_mark s i)) /\
  ((0 <= i)%Z -> (0 <= j)%Z -> get_char_substring s i j <> UB /\ replace_chars s i j t <> UB) /\
  ((0 <= i)%Z -> (j < 0)%Z ->
     (get_char_substring s i j = UB <-> exists u v, s = u ++ v /\ get_char_pos s i = Ok (size u) /\ stuck is_mark v j) /\
     (replace_chars s i j t = UB <-> exists u v, s = u ++ v /\ get_char_pos s i = Ok (size u) /\ stuck is_mark v j)).
Proof.
  intros HF Hi Hj. rewrite substring_ub, replace_ub. split; [|split].
  - intros Hn. split; now apply range_start_end.
  - intros H1 H2. split; now apply range_fwd_defined.
  - intros H1 H2. split; now apply range_to_end.
Qed.
