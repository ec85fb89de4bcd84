(** Positions and slices, for any kind of unit. *)
From Verif Require Import Base Spec.Utf8Spec Spec.Strings Spec.Slices Model.Decode Model.Encode Model.Subrange Model.Search Model.Chars
  Proofs.Utf8Lemmas Proofs.DecodeLemmas Proofs.SkipLemmas Proofs.EncodeLemmas Proofs.CodepointLemmas Proofs.SearchLemmas Proofs.PieceLemmas.
From Coq Require Import ZifyBool ZifyNat ZifyN.
Ltac Zify.zify_post_hook ::= Z.div_mod_to_equations.

Lemma resolve_le n i : (resolve n i <= n)%nat.
Proof. unfold resolve. destruct (Z.ltb_spec i 0); lia. Qed.

Lemma resolve_0 n : resolve n 0 = 0%nat.
Proof. unfold resolve. cbn. lia. Qed.

Lemma size_app (u v : str) : size (u ++ v) = size u + size v.
Proof. unfold size. rewrite app_length. lia. Qed.

Lemma concat_firstn_skipn (ps : list str) k : concat ps = concat (firstn k ps) ++ concat (skipn k ps).
Proof. rewrite <- concat_app. now rewrite firstn_skipn. Qed.

Lemma offset_le (ps : list str) k : offset_of ps k <= size (concat ps).
Proof. unfold offset_of. rewrite (concat_firstn_skipn ps k), size_app. lia. Qed.

Lemma offset_mono (ps : list str) j k : (j <= k)%nat -> offset_of ps j <= offset_of ps k.
Proof.
  intros H. unfold offset_of. replace (firstn j ps) with (firstn j (firstn k ps)).
  - rewrite (concat_firstn_skipn (firstn k ps) j), size_app. lia.
  - rewrite firstn_firstn. now rewrite Nat.min_l.
Qed.

Lemma offset_all (ps : list str) : offset_of ps (length ps) = size (concat ps).
Proof. unfold offset_of. now rewrite firstn_all. Qed.

Lemma offset_zero (ps : list str) : offset_of ps 0 = 0.
Proof. reflexivity. Qed.

Lemma Fits_npos s : Fits s -> size s < npos.
Proof. unfold Fits, npos, SIZE_MAX. lia. Qed.

  Lemma Fits_firstn (ps : list str) k : Fits (concat ps) -> Fits (concat (firstn k ps)).
  Proof. unfold Fits. rewrite (concat_firstn_skipn ps k), size_app. intros H. lia. Qed.
  Lemma Fits_skipn (ps : list str) k : Fits (concat ps) -> Fits (concat (skipn k ps)).
  Proof. unfold Fits. rewrite (concat_firstn_skipn ps k), size_app. intros H. lia. Qed.

  Lemma substr_from_offset (ps : list str) k : Fits (concat ps) ->
    substr_from (concat ps) (offset_of ps k) = Ok (concat (skipn k ps)).
  Proof.
    intros HF. unfold substr_from. pose proof (Fits_npos _ HF). unfold offset_of.
    pose proof (offset_le ps k) as HL. unfold offset_of in HL.
    rewrite (concat_firstn_skipn ps k). unfold substr. rewrite size_app.
    replace (_ <? _) with false by lia.
    replace (N.min npos _) with (size (concat (skipn k ps))).
    - unfold size. rewrite !Nat2N.id. rewrite skipn_length_app. now rewrite firstn_all.
    - rewrite (concat_firstn_skipn ps k), size_app in H. lia.
  Qed.

  Lemma substr_to_offset (ps : list str) k : substr (concat ps) 0 (offset_of ps k) = Ok (concat (firstn k ps)).
  Proof.
    unfold offset_of. rewrite (concat_firstn_skipn ps k) at 1. unfold substr. rewrite size_app.
    replace (_ <? 0) with false by lia.
    replace (N.min _ _) with (size (concat (firstn k ps))) by lia.
    unfold size. rewrite Nat2N.id. cbn [skipn N.to_nat]. now rewrite firstn_length_app.
  Qed.

  Lemma offset_skipn (ps : list str) a b : offset_of (skipn a ps) b = offset_of ps (a + b) - offset_of ps a.
  Proof.
    unfold offset_of. rewrite (concat_firstn_skipn (firstn (a + b) ps) a), size_app.
    rewrite firstn_firstn, Nat.min_l by lia.
    rewrite firstn_skipn_comm. lia.
  Qed.

  Lemma offset_firstn (ps : list str) a b : offset_of (firstn a ps) b = offset_of ps (Nat.min a b).
  Proof. unfold offset_of. rewrite firstn_firstn. now rewrite Nat.min_comm. Qed.

  (** A range of offsets [a, b) in bytes is the units between. *)
  Lemma substr_units (ps : list str) a b : (a <= b)%nat ->
    substr (concat ps) (offset_of ps a) (offset_of ps b - offset_of ps a) = Ok (concat (firstn (b - a) (skipn a ps))).
  Proof.
    intros H. replace (offset_of ps b - offset_of ps a) with (offset_of (skipn a ps) (b - a)).
    2:{ rewrite offset_skipn. now replace (a + (b - a))%nat with b by lia. }
    rewrite (concat_firstn_skipn ps a) at 1. rewrite (concat_firstn_skipn (skipn a ps) (b - a)) at 1.
    now apply substr_mid.
  Qed.

  Definition isz (i : Z) : Prop := (PTRDIFF_MIN <= i <= PTRDIFF_MAX)%Z.

  Lemma signed_ok z : isz z -> signed z = Ok z.
  Proof. unfold signed, is_ptrdiff, isz. intros H. replace (_ && _) with true by lia. reflexivity. Qed.

  Lemma units_between_offsets (ps : list str) i j : 
    substr (concat ps) (offset_of ps (resolve (length ps) i))
      (offset_of ps (resolve (length ps) j) - offset_of ps (resolve (length ps) i))
    = Ok (concat (units_between ps i j)).
  Proof.
    unfold units_between. destruct (Nat.le_gt_cases (resolve (length ps) i) (resolve (length ps) j)) as [L|L].
    - now apply substr_units.
    - pose proof (offset_mono ps (resolve (length ps) j) (resolve (length ps) i) ltac:(lia)).
      replace (_ - offset_of ps (resolve (length ps) i)) with 0 by lia.
      replace (_ - _)%nat with 0%nat by lia. unfold substr.
      pose proof (offset_le ps (resolve (length ps) i)).
      replace (_ <? _) with false by lia. rewrite N.min_0_l. reflexivity.
  Qed.

Section Units.
  Variable good : list str -> Prop.
  Variable posf : str -> Z -> outcome N.
  Variable ok : Z -> Prop.
  Variable good_firstn : forall ps k, good ps -> good (firstn k ps).
  Variable good_skipn : forall ps k, good ps -> good (skipn k ps).
  Variable posf_spec : forall ps k, good ps -> Fits (concat ps) -> ok k -> posf (concat ps) k = Ok (position ps k).

  Hypothesis ok_sub : forall i j, (PTRDIFF_MIN <= i <= PTRDIFF_MAX)%Z -> (PTRDIFF_MIN <= j <= PTRDIFF_MAX)%Z ->
    ok i -> ok j -> ((0 <= i <= j)%Z -> ok (j - i)%Z) /\ ((i < j < 0)%Z -> ok (i - j)%Z).

  Definition capped (s : str) (pos : Z) : outcome N :=
    let* p := posf s pos in
    if negb (p =? npos) then Ok p else Ok (if (0 <? pos)%Z then size s else 0).

  Lemma capped_spec (ps : list str) k : good ps -> Fits (concat ps) -> ok k ->
    capped (concat ps) k = Ok (offset_of ps (resolve (length ps) k)).
  Proof using All.
    intros HG HF Hk. unfold capped. rewrite posf_spec by assumption. cbn [bind].
    unfold position. pose proof (offset_le ps (resolve (length ps) k)) as HL. apply Fits_npos in HF.
    destruct (Z.ltb_spec (Z.of_nat (length ps)) (Z.abs k)) as [L|L].
    - rewrite N.eqb_refl. cbn [negb]. unfold resolve. f_equal.
      destruct (Z.ltb_spec 0 k) as [P|P].
      + replace (k <? 0)%Z with false by lia. rewrite Nat.min_r by lia. now rewrite offset_all.
      + replace (k <? 0)%Z with true by lia. replace (Z.to_nat (Z.of_nat (length ps) + k)) with 0%nat by lia.
        now rewrite offset_zero.
    - replace (_ =? npos) with false by lia. reflexivity.
  Qed.

  (** Both indices from the start. *)
  Lemma range_pos_pos (ps : list str) i j : good ps -> Fits (concat ps) -> isz i -> isz j -> ok i -> ok j -> (0 <= i <= j)%Z ->
    (let* st := capped (concat ps) i in
     let* t := substr_from (concat ps) st in
     let* d := signed (j - i) in
     let* e := capped t d in Ok (Sub st e))
    = Ok (Sub (offset_of ps (resolve (length ps) i))
              (offset_of ps (resolve (length ps) j) - offset_of ps (resolve (length ps) i))).
  Proof using All.
    intros HG HF Zi Zj Oi Oj H. rewrite capped_spec by assumption. cbn [bind].
    rewrite substr_from_offset by assumption. cbn [bind].
    rewrite signed_ok by (unfold isz, PTRDIFF_MIN, PTRDIFF_MAX in *; lia). cbn [bind].
    rewrite capped_spec; [|now apply good_skipn|now apply Fits_skipn|now apply (proj1 (ok_sub i j Zi Zj Oi Oj))].
    cbn [bind]. do 2 f_equal. rewrite offset_skipn, skipn_length. do 2 f_equal.
    unfold resolve. replace (i <? 0)%Z with false by lia. replace (j <? 0)%Z with false by lia.
    replace (j - i <? 0)%Z with false by lia. lia.
  Qed.

  (** Both from the end, in order. *)
  Lemma range_neg_neg (ps : list str) i j : good ps -> Fits (concat ps) -> isz i -> isz j -> ok i -> ok j -> (i < j < 0)%Z ->
    (let* e := capped (concat ps) j in
     let* t := substr (concat ps) 0 e in
     let* d := signed (i - j) in
     let* st := capped t d in Ok (Sub st (sub64 e st)))
    = Ok (Sub (offset_of ps (resolve (length ps) i))
              (offset_of ps (resolve (length ps) j) - offset_of ps (resolve (length ps) i))).
  Proof using All.
    intros HG HF Zi Zj Oi Oj H. rewrite capped_spec by assumption. cbn [bind].
    rewrite substr_to_offset. cbn [bind].
    rewrite signed_ok by (unfold isz, PTRDIFF_MIN, PTRDIFF_MAX in *; lia). cbn [bind].
    rewrite capped_spec; [|now apply good_firstn|now apply Fits_firstn|now apply (proj2 (ok_sub i j Zi Zj Oi Oj))].
    cbn [bind]. rewrite offset_firstn, firstn_length.
    assert (Nat.min (resolve (length ps) j) (resolve (Nat.min (resolve (length ps) j) (length ps)) (i - j))
            = resolve (length ps) i) as ->.
    { unfold resolve. replace (i <? 0)%Z with true by lia. replace (j <? 0)%Z with true by lia.
      replace (i - j <? 0)%Z with true by lia. lia. }
    do 2 f_equal. apply sub64_small.
    - apply offset_mono. unfold resolve. replace (i <? 0)%Z with true by lia. replace (j <? 0)%Z with true by lia. lia.
    - pose proof (offset_le ps (resolve (length ps) j)). unfold Fits, W64 in *. lia.
  Qed.

  (** Start from the start, end from the end: the offset of the end is relative. *)
  Lemma range_pos_neg (ps : list str) i j : good ps -> Fits (concat ps) -> ok i -> ok j -> (0 <= i)%Z -> (j < 0)%Z ->
    exists a b, a = offset_of ps (resolve (length ps) i) /\
      b = offset_of ps (Nat.max (resolve (length ps) i) (resolve (length ps) j)) - a /\
    forall A (k : N -> N -> outcome A),
    (let* st := capped (concat ps) i in
     let* t := substr_from (concat ps) st in
     let* e := capped t j in k st e) = k a b.
  Proof using All.
    intros HG HF Oi Oj Hi Hj. eexists _, _. split; [reflexivity|]. split; [reflexivity|]. intros A k.
    rewrite capped_spec by assumption. cbn [bind].
    rewrite substr_from_offset by assumption. cbn [bind].
    rewrite capped_spec; [|now apply good_skipn|now apply Fits_skipn|assumption].
    cbn [bind]. f_equal. rewrite offset_skipn, skipn_length. do 2 f_equal.
    unfold resolve. replace (i <? 0)%Z with false by lia. replace (j <? 0)%Z with true by lia. lia.
  Qed.

End Units.

(** ** Code points *)

Lemma Codepoints_firstn (ps : list str) k : Codepoints ps -> Codepoints (firstn k ps).
Proof. unfold Codepoints. intros H. rewrite <- (firstn_skipn k ps) in H. now apply Forall_app in H. Qed.
Lemma Codepoints_skipn (ps : list str) k : Codepoints ps -> Codepoints (skipn k ps).
Proof. unfold Codepoints. intros H. rewrite <- (firstn_skipn k ps) in H. now apply Forall_app in H. Qed.

Lemma Codepoints_length (ps : list str) : Codepoints ps -> (length ps <= length (concat ps))%nat.
Proof.
  induction 1 as [|p ps (c & Hc) H IH]; [cbn; lia|]. cbn [concat length]. rewrite app_length.
  apply uchar_length in Hc. lia.
Qed.

Lemma skip_next_n_spec (ps : list str) : Codepoints ps -> forall fuel pre k, (length ps < fuel)%nat -> (0 <= k)%Z ->
  skip_next_n fuel (pre ++ concat ps) k (length pre)
  = Ok (k - Z.min k (Z.of_nat (length ps)), length (pre ++ concat (firstn (Z.to_nat k) ps)))%Z.
Proof.
  induction 1 as [|p ps (c & Hc) H IH]; intros [|fuel] pre k Hf Hk; try (cbn in Hf; lia); cbn [skip_next_n].
  - rewrite firstn_nil. cbn [concat length]. rewrite app_nil_r. destruct (Z.ltb_spec 0 k).
    + rewrite skip_next_end. cbn [bind]. do 2 f_equal. lia.
    + do 2 f_equal. lia.
  - destruct (Z.ltb_spec 0 k) as [L|L].
    + cbn [concat]. rewrite skip_next_uchar with (c := c) by assumption. cbn [bind].
      rewrite app_assoc, <- app_length. cbn [length] in Hf. rewrite IH by lia.
      do 2 f_equal.
      * cbn [length]. lia.
      * replace (Z.to_nat k) with (S (Z.to_nat (k - 1))) by lia. cbn [firstn concat]. now rewrite app_assoc.
    + replace k with 0%Z by lia. cbn. rewrite app_nil_r. reflexivity.
Qed.

Lemma skip_prev_n_spec (ps : list str) : Codepoints ps -> forall fuel post lim k, (length ps < fuel)%nat -> (k <= lim)%Z ->
  skip_prev_n fuel (concat ps ++ post) lim k (length (concat ps))
  = Ok (k + Z.min (lim - k) (Z.of_nat (length ps)), length (concat (firstn (length ps - Z.to_nat (lim - k)) ps)))%Z.
Proof.
  induction ps as [|p ps IH] using rev_ind; intros HC [|fuel] post lim k Hf Hk; try (cbn in Hf; lia); cbn [skip_prev_n].
  - cbn [length concat firstn app]. rewrite firstn_nil. cbn [concat length].
    destruct (Z.ltb_spec k lim); cbn [bind]; [rewrite skip_prev_begin; cbn [bind]|]; do 2 f_equal; lia.
  - unfold Codepoints in HC. apply Forall_app in HC. destruct HC as [HC Hp].
    apply Forall_inv in Hp. destruct Hp as (c & Hc).
    rewrite app_length in Hf |- *. cbn [length] in Hf |- *.
    rewrite concat_app. cbn [concat]. rewrite app_nil_r.
    destruct (Z.ltb_spec k lim) as [L|L].
    + rewrite <- app_assoc, app_length. rewrite skip_prev_uchar with (c := c) by assumption. cbn [bind].
      rewrite IH by (assumption || lia). do 2 f_equal.
      * lia.
      * replace (length ps + 1 - Z.to_nat (lim - k))%nat with (length ps - Z.to_nat (lim - (k + 1)))%nat by lia.
        rewrite firstn_app. replace (_ - _ - length ps)%nat with 0%nat by lia. cbn [firstn]. now rewrite app_nil_r.
    + replace (lim - k)%Z with 0%Z by lia. replace (length ps + 1 - Z.to_nat 0)%nat with (length (ps ++ [p])) by (rewrite app_length; cbn; lia).
      rewrite firstn_all, concat_app. cbn [concat]. rewrite app_nil_r. do 2 f_equal. lia.
Qed.

Definition cp_ok (k : Z) : Prop := (- 0x8000000000000000 < k <= 0x7FFFFFFFFFFFFFFF)%Z.

Lemma get_codepoint_pos_codepoints (ps : list str) k : Codepoints ps -> Fits (concat ps) -> cp_ok k ->
  get_codepoint_pos (concat ps) k = Ok (position ps k).
Proof.
  intros HC HF Hk. unfold get_codepoint_pos. unfold cp_ok in Hk.
  rewrite signed_ok by (unfold isz, PTRDIFF_MIN, PTRDIFF_MAX; lia). cbn [bind].
  pose proof (Codepoints_length ps HC) as HL. unfold position, size in *.
  destruct (Z.ltb_spec (Z.of_N (N.of_nat (length (concat ps)))) (Z.abs k)) as [L|L].
  { replace (_ <? _)%Z with true by lia. reflexivity. }
  destruct (Z.leb_spec 0 k) as [P|P].
  - pose proof (skip_next_n_spec ps HC (S (length (concat ps))) [] k ltac:(lia) P) as E. cbn [app length] in E.
    rewrite E. cbn [bind]. unfold resolve. replace (k <? 0)%Z with false by lia.
    destruct (Z.ltb_spec (Z.of_nat (length ps)) (Z.abs k)).
    + replace (_ =? 0)%Z with false by lia. reflexivity.
    + replace (_ =? 0)%Z with true by lia. unfold offset_of. now rewrite Nat.min_l by lia.
  - pose proof (skip_prev_n_spec ps HC (S (length (concat ps))) [] 0 k ltac:(lia) ltac:(lia)) as E.
    rewrite app_nil_r in E. rewrite E. cbn [bind]. unfold resolve. replace (k <? 0)%Z with true by lia.
    destruct (Z.ltb_spec (Z.of_nat (length ps)) (Z.abs k)).
    + replace (_ =? 0)%Z with false by lia. reflexivity.
    + replace (_ =? 0)%Z with true by lia. unfold offset_of.
      replace (length ps - Z.to_nat (0 - k))%nat with (Z.to_nat (Z.of_nat (length ps) + k)) by lia. reflexivity.
Qed.


Lemma get_codepoint_pos_pieces (ps : list str) k : Pieces ps -> size (concat ps) < 0xFFFFFFFF -> cp_ok k ->
  get_codepoint_pos (concat ps) k = Ok (position ps k).
Proof.
  intros HP HS Hk. pose proof (pieces_steps0 ps HP HS) as HC. pose proof (nonempty_length ps (pieces_nonempty ps HP)) as HL.
  unfold get_codepoint_pos. unfold cp_ok in Hk.
  rewrite signed_ok by (unfold isz, PTRDIFF_MIN, PTRDIFF_MAX; lia). cbn [bind].
  unfold position, size in *.
  destruct (Z.ltb_spec (Z.of_N (N.of_nat (length (concat ps)))) (Z.abs k)) as [L|L].
  { replace (_ <? _)%Z with true by lia. reflexivity. }
  destruct (Z.leb_spec 0 k) as [P|P].
  - rewrite fwd_steps with (ps := ps) by (auto; lia). cbn [bind]. unfold resolve. replace (k <? 0)%Z with false by lia.
    destruct (Z.ltb_spec (Z.of_nat (length ps)) (Z.abs k)).
    + replace (_ =? 0)%Z with false by lia. reflexivity.
    + replace (_ =? 0)%Z with true by lia. unfold offset_of. now rewrite Nat.min_l by lia.
  - rewrite bwd_steps by (auto; lia). cbn [bind]. unfold resolve. replace (k <? 0)%Z with true by lia.
    destruct (Z.ltb_spec (Z.of_nat (length ps)) (Z.abs k)).
    + replace (_ =? 0)%Z with false by lia. reflexivity.
    + replace (_ =? 0)%Z with true by lia. unfold offset_of.
      replace (length ps - Z.to_nat (- k))%nat with (Z.to_nat (Z.of_nat (length ps) + k)) by lia. reflexivity.
Qed.

Lemma CodeUnits_firstn (ps : list str) k : CodeUnits ps -> CodeUnits (firstn k ps).
Proof.
  intros [H|[H HS]]; [left; now apply Codepoints_firstn|right]. split; [now apply pieces_firstn|].
  rewrite (concat_firstn_skipn ps k), size_app in HS. lia.
Qed.
Lemma CodeUnits_skipn (ps : list str) k : CodeUnits ps -> CodeUnits (skipn k ps).
Proof.
  intros [H|[H HS]]; [left; now apply Codepoints_skipn|right]. split; [now apply pieces_skipn|].
  rewrite (concat_firstn_skipn ps k), size_app in HS. lia.
Qed.
Lemma get_codepoint_pos_spec (ps : list str) k : CodeUnits ps -> Fits (concat ps) -> cp_ok k ->
  get_codepoint_pos (concat ps) k = Ok (position ps k).
Proof. intros [H|[H HS]] HF Hk; [now apply get_codepoint_pos_codepoints|now apply get_codepoint_pos_pieces]. Qed.

Lemma cp_ok_isz k : cp_ok k -> isz k.
Proof. unfold cp_ok, isz, PTRDIFF_MIN, PTRDIFF_MAX. lia. Qed.
Lemma cp_ok_zero : cp_ok 0.
Proof. unfold cp_ok. lia. Qed.
Lemma cp_ok_sub i j : isz i -> isz j -> cp_ok i -> cp_ok j ->
  ((0 <= i <= j)%Z -> cp_ok (j - i)) /\ ((i < j < 0)%Z -> cp_ok (i - j)).
Proof. unfold cp_ok. intros. split; intros; lia. Qed.

Lemma capped_cp_spec (ps : list str) k : CodeUnits ps -> Fits (concat ps) -> cp_ok k ->
  get_capped_codepoint_pos (concat ps) k = Ok (offset_of ps (resolve (length ps) k)).
Proof. exact (capped_spec CodeUnits get_codepoint_pos cp_ok CodeUnits_firstn CodeUnits_skipn get_codepoint_pos_spec cp_ok_sub ps k). Qed.

(** The four sign combinations of get_codepoint_substring_range. *)
Definition in_order (i j : Z) : Prop := (0 <= i /\ 0 <= j)%Z \/ (i < j < 0)%Z \/ (j < 0 <= i)%Z.

Lemma cp_range_ok (ps : list str) i j : CodeUnits ps -> Fits (concat ps) -> cp_ok i -> cp_ok j -> in_order i j ->
  get_codepoint_substring_range (concat ps) i j =
  Ok (Sub (offset_of ps (resolve (length ps) i))
          (offset_of ps (resolve (length ps) j) - offset_of ps (resolve (length ps) i))).
Proof.
  intros HC HF Hi Hj HO. unfold get_codepoint_substring_range. cbv zeta.
  pose proof (range_pos_pos CodeUnits get_codepoint_pos cp_ok CodeUnits_firstn CodeUnits_skipn get_codepoint_pos_spec cp_ok_sub ps) as R1.
  pose proof (range_neg_neg CodeUnits get_codepoint_pos cp_ok CodeUnits_firstn CodeUnits_skipn get_codepoint_pos_spec cp_ok_sub ps) as R2.
  pose proof (range_pos_neg CodeUnits get_codepoint_pos cp_ok CodeUnits_firstn CodeUnits_skipn get_codepoint_pos_spec cp_ok_sub ps) as R3.
  change (capped get_codepoint_pos) with get_capped_codepoint_pos in R1, R2, R3.
  destruct HO as [[H1 H2]|[H|H]].
  - replace (Bool.eqb _ _) with true by (replace (0 <=? i)%Z with true by lia; replace (0 <=? j)%Z with true by lia; reflexivity).
    rewrite andb_true_r. replace (0 <=? i)%Z with true by lia.
    destruct (Z.ltb_spec j i) as [L|L].
    + replace (0 <=? i)%Z with true by lia. cbn [andb].
      rewrite R1 by (try apply cp_ok_isz; assumption || lia).
      do 2 f_equal. assert (resolve (length ps) j <= resolve (length ps) i)%nat as M.
      { unfold resolve. replace (i <? 0)%Z with false by lia. replace (j <? 0)%Z with false by lia. lia. }
      apply (offset_mono ps) in M. lia.
    + replace (0 <=? j)%Z with true by lia. cbn [andb].
      apply R1; try apply cp_ok_isz; assumption || lia.
  - replace (j <? i)%Z with false by lia. cbn [andb].
    replace (0 <=? i)%Z with false by lia. replace (i <? 0)%Z with true by lia. replace (j <? 0)%Z with true by lia. cbn [andb].
    apply R2; try apply cp_ok_isz; assumption || lia.
  - replace (Bool.eqb _ _) with false by (replace (0 <=? i)%Z with true by lia; replace (0 <=? j)%Z with false by lia; reflexivity).
    rewrite andb_false_r. replace (0 <=? i)%Z with true by lia. replace (0 <=? j)%Z with false by lia.
    replace (i <? 0)%Z with false by lia. replace (j <? 0)%Z with true by lia. cbn [andb].
    destruct (R3 i j HC HF Hi Hj) as (a & b & -> & -> & E); [lia|lia|].
    rewrite (E _ (fun st e => Ok (Sub st e))). do 2 f_equal.
    destruct (Nat.max_spec (resolve (length ps) i) (resolve (length ps) j)) as [[L ->]|[L ->]]; [reflexivity|].
    apply (offset_mono ps) in L. lia.
Qed.

(** Both from the end but not in order: the range from 0 to [i]. *)
Lemma cp_range_reversed (ps : list str) i j : CodeUnits ps -> Fits (concat ps) -> cp_ok i -> cp_ok j -> (j <= i < 0)%Z ->
  get_codepoint_substring_range (concat ps) i j = Ok (Sub 0 (offset_of ps (resolve (length ps) i))).
Proof.
  intros HC HF Hi Hj H. unfold get_codepoint_substring_range. cbv zeta.
  replace (Bool.eqb _ _) with true by (replace (0 <=? i)%Z with false by lia; replace (0 <=? j)%Z with false by lia; reflexivity).
  rewrite andb_true_r.
  replace (if (j <? i)%Z then i else j) with i by (destruct (Z.ltb_spec j i); lia).
  replace (0 <=? i)%Z with false by lia. replace (i <? 0)%Z with true by lia. cbn [andb].
  rewrite capped_cp_spec by assumption. cbn [bind].
  rewrite substr_to_offset. cbn [bind]. rewrite Z.sub_diag.
  rewrite signed_ok by (unfold isz, PTRDIFF_MIN, PTRDIFF_MAX; lia). cbn [bind].
  rewrite capped_cp_spec; [|now apply CodeUnits_firstn|now apply Fits_firstn|exact cp_ok_zero].
  cbn [bind]. rewrite offset_firstn, resolve_0, Nat.min_0_r, offset_zero. do 2 f_equal.
  rewrite sub64_small; [lia|lia|]. pose proof (offset_le ps (resolve (length ps) i)). unfold Fits, W64 in *. lia.
Qed.

(** From the end to the start: the length is the larger offset. *)
Lemma cp_range_crossed (ps : list str) i j : CodeUnits ps -> Fits (concat ps) -> cp_ok i -> cp_ok j -> (i < 0 <= j)%Z ->
  get_codepoint_substring_range (concat ps) i j =
  Ok (Sub (offset_of ps (resolve (length ps) i))
          (N.max (offset_of ps (resolve (length ps) i)) (offset_of ps (resolve (length ps) j)))).
Proof.
  intros HC HF Hi Hj H. unfold get_codepoint_substring_range. cbv zeta.
  replace (j <? i)%Z with false by lia. cbn [andb].
  replace (0 <=? i)%Z with false by lia. replace (i <? 0)%Z with true by lia. replace (j <? 0)%Z with false by lia. cbn [andb].
  rewrite !capped_cp_spec by assumption. reflexivity.
Qed.

(** ** get_codepoint, substrings, insertion and replacement by code points *)

Lemma units_concat (ps : list str) i j : concat ps =
  concat (units_before ps i) ++ concat (units_between ps i j) ++ concat (units_after ps i j).
Proof.
  unfold units_before, units_between, units_after.
  set (a := resolve (length ps) i). set (b := resolve (length ps) j).
  rewrite <- !concat_app. f_equal. rewrite <- (firstn_skipn a ps) at 1. f_equal.
  rewrite <- (firstn_skipn (b - a) (skipn a ps)) at 1. f_equal. replace (Nat.max a b) with (b - a + a)%nat by lia.
  now rewrite SearchLemmas.skipn_skipn.
Qed.

Lemma offset_before (ps : list str) i : offset_of ps (resolve (length ps) i) = size (concat (units_before ps i)).
Proof. reflexivity. Qed.

Lemma length_between (ps : list str) i j :
  offset_of ps (resolve (length ps) j) - offset_of ps (resolve (length ps) i) = size (concat (units_between ps i j)).
Proof.
  pose proof (units_between_offsets ps i j) as E. unfold substr in E.
  destruct (_ <? _) eqn:L in E; [discriminate|]. injection E as E. rewrite <- E.
  pose proof (offset_le ps (resolve (length ps) j)). pose proof (offset_le ps (resolve (length ps) i)).
  unfold size in *. rewrite firstn_length, skipn_length. lia.
Qed.

Lemma replace_subrange_units (ps : list str) i j repl : Fits (concat ps) ->
  replace_subrange (concat ps) (Sub (offset_of ps (resolve (length ps) i))
          (offset_of ps (resolve (length ps) j) - offset_of ps (resolve (length ps) i))) repl
  = Ok (concat (units_before ps i) ++ repl ++ concat (units_after ps i j)).
Proof.
  intros HF. unfold replace_subrange, sub_start, sub_end. cbn [sub_offset sub_length].
  rewrite substr_to_offset. cbn [bind]. rewrite length_between, offset_before.
  rewrite add64_small.
  2:{ pose proof (units_concat ps i j) as E. rewrite E in HF. unfold Fits in HF. rewrite !size_app in HF. unfold W64. lia. }
  rewrite (units_concat ps i j) in HF |- *. rewrite app_assoc in HF |- *.
  rewrite substr_from_app; [|now rewrite size_app|exact HF]. reflexivity.
Qed.

Lemma cp_substring_ok (ps : list str) i j : CodeUnits ps -> Fits (concat ps) -> cp_ok i -> cp_ok j -> in_order i j ->
  get_codepoint_substring (concat ps) i j = Ok (concat (units_between ps i j)).
Proof.
  intros. unfold get_codepoint_substring. rewrite cp_range_ok by assumption. cbn [bind sub_offset sub_length].
  apply units_between_offsets.
Qed.

Lemma cp_substring_reversed (ps : list str) i j : CodeUnits ps -> Fits (concat ps) -> cp_ok i -> cp_ok j -> (j <= i < 0)%Z ->
  get_codepoint_substring (concat ps) i j = Ok (concat (units_before ps i)).
Proof.
  intros. unfold get_codepoint_substring. rewrite cp_range_reversed by assumption. cbn [bind sub_offset sub_length].
  apply substr_to_offset.
Qed.

Lemma cp_substring_crossed (ps : list str) i j : CodeUnits ps -> Fits (concat ps) -> cp_ok i -> cp_ok j -> (i < 0 <= j)%Z ->
  get_codepoint_substring (concat ps) i j =
  Ok (firstn (N.to_nat (N.max (offset_of ps (resolve (length ps) i)) (offset_of ps (resolve (length ps) j))))
        (concat (skipn (resolve (length ps) i) ps))).
Proof.
  intros HC HF Hi Hj H. unfold get_codepoint_substring. rewrite cp_range_crossed by assumption. cbn [bind sub_offset sub_length].
  set (a := resolve (length ps) i). set (m := N.max _ _). unfold substr.
  pose proof (offset_le ps a). replace (_ <? _) with false by lia. f_equal.
  assert (skipn (N.to_nat (offset_of ps a)) (concat ps) = concat (skipn a ps)) as ->.
  { rewrite (concat_firstn_skipn ps a). unfold offset_of, size. rewrite Nat2N.id. apply skipn_length_app. }
  destruct (N.le_gt_cases m (size (concat ps) - offset_of ps a)) as [L|L].
  - now rewrite N.min_l.
  - rewrite N.min_r by lia. assert (N.to_nat (size (concat ps) - offset_of ps a) = length (concat (skipn a ps))) as E.
    { rewrite (concat_firstn_skipn ps a). unfold offset_of, size. rewrite app_length. lia. }
    rewrite !firstn_all2; [reflexivity|lia|lia].
Qed.

Lemma cp_replace_ok (ps : list str) i j repl : CodeUnits ps -> Fits (concat ps) -> cp_ok i -> cp_ok j -> in_order i j ->
  replace_codepoints (concat ps) i j repl = Ok (concat (units_before ps i) ++ repl ++ concat (units_after ps i j)).
Proof.
  intros. unfold replace_codepoints. rewrite cp_range_ok by assumption. cbn [bind].
  now apply replace_subrange_units.
Qed.

Lemma cp_replace_reversed (ps : list str) i j repl : CodeUnits ps -> Fits (concat ps) -> cp_ok i -> cp_ok j -> (j <= i < 0)%Z ->
  replace_codepoints (concat ps) i j repl = Ok (repl ++ concat (skipn (resolve (length ps) i) ps)).
Proof.
  intros HC HF Hi Hj H. unfold replace_codepoints. rewrite cp_range_reversed by assumption. cbn [bind].
  unfold replace_subrange, sub_start, sub_end. cbn [sub_offset sub_length].
  assert (substr (concat ps) 0 0 = Ok []) as -> by (apply (substr_prefix [] (concat ps)); reflexivity). cbn [bind].
  rewrite add64_small by (pose proof (offset_le ps (resolve (length ps) i)); unfold Fits, W64 in *; lia).
  rewrite N.add_0_l, substr_from_offset by exact HF. reflexivity.
Qed.

Lemma cp_insert_cp (ps : list str) k c : CodeUnits ps -> Fits (concat ps) -> cp_ok k -> (Z.abs k <= Z.of_nat (length ps))%Z ->
  c <= 0x10FFFF -> exists g, encodes g c /\
  insert_codepoint (concat ps) k c = Ok (concat (units_before ps k) ++ g ++ concat (units_after ps k k)).
Proof.
  intros HC HF Hk Hn Hc. unfold insert_codepoint. rewrite get_codepoint_pos_spec by assumption. cbn [bind].
  unfold position. replace (_ <? _)%Z with false by lia. unfold insert_at_offset_cp.
  pose proof (offset_le ps (resolve (length ps) k)). pose proof (Fits_npos _ HF).
  replace (_ =? npos) with false by lia. rewrite substr_to_offset. cbn [bind].
  destruct (append_ok (concat (firstn (resolve (length ps) k) ps)) c Hc) as (g & Hg & _ & ->).
  cbn [bind]. rewrite substr_from_offset by exact HF. cbn [bind]. exists g. split; [exact Hg|].
  rewrite <- app_assoc. unfold units_after. now rewrite Nat.max_id.
Qed.

Lemma cp_insert_str (ps : list str) k t : CodeUnits ps -> Fits (concat ps) -> cp_ok k -> (Z.abs k <= Z.of_nat (length ps))%Z ->
  insert_codepoints (concat ps) k t = Ok (concat (units_before ps k) ++ t ++ concat (units_after ps k k)).
Proof.
  intros HC HF Hk Hn. unfold insert_codepoints. rewrite get_codepoint_pos_spec by assumption. cbn [bind].
  unfold position. replace (_ <? _)%Z with false by lia. unfold insert_at_offset_str.
  pose proof (offset_le ps (resolve (length ps) k)). pose proof (Fits_npos _ HF).
  replace (_ =? npos) with false by lia. rewrite substr_to_offset. cbn [bind].
  rewrite substr_from_offset by exact HF. cbn [bind]. unfold units_before, units_after. rewrite Nat.max_id.
  destruct t; [|reflexivity]. cbn [app]. now rewrite <- concat_firstn_skipn.
Qed.

Lemma cp_insert_out (ps : list str) k c t : CodeUnits ps -> Fits (concat ps) -> cp_ok k -> (Z.of_nat (length ps) < Z.abs k)%Z ->
  insert_codepoint (concat ps) k c = Throw YstringException /\
  (t <> [] -> insert_codepoints (concat ps) k t = Throw YstringException) /\
  insert_codepoints (concat ps) k [] = Ok (concat ps).
Proof.
  intros HC HF Hk Hn. unfold insert_codepoint, insert_codepoints. rewrite get_codepoint_pos_spec by assumption. cbn [bind].
  unfold position. replace (_ <? _)%Z with true by lia. repeat split; try reflexivity.
  intros Ht. destruct t; [congruence|reflexivity].
Qed.

Lemma code_units_pieces (ps : list str) : CodeUnits ps -> Pieces ps.
Proof. intros [H|[H _]]; [now apply codepoints_pieces|exact H]. Qed.
Lemma fwd_units (ps : list str) k : CodeUnits ps -> (0 <= k)%Z ->
  skip_next_n (S (length (concat ps))) (concat ps) k 0
  = Ok (k - Z.min k (Z.of_nat (length ps)), length (concat (firstn (Z.to_nat k) ps)))%Z.
Proof.
  intros HC Hk. pose proof (nonempty_length ps (pieces_nonempty ps (code_units_pieces ps HC))) as HL. destruct HC as [HC|[HC HS]].
  - apply (skip_next_n_spec ps HC (S (length (concat ps))) [] k ltac:(lia) Hk).
  - rewrite fwd_steps with (ps := ps) by (auto using pieces_steps0; lia). reflexivity.
Qed.
Lemma bwd_units (ps : list str) lim k : CodeUnits ps -> (k <= lim)%Z ->
  skip_prev_n (S (length (concat ps))) (concat ps) lim k (length (concat ps))
  = Ok (k + Z.min (lim - k) (Z.of_nat (length ps)), length (concat (firstn (length ps - Z.to_nat (lim - k)) ps)))%Z.
Proof.
  intros HC Hk. pose proof (nonempty_length ps (pieces_nonempty ps (code_units_pieces ps HC))) as HL. destruct HC as [HC|[HC HS]].
  - pose proof (skip_prev_n_spec ps HC (S (length (concat ps))) [] lim k ltac:(lia) ltac:(lia)) as E. now rewrite app_nil_r in E.
  - apply bwd_steps_lim; auto using pieces_steps0; lia.
Qed.

Lemma get_codepoint_at_fwd l1 p l2 : CodeUnits (l1 ++ p :: l2) ->
  get_codepoint (concat (l1 ++ p :: l2)) (Z.of_nat (length l1)) =
  let* r := safe_decode_next (concat l1 ++ p ++ concat l2) (length (concat l1)) in
  match r with
  | Some (ch, it) => Ok (sub_its 0 (length (concat l1)) it, ch)
  | None => Ok (Sub (size (concat (l1 ++ p :: l2))) 0, INVALID_CHAR)
  end.
Proof.
  intros HC. unfold get_codepoint. replace (0 <=? _)%Z with true by lia. rewrite fwd_units by (auto; lia). cbn [bind].
  rewrite Nat2Z.id, firstn_length_app, concat_app. reflexivity.
Qed.
Lemma get_codepoint_at_bwd l1 p l2 : CodeUnits (l1 ++ p :: l2) ->
  get_codepoint (concat (l1 ++ p :: l2)) (- Z.of_nat (S (length l2))) =
  let* r := safe_decode_prev ((concat l1 ++ p) ++ concat l2) (length (concat l1 ++ p)) in
  match r with
  | Some (ch, it) => Ok (sub_its 0 it (length (concat l1 ++ p)), ch)
  | None => Ok (Sub 0 0, INVALID_CHAR)
  end.
Proof.
  intros HC. unfold get_codepoint. replace (0 <=? _)%Z with false by lia. rewrite bwd_units by (auto; lia). cbn [bind].
  replace (length (l1 ++ p :: l2) - _)%nat with (length (l1 ++ [p])) by (rewrite !app_length; cbn [length]; lia).
  assert (firstn (length (l1 ++ [p])) (l1 ++ p :: l2) = l1 ++ [p]) as ->.
  { replace (l1 ++ p :: l2) with ((l1 ++ [p]) ++ l2) by now rewrite <- app_assoc. apply firstn_length_app. }
  rewrite !concat_app. cbn [concat]. rewrite app_nil_r, <- app_assoc. reflexivity.
Qed.

Lemma get_codepoint_fwd (ps : list str) k p : CodeUnits ps -> (0 <= k)%Z -> nth_error ps (Z.to_nat k) = Some p ->
  (forall c, uchar p c -> get_codepoint (concat ps) k = Ok (Sub (offset_of ps (Z.to_nat k)) (size p), c)) /\
  ((forall c, ~ uchar p c) -> get_codepoint (concat ps) k = Throw YstringException).
Proof.
  intros HC Hk Hn. apply nth_error_split in Hn. destruct Hn as (l1 & l2 & -> & Hl).
  replace k with (Z.of_nat (length l1)) by lia. rewrite get_codepoint_at_fwd by exact HC. split.
  - intros c Hp. rewrite safe_decode_next_uchar with (c := c) by assumption. cbn [bind]. unfold sub_its, offset_of, size.
    rewrite Nat2Z.id, firstn_length_app. do 3 f_equal; lia.
  - intros Hp. rewrite safe_decode_next_malformed; [reflexivity|].
    apply (piece_malformed p l2); [|exact Hp]. apply code_units_pieces in HC. apply (pieces_skipn _ (length l1)) in HC.
    now rewrite skipn_length_app in HC.
Qed.

Lemma get_codepoint_bwd (ps : list str) k p : CodeUnits ps -> (- Z.of_nat (length ps) <= k < 0)%Z ->
  nth_error ps (Z.to_nat (Z.of_nat (length ps) + k)) = Some p ->
  let n := Z.to_nat (Z.of_nat (length ps) + k) in
  (forall c, uchar p c -> get_codepoint (concat ps) k = Ok (Sub (offset_of ps n) (size p), c)) /\
  ((forall c, ~ uchar p c) ->
     (~ long_cont_tail (concat (firstn (S n) ps)) -> get_codepoint (concat ps) k = Throw YstringException) /\
     (long_cont_tail (concat (firstn (S n) ps)) -> get_codepoint (concat ps) k = UB)).
Proof.
  intros HC Hr Hn. apply nth_error_split in Hn. destruct Hn as (l1 & l2 & -> & Hl). cbv zeta.
  pose proof (app_length l1 (p :: l2)) as HA. cbn [length] in HA.
  replace k with (- Z.of_nat (S (length l2)))%Z by lia. rewrite get_codepoint_at_bwd by exact HC.
  replace (Z.to_nat (Z.of_nat (length (l1 ++ p :: l2)) + - Z.of_nat (S (length l2)))) with (length l1) by lia.
  assert (firstn (S (length l1)) (l1 ++ p :: l2) = l1 ++ [p]) as EF.
  { rewrite <- snoc_length with (a := p). replace (l1 ++ p :: l2) with ((l1 ++ [p]) ++ l2) by now rewrite <- app_assoc. apply firstn_length_app. }
  assert (concat (l1 ++ [p]) = concat l1 ++ p) as EC by (rewrite concat_app; cbn [concat]; now rewrite app_nil_r).
  split; [|intros Hp; rewrite EF, EC; split; intros HL].
  - intros c Hp. rewrite <- app_assoc, app_length. rewrite safe_decode_prev_uchar with (c := c) by assumption. cbn [bind].
    unfold sub_its, offset_of, size. rewrite firstn_length_app. do 3 f_equal; lia.
  - rewrite safe_decode_prev_malformed; [reflexivity| |exact HL]. rewrite <- EC. apply piece_malformed_end; [|exact Hp].
    apply code_units_pieces in HC. apply (pieces_firstn _ (S (length l1))) in HC. now rewrite EF in HC.
  - now rewrite safe_decode_prev_long.
Qed.

Lemma get_codepoint_none (ps : list str) k : CodeUnits ps ->
  ((Z.of_nat (length ps) <= k)%Z -> get_codepoint (concat ps) k = Ok (Sub (size (concat ps)) 0, INVALID_CHAR)) /\
  ((k < - Z.of_nat (length ps))%Z -> get_codepoint (concat ps) k = Ok (Sub 0 0, INVALID_CHAR)).
Proof.
  intros HC. unfold get_codepoint. split; intros H.
  - replace (0 <=? k)%Z with true by lia. rewrite fwd_units by (auto; lia).
    cbn [bind]. rewrite firstn_all2 by lia. rewrite safe_decode_next_end. reflexivity.
  - replace (0 <=? k)%Z with false by lia. rewrite bwd_units by (auto; lia).
    cbn [bind]. replace (length ps - _)%nat with 0%nat by lia. reflexivity.
Qed.

Lemma Codepoints_Text (ps : list str) : Codepoints ps -> exists cs, Text (concat ps) cs /\ length cs = length ps.
Proof.
  induction 1 as [|p ps (c & Hc) H (cs & IH & Hl)]; [exists []; split; [constructor|reflexivity]|].
  exists (c :: cs). split; [now constructor|cbn; lia].
Qed.
Lemma Text_Codepoints s cs : Text s cs -> exists ps, Codepoints ps /\ concat ps = s /\ length ps = length cs.
Proof.
  induction 1 as [|g c s cs Hg H (ps & IH & <- & Hl)]; [exists []; repeat split; constructor|].
  exists (g :: ps). split; [constructor; eauto|]. split; [reflexivity|cbn; lia].
Qed.
