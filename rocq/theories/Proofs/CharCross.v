(** Slices by characters in malformed text, indices from different ends. *)
From Verif Require Import Base Spec.Utf8Spec Spec.Strings Spec.Slices Model.Decode Model.Encode Model.Subrange Model.Search
  Model.CharClass Model.Chars
  Proofs.Utf8Lemmas Proofs.DecodeLemmas Proofs.SkipLemmas Proofs.EncodeLemmas Proofs.CodepointLemmas Proofs.SearchLemmas
  Proofs.SliceLemmas Proofs.CharLemmas Proofs.CharMalformed Proofs.CharSliceMalformed Proofs.SyncLemmas.
From Coq Require Import ZifyBool ZifyNat ZifyN.
Ltac Zify.zify_post_hook ::= Z.div_mod_to_equations.

(** Valid text before malformed bytes does not complete them. *)
Lemma malformed_end_after a cs r : Text a cs -> MalformedEnd r -> MalformedEnd (a ++ r).
Proof.
  intros HA [HN HR]. split; [intros E; apply app_eq_nil in E; tauto|]. intros g c t Hg E.
  apply app_eq_app in E. destruct E as (w & [[E1 E2]|[E1 E2]]).
  2:{ exact (HR g c w Hg E2). }
  destruct w as [|b w].
  { cbn in E2. subst g. exact (HR r c [] Hg eq_refl). }
  assert (at_lead (b :: w)) as HL.
  { apply uchar_shape in Hg. destruct Hg as (x & y & -> & Hx & _). cbn in E2. injection E2 as <- _. exact Hx. }
  destruct (text_cut a cs HA t (b :: w) E1 HL) as (us & vs & _ & _ & HT).
  inversion HT as [|h d u ds Hh Hu Eh Ed].
  assert (E3 : g ++ [] = h ++ (u ++ r)).
  { rewrite app_nil_r, app_assoc, Eh. exact E2. }
  destruct (uchar_prefix_unique _ _ _ _ _ _ Hg Hh E3) as (_ & _ & E4).
  symmetry in E4. apply app_eq_nil in E4. tauto.
Qed.
(** The first malformed bytes are not behind the last ones. *)
Lemma first_before_last a cs x r b bs : Text a cs -> MalformedEnd r -> Text b bs -> a ++ x = r ++ b -> (length a <= length r)%nat.
Proof.
  intros HA [HN HR] HB E. apply app_eq_app in E. destruct E as (w & [[E1 E2]|[E1 E2]]).
  2:{ rewrite E1, app_length. lia. }
  destruct w as [|y w]; [rewrite app_nil_r in E1; subst; lia|].
  assert (at_lead (y :: w)) as HL by (pose proof (Text_at_lead b bs HB) as K; rewrite E2 in K; exact K).
  destruct (text_cut a cs HA r (y :: w) E1 HL) as (us & vs & _ & HT & _).
  exfalso. destruct HT as [|g c s cs' Hg HS] using Text_rev_ind; [now apply HN|]. exact (HR g c s Hg eq_refl).
Qed.

Lemma Chars_Text ps : Chars ps -> exists cs, Text (concat ps) cs.
Proof.
  intros [H _]. induction H as [|p ps (g & c & u & us & -> & Hg & Hu & _) _ (cs & IH)]; [exists []; constructor|].
  exists ((c :: us) ++ cs). cbn [concat]. apply Text_app; [|exact IH]. now constructor.
Qed.
Lemma unmarked_Text ps : unmarked_chars ps -> exists cs, Text (concat ps) cs.
Proof.
  intros [H _]. induction H as [|p ps (g & c & u & us & -> & Hg & Hu & _) _ (cs & IH)]; [exists []; constructor|].
  exists ((c :: us) ++ cs). cbn [concat]. apply Text_app; [|exact IH]. now constructor.
Qed.

(** *** Both from the end, not in order *)
Lemma range_reversed_bad r m us ps i j : Text m us -> marks us -> MalformedEnd r -> unmarked_chars ps -> Fits (r ++ m ++ concat ps) ->
  (j <= i < 0)%Z ->
  ((- i <= Z.of_nat (length ps))%Z ->
     get_char_substring_range (r ++ m ++ concat ps) i j = Ok (Sub 0 (size (r ++ m ++ concat (units_before ps i))))) /\
  ((Z.of_nat (length ps) < - i)%Z -> bad_end r (get_char_substring_range (r ++ m ++ concat ps) i j)).
Proof.
  intros HT HM HR HC HF H. unfold get_char_substring_range. cbv zeta.
  replace (Bool.eqb _ _) with true by (replace (0 <=? i)%Z with false by lia; replace (0 <=? j)%Z with false by lia; reflexivity).
  rewrite andb_true_r. replace (if (j <? i)%Z then i else j) with i by (destruct (Z.ltb_spec j i); lia).
  replace (0 <=? i)%Z with false by lia. replace (i <? 0)%Z with true by lia. cbn [andb].
  destruct (capped_bwd_bad r m us ps i HT HM HR HC HF (proj2 H)) as [I1 I2]. split; intros K; [|now apply bad_bind, I2].
  rewrite (I1 K). cbn [bind]. set (b := (length ps - Z.to_nat (- i))%nat).
  assert (resolve (length ps) i = b)%nat as Ri by (unfold b, resolve; replace (i <? 0)%Z with true by lia; lia).
  unfold units_before. rewrite Ri.
  assert (substr (r ++ m ++ concat ps) 0 (size (r ++ m ++ concat (firstn b ps))) = Ok (r ++ m ++ concat (firstn b ps))) as ->.
  { rewrite (cut_at ps b) at 1. assert (r ++ m ++ concat (firstn b ps) ++ concat (skipn b ps) = (r ++ m ++ concat (firstn b ps)) ++ concat (skipn b ps)) as -> by now rewrite <- !app_assoc.
    now apply substr_prefix. }
  cbn [bind]. rewrite Z.sub_diag. rewrite signed_ok by (unfold isz, PTRDIFF_MIN, PTRDIFF_MAX; lia). cbn [bind].
  change (get_capped_char_pos (r ++ m ++ concat (firstn b ps)) 0) with (Ok 0). cbn [bind]. do 2 f_equal.
  assert (Fits (r ++ m ++ concat (firstn b ps))) as HF' by (rewrite (cut_at ps b) in HF; unfold Fits in *; rewrite !size_app in *; lia).
  rewrite sub64_small; [lia|lia|]. unfold Fits, W64 in *. lia.
Qed.
Lemma p_c27_rev_bad r m us ps i j t : Text m us -> marks us -> MalformedEnd r -> unmarked_chars ps -> Fits (r ++ m ++ concat ps) ->
  (j <= i < 0)%Z ->
  ((- i <= Z.of_nat (length ps))%Z ->
     get_char_substring (r ++ m ++ concat ps) i j = Ok (r ++ m ++ concat (units_before ps i)) /\
     replace_chars (r ++ m ++ concat ps) i j t = Ok (t ++ concat (units_after ps i i))) /\
  ((Z.of_nat (length ps) < - i)%Z ->
     bad_end r (get_char_substring (r ++ m ++ concat ps) i j) /\ bad_end r (replace_chars (r ++ m ++ concat ps) i j t)).
Proof.
  intros HT HM HR HC HF H. destruct (range_reversed_bad r m us ps i j HT HM HR HC HF H) as [H1 H2]. unfold get_char_substring, replace_chars. split; intros K.
  - rewrite (H1 K). cbn [bind sub_offset sub_length]. unfold units_before, units_after in *. rewrite Nat.max_id.
    set (b := resolve (length ps) i) in *. rewrite (cut_at ps b) in HF |- *.
    assert (forall x, r ++ m ++ concat (firstn b ps) ++ x = (r ++ m ++ concat (firstn b ps)) ++ x) as A by (intros; now rewrite <- !app_assoc).
    rewrite A in HF. rewrite !A. split; [now apply substr_prefix|].
    exact (replace_mid [] _ _ t HF).
  - split; apply bad_bind; auto.
Qed.

(** *** The start from the end, the end from the start *)
Lemma range_back_bad qs x r m us ps i j : Chars qs -> Malformed x -> Text m us -> marks us -> MalformedEnd r -> unmarked_chars ps ->
  concat qs ++ x = r ++ m ++ concat ps -> Fits (concat qs ++ x) -> (i < 0 <= j)%Z ->
  ((- i <= Z.of_nat (length ps) /\ (j = 0 \/ j < Z.of_nat (length qs)))%Z ->
     get_char_substring_range (concat qs ++ x) i j = Ok (Sub (size (r ++ m ++ concat (units_before ps i))) 0)) /\
  ((- i <= Z.of_nat (length ps) /\ j <> 0 /\ Z.of_nat (length qs) <= j)%Z -> get_char_substring_range (concat qs ++ x) i j = Throw YstringException) /\
  ((Z.of_nat (length ps) < - i)%Z -> bad_end r (get_char_substring_range (concat qs ++ x) i j)).
Proof.
  intros HQ HX HT HM HR HC E HF H. unfold get_char_substring_range. cbv zeta.
  replace (j <? i)%Z with false by lia. cbn [andb].
  replace (0 <=? i)%Z with false by lia. replace (i <? 0)%Z with true by lia. replace (j <? 0)%Z with false by lia. cbn [andb].
  assert (HF' : Fits (r ++ m ++ concat ps)) by now rewrite <- E.
  destruct (capped_bwd_bad r m us ps i HT HM HR HC HF' (proj1 H)) as [I1 I2]. rewrite <- E in I1, I2.
  rewrite (capped_fwd_bad qs x j HQ HF HX (proj2 H)).
  split; [|split].
  - intros [K1 K2]. rewrite (I1 K1). cbn [bind]. replace (_ || _) with true by lia. cbn [bind].
    assert (resolve (length ps) i = length ps - Z.to_nat (- i))%nat as Ri by (unfold resolve; replace (i <? 0)%Z with true by lia; lia).
    unfold units_before. rewrite Ri. set (b := (length ps - Z.to_nat (- i))%nat).
    destruct (Chars_Text qs HQ) as (qcs & Hq). destruct (unmarked_Text ps HC) as (pcs & Hp).
    assert (Text (m ++ concat ps) (us ++ pcs)) as HB by now apply Text_app.
    pose proof (first_before_last _ _ _ _ _ _ Hq HR HB E) as L.
    assert (offset_of qs (Z.to_nat j) <= size (concat qs)) as L2 by (apply offset_le).
    replace (_ <? _) with false; [reflexivity|]. symmetry. apply N.ltb_ge. rewrite size_app. unfold size in *. lia.
  - intros (K1 & K2 & K3). rewrite (I1 K1). cbn [bind]. now replace (_ || _) with false by lia.
  - intros K. now apply bad_bind, I2.
Qed.
Lemma p_c27_back_bad qs x r m us ps i j t : Chars qs -> Malformed x -> Text m us -> marks us -> MalformedEnd r -> unmarked_chars ps ->
  concat qs ++ x = r ++ m ++ concat ps -> Fits (concat qs ++ x) -> (i < 0 <= j)%Z ->
  ((- i <= Z.of_nat (length ps) /\ (j = 0 \/ j < Z.of_nat (length qs)))%Z ->
     get_char_substring (concat qs ++ x) i j = Ok [] /\
     replace_chars (concat qs ++ x) i j t = Ok (r ++ m ++ concat (units_before ps i) ++ t ++ concat (units_after ps i i))) /\
  ((- i <= Z.of_nat (length ps) /\ j <> 0 /\ Z.of_nat (length qs) <= j)%Z ->
     get_char_substring (concat qs ++ x) i j = Throw YstringException /\ replace_chars (concat qs ++ x) i j t = Throw YstringException) /\
  ((Z.of_nat (length ps) < - i)%Z ->
     bad_end r (get_char_substring (concat qs ++ x) i j) /\ bad_end r (replace_chars (concat qs ++ x) i j t)).
Proof.
  intros HQ HX HT HM HR HC E HF H. destruct (range_back_bad qs x r m us ps i j HQ HX HT HM HR HC E HF H) as (H1 & H2 & H3).
  unfold get_char_substring, replace_chars. split; [|split]; intros K.
  - rewrite (H1 K). cbn [bind sub_offset sub_length]. unfold units_before, units_after. rewrite Nat.max_id.
    set (b := resolve (length ps) i) in *. rewrite E in HF |- *. rewrite (cut_at ps b) in HF |- *.
    assert (forall x, r ++ m ++ concat (firstn b ps) ++ x = (r ++ m ++ concat (firstn b ps)) ++ x) as A by (intros; now rewrite <- !app_assoc).
    rewrite A in HF. rewrite !A. set (a := r ++ m ++ concat (firstn b ps)) in *. split.
    + exact (substr_mid a [] (concat (skipn b ps)) _ 0 eq_refl eq_refl).
    + exact (replace_mid a [] (concat (skipn b ps)) t HF).
  - now rewrite (H2 K).
  - split; apply bad_bind; auto.
Qed.

(** *** The start from the start, the end from the end *)
Lemma range_across_bad qs r m us ps i j : Chars qs -> Text m us -> marks us -> MalformedEnd r -> unmarked_chars ps ->
  Malformed (r ++ m ++ concat ps) -> Fits (concat qs ++ r ++ m ++ concat ps) -> (j < 0 <= i)%Z ->
  let s := concat qs ++ r ++ m ++ concat ps in
  let before := concat (firstn (Z.to_nat i) qs) in
  let inside := concat (skipn (Z.to_nat i) qs) ++ r ++ m ++ concat (units_before ps j) in
  let reached := (i = 0 \/ i < Z.of_nat (length qs))%Z in
  (reached -> (- j <= Z.of_nat (length ps))%Z -> get_char_substring_range s i j = Ok (Sub (size before) (sub64 (size inside) (size before)))) /\
  (~ reached -> get_char_substring_range s i j = Throw YstringException) /\
  (reached -> (Z.of_nat (length ps) < - j)%Z -> bad_end (concat (skipn (Z.to_nat i) qs) ++ r) (get_char_substring_range s i j)).
Proof.
  intros HQ HT HM HR HC HX HF H. cbv zeta. unfold get_char_substring_range. cbv zeta.
  replace (Bool.eqb _ _) with false by (replace (0 <=? i)%Z with true by lia; replace (0 <=? j)%Z with false by lia; reflexivity).
  rewrite andb_false_r. replace (0 <=? i)%Z with true by lia. replace (0 <=? j)%Z with false by lia.
  replace (i <? 0)%Z with false by lia. replace (j <? 0)%Z with true by lia. cbn [andb].
  rewrite (capped_fwd_bad qs _ i HQ HF HX (proj2 H)).
  destruct ((i =? 0)%Z || (i <? Z.of_nat (length qs))%Z) eqn:Ei.
  2:{ split; [intros; lia|]. split; [reflexivity|intros; lia]. }
  cbn [bind]. unfold offset_of. set (B := concat (firstn (Z.to_nat i) qs)). set (A := concat (skipn (Z.to_nat i) qs)).
  assert (concat qs = B ++ A) as EQ by apply cut_at. rewrite EQ, <- app_assoc in *.
  rewrite substr_from_app by (auto). cbn [bind].
  destruct (Chars_Text _ (Chars_skip qs (Z.to_nat i) HQ)) as (acs & HA). fold A in HA.
  pose proof (malformed_end_after A acs r HA HR) as HR'.
  assert (HF' : Fits ((A ++ r) ++ m ++ concat ps)) by (rewrite <- app_assoc; unfold Fits in *; rewrite size_app in HF; lia).
  destruct (capped_bwd_bad (A ++ r) m us ps j HT HM HR' HC HF' (proj1 H)) as [J1 J2]. rewrite <- app_assoc in J1, J2.
  assert (resolve (length ps) j = length ps - Z.to_nat (- j))%nat as Rj by (unfold resolve; replace (j <? 0)%Z with true by lia; lia).
  split; [|split].
  - intros _ K. rewrite (J1 K). cbn [bind]. unfold units_before. rewrite Rj. now rewrite <- app_assoc.
  - intros K. exfalso. lia.
  - intros _ K. apply bad_bind. now apply J2.
Qed.
Lemma p_c27_across_bad qs r m us ps i j t : Chars qs -> Text m us -> marks us -> MalformedEnd r -> unmarked_chars ps ->
  Malformed (r ++ m ++ concat ps) -> Fits (concat qs ++ r ++ m ++ concat ps) -> (j < 0 <= i)%Z ->
  let s := concat qs ++ r ++ m ++ concat ps in
  let before := concat (firstn (Z.to_nat i) qs) in
  let inside := concat (skipn (Z.to_nat i) qs) ++ r ++ m ++ concat (units_before ps j) in
  let rest := concat (skipn (Z.to_nat i) qs) ++ r ++ m ++ concat ps in
  let reached := (i = 0 \/ i < Z.of_nat (length qs))%Z in
  (reached -> (- j <= Z.of_nat (length ps))%Z ->
     get_char_substring s i j = Ok (if size before <=? size inside then firstn (length inside - length before) rest else rest) /\
     replace_chars s i j t = Ok (before ++ t ++ skipn (length inside) s)) /\
  (~ reached -> get_char_substring s i j = Throw YstringException /\ replace_chars s i j t = Throw YstringException) /\
  (reached -> (Z.of_nat (length ps) < - j)%Z ->
     bad_end (concat (skipn (Z.to_nat i) qs) ++ r) (get_char_substring s i j) /\
     bad_end (concat (skipn (Z.to_nat i) qs) ++ r) (replace_chars s i j t)).
Proof.
  intros HQ HT HM HR HC HX HF H. cbv zeta.
  destruct (range_across_bad qs r m us ps i j HQ HT HM HR HC HX HF H) as (H1 & H2 & H3). cbv zeta in H1, H2, H3.
  unfold get_char_substring, replace_chars. split; [|split].
  - intros K1 K2. rewrite (H1 K1 K2). cbn [bind sub_offset sub_length].
    rewrite (cut_at qs (Z.to_nat i)), <- app_assoc in HF |- *.
    set (B := concat (firstn (Z.to_nat i) qs)) in *. set (A := concat (skipn (Z.to_nat i) qs)) in *.
    set (X := A ++ r ++ m ++ concat (units_before ps j)). set (R := A ++ r ++ m ++ concat ps) in *.
    assert (exists y, R = X ++ y) as (y & ER).
    { exists (concat (skipn (resolve (length ps) j) ps)). unfold R, X, units_before. rewrite (cut_at ps (resolve (length ps) j)) at 1. now rewrite <- !app_assoc. }
    assert (size X + size y = size R) as SR by now rewrite ER, size_app.
    assert (size B + size R < 0x8000000000000000) as SB by (unfold Fits in HF; rewrite size_app in HF; exact HF).
    split.
    + unfold substr. rewrite (proj2 (N.ltb_ge _ _)) by (rewrite size_app; lia).
      replace (skipn (N.to_nat (size B)) (B ++ R)) with R by (unfold size; rewrite Nat2N.id, skipn_app, skipn_all, Nat.sub_diag; reflexivity).
      f_equal. rewrite size_app. replace (size B + size R - size B) with (size R) by lia.
      destruct (N.leb_spec (size B) (size X)) as [L|L].
      * rewrite sub64_small by (unfold W64; lia). rewrite N.min_l by lia. f_equal. unfold size in *. lia.
      * apply firstn_all2. unfold sub64. rewrite (N.mod_small (size B)) by (unfold W64; lia).
        rewrite (N.mod_small (size X + _)) by (unfold W64; lia). rewrite N.min_r by (unfold W64; lia). unfold size. lia.
    + unfold replace_subrange, sub_start, sub_end. cbn [sub_offset sub_length]. rewrite substr_prefix by reflexivity. cbn [bind].
      assert (add64 (size B) (sub64 (size X) (size B)) = N.of_nat (length X)) as ->.
      { change (N.of_nat (length X)) with (size X). unfold add64, sub64. rewrite (N.mod_small (size B)) by (unfold W64; lia).
        rewrite N.add_mod_idemp_r by discriminate. replace (size B + (size X + (W64 - size B))) with (size X + 1 * W64) by (unfold W64; lia).
        rewrite N.mod_add by discriminate. apply N.mod_small. unfold W64. lia. }
      rewrite substr_skipn; [reflexivity|exact HF|]. rewrite app_length. unfold size in *. lia.
  - intros K. now rewrite (H2 K).
  - intros K1 K2. split; apply bad_bind; auto.
Qed.

(** *** Inserting something that is no code point *)
Lemma insert_no_codepoint s o c : 0x10FFFF < c -> o = npos \/ o <= size s -> insert_at_offset_cp s o c = Throw YstringException.
Proof.
  intros Hc Ho. unfold insert_at_offset_cp. destruct (N.eqb_spec o npos); [reflexivity|]. destruct Ho as [|Ho]; [contradiction|].
  unfold substr. replace (size s <? 0) with false by lia. cbn [bind]. now rewrite (proj2 (append_bad _ c Hc)).
Qed.
Lemma p_c28_no_codepoint ps k c : CodeUnits ps -> Fits (concat ps) -> (- 0x8000000000000000 < k <= 0x7FFFFFFFFFFFFFFF)%Z -> 0x10FFFF < c ->
  insert_codepoint (concat ps) k c = Throw YstringException.
Proof.
  intros HC HF Hk Hc. destruct (Z.le_gt_cases (Z.abs k) (Z.of_nat (length ps))) as [L|L]; [|now apply (cp_insert_out ps k c [] HC HF Hk L)].
  unfold insert_codepoint. rewrite get_codepoint_pos_spec by assumption. cbn [bind]. apply insert_no_codepoint; [exact Hc|].
  unfold position. destruct (_ <? _)%Z; [now left|right; apply offset_le].
Qed.
Lemma p_c29_no_codepoint ps k c : Chars ps -> Fits (concat ps) -> 0x10FFFF < c -> insert_char (concat ps) k c = Throw YstringException.
Proof.
  intros HC HF Hc. unfold insert_char. rewrite get_char_pos_spec by auto. cbn [bind]. apply insert_no_codepoint; [exact Hc|].
  unfold position. destruct (_ <? _)%Z; [now left|right; apply offset_le].
Qed.

(** *** As the theorems state them *)
Lemma p_c27_rev_bad' r m us ps i j : Text m us -> marks us -> MalformedEnd r -> unmarked_chars ps -> Fits (r ++ m ++ concat ps) ->
  (j <= i < 0)%Z ->
  ((- i <= Z.of_nat (length ps))%Z -> get_char_substring (r ++ m ++ concat ps) i j = Ok (r ++ m ++ concat (units_before ps i))) /\
  ((Z.of_nat (length ps) < - i)%Z -> bad_end r (get_char_substring (r ++ m ++ concat ps) i j)).
Proof. intros HT HM HR HC HF H. destruct (p_c27_rev_bad r m us ps i j [] HT HM HR HC HF H) as [H1 H2]. split; intros K; [apply (proj1 (H1 K))|apply (proj1 (H2 K))]. Qed.
Lemma p_c30_rev_bad' r m us ps i j t : Text m us -> marks us -> MalformedEnd r -> unmarked_chars ps -> Fits (r ++ m ++ concat ps) ->
  (j <= i < 0)%Z ->
  ((- i <= Z.of_nat (length ps))%Z -> replace_chars (r ++ m ++ concat ps) i j t = Ok (t ++ concat (units_after ps i i))) /\
  ((Z.of_nat (length ps) < - i)%Z -> bad_end r (replace_chars (r ++ m ++ concat ps) i j t)).
Proof. intros HT HM HR HC HF H. destruct (p_c27_rev_bad r m us ps i j t HT HM HR HC HF H) as [H1 H2]. split; intros K; [apply (proj2 (H1 K))|apply (proj2 (H2 K))]. Qed.
Lemma p_c27_back_bad' qs x r m us ps i j : Chars qs -> Malformed x -> Text m us -> marks us -> MalformedEnd r -> unmarked_chars ps ->
  concat qs ++ x = r ++ m ++ concat ps -> Fits (concat qs ++ x) -> (i < 0 <= j)%Z ->
  ((- i <= Z.of_nat (length ps) /\ (j = 0 \/ j < Z.of_nat (length qs)))%Z -> get_char_substring (concat qs ++ x) i j = Ok []) /\
  ((- i <= Z.of_nat (length ps) /\ j <> 0 /\ Z.of_nat (length qs) <= j)%Z -> get_char_substring (concat qs ++ x) i j = Throw YstringException) /\
  ((Z.of_nat (length ps) < - i)%Z -> bad_end r (get_char_substring (concat qs ++ x) i j)).
Proof. intros HQ HX HT HM HR HC E HF H. destruct (p_c27_back_bad qs x r m us ps i j [] HQ HX HT HM HR HC E HF H) as (H1 & H2 & H3). split; [|split]; intros K; [apply (proj1 (H1 K))|apply (proj1 (H2 K))|apply (proj1 (H3 K))]. Qed.
Lemma p_c30_back_bad' qs x r m us ps i j t : Chars qs -> Malformed x -> Text m us -> marks us -> MalformedEnd r -> unmarked_chars ps ->
  concat qs ++ x = r ++ m ++ concat ps -> Fits (concat qs ++ x) -> (i < 0 <= j)%Z ->
  ((- i <= Z.of_nat (length ps) /\ (j = 0 \/ j < Z.of_nat (length qs)))%Z ->
     replace_chars (concat qs ++ x) i j t = Ok (r ++ m ++ concat (units_before ps i) ++ t ++ concat (units_after ps i i))) /\
  ((- i <= Z.of_nat (length ps) /\ j <> 0 /\ Z.of_nat (length qs) <= j)%Z -> replace_chars (concat qs ++ x) i j t = Throw YstringException) /\
  ((Z.of_nat (length ps) < - i)%Z -> bad_end r (replace_chars (concat qs ++ x) i j t)).
Proof. intros HQ HX HT HM HR HC E HF H. destruct (p_c27_back_bad qs x r m us ps i j t HQ HX HT HM HR HC E HF H) as (H1 & H2 & H3). split; [|split]; intros K; [apply (proj2 (H1 K))|apply (proj2 (H2 K))|apply (proj2 (H3 K))]. Qed.
Lemma p_c27_across_bad' qs r m us ps i j : Chars qs -> Text m us -> marks us -> MalformedEnd r -> unmarked_chars ps ->
  Malformed (r ++ m ++ concat ps) -> Fits (concat qs ++ r ++ m ++ concat ps) -> (j < 0 <= i)%Z ->
  let s := concat qs ++ r ++ m ++ concat ps in
  let before := concat (firstn (Z.to_nat i) qs) in
  let inside := concat (skipn (Z.to_nat i) qs) ++ r ++ m ++ concat (units_before ps j) in
  let rest := concat (skipn (Z.to_nat i) qs) ++ r ++ m ++ concat ps in
  let reached := (i = 0 \/ i < Z.of_nat (length qs))%Z in
  (reached -> (- j <= Z.of_nat (length ps))%Z ->
     get_char_substring s i j = Ok (if size before <=? size inside then firstn (length inside - length before) rest else rest)) /\
  (~ reached -> get_char_substring s i j = Throw YstringException) /\
  (reached -> (Z.of_nat (length ps) < - j)%Z -> bad_end (concat (skipn (Z.to_nat i) qs) ++ r) (get_char_substring s i j)).
Proof. intros HQ HT HM HR HC HX HF H. destruct (p_c27_across_bad qs r m us ps i j [] HQ HT HM HR HC HX HF H) as (H1 & H2 & H3). cbv zeta in *. split; [|split]; [intros K L; apply (proj1 (H1 K L))|intros K; apply (proj1 (H2 K))|intros K L; apply (proj1 (H3 K L))]. Qed.
Lemma p_c30_across_bad' qs r m us ps i j t : Chars qs -> Text m us -> marks us -> MalformedEnd r -> unmarked_chars ps ->
  Malformed (r ++ m ++ concat ps) -> Fits (concat qs ++ r ++ m ++ concat ps) -> (j < 0 <= i)%Z ->
  let s := concat qs ++ r ++ m ++ concat ps in
  let before := concat (firstn (Z.to_nat i) qs) in
  let inside := concat (skipn (Z.to_nat i) qs) ++ r ++ m ++ concat (units_before ps j) in
  let reached := (i = 0 \/ i < Z.of_nat (length qs))%Z in
  (reached -> (- j <= Z.of_nat (length ps))%Z -> replace_chars s i j t = Ok (before ++ t ++ skipn (length inside) s)) /\
  (~ reached -> replace_chars s i j t = Throw YstringException) /\
  (reached -> (Z.of_nat (length ps) < - j)%Z -> bad_end (concat (skipn (Z.to_nat i) qs) ++ r) (replace_chars s i j t)).
Proof. intros HQ HT HM HR HC HX HF H. destruct (p_c27_across_bad qs r m us ps i j t HQ HT HM HR HC HX HF H) as (H1 & H2 & H3). cbv zeta in *. split; [|split]; [intros K L; apply (proj2 (H1 K L))|intros K; apply (proj2 (H2 K))|intros K L; apply (proj2 (H3 K L))]. Qed.
