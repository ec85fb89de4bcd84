(** [unescape_next]. *)
From Verif Require Import Base Spec.Utf8Spec Spec.Strings Spec.Escape Spec.Iterate Model.Decode Model.Encode Model.Subrange Model.Escape Model.Unescape
  Proofs.Utf8Lemmas Proofs.DecodeLemmas Proofs.EncodeLemmas Proofs.CodepointLemmas Proofs.SearchLemmas Proofs.NumeralLemmas Proofs.EscapeScan
  Proofs.UnescapeLemmas Proofs.UnescapeStep Proofs.UnescapeLoop Proofs.EscapeLemmas.
From Coq Require Import ZifyBool ZifyNat ZifyN.

(** ** Skipped line ends *)
Fixpoint newlines (k : nat) : str := match k with O => [] | S k => escaped_newline ++ newlines k end.

Lemma skip_split n : forall s, (length s <= n)%nat -> exists k, s = newlines k ++ skip_escaped_newlines s /\ ~ starts_newline (skip_escaped_newlines s).
Proof.
  induction n as [n IH] using lt_wf_ind. intros s Hn.
  destruct s as [|a [|b s]].
  - exists 0%nat. split; [reflexivity|]. intros [s' E]. discriminate E.
  - exists 0%nat. split; [reflexivity|]. intros [s' E]. discriminate E.
  - cbn [skip_escaped_newlines]. destruct (byte_eqb a x5c && byte_eqb b x0a) eqn:E.
    + apply andb_true_iff in E as [Ea Eb]. apply byte_eqb_eq in Ea. apply byte_eqb_eq in Eb. subst.
      cbn [length] in Hn. assert (L : (length s < n)%nat) by lia.
      destruct (IH (length s) L s (le_n _)) as (k & E & H). exists (S k). split; [|exact H].
      cbn [newlines escaped_newline app]. now f_equal; f_equal.
    + exists 0%nat. split; [reflexivity|]. intros [s' E']. cbn [escaped_newline app] in E'. injection E' as -> -> _.
      rewrite !byte_eqb_refl in E. discriminate E.
Qed.
Lemma skip_none s : ~ starts_newline s -> skip_escaped_newlines s = s.
Proof.
  intros H. destruct s as [|a [|b s]]; try reflexivity. cbn [skip_escaped_newlines].
  destruct (byte_eqb a x5c && byte_eqb b x0a) eqn:E; [|reflexivity].
  apply andb_true_iff in E as [Ea Eb]. apply byte_eqb_eq in Ea. apply byte_eqb_eq in Eb. subst. elim H. now exists s.
Qed.
Lemma skip_newlines k r : ~ starts_newline r -> skip_escaped_newlines (newlines k ++ r) = r.
Proof. induction k as [|k IH]; intros H; [now apply skip_none|]. cbn. now apply IH. Qed.
Lemma next_skip k r : ~ starts_newline r -> unescape_next (newlines k ++ r) = unescape_next r.
Proof. intros H. unfold unescape_next. now rewrite skip_newlines, skip_none. Qed.

(** ** The pieces *)
Lemma pop_view_ok g c t : uchar g c -> pop_view (g ++ t) = (Ok (Some c), t).
Proof. intros H. unfold pop_view. now rewrite (pop_first_ok g c t). Qed.
Lemma pop_view_bad r : Malformed r -> pop_view r = (Throw YstringException, r).
Proof. intros H. unfold pop_view. now rewrite pop_first_malformed. Qed.

Lemma firstn_hex ds r n : (length ds <= n)%nat -> length ds = n \/ stops hex_digit r ->
  exists r', firstn n (ds ++ r) = ds ++ r' /\ stops hex_digit r'.
Proof.
  intros L [E|H].
  - exists []. rewrite app_nil_r. split; [now apply firstn_app_exact|exact I].
  - rewrite firstn_app, firstn_all2 by exact L. exists (firstn (n - length ds) r). split; [reflexivity|].
    destruct r as [|c r]; [now rewrite firstn_nil|]. destruct (n - length ds)%nat; [exact I|exact H].
Qed.
Lemma firstn_oct ds r n : (length ds <= n)%nat -> length ds = n \/ stops oct_digit r ->
  exists r', firstn n (ds ++ r) = ds ++ r' /\ stops oct_digit r'.
Proof.
  intros L [E|H].
  - exists []. rewrite app_nil_r. split; [now apply firstn_app_exact|exact I].
  - rewrite firstn_app, firstn_all2 by exact L. exists (firstn (n - length ds) r). split; [reflexivity|].
    destruct r as [|c r]; [now rewrite firstn_nil|]. destruct (n - length ds)%nat; [exact I|exact H].
Qed.
Lemma firstn_min {A} (s : list A) n : firstn (Nat.min n (length s)) s = firstn n s.
Proof.
  destruct (Nat.le_gt_cases n (length s)) as [L|L].
  - now rewrite Nat.min_l.
  - rewrite Nat.min_r by lia. rewrite firstn_all. symmetry. apply firstn_all2. lia.
Qed.

Lemma extract_hex_ok ds v r lo hi : Hex ds v -> (lo <= length ds)%nat -> (1 <= length ds <= hi)%nat -> (hi <= 8)%nat ->
  length ds = hi \/ stops hex_digit r -> extract_hex_char (ds ++ r) lo hi = (Ok v, r).
Proof.
  intros H L1 L2 L3 HS. unfold extract_hex_char. rewrite firstn_min.
  destruct (firstn_hex ds r hi) as (r' & -> & Hr'); [lia|exact HS|].
  rewrite (from_chars_hex ds v r' H Hr') by (destruct ds; [cbn in L2; lia|discriminate]).
  replace (Nat.ltb (length ds) lo) with false by lia.
  replace (v <? 0x100000000) with true by (pose proof (hex_short_lt ds v (S hi)) as X; destruct (Nat.eq_dec (length ds) 8) as [E8|E8];
    [pose proof (hex8_lt ds v E8 H); lia|pose proof (hex_short_lt ds v 8 ltac:(lia) ltac:(lia) H); lia]).
  now rewrite skipn_length_app.
Qed.
Lemma extract_hex_few ds v r lo hi : Hex ds v -> (length ds < lo)%nat -> (lo <= hi)%nat -> stops hex_digit r ->
  extract_hex_char (ds ++ r) lo hi = (Throw YstringException, ds ++ r).
Proof.
  intros H L1 L2 HS. unfold extract_hex_char. rewrite firstn_min.
  destruct (firstn_hex ds r hi) as (r' & -> & Hr'); [lia|now right|].
  destruct ds as [|c ds].
  - cbn [app]. rewrite from_chars_none_hex by exact Hr'. now replace (Nat.ltb 0 lo) with true by (cbn in L1; lia).
  - rewrite (from_chars_hex (c :: ds) v r' H Hr') by discriminate.
    now replace (Nat.ltb (length (c :: ds)) lo) with true by lia.
Qed.
Lemma extract_oct_ok ds v r : Oct ds v -> (1 <= length ds <= 3)%nat -> length ds = 3%nat \/ stops oct_digit r ->
  extract_oct_char (ds ++ r) = (Ok v, r).
Proof.
  intros H L HS. unfold extract_oct_char. rewrite Nat.min_comm, firstn_min.
  destruct (firstn_oct ds r 3) as (r' & -> & Hr'); [lia|exact HS|].
  rewrite (from_chars_oct ds v r' H Hr') by (destruct ds; [cbn in L; lia|discriminate]).
  replace (Nat.eqb (length ds) 0) with false by lia.
  replace (v <? 0x100000000) with true by (pose proof (oct_lt ds v ltac:(lia) H); lia).
  now rewrite skipn_length_app.
Qed.

(** ** Surrogate pairs *)
Lemma utf16n_plain ds v r : length ds = 4%nat -> Hex ds v -> ~ high_surrogate v -> extract_utf16_char (ds ++ r) = (Ok v, r).
Proof.
  intros L H HS. unfold extract_utf16_char. rewrite (extract_hex_ok ds v r 4 4) by (assumption || lia).
  now replace ((v <? 0xD800) || (0xDBFF <? v)) with true by (unfold high_surrogate in HS; lia).
Qed.
Lemma utf16n_pair ds1 hi ds2 lo r : length ds1 = 4%nat -> Hex ds1 hi -> high_surrogate hi ->
  length ds2 = 4%nat -> Hex ds2 lo -> low_surrogate lo ->
  extract_utf16_char (ds1 ++ (x5c :: x75 :: ds2) ++ r) = (Ok (0x10000 + (hi - 0xD800) * 0x400 + (lo - 0xDC00)), r).
Proof.
  intros L1 H1 S1 L2 H2 S2. unfold extract_utf16_char. rewrite (extract_hex_ok ds1 hi _ 4 4) by (assumption || lia).
  replace ((hi <? 0xD800) || (0xDBFF <? hi)) with false by (unfold high_surrogate in S1; lia).
  rewrite (firstn_app_exact (x5c :: x75 :: ds2) r 6) by (cbn [length]; lia).
  replace (Nat.ltb (length (x5c :: x75 :: ds2)) 6) with false by (cbn [length]; lia).
  cbn [nth]. rewrite !byte_eqb_refl. cbn [negb orb skipn]. rewrite <- (app_nil_r ds2) at 1.
  rewrite (extract_hex_ok ds2 lo [] 4 4) by (assumption || lia).
  replace ((lo <? 0xDC00) || (0xDFFF <? lo)) with false by (unfold low_surrogate in S2; lia).
  rewrite combine_ok by assumption. f_equal.
  pose proof (skipn_length_app (x5c :: x75 :: ds2) r) as E. cbn [length] in E. rewrite L2 in E. exact E.
Qed.
(** no second half follows *)
Lemma utf16n_lone ds v r : length ds = 4%nat -> Hex ds v -> high_surrogate v -> ~ starts_low r ->
  (forall b r', r = [x5c; x75] ++ b ++ r' -> length b = 4%nat -> exists w, Hex b w) ->
  extract_utf16_char (ds ++ r) = (Ok v, r).
Proof.
  intros L H S HL HB. unfold extract_utf16_char. rewrite (extract_hex_ok ds v r 4 4) by (assumption || lia).
  replace ((v <? 0xD800) || (0xDBFF <? v)) with false by (unfold high_surrogate in S; lia).
  destruct (Nat.ltb (length (firstn 6 r)) 6) eqn:E6; [reflexivity|].
  rewrite firstn_length in E6.
  destruct r as [|a [|b r]]; try (cbn in E6; discriminate E6).
  change (firstn 6 (a :: b :: r)) with (a :: b :: firstn 4 r). cbn [nth].
  destruct (byte_eqb a x5c) eqn:Ea; [|reflexivity]. destruct (byte_eqb b x75) eqn:Eb; [|reflexivity].
  apply byte_eqb_eq in Ea. apply byte_eqb_eq in Eb. subst. cbn [negb orb skipn].
  cbn [length] in E6.
  assert (L4 : length (firstn 4 r) = 4%nat) by (rewrite firstn_length; lia).
  destruct (HB (firstn 4 r) (skipn 4 r)) as [w Hw]; [now rewrite firstn_skipn|exact L4|].
  rewrite <- (app_nil_r (firstn 4 r)).
  rewrite (extract_hex_ok (firstn 4 r) w [] 4 4) by (assumption || lia).
  destruct ((w <? 0xDC00) || (0xDFFF <? w)) eqn:Ew; [reflexivity|].
  elim HL. exists (firstn 4 r), w, (skipn 4 r). rewrite firstn_skipn. repeat split; [exact L4|exact Hw|unfold low_surrogate; lia|unfold low_surrogate; lia].
Qed.
(** \u follows, but not with four digits *)
Lemma utf16n_bad ds v b r : length ds = 4%nat -> Hex ds v -> high_surrogate v -> length b = 4%nat -> ~ (exists w, Hex b w) ->
  fst (extract_utf16_char (ds ++ [x5c; x75] ++ b ++ r)) = Throw YstringException.
Proof.
  intros L H S Lb Hb. unfold extract_utf16_char. rewrite (extract_hex_ok ds v _ 4 4) by (assumption || lia).
  replace ((v <? 0xD800) || (0xDBFF <? v)) with false by (unfold high_surrogate in S; lia).
  rewrite (app_assoc [x5c; x75] b r). rewrite (firstn_app_exact ([x5c; x75] ++ b) r 6) by (rewrite app_length; cbn [length]; lia).
  replace (Nat.ltb (length ([x5c; x75] ++ b)) 6) with false by (rewrite app_length; cbn [length]; lia).
  cbn [app nth]. rewrite !byte_eqb_refl. cbn [negb orb skipn].
  destruct (hex_run b) as (ds' & r' & -> & [w Hw] & Hr').
  rewrite app_length in Lb.
  assert (length ds' < 4)%nat.
  { destruct r'; [|cbn [length] in Lb; lia]. elim Hb. rewrite app_nil_r. eauto. }
  rewrite (extract_hex_few ds' w r' 4 4) by (assumption || lia). reflexivity.
Qed.

(** ** The switch *)
Definition next_esc (s : str) : outcome (option N) * str := fst (unescape_next s).

Lemma next_escape c q r s' : c <> x0a -> unescape_switch (x5c :: c :: q) c q = (r, s') ->
  unescape_next (x5c :: c :: q) =
  ((match r with Throw YstringException => (Throw YstringException, x5c :: c :: q) | _ => (r, s') end), Some true).
Proof.
  intros Hc E. unfold unescape_next. rewrite skip_none.
  2:{ intros [t Et]. cbn [escaped_newline app] in Et. injection Et as -> _. congruence. }
  rewrite byte_eqb_refl. cbn [negb]. rewrite E. destruct r as [o|[]| |]; reflexivity.
Qed.
Lemma switch_letter b c v q : In (c, v) letters -> unescape_switch b c q = (Ok (Some v), q).
Proof.
  cbn [letters In]. intros H. repeat (destruct H as [H|H]; [injection H as <- <-; reflexivity|]). destruct H.
Qed.
Lemma switch_x b c q : c = x78 \/ c = x58 -> unescape_switch b c q = some_char (extract_hex_char q 1 8).
Proof. intros [-> | ->]; reflexivity. Qed.
Lemma switch_U b q : unescape_switch b x55 q = some_char (extract_hex_char q 8 8).
Proof. reflexivity. Qed.
Lemma switch_u b q : unescape_switch b x75 q = some_char (extract_utf16_char q).
Proof. reflexivity. Qed.
Lemma switch_oct c q d : oct_digit c d -> unescape_switch (x5c :: c :: q) c q = some_char (extract_oct_char (c :: q)).
Proof.
  intros [Hd Hc]. assert (HC : In (u8 c) [0x30; 0x31; 0x32; 0x33; 0x34; 0x35; 0x36; 0x37]) by (cbn; lia).
  destruct c; try reflexivity; exfalso; vm_compute in HC; repeat (destruct HC as [HC|HC]; [discriminate|]); exact HC.
Qed.
Lemma switch_self c q : ~ In c numeric_letters -> (forall v, ~ In (c, v) letters) ->
  unescape_switch (x5c :: c :: q) c q = pop_view (c :: q).
Proof.
  intros H1 H2. destruct c; try reflexivity; exfalso; first [apply H1; cbn; tauto | eapply H2; cbn; eauto 20].
Qed.

Lemma letter_not_nl c v : In (c, v) letters -> c <> x0a.
Proof. cbn [letters In]. intros H ->. intuition discriminate. Qed.
Lemma numeric_not_nl c : In c numeric_letters -> c <> x0a.
Proof. cbn [numeric_letters In]. intros H ->. intuition discriminate. Qed.
Lemma oct_not_nl c d : oct_digit c d -> c <> x0a.
Proof. intros H. apply octal_letter in H. now apply numeric_not_nl. Qed.
Lemma xnl x : x = x78 \/ x = x58 -> x <> x0a.
Proof. intros [-> | ->]; discriminate. Qed.

Lemma next_ok s c s' b : NextChar s c s' b -> unescape_next s = ((Ok (Some c), s'), Some b).
Proof.
  destruct 1 as [g c r Hg Hn|c v r Hc|g c r Hg Hg1 Hn|x ds v r Hx Hl Hds Hr|ds v r Hl Hds|ds v r Hl Hds HS
                 |ds1 hi ds2 lo r L1 H1 S1 L2 H2 S2|ds v r Hl Hds HS HN HB|ds v r Hl Hds Hr].
  - pose proof (uchar_nonempty _ _ Hg) as NE. destruct g as [|a g]; [congruence|].
    assert (Ha : a <> x5c) by (intros ->; now apply (Hn g)).
    unfold unescape_next. rewrite skip_none by (intros [t Et]; cbn [escaped_newline app] in Et; injection Et as -> _; congruence).
    cbn [app]. replace (byte_eqb a x5c) with false by (symmetry; destruct (byte_eqb a x5c) eqn:E; [apply byte_eqb_eq in E; congruence|reflexivity]).
    cbn [negb]. change (a :: g ++ r) with ((a :: g) ++ r). now rewrite (pop_view_ok (a :: g) c r Hg).
  - cbn [app]. rewrite (next_escape c r _ _ (letter_not_nl _ _ Hc) (switch_letter _ c v r Hc)). reflexivity.
  - pose proof (uchar_nonempty _ _ Hg) as NE. destruct g as [|a g]; [congruence|].
    assert (Ha : a <> x0a).
    { intros ->. destruct g as [|b g]; [congruence|]. inversion Hg; subst; change (u8 x0a) with 10 in *; lia. }
    assert (K : ~ In a numeric_letters /\ (forall v, ~ In (a, v) letters)).
    { destruct g as [|b g]; [now apply Hg1|].
      assert (0x80 <= u8 a) by (inversion Hg; subst; lia).
      split; [cbn [numeric_letters In]|cbn [letters In]; intros v]; intros HI; repeat (destruct HI as [HI|HI]; [subst a || (injection HI as <- _)|]); try destruct HI; vm_compute in H; now apply H. }
    cbn [app]. rewrite (next_escape a (g ++ r) (Ok (Some c)) r Ha); [reflexivity|].
    rewrite switch_self by apply K. now apply (pop_view_ok (a :: g) c r).
  - cbn [app]. rewrite (next_escape x (ds ++ r) (Ok (Some v)) r (xnl x Hx)); [reflexivity|].
    rewrite switch_x by exact Hx. rewrite (extract_hex_ok ds v r 1 8) by (assumption || lia). reflexivity.
  - cbn [app]. rewrite (next_escape x55 (ds ++ r) (Ok (Some v)) r); [reflexivity|discriminate|].
    rewrite switch_U. rewrite (extract_hex_ok ds v r 8 8) by (assumption || lia). reflexivity.
  - cbn [app]. rewrite (next_escape x75 (ds ++ r) (Ok (Some v)) r); [reflexivity|discriminate|].
    rewrite switch_u. now rewrite (utf16n_plain ds v r).
  - cbn [app]. rewrite (next_escape x75 (ds1 ++ x5c :: x75 :: ds2 ++ r) (Ok (Some (0x10000 + (hi - 0xD800) * 0x400 + (lo - 0xDC00)))) r); [reflexivity|discriminate|].
    rewrite switch_u. pose proof (utf16n_pair ds1 hi ds2 lo r L1 H1 S1 L2 H2 S2) as E. cbn [app] in E. now rewrite E.
  - cbn [app]. rewrite (next_escape x75 (ds ++ r) (Ok (Some v)) r); [reflexivity|discriminate|].
    rewrite switch_u. now rewrite (utf16n_lone ds v r).
  - destruct (oct_head ds v Hds) as (c' & d & ds' & -> & Hd); [lia|]. cbn [app].
    rewrite (next_escape c' (ds' ++ r) (Ok (Some v)) r (oct_not_nl _ _ Hd)); [reflexivity|].
    rewrite (switch_oct c' _ d Hd). pose proof (extract_oct_ok (c' :: ds') v r Hds Hl Hr) as E. cbn [app] in E. now rewrite E.
Qed.

Lemma bad_result c q s' : c <> x0a -> unescape_switch (x5c :: c :: q) c q = (Throw YstringException, s') ->
  exists b, unescape_next (x5c :: c :: q) = ((Throw YstringException, x5c :: c :: q), b).
Proof. intros Hc E. exists (Some true). now rewrite (next_escape c q _ _ Hc E). Qed.

Lemma next_cases r : ~ starts_newline r -> r <> [] ->
  (exists c r' b, NextChar r c r' b) \/
  (exists b, unescape_next r = ((Throw YstringException, r), b)).
Proof.
  intros HN HE. destruct r as [|a r]; [congruence|]. clear HE.
  destruct (Byte.byte_eq_dec a x5c) as [->|Ha].
  2:{ destruct (seq_dec (a :: r)) as [E|[HM|(g & c & t & Hg & E)]]; [discriminate E| |].
      - right. exists (Some false). unfold unescape_next. rewrite skip_none by exact HN.
        replace (byte_eqb a x5c) with false by (symmetry; destruct (byte_eqb a x5c) eqn:E; [apply byte_eqb_eq in E; congruence|reflexivity]).
        cbn [negb]. now rewrite pop_view_bad.
      - left. exists c, t, false. rewrite E. constructor; [exact Hg|]. intros g' ->. cbn [app] in E. injection E as E _. congruence. }
  destruct r as [|c q].
  { right. exists None. reflexivity. }
  assert (Hc : c <> x0a) by (intros ->; apply HN; now exists q).
  assert (HX : forall x, x = x78 \/ x = x58 -> c = x ->
     (exists c0 r' b, NextChar (x5c :: c :: q) c0 r' b) \/ (exists b, unescape_next (x5c :: c :: q) = ((Throw YstringException, x5c :: c :: q), b))).
  { intros x Hx ->. destruct (run_upto hex_digit 16 8 q hex_digit_dec) as (ds & r & -> & [v Hv] & Hl & Hr).
    destruct ds as [|d0 ds].
    - right. cbn [app]. cbn [app] in *. apply (bad_result x r r Hc). rewrite switch_x by exact Hx.
      destruct Hr as [Hr|Hr]; [discriminate Hr|]. pose proof (extract_hex_few [] v r 1 8 Hv ltac:(cbn; lia) ltac:(lia) Hr) as E. cbn [app] in E. now rewrite E.
    - left. exists v, r, true. apply (nc_x x (d0 :: ds) v r); [exact Hx|cbn [length] in *; lia|exact Hv|exact Hr]. }
  destruct (in_dec Byte.byte_eq_dec c numeric_letters) as [D|D].
  - cbn [numeric_letters In] in D. destruct D as [D|[D|[D|[D|D]]]].
    + apply (HX x78); auto.
    + apply (HX x58); auto.
    + subst c. destruct (run_upto hex_digit 16 4 q hex_digit_dec) as (ds & r & -> & [v Hv] & Hl & Hr).
      destruct (Nat.eq_dec (length ds) 4) as [L|L].
      * assert (DS : high_surrogate v \/ ~ high_surrogate v) by (unfold high_surrogate; lia).
        destruct DS as [DS|DS]; [|left; exists v, r, true; now apply (nc_u ds v r)].
        destruct (starts_low_dec r) as [(ds2 & lo & r' & -> & L2 & H2 & S2)|NL].
        { left. exists (0x10000 + (v - 0xD800) * 0x400 + (lo - 0xDC00)), r', true. now apply (nc_pair ds v ds2 lo r'). }
        assert (DB : (forall b r', r = [x5c; x75] ++ b ++ r' -> length b = 4%nat -> exists w, Hex b w) \/
                     exists b r', r = [x5c; x75] ++ b ++ r' /\ length b = 4%nat /\ ~ exists w, Hex b w).
        { destruct (Nat.lt_ge_cases (length r) 6) as [L6|L6].
          { left. intros b r' -> Lb. rewrite !app_length in L6. cbn [length] in L6. lia. }
          destruct r as [|a1 [|a2 r]]; [cbn in L6; lia|cbn in L6; lia|]. cbn [length] in L6.
          destruct (Byte.byte_eq_dec a1 x5c) as [->|N1]; [|left; intros b r' E; cbn [app] in E; injection E as E _; congruence].
          destruct (Byte.byte_eq_dec a2 x75) as [->|N2]; [|left; intros b r' E; cbn [app] in E; injection E as E _; congruence].
          assert (L4 : length (firstn 4 r) = 4%nat) by (rewrite firstn_length; lia).
          destruct (hex_run (firstn 4 r)) as (ds' & r'' & Ef & [w Hw] & Hr'').
          destruct r'' as [|c'' r''].
          - left. intros b r' E Lb. cbn [app] in E. apply cons_eq in E as [_ E]. apply cons_eq in E as [_ E].
            exists w. rewrite E, (firstn_app_exact b r' 4 Lb) in Ef. change (ds' ++ []) with (ds' ++ []) in Ef. rewrite app_nil_r in Ef. now rewrite Ef.
          - right. exists (firstn 4 r), (skipn 4 r). rewrite firstn_skipn. split; [reflexivity|]. split; [exact L4|].
            intros [w' Hw']. rewrite Ef in Hw'. apply num_forall in Hw'. apply Forall_app in Hw' as [_ Hw'].
            inversion Hw' as [|? ? [d Hd] _]; subst. now elim (Hr'' d). }
        destruct DB as [DB|(b & r' & -> & Lb & Hb)].
        { left. exists v, r, true. now apply (nc_lone ds v r). }
        right. destruct (extract_utf16_char (ds ++ [x5c; x75] ++ b ++ r')) as [o s''] eqn:Ex.
        pose proof (utf16n_bad ds v b r' L Hv DS Lb Hb) as F. rewrite Ex in F. cbn [fst] in F. subst o.
        apply (bad_result x75 _ s''); [discriminate|]. rewrite switch_u. now rewrite Ex.
      * destruct Hr as [Hr|Hr]; [congruence|]. right. apply (bad_result x75 (ds ++ r) (ds ++ r)); [discriminate|]. rewrite switch_u.
        unfold extract_utf16_char. rewrite (extract_hex_few ds v r 4 4) by (assumption || lia). reflexivity.
    + subst c. destruct (run_upto hex_digit 16 8 q hex_digit_dec) as (ds & r & -> & [v Hv] & Hl & Hr).
      destruct (Nat.eq_dec (length ds) 8) as [L|L].
      * left. exists v, r, true. now apply (nc_U ds v r).
      * destruct Hr as [Hr|Hr]; [congruence|]. right. apply (bad_result x55 (ds ++ r) (ds ++ r)); [discriminate|]. rewrite switch_U.
        rewrite (extract_hex_few ds v r 8 8) by (assumption || lia). reflexivity.
    + assert (exists d, oct_digit c d) as [d Hd].
      { destruct D as [<-|[<-|[<-|[<-|[<-|[<-|[<-|[<-|[]]]]]]]]];
        [exists 0|exists 1|exists 2|exists 3|exists 4|exists 5|exists 6|exists 7]; split; reflexivity. }
      destruct (run_upto oct_digit 8 3 (c :: q) oct_digit_dec) as (ds & r & E & [v Hv] & Hl & Hr). rewrite E.
      left. exists v, r, true. apply (nc_oct ds v r); [|exact Hv|exact Hr].
      destruct ds; [|cbn [length] in *; lia]. cbn [app] in E. subst r. destruct Hr as [Hr|Hr]; [discriminate|]. now elim (Hr d).
  - assert (DL : (exists v, In (c, v) letters) \/ (forall v, ~ In (c, v) letters)).
    { cbn [letters In]. clear. destruct c; first [left; eexists; tauto | right; intros v Hv; intuition discriminate]. }
    destruct DL as [[v Hv]|DL]; [left; exists v, q, true; now apply (nc_letter c v q)|].
    destruct (seq_dec (c :: q)) as [E|[HM|(g & c0 & t & Hg & E)]]; [discriminate E| |].
    + right. apply (bad_result c q (c :: q) Hc). rewrite switch_self by assumption. now apply pop_view_bad.
    + left. exists c0, t, true. rewrite E. apply nc_self; [exact Hg| |].
      * intros b ->. cbn [app] in E. injection E as -> _. auto.
      * intros ->. cbn [app] in E. injection E as -> _. congruence.
Qed.

Lemma NextChar_suffix s c s' b : NextChar s c s' b -> exists g, g <> [] /\ s = g ++ s'.
Proof.
  destruct 1 as [g c r Hg Hn|c v r Hc|g c r Hg Hg1 Hn|x ds v r Hx Hl Hds Hr|ds v r Hl Hds|ds v r Hl Hds HS
                 |ds1 hi ds2 lo r L1 H1 S1 L2 H2 S2|ds v r Hl Hds HS HN HB|ds v r Hl Hds Hr].
  - exists g. split; [now apply uchar_nonempty in Hg|reflexivity].
  - exists [x5c; c]. split; [discriminate|reflexivity].
  - exists (x5c :: g). split; [discriminate|reflexivity].
  - exists (x5c :: x :: ds). split; [discriminate|reflexivity].
  - exists (x5c :: x55 :: ds). split; [discriminate|reflexivity].
  - exists (x5c :: x75 :: ds). split; [discriminate|reflexivity].
  - exists ((x5c :: x75 :: ds1) ++ (x5c :: x75 :: ds2)). split; [discriminate|now rewrite <- app_assoc].
  - exists (x5c :: x75 :: ds). split; [discriminate|reflexivity].
  - exists (x5c :: ds). split; [discriminate|reflexivity].
Qed.

Lemma nl_not_char r c r' b : starts_newline r -> ~ NextChar r c r' b.
Proof.
  intros [t ->] H. remember (escaped_newline ++ t) as s eqn:Es. cbn [escaped_newline app] in Es.
  destruct H as [g c r Hg Hn|c v r Hc|g c r Hg Hg1 Hn|x ds v r Hx Hl Hds Hr|ds v r Hl Hds|ds v r Hl Hds HS
                 |ds1 hi ds2 lo r L1 H1 S1 L2 H2 S2|ds v r Hl Hds HS HN HB|ds v r Hl Hds Hr]; cbn [app] in Es; try discriminate Es.
  - pose proof (uchar_nonempty _ _ Hg). destruct g as [|a g]; [congruence|]. cbn [app] in Es. injection Es as -> _. now apply (Hn g).
  - injection Es as -> _. now apply letter_not_nl in Hc.
  - pose proof (uchar_nonempty _ _ Hg). destruct g as [|a g]; [congruence|]. cbn [app] in Es. injection Es as -> _.
    destruct g as [|b g]; [congruence|]. inversion Hg; subst; change (u8 x0a) with 10 in *; lia.
  - injection Es as -> _. destruct Hx; discriminate.
  - destruct (oct_head ds v Hds) as (c' & d & ds' & -> & Hd); [lia|]. cbn [app] in Es. injection Es as -> _. now apply (oct_not_nl x0a d).
Qed.

(** C63 *)
Lemma p_c63 k r : ~ starts_newline r ->
  let s := newlines k ++ r in
  (r = [] -> unescape_next s = ((Ok None, []), Some false)) /\
  (forall c r' b, NextChar r c r' b -> unescape_next s = ((Ok (Some c), r'), Some b)) /\
  (r <> [] -> (forall c r' b, ~ NextChar r c r' b) -> exists b, unescape_next s = ((Throw YstringException, r), b)).
Proof.
  intros HN s. unfold s. rewrite next_skip by exact HN. repeat split.
  - intros ->. reflexivity.
  - intros c r' b H. now apply next_ok.
  - intros HE H. destruct (next_cases r HN HE) as [(c & r' & b & HC)|HB]; [now elim (H c r' b)|exact HB].
Qed.
Lemma p_c63_view s o s' b : unescape_next s = ((o, s'), b) ->
  (exists c, o = Ok (Some c) /\ exists g, g <> [] /\ s = g ++ s') \/
  (o = Ok None /\ s' = [] /\ exists k, s = newlines k) \/
  (o = Throw YstringException /\ exists k, s = newlines k ++ s').
Proof.
  intros E. destruct (skip_split (length s) s (le_n _)) as (k & Es & HN). set (r := skip_escaped_newlines s) in *.
  rewrite Es in E |- *. rewrite next_skip in E by exact HN.
  destruct (list_eq_dec Byte.byte_eq_dec r []) as [Er|Er].
  - rewrite Er in *. injection E as <- <- <-. right. left. rewrite app_nil_r. eauto.
  - destruct (next_cases r HN Er) as [(c & r' & b' & HC)|[b' HB]].
    + rewrite (next_ok _ _ _ _ HC) in E. injection E as <- <- <-. left. exists c. split; [reflexivity|].
      destruct (NextChar_suffix _ _ _ _ HC) as (g & Hg & ->). exists (newlines k ++ g). rewrite app_assoc. split; [|reflexivity].
      destruct g; [congruence|]. destruct (newlines k); discriminate.
    + rewrite HB in E. injection E as <- <- <-. right. right. eauto.
Qed.
Lemma newlines_app k : newlines k = concat (repeat escaped_newline k).
Proof. induction k as [|k IH]; [reflexivity|]. cbn [newlines repeat concat]. now rewrite IH. Qed.

(** ** Iteration *)

Lemma Iterated_fun s cs : Iterated s cs -> forall cs', Iterated s cs' -> cs = cs'.
Proof.
  induction 1 as [s s' b E|s c s' b cs E HI IH]; intros cs' H; inversion H; subst; [reflexivity|congruence|congruence|].
  rewrite E in H0. injection H0 as -> -> _. f_equal. now apply IH.
Qed.

(** An escape sequence both readers understand. *)
Lemma common_next e r v : Denotes e r v -> common e r -> NextChar (e ++ r) v r true.
Proof.
  intros HD ([NO NB] & NN & NX & NM).
  destruct HD as [c v r Hc|c r Hc1 Hc2 Hc3|x ds v r Hx Hl Hds Hv Hr|ds v r Hl Hds|ds v r Hl Hds HS
                 |ds1 hi ds2 lo r L1 H1 S1 L2 H2 S2|ds v r Hl Hds HS HN|ds v r Hl Hds Hr].
  - now constructor.
  - change ([x5c; c] ++ r) with (x5c :: [c] ++ r). apply nc_self; [now constructor| |].
    + intros b E. injection E as <-. auto.
    + intros E. injection E as ->. now apply NN.
  - apply nc_x; [exact Hx|split; [lia|now apply (NX x ds)]|exact Hds|now right].
  - now apply nc_U.
  - now apply nc_u.
  - rewrite <- app_assoc. now apply nc_pair.
  - apply nc_lone; try assumption. intros b r' -> Lb.
    destruct (hex_run b) as (ds' & r'' & Eb & [w Hw] & Hr'').
    destruct r'' as [|c'' r'']; [exists w; rewrite app_nil_r in Eb; now rewrite Eb|].
    exfalso. apply NB. split; [|now exists ds, v]. left. exists [], ([x5c; x75] ++ b). split.
    { change ([] ++ [x5c; x75] ++ b) with ([x5c; x75] ++ b). rewrite (app_assoc [x5c; x75] b r'). apply firstn_app_exact. rewrite app_length. cbn [length]. lia. }
    split; [intros []|]. rewrite Eb. rewrite Eb, app_length in Lb. cbn [length] in Lb.
    apply (bad_u ds' w (c'' :: r'')); [lia|exact Hw|discriminate|exact Hr''].
  - now apply nc_oct.
Qed.
Lemma common_handled s r t : Reads common s r t -> Reads handled s r t.
Proof.
  induction 1 as [s|c s r t Hc HR IH|e v b s r t HD Hok Hw HR IH]; [constructor|now constructor|].
  apply (reads_escape handled e v); auto. apply Hok.
Qed.

Lemma uchar_no_bs g c a q : uchar g c -> g = a :: q -> a <> x5c -> ~ In x5c g.
Proof.
  intros H E Ha HI. destruct H; injection E as -> <-; unfold cont in *; cbn [In] in HI;
  repeat (destruct HI as [HI|HI]; [subst; try congruence; change (u8 x5c) with 0x5c in *; lia|]); destruct HI.
Qed.
Lemma written_uchar v b : v <= 0x10FFFF -> written v b -> uchar b v.
Proof. intros H [[H1 H2]|[H1 H2]]; [now apply encodes_uchar|lia]. Qed.

Lemma iterated_text n : forall s, (length s <= n)%nat -> forall t cs, Reads common s [] t -> Iterated s cs -> Text t cs.
Proof.
  induction n as [n IH] using lt_wf_ind. intros s Hn t cs HR HI.
  destruct s as [|a s].
  { apply Reads_nil in HR as [_ ->]. inversion HI; subst; [constructor|discriminate]. }
  remember (a :: s) as w eqn:Ew. remember [] as fin eqn:Ef.
  destruct HR as [w|c w r t Hc HR|e v b w r t HD Hok Hw HR].
  - subst. discriminate.
  - injection Ew as -> ->. subst r.
    inversion HI as [s0 s' b0 E|s0 c0 s' b0 cs0 E HI']; subst.
    + destruct (p_c63_view _ _ _ _ E) as [(c0 & F & _)|[(_ & _ & k & F)|(F & _)]]; try discriminate F.
      destruct k; [discriminate F|]. cbn [newlines escaped_newline app] in F. injection F as F _. congruence.
    + assert (HN : ~ starts_newline (a :: s)) by (intros [q Eq]; cbn [escaped_newline app] in Eq; injection Eq as Eq _; congruence).
      destruct (next_cases (a :: s) HN) as [(c1 & r1 & b1 & HC)|[b1 HB]]; [discriminate| |congruence].
      pose proof (next_ok _ _ _ _ HC) as E'. rewrite E' in E. injection E as -> -> _.
      remember (a :: s) as w eqn:Ew. destruct HC as [g c r Hg Hn'|c v r Hc'|g c r Hg Hg1 Hn'|x ds v r Hx Hl Hds Hr|ds v r Hl Hds|ds v r Hl Hds HS
                 |ds1 hi ds2 lo r L1 H1 S1 L2 H2 S2|ds v r Hl Hds HS HN' HB|ds v r Hl Hds Hr]; try (cbn [app] in Ew; injection Ew as Ew _; congruence).
      pose proof (uchar_nonempty _ _ Hg) as NE. destruct g as [|a' g]; [congruence|].
      cbn [app] in Ew. injection Ew as Ea Es. subst a' s.
      assert (NBs : ~ In x5c (a :: g)) by (apply (uchar_no_bs (a :: g) c a g Hg eq_refl Hc)).
      assert (HR2 : Reads common ((a :: g) ++ r) [] (a :: t)) by (cbn [app]; now constructor).
      destruct (Reads_lits common r [] (or_introl eq_refl) (a :: g) (a :: t) NBs HR2) as (t' & -> & _ & HR').
      constructor; [exact Hg|]. cbn [length app] in Hn. rewrite app_length in Hn.
      apply (IH (length r)) with r; [lia|lia|exact HR'|exact HI'].
  - subst r. pose proof (common_next e w v HD Hok) as HC. pose proof (next_ok _ _ _ _ HC) as E'.
    inversion HI as [s0 s' b0 E|s0 c0 s' b0 cs0 E HI']; subst s0; [congruence|].
    rewrite E' in E. injection E as <- <- <-. subst cs.
    destruct (Denotes_bs _ _ _ HD) as (c1 & q1 & ->). rewrite app_length in Hn. cbn [length] in Hn.
    apply Text_cons; [apply written_uchar; [now apply Hok|exact Hw]|].
    apply (IH (length w)) with w; [lia|lia|exact HR|exact HI'].
Qed.

(** Where a text that was read begins. *)
Lemma written_head v b x : v <= 0x10FFFF -> written v b -> exists a q, b ++ x = a :: q /\ ~ cont a.
Proof.
  intros H HW. apply (written_uchar v b H) in HW. destruct HW; cbn [app]; eexists; eexists; (split; [reflexivity|unfold cont; lia]).
Qed.
Lemma reads_conts g : forall s t, Reads common s [] t -> Forall cont g -> forall t', t = g ++ t' ->
  exists s', s = g ++ s' /\ Reads common s' [] t'.
Proof.
  induction g as [|a g IH]; intros s t HR HF t' Et; [exists s; split; [reflexivity|]; now subst|].
  inversion HF as [|? ? Ha HF']; subst. remember ((a :: g) ++ t') as tt eqn:Et. remember [] as fin eqn:Ef.
  destruct HR as [w|c w r t Hc HR|e v b w r t HD Hok Hw HR].
  - discriminate Et.
  - cbn [app] in Et. apply cons_eq in Et as [-> Et]. subst r. destruct (IH w t HR HF' t' Et) as (s' & -> & HR'). exists s'. auto.
  - exfalso. destruct (written_head v b t) as (a' & q & E & Hn); [now apply Hok|exact Hw|]. rewrite E in Et. cbn [app] in Et. injection Et as -> _. contradiction.
Qed.
Lemma text_iterated n : forall s, (length s <= n)%nat -> forall t cs, Reads common s [] t -> Text t cs -> Iterated s cs.
Proof.
  induction n as [n IH] using lt_wf_ind. intros s Hn t cs HR HT.
  destruct s as [|a s].
  { apply Reads_nil in HR as [_ ->]. destruct cs as [|c cs]; [|now apply Text_nonempty in HT]. now apply (it_end [] [] (Some false)). }
  remember (a :: s) as w eqn:Ew. remember [] as fin eqn:Ef.
  destruct HR as [w|c w r t Hc HR|e v b w r t HD Hok Hw HR].
  - subst. discriminate.
  - injection Ew as -> ->. subst r.
    destruct cs as [|c cs]; [apply Text_nil_inv in HT; discriminate HT|].
    destruct (Text_cons_inv _ _ _ HT) as (g & t2 & E & Hg & HT2).
    pose proof (uchar_nonempty _ _ Hg) as NE. destruct g as [|a' g]; [congruence|].
    cbn [app] in E. apply cons_eq in E as [<- E].
    assert (HF : Forall cont g) by (inversion Hg; subst; repeat (apply Forall_cons; [assumption|]); apply Forall_nil).
    destruct (reads_conts g s t HR HF t2 E) as (s' & -> & HR').
    cbn [length] in Hn. rewrite app_length in Hn.
    apply (it_step _ c s' (Some false)).
    + apply next_ok. apply (nc_plain (a :: g) c s' Hg). intros g' Eg. injection Eg as Eg _. congruence.
    + apply (IH (length s')) with t2; [lia|lia|exact HR'|exact HT2].
  - subst r. pose proof (common_next e w v HD Hok) as HC. pose proof (next_ok _ _ _ _ HC) as E'.
    assert (Hv : v <= 0x10FFFF) by now apply Hok.
    pose proof (written_uchar v b Hv Hw) as Hb.
    destruct cs as [|c cs]; [apply Text_nil_inv in HT; apply app_eq_nil in HT as [-> _]; now apply uchar_nonempty in Hb|].
    destruct (Text_cons_inv _ _ _ HT) as (g & t2 & E & Hg & HT2).
    destruct (uchar_prefix_unique _ _ _ _ _ _ Hb Hg E) as (-> & -> & ->).
    destruct (Denotes_bs _ _ _ HD) as (c1 & q1 & ->). rewrite app_length in Hn. cbn [length] in Hn.
    apply (it_step _ c w (Some true)); [exact E'|]. apply (IH (length w)) with t2; [lia|lia|exact HR|exact HT2].
Qed.
Lemma p_c64 s t : Fits s -> Reads common s [] t -> unescape s = Ok t /\ forall cs, Iterated s cs <-> Text t cs.
Proof.
  intros HF HR. split; [apply unescape_ok; [exact HF|now apply common_handled]|].
  intros cs. split; intros H; [now apply (iterated_text (length s) s (le_n _) t)|now apply (text_iterated (length s) s (le_n _) t)].
Qed.

(** C65 *)
Lemma Denotes_fun_u ds v r : length ds = 4%nat -> Hex ds v -> ~ high_surrogate v -> forall v', Denotes (x5c :: x75 :: ds) r v' -> v' = v.
Proof.
  intros L H HS v' HD. remember (x5c :: x75 :: ds) as e eqn:Ee.
  destruct HD as [c v' r Hc|c r Hc1 Hc2 Hc3|x ds' v' r Hx Hl Hds Hv Hr|ds' v' r Hl Hds|ds' v' r Hl Hds HS'
                 |ds1 hi ds2 lo r L1 H1 S1 L2 H2 S2|ds' v' r Hl Hds HS' HN|ds' v' r Hl Hds Hr].
  - injection Ee as -> <-. discriminate L.
  - injection Ee as -> <-. discriminate L.
  - injection Ee as -> _. destruct Hx; discriminate.
  - discriminate Ee.
  - injection Ee as ->. now apply (Hex_fun ds).
  - cbn [app] in Ee. apply cons_eq in Ee as [_ Ee]. apply cons_eq in Ee as [_ Ee]. apply (f_equal (@length byte)) in Ee. rewrite app_length in Ee. cbn [length] in Ee. lia.
  - injection Ee as ->. now apply (Hex_fun ds).
  - injection Ee as ->. destruct (oct_head _ v' Hds) as (c' & d & ds'' & E & Hd); [lia|]. injection E as <- _. elim (xu_not_octal x75 d); tauto.
Qed.
Lemma Denotes_two_bound c r v : ~ In c numeric_letters -> Denotes [x5c; c] r v -> v <= 0x10FFFF.
Proof.
  intros HN HD. remember [x5c; c] as e eqn:Ee.
  destruct HD as [c' v' r Hc|c' r Hc1 Hc2 Hc3|x ds' v' r Hx Hl Hds Hv Hr|ds' v' r Hl Hds|ds' v' r Hl Hds HS'
                 |ds1 hi ds2 lo r L1 H1 S1 L2 H2 S2|ds' v' r Hl Hds HS' HN'|ds' v' r Hl Hds Hr].
  - cbn [letters In] in Hc. repeat (destruct Hc as [Hc|Hc]; [injection Hc as _ <-; lia|]). destruct Hc.
  - lia.
  - injection Ee as -> ->. cbn in Hl. lia.
  - injection Ee as E ->. discriminate Hl.
  - injection Ee as E ->. discriminate Hl.
  - cbn [app] in Ee. injection Ee as E E2. apply app_eq_nil in E2 as [_ E2]. discriminate E2.
  - injection Ee as E ->. discriminate Hl.
  - injection Ee as ->. destruct (oct_head _ v' Hds) as (c' & d & ds'' & E & Hd); [cbn; lia|]. injection E as -> _. elim HN. now apply (octal_letter c' d).
Qed.
Lemma JsonOf_common s e : JsonOf s e -> Reads common e [] s.
Proof.
  induction 1 as [|c s e Hc H IH|c l s e Hc H IH|c ds s e Hc Hn Hl Hd H IH].
  - constructor.
  - constructor; [|exact IH]. unfold must_escape in Hc. intros ->. tauto.
  - change (x5c :: l :: e) with ([x5c; l] ++ e). change (c :: s) with ([c] ++ s).
    assert (K : u8 c < 0x80 /\ Denotes [x5c; l] e (u8 c) /\ ~ In l numeric_letters /\ l <> x0a).
    { cbn [json_letters In] in Hc.
      repeat (destruct Hc as [Hc|Hc]; [injection Hc as <- <-; split; [reflexivity|split; [|split; [cbn; intuition discriminate|discriminate]]];
        first [apply den_letter; cbn; tauto | apply (den_self x22); [reflexivity|cbn; intuition discriminate|cbn; intuition discriminate]
          | apply (den_self x5c); [reflexivity|cbn; intuition discriminate|cbn; intuition discriminate]]|]).
      destruct Hc. }
    destruct K as (K1 & K2 & K3 & K4). apply (reads_escape common _ (u8 c)); [exact K2| |now apply byte_written|exact IH].
    split; [now apply handled_two|]. split; [intros E; injection E as ->; congruence|]. split.
    + intros x ds E _. injection E as _ <-. cbn. lia.
    + intros v HD. now apply (Denotes_two_bound l e v).
  - change (c :: s) with ([c] ++ s).
    assert (B : u8 c < 0x80).
    { destruct Hc as [Hc|[-> | ->]]; [lia|reflexivity|reflexivity]. }
    assert (NH : ~ high_surrogate (u8 c)) by (unfold high_surrogate; lia).
    apply (reads_escape common _ (u8 c)); [now apply den_u| |now apply byte_written|exact IH].
    split; [apply (handled_u ds (u8 c)); tauto|]. split; [intros E; discriminate E|]. split.
    + intros x ds' E Hx. injection E as <- _. destruct Hx; discriminate.
    + intros v HD. rewrite (Denotes_fun_u ds (u8 c) e Hl Hd NH v HD). lia.
Qed.
Lemma p_c65 s e cs : Fits s -> escape_json s = Ok e -> Iterated e cs <-> Text s cs.
Proof.
  intros HF E. rewrite escape_json_eq in E by exact HF. injection E as <-.
  pose proof (JsonOf_common s _ (esc_JsonOf s)) as HR.
  split; intros H; [now apply (iterated_text _ (flat_map esc s) (le_n _) s)|now apply (text_iterated _ (flat_map esc s) (le_n _) s)].
Qed.
