(** C64: when unescape and a run of unescape_next agree. *)
From Verif Require Import Base Spec.Utf8Spec Spec.Strings Spec.Escape Spec.Iterate Model.Decode Model.Encode Model.Subrange Model.Escape Model.Unescape
  Proofs.Utf8Lemmas Proofs.DecodeLemmas Proofs.EncodeLemmas Proofs.CodepointLemmas Proofs.SearchLemmas Proofs.NumeralLemmas Proofs.EscapeScan
  Proofs.UnescapeLemmas Proofs.UnescapeStep Proofs.UnescapeLoop Proofs.EscapeLemmas Proofs.UnescapeNext.
From Coq Require Import ZifyBool ZifyNat ZifyN.

Definition weight (c : N) : N := if c =? 0xA then 0 else if (0x30 <=? c) && (c <=? 0x66) then 2 else 1.
Fixpoint weights (l : list N) : N := match l with [] => 0 | c :: l => weight c + weights l end.
Lemma weights_app a b : weights (a ++ b) = weights a + weights b.
Proof. induction a as [|c a IH]; cbn [weights app]; lia. Qed.

Lemma next_newline s : unescape_next (escaped_newline ++ s) = unescape_next s.
Proof.
  destruct (skip_split (length s) s (le_n _)) as (k & E & H). remember (skip_escaped_newlines s) as r.
  rewrite E. change (escaped_newline ++ newlines k ++ r) with (newlines (S k) ++ r). now rewrite !next_skip.
Qed.
Lemma iterated_newline s cs : Iterated (escaped_newline ++ s) cs -> Iterated s cs.
Proof.
  intros H. inversion H as [s0 s' b E|s0 c s' b cs' E HI]; subst; rewrite next_newline in E; [now apply (it_end s s' b)|now apply (it_step s c s' b)].
Qed.

(** The escape sequences read alike, apart from values above U+10FFFF. *)
Lemma handled_next e r v : Denotes e r v -> handled e r -> e <> escaped_newline ->
  (forall x ds, e = x5c :: x :: ds -> x = x78 \/ x = x58 -> (length ds <= 8)%nat) -> NextChar (e ++ r) v r true.
Proof.
  intros HD [NO NB] NN NX.
  destruct HD as [c v r Hc|c r Hc1 Hc2 Hc3|x ds v r Hx Hl Hds Hv Hr|ds v r Hl Hds|ds v r Hl Hds HS
                 |ds1 hi ds2 lo r L1 H1 S1 L2 H2 S2|ds v r Hl Hds HS HN|ds v r Hl Hds Hr].
  - now constructor.
  - change ([x5c; c] ++ r) with (x5c :: [c] ++ r). apply nc_self; [now constructor| |].
    + intros b E. injection E as <-. auto.
    + intros E. injection E as ->. now apply NN.
  - apply nc_x; [exact Hx|split; [lia|now apply (NX x ds)]|exact Hds|now right].
  - now apply nc_U.
  - now apply nc_u.
  - rewrite <- app_assoc. now apply nc_pair.
  - apply nc_lone; try assumption. intros b r' -> Lb.
    destruct (hex_run b) as (ds' & r'' & Eb & [w Hw] & Hr'').
    destruct r'' as [|c'' r'']; [exists w; rewrite app_nil_r in Eb; now rewrite Eb|].
    exfalso. apply NB. split; [|now exists ds, v]. left. exists [], ([x5c; x75] ++ b). split.
    { change ([] ++ [x5c; x75] ++ b) with ([x5c; x75] ++ b). rewrite (app_assoc [x5c; x75] b r'). apply firstn_app_exact. rewrite app_length. cbn [length]. lia. }
    split; [intros []|]. rewrite Eb. rewrite Eb, app_length in Lb. cbn [length] in Lb.
    apply (bad_u ds' w (c'' :: r'')); [lia|exact Hw|discriminate|exact Hr''].
  - now apply nc_oct.
Qed.

Lemma hex_prefix b : forall a v, Hex (a ++ b) v -> exists d, Hex a d.
Proof.
  induction b as [|c b IH] using rev_ind; intros a v H; [rewrite app_nil_r in H; eauto|].
  rewrite app_assoc in H. inversion H as [E|ds w c' d HN HD E Ev]; [symmetry in E; now apply app_eq_nil in E as [_ E]|].
  apply app_inj_tail in E as [-> ->]. now apply (IH a w).
Qed.
Lemma hex_digit_char c d : hex_digit c d -> 0x30 <= u8 c <= 0x66.
Proof. intros [H|[H|H]]; lia. Qed.
Lemma hex_chars ds : forall v, Hex ds v -> Forall (fun c => 0x30 <= u8 c <= 0x66) ds.
Proof.
  induction ds as [|c ds IH] using rev_ind; intros v H; [constructor|].
  inversion H as [E|ds0 w c' d HN HD E Ev]; [symmetry in E; now apply app_eq_nil in E as [_ E]|].
  apply app_inj_tail in E as [-> ->]. apply Forall_app. split; [now apply (IH w)|]. constructor; [now apply hex_digit_char in HD|constructor].
Qed.
(** Plain ASCII characters are returned one after the other. *)
Lemma iterated_plain ds : forall r cs, Forall (fun c => 0x30 <= u8 c <= 0x66 /\ c <> x5c) ds -> Iterated (ds ++ r) cs ->
  exists cs', cs = map u8 ds ++ cs' /\ Iterated r cs'.
Proof.
  induction ds as [|a ds IH]; intros r cs HF HI; [now exists cs|].
  inversion HF as [|? ? [Ha Hb] HF']; subst.
  assert (HC : NextChar ([a] ++ (ds ++ r)) (u8 a) (ds ++ r) false).
  { apply nc_plain; [constructor; lia|]. intros g' E. injection E as E _. congruence. }
  cbn [app] in *. pose proof (next_ok _ _ _ _ HC) as E'.
  inversion HI as [s0 s' b E|s0 c s' b cs' E HI']; subst; rewrite E' in E; [discriminate E|].
  injection E as <- <- <-. destruct (IH r cs' HF' HI') as (cs'' & -> & H). exists cs''. split; [reflexivity|exact H].
Qed.
Lemma weights_hex ds : Forall (fun c => 0x30 <= u8 c <= 0x66) ds -> weights (map u8 ds) = 2 * N.of_nat (length ds).
Proof.
  induction 1 as [|c ds Hc HF IH]; [reflexivity|]. cbn [map weights length]. rewrite IH.
  assert (weight (u8 c) = 2) as -> by (unfold weight; destruct (u8 c =? 0xA) eqn:E1; destruct ((0x30 <=? u8 c) && (u8 c <=? 0x66)) eqn:E2; lia). lia.
Qed.
Lemma hex_not_bs ds v : Hex ds v -> Forall (fun c => 0x30 <= u8 c <= 0x66 /\ c <> x5c) ds.
Proof.
  revert v. induction ds as [|c ds IH] using rev_ind; intros v H; [constructor|].
  inversion H as [E|ds0 w c' d HN HD E Ev]; [symmetry in E; now apply app_eq_nil in E as [_ E]|].
  apply app_inj_tail in E as [-> ->]. apply Forall_app. split; [now apply (IH w)|]. constructor; [|constructor].
  split; [now apply hex_digit_char in HD|]. intros ->. change (hex_digit x5c d) with ((d < 10 /\ 0x5c = 0x30 + d) \/ (10 <= d < 16 /\ 0x5c = 0x41 + (d - 10)) \/ (10 <= d < 16 /\ 0x5c = 0x61 + (d - 10))) in HD. lia.
Qed.
(** More than eight digits after \x. *)
Lemma long_x x ds v w cs : x = x78 \/ x = x58 -> (8 < length ds)%nat -> Hex ds v -> Iterated ((x5c :: x :: ds) ++ w) cs ->
  exists k cs', cs = k ++ cs' /\ Iterated w cs' /\ weight v < weights k.
Proof.
  intros Hx HL Hds HI.
  assert (Es : ds = firstn 8 ds ++ skipn 8 ds) by (symmetry; apply firstn_skipn).
  set (d1 := firstn 8 ds) in *. set (d2 := skipn 8 ds) in *.
  assert (L1 : length d1 = 8%nat) by (unfold d1; rewrite firstn_length; lia).
  assert (L2 : (1 <= length d2)%nat) by (unfold d2; rewrite skipn_length; lia).
  clearbody d1 d2. subst ds. destruct (hex_prefix d2 d1 v Hds) as [d Hd].
  assert (HC : NextChar ((x5c :: x :: d1) ++ (d2 ++ w)) d (d2 ++ w) true) by (apply nc_x; [exact Hx|lia|exact Hd|now left]).
  pose proof (next_ok _ _ _ _ HC) as E'. cbn [app] in E', HI. rewrite <- app_assoc in HI.
  inversion HI as [s0 s' b E|s0 c s' b cs' E HI']; subst; rewrite E' in E; [discriminate E|]. injection E as <- <- <-.
  pose proof (hex_not_bs _ _ Hds) as HF. apply Forall_app in HF as [_ HF].
  destruct (iterated_plain d2 w cs' HF HI') as (cs2 & -> & HI2).
  exists (d :: map u8 d2), cs2. split; [reflexivity|]. split; [exact HI2|].
  cbn [weights]. rewrite weights_hex by (eapply Forall_impl; [|exact HF]; intros a Ha; apply Ha).
  destruct d2 as [|c d2]; [cbn in L2; lia|]. destruct d2 as [|c' d2].
  - inversion Hds as [E|ds0 w0 c' e HN HD E Ev]; [symmetry in E; now apply app_eq_nil in E as [_ E]|].
    apply app_inj_tail in E as [-> ->]. rewrite (Hex_fun _ _ _ Hd HN) in *. cbn [length]. unfold weight.
    destruct (w0 * 16 + e =? 0xA) eqn:E1; [lia|]. destruct ((0x30 <=? w0 * 16 + e) && (w0 * 16 + e <=? 0x66)) eqn:E2; [|lia].
    destruct (w0 =? 0xA) eqn:E3; [lia|]. destruct ((0x30 <=? w0) && (w0 <=? 0x66)) eqn:E4; lia.
  - cbn [length]. unfold weight at 1. destruct (v =? 0xA); [lia|]. destruct ((0x30 <=? v) && (v <=? 0x66)); lia.
Qed.

Lemma compare n : forall s, (length s <= n)%nat -> forall t cs, Reads handled s [] t -> Iterated s cs ->
  exists us, Text t us /\ weights us <= weights cs /\ (weights us = weights cs -> (length cs <= length us)%nat) /\
    (weights us = weights cs -> length us = length cs -> Reads common s [] t).
Proof.
  induction n as [n IH] using lt_wf_ind. intros s Hn t cs HR HI.
  destruct s as [|a s].
  { apply Reads_nil in HR as [_ ->]. inversion HI; subst; [|discriminate]. exists []. repeat split; try constructor; cbn; lia. }
  remember (a :: s) as w eqn:Ew. remember [] as fin eqn:Ef.
  destruct HR as [w|c w r t Hc HR|e v b w r t HD Hok Hw HR].
  - subst. discriminate.
  - injection Ew as -> ->. subst r.
    inversion HI as [s0 s' b0 E|s0 c0 s' b0 cs0 E HI']; subst.
    + destruct (p_c63_view _ _ _ _ E) as [(c0 & F & _)|[(_ & _ & k & F)|(F & _)]]; try discriminate F.
      destruct k; [discriminate F|]. cbn [newlines escaped_newline app] in F. injection F as F _. congruence.
    + assert (HN : ~ starts_newline (a :: s)) by (intros [q Eq]; cbn [escaped_newline app] in Eq; injection Eq as Eq _; congruence).
      destruct (next_cases (a :: s) HN) as [(c1 & r1 & b1 & HC)|[b1 HB]]; [discriminate| |congruence].
      pose proof (next_ok _ _ _ _ HC) as E'. rewrite E' in E. injection E as -> -> _.
      remember (a :: s) as w eqn:Ew. destruct HC as [g c r Hg Hn'|c v r Hc'|g c r Hg Hg1 Hn'|x ds v r Hx Hl Hds Hr|ds v r Hl Hds|ds v r Hl Hds HS
                 |ds1 hi ds2 lo r L1 H1 S1 L2 H2 S2|ds v r Hl Hds HS HN' HB|ds v r Hl Hds Hr]; try (cbn [app] in Ew; injection Ew as Ew _; congruence).
      pose proof (uchar_nonempty _ _ Hg) as NE. destruct g as [|a' g]; [congruence|].
      cbn [app] in Ew. injection Ew as Ea Es. subst a' s.
      assert (NBs : ~ In x5c (a :: g)) by (apply (uchar_no_bs (a :: g) c a g Hg eq_refl Hc)).
      assert (HR2 : Reads handled ((a :: g) ++ r) [] (a :: t)) by (cbn [app]; now constructor).
      destruct (Reads_lits handled r [] (or_introl eq_refl) (a :: g) (a :: t) NBs HR2) as (t' & Et & _ & HR').
      rewrite Et. cbn [length app] in Hn. rewrite app_length in Hn.
      destruct (IH (length r)) with (s := r) (t := t') (cs := cs0) as (us & HT & W1 & W2 & W3); [lia|lia|exact HR'|exact HI'|].
      exists (c :: us). split; [now constructor|]. cbn [weights length]. split; [lia|]. split; [intros W; assert (weights us = weights cs0) by lia; specialize (W2 H); lia|].
      intros W L. assert (weights us = weights cs0) by lia. assert (HRc : Reads common r [] t') by (apply W3; [assumption|lia]).
      clear - HRc NBs. change (a :: g ++ r) with ((a :: g) ++ r). induction (a :: g) as [|q l IHl]; [exact HRc|]. cbn [app]. constructor; [intros ->; apply NBs; now left|].
      apply IHl. intros H. apply NBs. now right.
  - subst r. assert (Hlen : (length w < n)%nat).
    { destruct (Denotes_bs _ _ _ HD) as (c1 & q1 & ->). rewrite app_length in Hn. cbn [length] in Hn. lia. }
    destruct (list_eq_dec byte_eq_dec e escaped_newline) as [->|NN].
    { assert (v = 0xA /\ b = [x0a]) as [-> ->].
      { assert (v = 0xA) as ->.
        { remember escaped_newline as e eqn:Ee. unfold escaped_newline in Ee.
          destruct HD as [c v r Hc|c r Hc1 Hc2 Hc3|x ds v r Hx Hl Hds Hv Hr|ds v r Hl Hds|ds v r Hl Hds HS
                 |ds1 hi ds2 lo r L1 H1 S1 L2 H2 S2|ds v r Hl Hds HS HN|ds v r Hl Hds Hr]; try discriminate Ee.
          - injection Ee as ->. now apply letter_not_nl in Hc.
          - now injection Ee as ->.
          - injection Ee as -> _. now destruct Hx.
          - injection Ee as ->.
            inversion Hds as [|ds0 w0 c' e HN HD E Ev]. destruct ds0 as [|q ds0]; [|destruct ds0; discriminate E].
            injection E as ->. destruct HD as [_ HD]. change (u8 x0a) with 0xA in HD. lia. }
        destruct Hw as [[_ Hw]|[Hw _]]; [|lia]. split; [reflexivity|].
        apply (encodes_fun b [x0a] 0xA Hw). reflexivity. }
      apply iterated_newline in HI. destruct (IH (length w) Hlen w (le_n _) t cs HR HI) as (us & HT & W1 & W2 & W3).
      exists (0xA :: us). split; [apply (Text_cons [x0a]); [apply (uchar1 x0a); cbn; lia|exact HT]|]. change (weights (0xA :: us)) with (0 + weights us). cbn [length].
      split; [lia|]. split; [intros W; specialize (W2 W); lia|]. intros W L. specialize (W2 W). lia. }
    destruct (Denotes_bs _ _ _ HD) as (c1 & q1 & Ee).
    assert (HX : ((c1 = x78 \/ c1 = x58) /\ (8 < length q1)%nat) \/ (forall x ds, e = x5c :: x :: ds -> x = x78 \/ x = x58 -> (length ds <= 8)%nat)).
    { destruct (le_lt_dec (length q1) 8) as [L|L]; [right; intros x ds E _; rewrite Ee in E; injection E as -> ->; exact L|].
      destruct (byte_eq_dec c1 x78) as [->|N1]; [left; auto|]. destruct (byte_eq_dec c1 x58) as [->|N2]; [left; auto|].
      right. intros x ds E HX. rewrite Ee in E. injection E as -> ->. destruct HX as [HX|HX]; contradiction. }
    destruct HX as [[HX HL]|NX].
    + subst e. assert (Hh : Hex q1 v).
      { clear - HX HL HD. remember (x5c :: c1 :: q1) as e eqn:Ee.
        destruct HD as [c v r Hc|c r Hc1 Hc2 Hc3|x ds v r Hx Hl Hds Hv Hr|ds v r Hl Hds|ds v r Hl Hds HS
                 |ds1 hi ds2 lo r L1 H1 S1 L2 H2 S2|ds v r Hl Hds HS HN|ds v r Hl Hds Hr];
        try (injection Ee as <- <-; cbn [length] in HL; lia); try (injection Ee as <- <-; destruct HX; congruence).
        all: try (injection Ee as <- <-; exact Hds).
        all: try (injection Ee as ->; cbn [length] in Hl; lia).
        }
      destruct (long_x c1 q1 v w cs HX HL Hh HI) as (k & cs' & -> & HI' & HW).
      destruct (IH (length w) Hlen w (le_n _) t cs' HR HI') as (us & HT & W1 & W2 & W3). rewrite weights_app.
      destruct (N.le_gt_cases v 0x10FFFF) as [Hv|Hv].
      * exists (v :: us). split; [apply Text_cons; [now apply written_uchar|exact HT]|]. cbn [weights]. split; [lia|]. split; intros W; lia.
      * destruct Hw as [[Hw _]|[_ ->]]; [lia|]. exists us. split; [exact HT|]. split; [lia|]. split; intros W; lia.
    + pose proof (handled_next e w v HD Hok NN NX) as HC. pose proof (next_ok _ _ _ _ HC) as E'.
      inversion HI as [s0 s' b0 E|s0 c0 s' b0 cs0 E HI']; subst s0; [congruence|].
      rewrite E' in E. injection E as <- <- <-. subst cs.
      destruct (IH (length w) Hlen w (le_n _) t cs0 HR HI') as (us & HT & W1 & W2 & W3).
      destruct (N.le_gt_cases v 0x10FFFF) as [Hv|Hv].
      * exists (v :: us). split; [apply Text_cons; [now apply written_uchar|exact HT]|]. cbn [weights length]. split; [lia|].
        split; [intros W; assert (weights us = weights cs0) as W' by lia; specialize (W2 W'); lia|].
        intros W L. apply (reads_escape common e v b); [exact HD| |exact Hw|apply W3; lia].
        split; [exact Hok|]. split; [exact NN|]. split; [exact NX|].
        intros v' HD'. pose proof (handled_next e w v' HD' Hok NN NX) as HC'. pose proof (next_ok _ _ _ _ HC') as E2. rewrite E' in E2. injection E2 as <-. exact Hv.
      * destruct Hw as [[Hw _]|[_ ->]]; [lia|]. exists us. split; [exact HT|]. cbn [weights].
        assert (weight v = 1) as -> by (unfold weight; destruct (v =? 0xA) eqn:E1; [lia|]; destruct ((0x30 <=? v) && (v <=? 0x66)) eqn:E2; lia).
        split; [lia|]. split; intros W; lia.
Qed.
Lemma p_c64_exact s t cs : Fits s -> unescape s = Ok t -> Iterated s cs -> (Text t cs <-> Reads common s [] t).
Proof.
  intros HF HU HI. split; [|intros H; now apply (p_c64 s t HF H)].
  intros HT. apply p_c61_ok in HU; [|exact HF]. destruct (compare (length s) s (le_n _) t cs HU HI) as (us & HT' & _ & _ & H).
  rewrite (Text_fun _ _ _ HT' HT) in H. now apply H.
Qed.
