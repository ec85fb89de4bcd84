(** [unescape]: every escape sequence is handled, rejected or undefined. *)
From Verif Require Import Base Spec.Utf8Spec Spec.Strings Spec.Escape Model.Decode Model.Encode Model.Subrange Model.Unescape
  Proofs.Utf8Lemmas Proofs.DecodeLemmas Proofs.EncodeLemmas Proofs.CodepointLemmas Proofs.SearchLemmas Proofs.NumeralLemmas Proofs.EscapeScan
  Proofs.UnescapeLemmas.
From Coq Require Import ZifyBool ZifyNat ZifyN.

Lemma letter_plain c v : In (c, v) letters -> ~ In c numeric_letters /\ u8 c < 0x80.
Proof.
  cbn [letters In]. intros H.
  repeat (destruct H as [H|H]; [injection H as <- <-; split; [|reflexivity]; cbn; intuition discriminate|]). destruct H.
Qed.
Lemma octal_letter c d : oct_digit c d -> In c numeric_letters.
Proof.
  intros [Hd Hc]. assert (HC : In (u8 c) [0x30; 0x31; 0x32; 0x33; 0x34; 0x35; 0x36; 0x37]) by (cbn; lia).
  destruct c; try (cbn; tauto); exfalso; vm_compute in HC; repeat (destruct HC as [HC|HC]; [discriminate|]); exact HC.
Qed.
Lemma xu_not_octal c d : c = x78 \/ c = x58 \/ c = x75 \/ c = x55 -> ~ oct_digit c d.
Proof.
  intros H [Hd Hc]. destruct H as [-> | [-> | [-> | ->]]];
  [change (u8 x78) with 0x78 in Hc|change (u8 x58) with 0x58 in Hc|change (u8 x75) with 0x75 in Hc|change (u8 x55) with 0x55 in Hc]; lia.
Qed.

Lemma Denotes_bs e r v : Denotes e r v -> exists c q, e = x5c :: c :: q.
Proof.
  destruct 1 as [c v r|c r|x ds v r|ds v r|ds v r|ds1 hi ds2 lo r|ds v r|ds v r Hl Hds Hr]; cbn [app]; eauto.
  destruct (oct_head ds v Hds) as (c' & d & ds' & -> & Hd); [lia|]. eauto.
Qed.

Lemma one_denotes e r v : Denotes e r v -> handled e r ->
  exists n, Extent (e ++ r) n /\ forall P, Fits (P ++ e ++ r) ->
    unescape_one (P ++ e ++ r) (Sub (size P) n) = Ok (v, Sub (size P) (size e)).
Proof.
  intros HD [NO NB].
  destruct HD as [c v r Hc|c r Hc1 Hc2 Hc3|x ds v r Hx Hl Hds Hv Hr|ds v r Hl Hds|ds v r Hl Hds HS
                 |ds1 hi ds2 lo r L1 H1 S1 L2 H2 S2|ds v r Hl Hds HS HN|ds v r Hl Hds Hr].
  - exists 2. split; [constructor; eapply letter_plain; exact Hc|]. intros P HF.
    apply (one_letter _ _ c v); [|exact Hc]. cbn [sub_start sub_offset app] in *. now apply deref_second.
  - exists 2. split; [now constructor|]. intros P HF.
    apply (one_self _ _ c); [|exact Hc2|exact Hc3]. cbn [sub_start sub_offset app] in *. now apply deref_second.
  - exists (2 + size ds). split; [now apply (ext_x x ds v r)|]. intros P HF.
    rewrite (one_hex _ _ x) by (destruct Hx as [-> | ->]; auto || (cbn [sub_start sub_offset app] in *; now apply deref_second)).
    cbn [sub_start sub_length sub_offset]. rewrite (substr_mid P (x5c :: x :: ds) r) by sz. cbn [bind].
    rewrite (parse_hex_ok x5c x ds v Hds) by first [exact Hv|destruct ds; [cbn in Hl; lia|discriminate]].
    cbn [bind]. f_equal. f_equal. f_equal. sz.
  - exists 10. split; [now apply (ext_U ds v r)|]. intros P HF.
    rewrite (one_hex _ _ x55) by (auto || (cbn [sub_start sub_offset app] in *; now apply deref_second)).
    cbn [sub_start sub_length sub_offset]. rewrite (substr_mid P (x5c :: x55 :: ds) r) by sz. cbn [bind].
    rewrite (parse_hex_ok x5c x55 ds v Hds (len_cons2 _ _ Hl) (hex8_lt _ _ Hl Hds)).
    cbn [bind]. f_equal. f_equal. f_equal. sz.
  - exists 6. split; [now apply (ext_u ds v r)|]. intros P HF.
    rewrite one_u by (cbn [sub_start sub_offset app] in *; now apply deref_second).
    rewrite (utf16_plain P ds v r) by assumption. f_equal. f_equal. f_equal. sz.
  - exists 6. split; [rewrite <- app_assoc; now apply (ext_u ds1 hi)|]. intros P HF. rewrite <- app_assoc in *.
    rewrite one_u by (cbn [sub_start sub_offset app] in *; now apply deref_second).
    rewrite (utf16_pair P ds1 hi ds2 lo r) by assumption. f_equal. f_equal. f_equal. sz.
  - exists 6. split; [now apply (ext_u ds v r)|]. intros P HF.
    rewrite one_u by (cbn [sub_start sub_offset app] in *; now apply deref_second).
    rewrite (utf16_lone P ds v r); try assumption; [f_equal; f_equal; f_equal; sz|].
    intros HO. apply NB. split; [exact HO|]. exists ds, v. auto.
  - exists (1 + size ds). split.
    { apply (ext_oct ds v r); [exact Hl|exact Hds|]. destruct Hr as [Hr|Hr]; [now left|].
      destruct (Nat.eq_dec (length ds) 3) as [L|L]; [now left|]. right. split; [|exact Hr].
      intros ->. apply NO. split; [reflexivity|]. exists ds, v. repeat split; try lia. exact Hds. }
    intros P HF. destruct (oct_head ds v Hds) as (c' & d & ds' & -> & Hd); [lia|].
    rewrite (one_oct _ _ c' d) by (exact Hd || (cbn [sub_start sub_offset app] in *; now apply deref_second)).
    cbn [sub_start sub_length sub_offset]. rewrite (substr_mid P (x5c :: c' :: ds') r) by sz. cbn [bind].
    rewrite (parse_oct_ok x5c (c' :: ds') v Hds) by first [discriminate|pose proof (oct_lt (c' :: ds') v (proj2 Hl) Hds); lia].
    cbn [bind]. f_equal. f_equal. f_equal. sz.
Qed.

Lemma one_undefined w : Undefined w ->
  exists n, (Extent w n \/ Overhang w n) /\ forall P, Fits (P ++ w) ->
    unescape_one (P ++ w) (Sub (size P) n) = UB \/
    exists v k, unescape_one (P ++ w) (Sub (size P) n) = Ok (v, Sub (size P) k) /\ size w < k <= 10.
Proof.
  destruct 1 as [ds v Hl Hds|ds v Hl Hds|ds v Hl Hds|x ds v r Hx Hds Hv Hr].
  - exists 6. split; [right; apply (over_u ds v); [lia|exact Hds]|]. intros P HF. right. exists v, 6. split; [|sz].
    rewrite one_u by (cbn [sub_start sub_offset app] in *; now apply deref_second).
    unfold parse_utf16. cbn [sub_offset sub_length]. rewrite substr_rest by sz. cbn [bind].
    rewrite (parse_hex_ok x5c x75 ds v Hds) by first [now apply (hex_short_lt ds v 4); [lia|lia|]|destruct ds; [cbn in Hl; lia|discriminate]].
    cbn [bind]. assert (v < 0x1000).
    { apply Hex_bound in Hds. change 0x1000 with (16 ^ 3). eapply N.lt_le_trans; [exact Hds|]. apply N.pow_le_mono_r; lia. }
    now replace ((v <? 0xD800) || (0xDBFF <? v)) with true by lia.
  - exists 10. split; [right; apply (over_U ds v); [lia|exact Hds]|]. intros P HF. right. exists v, 10. split; [|sz].
    rewrite (one_hex _ _ x55) by (auto || (cbn [sub_start sub_offset app] in *; now apply deref_second)).
    cbn [sub_start sub_length sub_offset]. rewrite substr_rest by sz. cbn [bind].
    rewrite (parse_hex_ok x5c x55 ds v Hds) by first [now apply (hex_short_lt ds v 8); [lia|lia|]|destruct ds; [cbn in Hl; lia|discriminate]].
    reflexivity.
  - exists 4. split; [right; apply (over_oct ds v); [lia|exact Hds]|]. intros P HF. right. exists v, 4. split; [|sz].
    destruct (oct_head ds v Hds) as (c' & d & ds' & -> & Hd); [lia|].
    rewrite (one_oct _ _ c' d) by (exact Hd || (cbn [sub_start sub_offset app] in *; now apply deref_second)).
    cbn [sub_start sub_length sub_offset]. rewrite substr_rest by sz. cbn [bind].
    assert (L3 : (length (c' :: ds') <= 3)%nat) by lia.
    rewrite (parse_oct_ok x5c (c' :: ds') v Hds) by first [discriminate|pose proof (oct_lt (c' :: ds') v L3 Hds); lia].
    reflexivity.
  - assert (Hl : (8 < length ds)%nat).
    { destruct (Nat.lt_ge_cases 8 (length ds)) as [L|L]; [exact L|]. exfalso. apply Hex_bound in Hds.
      assert (16 ^ N.of_nat (length ds) <= 16 ^ 8) by (apply N.pow_le_mono_r; lia). change (16 ^ 8) with 0x100000000 in *. lia. }
    exists (2 + size ds). split; [left; apply (ext_x x ds v r); [exact Hx|lia|exact Hds|exact Hr]|]. intros P HF. left.
    rewrite (one_hex _ _ x) by (destruct Hx as [-> | ->]; auto || (cbn [sub_start sub_offset app] in *; now apply deref_second)).
    cbn [sub_start sub_length sub_offset]. rewrite (substr_mid P (x5c :: x :: ds) r) by sz. cbn [bind].
    now rewrite (parse_hex_over x5c x ds v Hds Hv).
Qed.

Lemma one_rejected w : Rejected w -> BadEscape w \/
  exists n, (Extent w n \/ Overhang w n) /\ forall P, Fits (P ++ w) ->
    unescape_one (P ++ w) (Sub (size P) n) = Throw YstringException.
Proof.
  destruct 1 as [r HB|x Hx|ds v r Hl Hds HS HO].
  - now left.
  - right. destruct Hx as [-> | ->].
    + exists 6. split; [right; apply (over_u [] 0); [cbn; lia|constructor]|]. intros P HF.
      rewrite one_u by (cbn [sub_start sub_offset app] in *; now apply deref_second).
      unfold parse_utf16. cbn [sub_offset sub_length]. rewrite substr_rest by sz. reflexivity.
    + exists 10. split; [right; apply (over_U [] 0); [cbn; lia|constructor]|]. intros P HF.
      rewrite (one_hex _ _ x55) by (auto || (cbn [sub_start sub_offset app] in *; now apply deref_second)).
      cbn [sub_start sub_length sub_offset]. rewrite substr_rest by sz. reflexivity.
  - right. exists 6. split; [left; now apply (ext_u ds v r)|]. intros P HF.
    rewrite one_u by (cbn [sub_start sub_offset app] in *; now apply deref_second).
    now apply (utf16_obstructed P ds v r).
Qed.

(** ** Totality *)

Lemma Obstructed_dec r : Obstructed r \/ ~ Obstructed r.
Proof.
  destruct (list_eq_dec Byte.byte_eq_dec r [x5c; x75]) as [->|NE]; [left; now right|].
  assert (HF6 : Fits (firstn 6 r)) by (pose proof (firstn_le_length 6 r); sz).
  assert (K : forall lits w, firstn 6 r = lits ++ w -> ~ In x5c lits -> BadEscape w ->
            find_first_escaped_char (firstn 6 r) 0 = Throw YstringException).
  { intros lits w E HL HB. rewrite E in *. pose proof (ffe_bad [] lits w) as FE. cbn [app size length N.of_nat] in FE. now apply FE. }
  destruct (backslash_cut (firstn 6 r)) as [NB|(lits & q & E & NB)].
  - right. intros [(lits & w & E & HL & HB)|E]; [|contradiction].
    specialize (K lits w E HL HB). pose proof (ffe_none [] (firstn 6 r) NB) as FE. cbn [app size length N.of_nat] in FE. congruence.
  - destruct (escape_cases q) as [HB|HE]; [left; left; exists lits, (x5c :: q); auto|].
    right. intros [(lits' & w & E' & HL & HB)|E']; [|contradiction].
    specialize (K lits' w E' HL HB). rewrite E in K, HF6.
    destruct HE as [[n HE]|[n HE]].
    + pose proof (ffe_extent [] lits (x5c :: q) n) as FE. cbn [app size length N.of_nat] in FE. rewrite FE in K by assumption. discriminate.
    + pose proof (ffe_overhang [] lits (x5c :: q) n) as FE. cbn [app size length N.of_nat] in FE. rewrite FE in K by assumption. discriminate.
Qed.

Lemma app_inj_len {A} (a b u v : list A) : length a = length b -> a ++ u = b ++ v -> a = b /\ u = v.
Proof.
  revert b. induction a as [|x a IH]; intros [|y b] L E; try discriminate L; [now split|].
  cbn [app] in E. apply cons_eq in E as [-> E]. injection L as L. destruct (IH b L E) as [-> ->]. now split.
Qed.

Lemma starts_low_dec r : starts_low r \/ ~ starts_low r.
Proof.
  destruct r as [|a [|b r]]; try (right; intros (ds & v & r' & E & _); discriminate E).
  destruct (Byte.byte_eq_dec a x5c) as [->|Ha]; [|right; intros (ds & v & r' & E & _); injection E; congruence].
  destruct (Byte.byte_eq_dec b x75) as [->|Hb]; [|right; intros (ds & v & r' & E & _); injection E; congruence].
  destruct (run_upto hex_digit 16 4 r hex_digit_dec) as (ds & r' & -> & [v Hv] & Hl & Hr).
  assert (K : forall ds0 v0 r0, ds ++ r' = ds0 ++ r0 -> length ds0 = 4%nat -> Hex ds0 v0 -> length ds = 4%nat).
  { intros ds0 v0 r0 E L H. destruct Hr as [Hr|Hr]; [exact Hr|].
    destruct (Nat.eq_dec (length ds) 4) as [L4|L4]; [exact L4|]. exfalso.
    assert (X : ds0 = ds ++ skipn (length ds) ds0).
    { rewrite <- (firstn_skipn (length ds) ds0) at 1. f_equal.
      pose proof (f_equal (firstn (length ds)) E) as F. rewrite firstn_length_app, firstn_app in F.
      replace (length ds - length ds0)%nat with 0%nat in F by lia. now rewrite firstn_O, app_nil_r in F. }
    destruct (skipn (length ds) ds0) as [|c t] eqn:ES.
    { rewrite app_nil_r in X. subst. lia. }
    rewrite X in E. rewrite <- app_assoc in E. apply app_inv_head in E. subst r'. cbn [app stops] in Hr.
    rewrite X in H. apply num_forall in H. apply Forall_app in H as [_ H]. inversion H as [|? ? [d Hd] _]; subst. now elim (Hr d). }
  destruct (Nat.eq_dec (length ds) 4) as [L|L].
  - destruct (N.leb_spec 0xDC00 v) as [A|A].
    + destruct (N.leb_spec v 0xDFFF) as [B|B].
      * left. exists ds, v, r'. repeat split; assumption.
      * right. intros (ds0 & v0 & r0 & E & L0 & H0 & S0). cbn [app] in E. apply cons_eq in E as [_ E]. apply cons_eq in E as [_ E].
        change (ds ++ r' = ds0 ++ r0) in E. apply app_inj_len in E as [-> _]; [|congruence].
        pose proof (Hex_fun _ _ _ Hv H0). unfold low_surrogate in S0. lia.
    + right. intros (ds0 & v0 & r0 & E & L0 & H0 & S0). cbn [app] in E. apply cons_eq in E as [_ E]. apply cons_eq in E as [_ E].
      change (ds ++ r' = ds0 ++ r0) in E. apply app_inj_len in E as [-> _]; [|congruence].
      pose proof (Hex_fun _ _ _ Hv H0). unfold low_surrogate in S0. lia.
  - right. intros (ds0 & v0 & r0 & E & L0 & H0 & S0). cbn [app] in E. apply cons_eq in E as [_ E]. apply cons_eq in E as [_ E].
    apply L. now apply (K ds0 v0 r0).
Qed.

Lemma handled_two c r : ~ In c numeric_letters -> handled [x5c; c] r.
Proof.
  intros H. split.
  - intros (_ & ds & v & E & L & HO). injection E as <-. destruct (oct_head [c] v HO) as (c' & d & ds' & E & Hd); [cbn; lia|].
    injection E as -> _. apply H. now apply (octal_letter c' d).
  - intros (_ & ds & v & E & L & _). injection E as -> <-. discriminate L.
Qed.
Lemma handled_xu x ds r : x = x78 \/ x = x58 \/ x = x55 -> handled (x5c :: x :: ds) r.
Proof.
  intros Hx. split.
  - intros (_ & ds' & v & E & L & HO). injection E as <-. destruct (oct_head (x :: ds) v HO) as (c' & d & ds'' & E & Hd); [cbn; lia|].
    injection E as -> _. apply (xu_not_octal c' d); [tauto|exact Hd].
  - intros (_ & ds' & v & E & _). injection E as -> _. destruct Hx as [Hx|[Hx|Hx]]; discriminate Hx.
Qed.
Lemma handled_u ds v r : Hex ds v -> ~ (high_surrogate v /\ Obstructed r) -> handled (x5c :: x75 :: ds) r.
Proof.
  intros Hv HN. split.
  - intros (_ & ds' & v' & E & L & HO). injection E as <-. destruct (oct_head (x75 :: ds) v' HO) as (c' & d & ds'' & E & Hd); [cbn; lia|].
    injection E as <- _. apply (xu_not_octal x75 d); [tauto|exact Hd].
  - intros (HO & ds' & v' & E & _ & H' & HS). injection E as <-. rewrite <- (Hex_fun _ _ _ Hv H') in HS. auto.
Qed.

Lemma head_cases q : (exists e r v, x5c :: q = e ++ r /\ Denotes e r v /\ handled e r)
  \/ Rejected (x5c :: q) \/ Undefined (x5c :: q).
Proof.
  destruct (escape_cases q) as [HB|[[n HE]|[n HE]]]; [right; left; now constructor| |].
  - remember (x5c :: q) as w eqn:Ew.
    destruct HE as [c r H1 H2|x ds v r Hx Hl Hds Hr|ds v r Hl Hds|ds v r Hl Hds|ds v r Hl Hds Hr].
    + left. assert (D : (exists v, In (c, v) letters) \/ (forall v, ~ In (c, v) letters)).
      { cbn [letters In]. destruct c; first [left; eexists; tauto | right; intros v Hv; intuition discriminate]. }
      destruct D as [[v Hv]|D].
      * exists [x5c; c], r, v. split; [reflexivity|]. split; [now constructor|]. now apply handled_two.
      * exists [x5c; c], r, (u8 c). split; [reflexivity|]. split; [now constructor|]. now apply handled_two.
    + destruct (N.lt_ge_cases v 0x100000000) as [Hv|Hv].
      * left. exists (x5c :: x :: ds), r, v. split; [reflexivity|]. split; [now constructor|]. apply handled_xu. tauto.
      * right. right. now apply (und_x x ds v r).
    + assert (D : high_surrogate v \/ ~ high_surrogate v) by (unfold high_surrogate; lia).
      destruct D as [D|D].
      * destruct (starts_low_dec r) as [(ds2 & lo & r' & -> & L2 & H2 & S2)|HN].
        -- left. exists ((x5c :: x75 :: ds) ++ (x5c :: x75 :: ds2)), r', (0x10000 + (v - 0xD800) * 0x400 + (lo - 0xDC00)).
           split; [now rewrite <- app_assoc|]. split; [now constructor|]. split.
           ++ intros (_ & ds' & v' & E & L & HO). cbn [app] in E. apply cons_eq in E as [_ <-]. cbn [length] in L. rewrite app_length in L. cbn [length] in L. lia.
           ++ intros (HO & ds' & v' & E & L' & H' & HS). cbn [app] in E. apply cons_eq in E as [_ E]. apply cons_eq in E as [_ E].
              apply (f_equal (@length byte)) in E. rewrite app_length in E. cbn [length] in E. lia.
        -- destruct (Obstructed_dec r) as [HO|HO].
           ++ right. left. now apply (rej_obstructed ds v r).
           ++ left. exists (x5c :: x75 :: ds), r, v. split; [reflexivity|]. split; [now apply den_lone|]. apply (handled_u ds v); tauto.
      * left. exists (x5c :: x75 :: ds), r, v. split; [reflexivity|]. split; [now apply den_u|]. apply (handled_u ds v); tauto.
    + left. exists (x5c :: x55 :: ds), r, v. split; [reflexivity|]. split; [now constructor|]. apply handled_xu. tauto.
    + left. exists (x5c :: ds), r, v. split; [reflexivity|]. split; [constructor; [exact Hl|exact Hds|]; tauto|]. split.
      * intros (-> & ds' & v' & E & L & _). injection E as <-. destruct Hr as [Hr|[Hr _]]; [lia|congruence].
      * intros (_ & ds' & v' & E & _). injection E as ->. destruct (oct_head _ v Hds) as (c' & d & ds'' & E & Hd); [lia|].
        injection E as <- _. apply (xu_not_octal x75 d); tauto.
  - remember (x5c :: q) as w eqn:Ew.
    destruct HE as [ds v Hl Hds|ds v Hl Hds|ds v Hl Hds].
    + right. destruct ds as [|c ds]; [left; apply rej_no_digits; now left|right; apply (und_u (c :: ds) v); [cbn [length] in *; lia|exact Hds]].
    + right. destruct ds as [|c ds]; [left; apply rej_no_digits; now right|right; apply (und_U (c :: ds) v); [cbn [length] in *; lia|exact Hds]].
    + right. right. now apply (und_oct ds v).
Qed.
