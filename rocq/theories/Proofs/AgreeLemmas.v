(** C95: functions that answer the same question agree. *)
From Verif Require Import Base Spec.Utf8Spec Spec.Strings Spec.Slices Spec.Split Model.Decode Model.Encode Model.Subrange Model.Search Model.Split
  Model.CharClass Model.Chars
  Proofs.Utf8Lemmas Proofs.DecodeLemmas Proofs.SkipLemmas Proofs.EncodeLemmas Proofs.CodepointLemmas Proofs.Utf8Props Proofs.SearchLemmas
  Proofs.NewlineLemmas Proofs.SyncLemmas Proofs.SyncUtf32 Proofs.SliceLemmas Proofs.CharLemmas Proofs.PieceLemmas
  Proofs.AnyStringLemmas Proofs.PositionProps Proofs.SplitLemmas Proofs.ClosureLemmas.
From Coq Require Import ZifyBool ZifyNat ZifyN.
Ltac Zify.zify_post_hook ::= Z.div_mod_to_equations.

Notation E := from_utf32.
Notation inr := (Forall (fun c => c <= 0x10FFFF)).

Lemma sub_bool_uchar o g c : uchar g c -> sub_bool (Sub o (size g)) = true.
Proof. intros H. apply uchar_length in H. unfold sub_bool, size. cbn [sub_length]. destruct (N.eqb_spec (N.of_nat (length g)) 0); [lia|reflexivity]. Qed.

Lemma notin_eqb (c : N) (us : list N) : Forall (fun x => (x =? c) = false) us <-> ~ In c us.
Proof.
  rewrite Forall_forall. split.
  - intros H Hi. apply H in Hi. apply N.eqb_neq in Hi. congruence.
  - intros H x Hx. apply N.eqb_neq. congruence.
Qed.
Lemma notin_one (c : N) (us : list N) : ~ In c us -> Forall (fun x => ~ In x [c]) us.
Proof. intros H. apply Forall_forall. intros x Hx [K|[]]. congruence. Qed.

Lemma p_c95_contains s c : contains s c = omap (fun r => sub_bool (fst r)) (find_first_of s [c] 0).
Proof.
  destruct (p_first_of [c] []) as (F1 & F2 & F3). cbn [app] in F1, F2, F3. change (size []) with 0 in *.
  destruct (first_where_cases (fun x => x =? c) s) as [(u & us & g & d & v & -> & HT & HN & Hg & Hd)|[(us & HT & HN)|(u & us & r & -> & HT & HN & HM)]].
  - apply N.eqb_eq in Hd. subst d. apply notin_eqb in HN.
    rewrite (F1 u us g c v HT (notin_one c us HN) Hg ltac:(now left)). unfold omap. cbn [bind fst]. rewrite (sub_bool_uchar _ g c Hg).
    destruct (text_prefix v) as (w & ws & r & -> & HW & Hr).
    replace (u ++ g ++ w ++ r) with ((u ++ g ++ w) ++ r) by (now rewrite <- !app_assoc).
    apply (p_c12 (u ++ g ++ w) (us ++ c :: ws) r c).
    + apply Text_app; [exact HT|]. now constructor.
    + exact Hr.
    + apply in_or_app. right. now left.
  - apply notin_eqb in HN. rewrite (F2 s us HT (notin_one c us HN)). cbn.
    destruct (p_c12 s us [] c HT ltac:(now left)) as (_ & H & _). rewrite app_nil_r in H. now apply H.
  - apply notin_eqb in HN. rewrite (F3 u us r HT (notin_one c us HN) HM). cbn.
    destruct (p_c12 u us r c HT ltac:(now right)) as (_ & _ & H). apply H; [exact HN|apply HM].
Qed.

Lemma occ_prefix p s : occurs_at p s 0 <-> exists t, s = p ++ t.
Proof.
  split.
  - intros (u & v & -> & L). destruct u; [|discriminate]. now exists v.
  - intros [t ->]. exists [], t. auto.
Qed.
Lemma p_c95_prefix s p : p <> [] ->
  (starts_with s p = Ok true <-> find_first s p 0 = Ok (Sub 0 (size p))).
Proof.
  intros Hp. destruct (starts_with_spec s p) as (b & -> & Hb).
  assert (b = true <-> occurs_at p s 0) as H by (rewrite occ_prefix; exact Hb).
  destruct (find_first_spec s p 0 Hp ltac:(lia)) as [(i & _ & Ho & Hm & HF)|(Hn & HF)]; change (N.of_nat 0) with 0 in HF; rewrite HF; split; intros K.
  - injection K as ->. destruct i as [|i]; [reflexivity|]. exfalso. apply (Hm 0%nat); [lia|]. now apply H.
  - f_equal. apply H. assert (N.of_nat i = 0) as Ei by congruence. replace i with 0%nat in Ho by lia. exact Ho.
  - injection K as ->. exfalso. apply (Hn 0%nat); [lia|]. now apply H.
  - exfalso. assert (0 = size p) as Ez by congruence. unfold size in Ez. destruct p; [contradiction|cbn in Ez; lia].
Qed.
Lemma occ_suffix p s : (length p <= length s)%nat -> (occurs_at p s (length s - length p) <-> exists t, s = t ++ p).
Proof.
  intros L. split.
  - intros (u & v & -> & Lu). rewrite !app_length in *. destruct v; [|cbn in *; lia]. exists u. now rewrite app_nil_r.
  - intros [t ->]. exists t, []. rewrite app_nil_r, app_length. split; [reflexivity|lia].
Qed.
Lemma occ_le p s i : occurs_at p s i -> (i + length p <= length s)%nat.
Proof. intros (u & v & -> & <-). rewrite !app_length. lia. Qed.
Lemma p_c95_suffix s p : p <> [] -> Fits s ->
  (ends_with s p = Ok true <-> exists o, o + size p = size s /\ find_last s p npos = Ok (Sub o (size p))).
Proof.
  intros Hp HF. destruct (ends_with_spec s p HF) as (b & -> & Hb).
  assert (N.min npos (size s) = size s) as Hmin by (unfold Fits in HF; unfold npos, SIZE_MAX; lia).
  pose proof (find_last_spec s p npos Hp) as FL. cbv zeta in FL. rewrite Hmin in FL. split.
  - intros K. injection K as ->. destruct (proj1 Hb eq_refl) as [t Et]. exists (size t). split; [subst s; now rewrite size_app|].
    destruct FL as [(i & Ho & Hw & Hm & ->)|(Hn & _)].
    + assert (i = length t) as ->; [|reflexivity]. destruct (Nat.lt_trichotomy i (length t)) as [L|[->|L]]; [|reflexivity|].
      * exfalso. apply (Hm (length t) L); [subst s; rewrite size_app; unfold size; lia|]. exists t, []. rewrite app_nil_r. auto.
      * subst s. rewrite size_app in Hw. unfold size in Hw. lia.
    + exfalso. apply (Hn (length t)); [subst s; rewrite size_app; unfold size; lia|]. exists t, []. rewrite app_nil_r. auto.
  - intros (o & Ho & HK). f_equal. apply Hb. destruct FL as [(i & Hoc & Hw & Hm & FE)|(Hn & FE)]; rewrite FE in HK.
    + assert (N.of_nat i = o) as Ei by congruence. pose proof (occ_le _ _ _ Hoc). apply occ_suffix; [unfold size in *; lia|].
      replace (length s - length p)%nat with i by (unfold size in *; lia). exact Hoc.
    + exfalso. assert (0 = size p) as Ez by congruence. unfold size in Ez. destruct p; [contradiction|cbn in Ez; lia].
Qed.
Lemma p_c95_first_last s p : p <> [] -> Fits s ->
  exists a b, find_first s p 0 = Ok a /\ find_last s p npos = Ok b /\ sub_bool a = sub_bool b /\ (sub_bool a = true -> sub_start a <= sub_start b).
Proof.
  intros Hp HF. assert (N.min npos (size s) = size s) as Hmin by (unfold Fits in HF; unfold npos, SIZE_MAX; lia).
  assert (sub_bool (Sub 0 (size p)) = true) as Hsb by (unfold sub_bool, size; cbn [sub_length]; destruct p; [contradiction|cbn [length]; lia]).
  pose proof (find_last_spec s p npos Hp) as FL. cbv zeta in FL. rewrite Hmin in FL.
  destruct (find_first_spec s p 0 Hp ltac:(lia)) as [(i & _ & Ho & Hm & F1)|(Hn & F1)]; change (N.of_nat 0) with 0 in F1; rewrite F1;
    destruct FL as [(j & Ho' & Hw & Hm' & F2)|(Hn' & F2)]; rewrite F2; eexists; eexists; (split; [reflexivity|]); (split; [reflexivity|]).
  - split; [reflexivity|]. intros _. cbn [sub_start sub_offset].
    destruct (Nat.le_gt_cases i j) as [L|L]; [lia|]. exfalso. apply (Hm j); [lia|exact Ho'].
  - exfalso. apply (Hn' i); [|exact Ho]. pose proof (occ_le _ _ _ Ho). unfold size. lia.
  - exfalso. apply (Hn j); [lia|exact Ho'].
  - split; [reflexivity|]. discriminate.
Qed.


(** *** One code point: as a character and as a string *)
Lemma one_inr c : c <= 0x10FFFF -> inr [c].
Proof. intros H. constructor; [exact H|constructor]. Qed.
Lemma uchar_E1 c : c <= 0x10FFFF -> uchar (E [c]) c.
Proof.
  intros H. pose proof (from_utf32_Text [c] (one_inr c H)) as T. remember (E [c]) as e eqn:Ee. clear Ee.
  inversion T as [|g d s ds Hg Hs E1 E2]; subst. inversion Hs; subst. now rewrite app_nil_r.
Qed.
Lemma in_first (c : N) cs : In c cs -> exists us vs, cs = us ++ [c] ++ vs /\ ~ In c us.
Proof.
  induction cs as [|d cs IH]; intros H; [destruct H|]. destruct (N.eq_dec d c) as [->|D].
  - exists [], cs. split; [reflexivity|intros []].
  - destruct H as [H|H]; [congruence|]. destruct (IH H) as (us & vs & -> & Hn). exists (d :: us), vs. split; [reflexivity|]. intros [K|K]; congruence.
Qed.
Lemma in_last (c : N) cs : In c cs -> exists us vs, cs = us ++ [c] ++ vs /\ ~ In c vs.
Proof.
  intros H. apply in_rev in H. destruct (in_first c _ H) as (us & vs & Eq & Hn). exists (rev vs), (rev us). split.
  - rewrite <- (rev_involutive cs), Eq, !rev_app_distr. cbn [rev app]. now rewrite <- app_assoc.
  - intros K. apply Hn. now apply in_rev.
Qed.
Lemma app_uniq_first (c : N) us vs us' vs' : us ++ [c] ++ vs = us' ++ [c] ++ vs' -> ~ In c us -> ~ In c us' -> us = us'.
Proof.
  revert us'. induction us as [|d us IH]; intros [|d' us'] H Hn Hn'; [reflexivity| | |].
  - cbn in H. apply cons_eq in H. destruct H as [-> _]. exfalso. apply Hn'. now left.
  - cbn in H. apply cons_eq in H. destruct H as [-> _]. exfalso. apply Hn. now left.
  - cbn [app] in H. apply cons_eq in H. destruct H as [-> H]. f_equal. apply IH; auto; intros K; [apply Hn|apply Hn']; now right.
Qed.
Lemma p_c95_one_first cs c : inr cs -> c <= 0x10FFFF -> exists a x b,
  find_first_of (E cs) [c] 0 = Ok (a, x) /\ find_first (E cs) (E [c]) 0 = Ok b /\
  sub_bool a = sub_bool b /\ (sub_bool a = true -> a = b /\ x = c).
Proof.
  intros HC Hc. destruct (p_first_of [c] []) as (F1 & F2 & _). cbn [app] in F1, F2. change (size []) with 0 in *.
  destruct (p_c78_cp_first cs [c] HC (one_inr c Hc) ltac:(discriminate)) as [(us & vs & Eq & Hm & HF)|(Hn & HF)].
  - assert (~ In c us) as HU.
    { intros K. destruct (in_first c us K) as (u1 & u2 & -> & _). specialize (Hm u1 (u2 ++ [c] ++ vs) ltac:(rewrite Eq; now repeat rewrite <- app_assoc)).
      rewrite !app_length in Hm. cbn [length] in Hm. lia. }
    assert (inr us /\ inr vs) as [Hus Hvs]. { rewrite Eq in HC. apply Forall_app in HC. destruct HC as [H1 H2]. apply Forall_app in H2. tauto. }
    exists (Sub (size (E us)) (size (E [c]))), c, (Sub (size (E us)) (size (E [c]))). split; [|split; [exact HF|split; [reflexivity|auto]]].
    rewrite Eq, !E_app. apply F1 with (us := us); [now apply from_utf32_Text|now apply notin_one|now apply uchar_E1|now left].
  - assert (~ In c cs) as HU. { intros K. destruct (in_first c cs K) as (u1 & u2 & Eq & _). now apply (Hn u1 u2). }
    exists (Sub npos 0), INVALID_CHAR, (Sub (size (E cs)) 0). split; [|split; [exact HF|split; [reflexivity|discriminate]]].
    apply F2 with (us := cs); [now apply from_utf32_Text|now apply notin_one].
Qed.
Lemma find_last_npos s p : Fits s -> find_last s p npos = find_last s p (size s).
Proof. intros H. unfold find_last. cbv zeta. replace (N.min npos (size s)) with (N.min (size s) (size s)); [reflexivity|]. unfold Fits in H. unfold npos, SIZE_MAX. lia. Qed.
Lemma p_c95_one_last cs c : inr cs -> c <= 0x10FFFF -> Fits (E cs) -> exists a x b,
  find_last_of (E cs) [c] npos = Ok (a, x) /\ find_last (E cs) (E [c]) npos = Ok b /\
  sub_bool a = sub_bool b /\ (sub_bool a = true -> a = b /\ x = c).
Proof.
  intros HC Hc HFit. rewrite (find_last_npos _ _ HFit).
  assert (N.min npos (size (E cs)) = size (E cs)) as Hmin by (unfold Fits in HFit; unfold npos, SIZE_MAX; lia).
  destruct (p_last_of [c] [] npos) as (L1 & L2 & _).
  destruct (p_c78_cp_last cs [c] HC (one_inr c Hc) ltac:(discriminate)) as [(us & vs & Eq & Hm & HF)|(Hn & HF)].
  - assert (~ In c vs) as HU.
    { intros K. destruct (in_first c vs K) as (u1 & u2 & -> & _). specialize (Hm (us ++ [c] ++ u1) u2 ltac:(rewrite Eq; now repeat rewrite <- app_assoc)).
      rewrite !app_length in Hm. cbn [length] in Hm. lia. }
    assert (inr us /\ inr vs) as [Hus Hvs]. { rewrite Eq in HC. apply Forall_app in HC. destruct HC as [H1 H2]. apply Forall_app in H2. tauto. }
    exists (Sub (size (E us)) (size (E [c]))), c, (Sub (size (E us)) (size (E [c]))). split; [|split; [exact HF|split; [reflexivity|auto]]].
    specialize (L1 (E us) (E vs) vs (E [c]) c). rewrite !app_nil_r in L1. rewrite Eq in Hmin |- *. rewrite !E_app in Hmin |- *.
    apply L1; [exact Hmin|now apply from_utf32_Text|now apply notin_one|now apply uchar_E1|now left].
  - assert (~ In c cs) as HU. { intros K. destruct (in_first c cs K) as (u1 & u2 & Eq & _). now apply (Hn u1 u2). }
    exists (Sub npos 0), INVALID_CHAR, (Sub 0 0). split; [|split; [exact HF|split; [reflexivity|discriminate]]].
    specialize (L2 (E cs) cs). rewrite app_nil_r in L2. apply L2; [exact Hmin|now apply from_utf32_Text|now apply notin_one].
Qed.

Lemma E_split cs u us t ts : inr cs -> E cs = u ++ t -> Text u us -> Text t ts -> cs = us ++ ts /\ u = E us /\ t = E ts.
Proof.
  intros HC Eq HU HT. assert (cs = us ++ ts) as Ec.
  { apply (Text_fun (E cs)); [now apply from_utf32_Text|]. rewrite Eq. now apply Text_app. }
  subst cs. destruct (Encoded_app_inv u us t ts (us ++ ts)) as (K1 & K2 & _); [rewrite <- Eq; now apply E_enc|exact HC|exact HU|exact HT|].
  apply Forall_app in HC. split; [reflexivity|]. split; apply enc_eq; tauto.
Qed.
Lemma cuts_one c : c <= 0x10FFFF -> forall s cuts rest, Cuts (first_char [c]) s cuts rest -> forall cs, inr cs -> s = E cs ->
  Cuts (first_sep (E [c])) s cuts rest /\ exists rs, inr rs /\ rest = E rs.
Proof.
  intros Hc s cuts rest HC. induction HC as [s|u g v cuts rest F HC IH]; intros cs HR Eq.
  - split; [constructor|]. exists cs. auto.
  - destruct F as (us & d & HU & HN & Hg & [<-|[]]).
    assert (exists vs, Text v vs) as [vs HV].
    { pose proof (from_utf32_Text cs HR) as T. rewrite <- Eq in T. destruct (Text_app_inv u us (g ++ v) cs HU T) as (ds & _ & T2).
      assert (Text g [c]) as TG by (rewrite <- (app_nil_r g); constructor; [exact Hg|constructor]).
      destruct (Text_app_inv g [c] v ds TG T2) as (vs & _ & T3). now exists vs. }
    assert (Text g [c]) as TG by (rewrite <- (app_nil_r g); constructor; [exact Hg|constructor]).
    destruct (E_split cs u us (g ++ v) ([c] ++ vs) HR (eq_sym Eq) HU (Text_app _ _ _ _ TG HV)) as (-> & -> & Egv).
    apply Forall_app in HR. destruct HR as [Hus Hr].
    destruct (E_split ([c] ++ vs) g [c] v vs Hr (eq_sym Egv) TG HV) as (_ & -> & ->).
    apply Forall_app in Hr. destruct Hr as [_ Hvs]. destruct (IH vs Hvs eq_refl) as (IH1 & IH2). split; [|exact IH2].
    constructor; [|exact IH1]. split; [reflexivity|]. intros i Hi Ho. rewrite <- !E_app in Ho.
    assert (inr (us ++ [c] ++ vs)) as HR by (apply Forall_app; split; [exact Hus|]; apply Forall_app; split; [now apply one_inr|exact Hvs]).
    apply (occ_cps _ [c] i HR (one_inr c Hc) ltac:(discriminate)) in Ho. destruct Ho as (us' & vs' & Eq' & L).
    assert (length us' < length us)%nat as LL.
    { destruct (Nat.lt_ge_cases (length us') (length us)) as [D|D]; [exact D|exfalso].
      destruct (Nat.eq_dec (length us') (length us)) as [D'|D'].
      - assert (us = us') as ->; [|lia]. apply (f_equal (firstn (length us))) in Eq'. rewrite firstn_app, Nat.sub_diag, firstn_all, firstn_O, app_nil_r in Eq'.
        rewrite <- D' in Eq'. rewrite firstn_app, Nat.sub_diag, firstn_all, firstn_O, app_nil_r in Eq'. exact Eq'.
      - assert (length (E us) < length (E us'))%nat; [|lia]. apply (E_prefix_le us' ([c] ++ vs') us ([c] ++ vs)); [now symmetry|now rewrite <- Eq'|lia]. }
    assert (In c us) as Hin.
    { assert (nth_error (us ++ [c] ++ vs) (length us') = Some c) as K.
      { rewrite Eq'. rewrite nth_error_app2 by lia. now rewrite Nat.sub_diag. }
      rewrite nth_error_app1 in K by exact LL. now apply nth_error_In in K. }
    rewrite Forall_forall in HN. apply (HN c Hin). now left.
Qed.
Lemma p_c95_split cs c n ign : inr cs -> c <= 0x10FFFF -> Fits (E cs) ->
  split_chars (E cs) [c] n ign = split_sep (E cs) (E [c]) n ign.
Proof.
  intros HR Hc HF. destruct (N.eq_dec n 0) as [->|Hn0]; [reflexivity|]. assert (1 <= n) as Hn by lia. destruct (p_c37_exists (E cs) cs [c] n ign (from_utf32_Text cs HR) Hn) as (cuts & rest & HC & HS).
  rewrite (p_c37 _ _ _ _ cuts rest HF HC HS). symmetry.
  destruct (cuts_one c Hc _ _ _ HC cs HR eq_refl) as (HC' & rs & Hrs & ->).
  apply p_c39_limit; [now apply E_nonempty|exact HF|exact HC'|].
  destruct HS as [[L S]|S]; [left|right; exact S]. split; [exact L|]. intros i Ho.
  apply (occ_cps rs [c] i Hrs (one_inr c Hc) ltac:(discriminate)) in Ho. destruct Ho as (us & vs & -> & _).
  destruct S as (xs & HX & HN). rewrite (Text_fun _ _ _ HX (from_utf32_Text _ Hrs)) in HN. rewrite Forall_forall in HN.
  apply (HN c); [|now left]. apply in_or_app. right. now left.
Qed.

(** *** Indices *)
Definition indexable (s : str) : Prop := Fits s /\ (size s < 0xFFFFFFFF \/ exists cs, Text s cs).
Lemma units_of s : indexable s -> exists ps, CodeUnits ps /\ concat ps = s.
Proof.
  intros [HF [H|[cs H]]].
  - destruct (p_c24_every_string s) as (ps & HP & E & _). exists ps. split; [|exact E]. right. split; [exact HP|now rewrite E].
  - apply codepoint_list in H. destruct H as (ps & E & H). exists ps. split; [|exact E]. left.
    clear E. unfold Codepoints. induction H; constructor; eauto.
Qed.
Lemma encodes_E g c : c <= 0x10FFFF -> encodes g c -> g = E [c].
Proof.
  intros Hc Hg. apply (enc_eq g [c]); [|now apply one_inr]. rewrite <- (app_nil_r g). constructor; [exact Hg|constructor].
Qed.
Lemma p_c95_insert_cp s k c : indexable s -> (- 0x8000000000000000 < k <= 0x7FFFFFFFFFFFFFFF)%Z -> c <= 0x10FFFF ->
  insert_codepoint s k c = insert_codepoints s k (E [c]).
Proof.
  intros HI Hk Hc. destruct (units_of s HI) as (ps & HC & <-). destruct HI as [HF _].
  destruct (Z.le_gt_cases (Z.abs k) (Z.of_nat (length ps))) as [L|L].
  - destruct (cp_insert_cp ps k c HC HF Hk L Hc) as (g & Hg & ->). rewrite (cp_insert_str ps k _ HC HF Hk L). now rewrite (encodes_E g c Hc Hg).
  - destruct (cp_insert_out ps k c (E [c]) HC HF Hk L) as (-> & H & _). symmetry. apply H. now apply E_nonempty.
Qed.
Lemma p_c95_insert_char s cs k c : Text s cs -> Fits s -> c <= 0x10FFFF ->
  insert_char s k c = insert_chars s k (E [c]).
Proof.
  intros HT HF Hc. destruct (Chars_exist s cs HT) as (ps & HC & <-).
  destruct (Z.le_gt_cases (Z.abs k) (Z.of_nat (length ps))) as [L|L].
  - destruct (char_insert_cp ps k c HC HF L Hc) as (g & Hg & ->). rewrite (char_insert_str ps k _ HC HF L). now rewrite (encodes_E g c Hc Hg).
  - destruct (char_insert_out ps k c (E [c]) HC HF L) as (-> & H & _). symmetry. apply H. now apply E_nonempty.
Qed.
Lemma units_le ps : CodeUnits ps -> (length ps <= length (concat ps))%nat.
Proof.
  intros [H|[H _]]; apply nonempty_length; [|now apply pieces_nonempty]. clear -H. induction H as [|g ps (c & Hg)]; constructor; auto.
  apply uchar_length in Hg. intros ->. cbn in Hg. lia.
Qed.
Lemma p_c95_replace_cp s k t n : indexable s -> count_codepoints s = Ok n -> (0 <= k <= Z.of_N n)%Z ->
  insert_codepoints s k t = replace_codepoints s k k t.
Proof.
  intros HI Hn Hk. destruct (units_of s HI) as (ps & HC & <-). destruct HI as [HF _].
  rewrite (count_code_units ps HC HF) in Hn. injection Hn as <-. pose proof (units_le ps HC). unfold Fits, size in HF.
  assert (cp_ok k) as Hok by (unfold cp_ok; lia).
  rewrite (cp_insert_str ps k t HC HF Hok) by lia. symmetry. apply cp_replace_ok; auto. left. lia.
Qed.
Lemma chars_ne (ps : list str) : Chars ps -> Forall (fun p => p <> []) ps.
Proof.
  intros [H _]. eapply Forall_impl; [|exact H]. intros p (g & c & u & us & -> & Hg & _) K. apply app_eq_nil in K. destruct K as [-> _]. apply uchar_length in Hg. cbn in Hg. lia.
Qed.
Lemma p_c95_replace_char s cs k t n : Text s cs -> Fits s -> count_chars s = Ok n -> (0 <= k <= Z.of_N n)%Z ->
  insert_chars s k t = replace_chars s k k t.
Proof.
  intros HT HF Hn Hk. destruct (Chars_exist s cs HT) as (ps & HC & <-).
  rewrite (proj1 (p_c21_agree ps HC HF)) in Hn. injection Hn as <-.
  assert (length ps <= length (concat ps))%nat as HL by (now apply nonempty_length, chars_ne).
  pose proof HF as HF'. unfold Fits, size in HF'.
  assert (isz k) as Hok by (unfold isz, PTRDIFF_MAX, PTRDIFF_MIN; lia).
  rewrite (char_insert_str ps k t HC HF) by lia. symmetry. apply char_replace_ok; auto. left. lia.
Qed.
Lemma nth_between (ps : list str) i j n p : nth_error ps n = Some p -> resolve (length ps) i = n -> resolve (length ps) j = S n ->
  units_between ps i j = [p] /\ substr (concat ps) (offset_of ps n) (size p) = Ok p.
Proof.
  intros H Ei Ej. unfold units_between. rewrite Ei, Ej. apply nth_error_split in H. destruct H as (l1 & l2 & -> & <-). unfold offset_of.
  replace (S (length l1) - length l1)%nat with 1%nat by lia. rewrite skipn_app, Nat.sub_diag, skipn_all. cbn [app skipn firstn]. split; [reflexivity|].
  rewrite firstn_app, Nat.sub_diag, firstn_all, firstn_O, app_nil_r, concat_app. cbn [concat]. now apply substr_mid.
Qed.
Definition at_index (n : nat) (k : Z) (m : nat) : Prop := (0 <= k /\ m = Z.to_nat k \/ k < 0 /\ Z.of_nat m = Z.of_nat n + k)%Z.
Lemma at_resolve n k m : at_index n k m -> (m < n)%nat -> resolve n k = m /\ (Z.abs k <= Z.of_nat n)%Z /\ (k <> -1 -> resolve n (k + 1) = S m)%Z.
Proof.
  intros H L. unfold resolve. destruct H as [[H ->]|[H H']]; repeat split; try lia;
    destruct (Z.ltb_spec k 0); destruct (Z.ltb_spec (k + 1) 0); lia.
Qed.
Lemma nth_some {A} (l : list A) n : (n < length l)%nat -> exists x, nth_error l n = Some x.
Proof. intros H. destruct (nth_error l n) eqn:Hn; [eauto|]. apply nth_error_None in Hn. lia. Qed.
Lemma text1 p c : uchar p c <-> Text p [c].
Proof.
  split; intros H.
  - rewrite <- (app_nil_r p). constructor; [exact H|constructor].
  - inversion H as [|g d s ds Hg Hs E1 E2]; subst. inversion Hs; subst. now rewrite app_nil_r.
Qed.
Lemma uchar_dec p : (exists c, uchar p c) \/ ~ exists c, uchar p c.
Proof.
  destruct (text_prefix p) as (w & ws & r & -> & HW & Hr).
  destruct Hr as [->|Hr].
  - rewrite app_nil_r. destruct ws as [|c [|c' ws]].
    + right. intros [d Hd]. apply text1 in Hd. pose proof (Text_fun _ _ _ HW Hd). discriminate.
    + left. exists c. now apply text1.
    + right. intros [d Hd]. apply text1 in Hd. pose proof (Text_fun _ _ _ HW Hd). discriminate.
  - right. intros [d Hd]. apply text1 in Hd. destruct (Text_app_inv w ws r _ HW Hd) as (ds & _ & HD).
    destruct Hr as [Hr1 Hr2]. destruct HD as [|g c s ds Hg _]; [congruence|]. apply (Hr2 g c s Hg eq_refl).
Qed.
Lemma get_codepoint_nth ps k r c : CodeUnits ps -> get_codepoint (concat ps) k = Ok (r, c) -> sub_bool r = true ->
  exists n p, at_index (length ps) k n /\ nth_error ps n = Some p /\ uchar p c /\ r = Sub (offset_of ps n) (size p).
Proof.
  intros HC HG HB. destruct (get_codepoint_none ps k HC) as (N1 & N2).
  destruct (Z.le_gt_cases 0 k) as [P|P].
  - destruct (Z.le_gt_cases (Z.of_nat (length ps)) k) as [L|L]; [rewrite N1 in HG by exact L; injection HG as <- <-; discriminate|].
    destruct (nth_some ps (Z.to_nat k) ltac:(lia)) as [p Hp]. destruct (get_codepoint_fwd ps k p HC P Hp) as (G1 & G2).
    exists (Z.to_nat k), p. split; [left; auto|]. split; [exact Hp|].
    destruct (uchar_dec p) as [[d Hd]|Hd].
    + rewrite (G1 d Hd) in HG. injection HG as <- <-. auto.
    + rewrite G2 in HG; [discriminate|]. intros d K. apply Hd. eauto.
  - destruct (Z.lt_ge_cases k (- Z.of_nat (length ps))) as [L|L]; [rewrite N2 in HG by exact L; injection HG as <- <-; discriminate|].
    destruct (nth_some ps (Z.to_nat (Z.of_nat (length ps) + k)) ltac:(lia)) as [p Hp]. destruct (get_codepoint_bwd ps k p HC ltac:(lia) Hp) as (G1 & G2).
    exists (Z.to_nat (Z.of_nat (length ps) + k)), p. split; [right; lia|]. split; [exact Hp|].
    destruct (uchar_dec p) as [[d Hd]|Hd].
    + rewrite (G1 d Hd) in HG. injection HG as <- <-. auto.
    + exfalso. destruct (G2 ltac:(intros d K; apply Hd; eauto)) as (G3 & G4).
      assert (~ ~ long_cont_tail (concat (firstn (S (Z.to_nat (Z.of_nat (length ps) + k))) ps))) as K by (intros K; apply G3 in K; congruence).
      apply K. intros K'. apply G4 in K'. congruence.
Qed.
Lemma p_c95_get_codepoint s k r c : indexable s -> (- 0x8000000000000000 < k < 0x7FFFFFFFFFFFFFFF)%Z ->
  get_codepoint s k = Ok (r, c) -> sub_bool r = true ->
  get_codepoint_pos s k = Ok (sub_start r) /\
  exists g, uchar g c /\ substr s (sub_start r) (sub_length r) = Ok g /\ (k <> -1 -> get_codepoint_substring s k (k + 1) = Ok g)%Z.
Proof.
  intros HI Hk HG HB. destruct (units_of s HI) as (ps & HC & <-). destruct HI as [HF _].
  destruct (get_codepoint_nth ps k r c HC HG HB) as (n & p & Ha & Hp & Hu & ->).
  assert (n < length ps)%nat as L by (apply nth_error_Some; congruence).
  destruct (at_resolve _ _ _ Ha L) as (R1 & R2 & R3). cbn [sub_start sub_offset sub_length]. split.
  - rewrite get_codepoint_pos_spec by (auto; unfold cp_ok; lia). unfold position. replace (_ <? _)%Z with false by lia. now rewrite R1.
  - exists p. split; [exact Hu|]. split.
    + destruct (Z.eq_dec k (-1)) as [->|D].
      * apply nth_error_split in Hp. destruct Hp as (l1 & l2 & -> & <-). unfold offset_of.
        rewrite firstn_app, Nat.sub_diag, firstn_all, firstn_O, app_nil_r, concat_app. cbn [concat]. now apply substr_mid.
      * now apply (nth_between ps k (k + 1) n p Hp R1 (R3 D)).
    + intros D. rewrite cp_substring_ok by (auto; unfold cp_ok, in_order; lia).
      rewrite (proj1 (nth_between ps k (k + 1) n p Hp R1 (R3 D))). cbn [concat]. now rewrite app_nil_r.
Qed.
Lemma p_c95_get_char s cs k r : Text s cs -> Fits s -> (- 0x8000000000000000 <= k < 0x7FFFFFFFFFFFFFFF)%Z ->
  get_char_range s k = Ok r -> sub_bool r = true ->
  get_char_pos s k = Ok (sub_start r) /\ get_next_char_range s (sub_start r) = Ok r /\ get_prev_char_range s (sub_end r) = Ok r /\
  (k <> -1 -> get_char_substring s k (k + 1) = substr s (sub_start r) (sub_length r))%Z.
Proof.
  intros HT HF Hk HG HB. destruct (Chars_exist s cs HT) as (ps & HC & <-).
  destruct (get_char_range_spec ps k HC HF) as (G1 & G2 & G3 & G4).
  assert (exists n p, at_index (length ps) k n /\ nth_error ps n = Some p /\ r = Sub (offset_of ps n) (size p)) as (n & p & Ha & Hp & ->).
  { destruct (Z.le_gt_cases 0 k) as [P|P].
    - destruct (Z.le_gt_cases (Z.of_nat (length ps)) k) as [L|L]; [rewrite G3 in HG by exact L; injection HG as <-; discriminate|].
      destruct (nth_some ps (Z.to_nat k) ltac:(lia)) as [p Hp]. exists (Z.to_nat k), p. rewrite (G1 p P Hp) in HG. injection HG as <-. split; [left; auto|auto].
    - destruct (Z.lt_ge_cases k (- Z.of_nat (length ps))) as [L|L]; [rewrite G4 in HG by exact L; injection HG as <-; discriminate|].
      destruct (nth_some ps (Z.to_nat (Z.of_nat (length ps) + k)) ltac:(lia)) as [p Hp]. exists (Z.to_nat (Z.of_nat (length ps) + k)), p.
      rewrite (G2 p ltac:(lia) Hp) in HG. injection HG as <-. split; [right; lia|auto]. }
  assert (n < length ps)%nat as L by (apply nth_error_Some; congruence).
  destruct (at_resolve _ _ _ Ha L) as (R1 & R2 & R3). cbn [sub_start sub_offset sub_length].
  destruct (p_c21_agree ps HC HF) as (_ & HA & _). destruct (HA n p Hp) as (A1 & A2 & _).
  assert (sub_end (Sub (offset_of ps n) (size p)) = offset_of ps (S n)) as He.
  { assert (offset_of ps (S n) = offset_of ps n + size p) as Eo.
    { clear -Hp. apply nth_error_split in Hp. destruct Hp as (l1 & l2 & -> & <-). unfold offset_of.
      rewrite !firstn_app, Nat.sub_diag, firstn_all, firstn_O, app_nil_r. replace (S (length l1) - length l1)%nat with 1%nat by lia.
      rewrite (firstn_all2 l1) by lia. cbn [firstn]. rewrite concat_app, size_app. cbn [concat]. now rewrite app_nil_r. }
    unfold sub_end. cbn [sub_offset sub_length]. pose proof (offset_le ps (S n)). unfold Fits in HF. rewrite add64_small; unfold W64; lia. }
  rewrite He. split; [|split; [exact A1|split; [exact A2|]]].
  - rewrite p_c22 by auto. unfold position. replace (_ <? _)%Z with false by lia. now rewrite R1.
  - intros D. rewrite char_substring_ok by (auto; unfold isz, PTRDIFF_MIN, PTRDIFF_MAX, char_in_order; lia).
    destruct (nth_between ps k (k + 1) n p Hp R1 (R3 D)) as (-> & ->). cbn [concat]. now rewrite app_nil_r.
Qed.
Lemma p_c95_counts s cs : Text s cs -> Fits s -> exists n m, count_chars s = Ok n /\ count_codepoints s = Ok m /\ n <= m /\ m <= size s.
Proof.
  intros HT HF. destruct (Chars_exist s cs HT) as (ps & HC & <-). exists (N.of_nat (length ps)), (N.of_nat (length cs)).
  split; [exact (proj1 (p_c21_agree ps HC HF))|]. split; [now apply count_text|]. pose proof (Text_length _ _ HT). split; [|unfold size; lia].
  destruct HC as [HC _]. clear HF H. revert cs HT. induction HC as [|p ps (g & c & u & us & -> & Hg & Hu & _) HC IH]; intros cs HT; [cbn; lia|].
  cbn [concat] in HT. rewrite <- app_assoc in HT.
  assert (Text g [c]) as TG by (rewrite <- (app_nil_r g); constructor; [exact Hg|constructor]).
  destruct (Text_app_inv g [c] _ cs TG HT) as (ds & -> & HD). destruct (Text_app_inv u us _ ds Hu HD) as (es & -> & HE).
  specialize (IH es HE). rewrite !app_length. cbn [length]. lia.
Qed.
