(** C86: conversions distribute over concatenation. *)
From Verif Require Import Base Spec.Utf8Spec Spec.Strings Spec.Category Spec.UnicodeData Spec.Case Spec.Escape Model.Decode Model.Encode Model.Search Model.CharClass Model.ConvertCase Model.Escape
  Proofs.Utf8Lemmas Proofs.SkipLemmas Proofs.SearchLemmas Proofs.DecodeLemmas Proofs.EncodeLemmas Proofs.CodepointLemmas Proofs.Utf8Props Proofs.ReplaceCpLemmas Proofs.CaseLemmas Proofs.CaseStringLemmas Proofs.EscapeLemmas.

Lemma text_dec s : (exists cs, Text s cs) \/ (forall cs, ~ Text s cs).
Proof.
  destruct (text_prefix s) as (u & cs & r & -> & HT & [->|Hr]).
  - left. exists cs. now rewrite app_nil_r.
  - right. intros ds H. destruct (Text_app_inv u cs r ds HT H) as (vs & _ & Hv). destruct Hr as [Hn Hr].
    inversion Hv; subst; [now apply Hn|]. eapply Hr; [|reflexivity]. eassumption.
Qed.
Lemma p_c86_utf32 : forall s t, is_valid_utf8 s = Ok true ->
  to_utf32 (s ++ t) = (let* a := to_utf32 s in let* b := to_utf32 t in Ok (a ++ b)) /\
  is_valid_utf8 (s ++ t) = is_valid_utf8 t.
Proof.
  intros s t HV. destruct (text_dec s) as [(cs & HT)|HN]; [|destruct (p_c06 s) as [_ H]; destruct (H HN) as [E _]; congruence].
  destruct (p_c06 s) as [Hs _], (p_c06 t) as [Ht Ht'], (p_c06 (s ++ t)) as [Hst Hst']. destruct (Hs cs HT) as [_ ->]. cbn [bind].
  destruct (text_dec t) as [(ds & HD)|HN].
  - destruct (Ht ds HD) as [-> ->]. cbn [bind]. destruct (Hst (cs ++ ds) (Text_app _ _ _ _ HT HD)) as [-> ->]. auto.
  - destruct (Ht' HN) as [-> ->]. cbn [bind]. apply Hst' in HN || idtac. destruct Hst' as [-> ->]; [|auto].
    intros es H. destruct (Text_app_inv s cs t es HT H) as (vs & _ & Hv). now apply (HN vs).
Qed.
(** What is counted from a place does not depend on what lies before it. *)
Lemma count_from n : forall t, (length t <= n)%nat -> exists k, k <= size t /\ forall pre fuel a, (length t < fuel)%nat -> a + k < W64 ->
  count_codepoints_loop fuel (pre ++ t) (length pre) a = Ok (a + k).
Proof.
  induction n as [|n IH]; intros t Hn.
  - destruct t; [|cbn in Hn; lia]. exists 0. split; [unfold size; cbn; lia|]. intros pre [|fuel] a Hf Ha; [cbn in Hf; lia|].
    cbn [count_codepoints_loop]. rewrite app_nil_r, skip_next_end. cbn [bind]. f_equal. lia.
  - destruct t as [|b r].
    { exists 0. split; [unfold size; cbn; lia|]. intros pre [|fuel] a Hf Ha; [cbn in Hf; lia|].
      cbn [count_codepoints_loop]. rewrite app_nil_r, skip_next_end. cbn [bind]. f_equal. lia. }
    destruct (lead_conts_split r (allow b)) as (u & E & _ & _ & _).
    assert (length r = length (lead_conts r (allow b)) + length u)%nat as HL by (rewrite E at 1; now rewrite app_length).
    destruct (IH u) as (k & Hk & H); [cbn in Hn; lia|].
    exists (k + 1). split; [unfold size in *; cbn [length]; lia|]. intros pre [|fuel] a Hf Ha; [cbn in Hf; lia|].
    cbn [count_codepoints_loop]. rewrite skip_next_at. cbn [bind]. rewrite add64_small by lia.
    replace (pre ++ b :: r) with ((pre ++ b :: lead_conts r (allow b)) ++ u) by (rewrite <- app_assoc; cbn; now rewrite <- E).
    replace (S (length pre + length (lead_conts r (allow b)))) with (length (pre ++ b :: lead_conts r (allow b))) by (rewrite app_length; cbn; lia).
    rewrite H; [f_equal; lia|cbn in Hf; lia|lia].
Qed.
Lemma count_text_prefix s cs : Text s cs -> forall pre t fuel a, a + N.of_nat (length cs) < W64 ->
  count_codepoints_loop (length cs + fuel) (pre ++ s ++ t) (length pre) a
  = count_codepoints_loop fuel ((pre ++ s) ++ t) (length (pre ++ s)) (a + N.of_nat (length cs)).
Proof.
  induction 1 as [|g c s cs Hg HT IH]; intros pre t fuel a Ha.
  - cbn. rewrite app_nil_r. f_equal. lia.
  - cbn [length Nat.add] in *. cbn [count_codepoints_loop]. rewrite <- app_assoc, (skip_next_uchar pre g c (s ++ t) Hg). cbn [bind].
    rewrite add64_small by lia. rewrite <- app_length, app_assoc. rewrite IH by lia. rewrite <- !app_assoc. f_equal. lia.
Qed.
Lemma p_c86_count : forall s t, is_valid_utf8 s = Ok true -> Fits (s ++ t) ->
  exists a b, count_codepoints s = Ok a /\ count_codepoints t = Ok b /\ count_codepoints (s ++ t) = Ok (a + b).
Proof.
  intros s t HV HF. destruct (text_dec s) as [(cs & HT)|HN]; [|destruct (p_c06 s) as [_ H]; destruct (H HN) as [E _]; congruence].
  destruct (count_from (length t) t (le_n _)) as (k & Hk & H).
  assert (length cs <= length s)%nat as HL by (clear - HT; induction HT as [|g c s cs Hg HT IH]; [cbn; lia|];
    rewrite app_length; cbn [length]; destruct Hg; cbn [length]; lia).
  unfold Fits, size, W64 in *. rewrite app_length in HF.
  exists (N.of_nat (length cs)), k.
  split; [apply count_text; auto; unfold Fits, size; lia|]. split.
  - unfold count_codepoints. apply (H [] (S (length t)) 0); [lia|lia].
  - unfold count_codepoints. rewrite app_length. replace (S (length s + length t)) with (length cs + (S (length t) + (length s - length cs)))%nat by lia.
    pose proof (count_text_prefix s cs HT [] t (S (length t) + (length s - length cs))%nat 0) as P. cbn [app length] in P. rewrite P by (unfold W64; lia).
    rewrite H by lia. f_equal.
Qed.
Lemma p_c86_from_utf32 : forall a b, from_utf32 (a ++ b) = from_utf32 a ++ from_utf32 b.
Proof. induction a as [|c a IH]; intros b; [reflexivity|]. cbn. rewrite IH. now rewrite app_assoc. Qed.

Definition good (s : str) (cs : list N) : Prop := Text s cs /\ inrange cs.
Lemma good_dec s : (exists cs, good s cs) \/ (forall cs, Text s cs -> ~ inrange cs).
Proof.
  destruct (text_dec s) as [(cs & HT)|HN]; [|right; intros cs H; now destruct (HN cs)].
  destruct (Forall_dec (fun c => c <= 0x10FFFF) (fun c => ltac:(destruct (N.leb c 0x10FFFF) eqn:E; [left; now apply N.leb_le|right; now apply N.leb_nle])) cs) as [D|D].
  - left. now exists cs.
  - right. intros ds HT'. now rewrite <- (Text_fun _ _ _ HT HT').
Qed.
Section Hom.
  Variable f : str -> outcome str.
  Variable h : list N -> list N.
  Hypothesis f_ok : forall s cs, Text s cs -> inrange cs -> exists r, f s = Ok r /\ Encoded r (h cs).
  Hypothesis f_bad : forall s, (forall cs, Text s cs -> ~ inrange cs) -> f s = Throw YstringException.
  Lemma hom s t cs : Text s cs -> (forall ds, h (cs ++ ds) = h cs ++ h ds) -> f (s ++ t) = (let* a := f s in let* b := f t in Ok (a ++ b)).
  Proof using f_ok f_bad.
    intros HT Hh. destruct (good_dec s) as [(cs' & HT' & HR)|HN].
    - rewrite (Text_fun _ _ _ HT' HT) in HR. destruct (f_ok s cs HT HR) as (r & -> & Hr). cbn [bind].
      destruct (good_dec t) as [(ds & HD & HRd)|HN].
      + destruct (f_ok t ds HD HRd) as (q & -> & Hq). cbn [bind].
        destruct (f_ok (s ++ t) (cs ++ ds) (Text_app _ _ _ _ HT HD)) as (p & -> & Hp); [now apply Forall_app|].
        f_equal. rewrite Hh in Hp. apply (Encoded_fun _ _ _ Hp). now apply Encoded_app.
      + rewrite (f_bad t HN). cbn [bind]. apply f_bad. intros es H HRe. destruct (Text_app_inv s cs t es HT H) as (vs & -> & Hv).
        apply Forall_app in HRe. now apply (HN vs).
    - rewrite (f_bad s HN). cbn [bind]. apply f_bad. intros es H HRe. destruct (Text_app_inv s cs t es HT H) as (vs & -> & Hv).
      apply Forall_app in HRe. now apply (HN cs).
  Qed.
End Hom.
Lemma p_c86_case : forall s t cs, Text s cs ->
  to_lower_str (s ++ t) = (let* a := to_lower_str s in let* b := to_lower_str t in Ok (a ++ b)) /\
  to_upper_str (s ++ t) = (let* a := to_upper_str s in let* b := to_upper_str t in Ok (a ++ b)).
Proof.
  intros s t cs HT. split.
  - apply (hom to_lower_str lower_cps) with (cs := cs); auto using to_lower_str_ok; [|intros; apply map_app]. intros x Hx. now apply case_all_bad.
  - apply (hom to_upper_str upper_cps) with (cs := cs); auto using to_upper_str_ok; [|intros; apply flat_map_app]. intros x Hx. now apply case_all_bad.
Qed.
Lemma title_cps_app letter cs : forall prev ds, title_cps letter prev (cs ++ ds) = title_cps letter prev cs ++ title_cps letter (last_flag letter prev cs) ds.
Proof.
  induction cs as [|c cs IH]; intros prev ds; [reflexivity|]. cbn [app title_cps last_flag].
  destruct (letter c) eqn:E; rewrite IH; [now rewrite app_assoc|reflexivity].
Qed.
Lemma last_flag_snoc letter prev cs c : last_flag letter prev (cs ++ [c]) = letter c.
Proof. revert prev. induction cs as [|d cs IH]; intros prev; [reflexivity|]. cbn. apply IH. Qed.
Lemma p_c86_title : forall s t cs, Text s cs -> (forall us c, cs = us ++ [c] -> is_letter c = false) ->
  to_title_str (s ++ t) = (let* a := to_title_str s in let* b := to_title_str t in Ok (a ++ b)).
Proof.
  intros s t cs HT HL. apply (hom to_title_str (title_cps is_letter false)) with (cs := cs); auto using to_title_str_ok.
  - intros x Hx. now apply case_all_bad.
  - intros ds. rewrite title_cps_app. do 2 f_equal. destruct cs as [|c0 cs0]; [reflexivity|]. destruct (exists_last (l := c0 :: cs0)) as (us & c & E); [discriminate|]. rewrite E in *. rewrite last_flag_snoc. now apply (HL us).
Qed.
Lemma p_c86_escape : forall s t, Fits (s ++ t) -> escape_json (s ++ t) = (let* a := escape_json s in let* b := escape_json t in Ok (a ++ b)).
Proof.
  intros s t HF. rewrite !escape_json_eq; [cbn [bind]; now rewrite flat_map_app|..|exact HF]; unfold Fits, size in *; rewrite app_length in *; lia.
Qed.
