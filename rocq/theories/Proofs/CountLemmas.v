(** C104: what the functions do to the number of code points and characters. *)
From Verif Require Import Base Spec.Category Spec.UnicodeData Spec.Utf8Spec Spec.Strings Spec.Slices Spec.Case Spec.Counts Spec.Replace
  Model.Decode Model.Encode Model.Subrange Model.Search Model.CharClass Model.ConvertCase Model.Chars
  Proofs.Utf8Lemmas Proofs.EncodeLemmas Proofs.CodepointLemmas Proofs.SearchLemmas Proofs.SliceLemmas Proofs.CharLemmas Proofs.PositionProps
  Proofs.CaseStringLemmas Proofs.CharClassLemmas Proofs.UnicodeProps Proofs.ReplaceUnits Proofs.AgreeLemmas Tables.UnicodeDataTables.
From Coq Require Import ZifyBool ZifyNat ZifyN Permutation.
Ltac Zify.zify_post_hook ::= Z.div_mod_to_equations.

Lemma mark_combining c : c < 0x200000 -> is_mark c = combining c.
Proof.
  intros H. unfold is_mark. rewrite has_class_spec by exact H. unfold combining, lib_category.
  destruct (in_ideograph_gap c) eqn:G; [|destruct (category_of c); reflexivity].
  destruct (p_c55_gap c G) as [-> _]. reflexivity.
Qed.
Definition unm (cs : list N) : nat := length (filter (fun c => negb (combining c)) cs).
Lemma unm_app a b : unm (a ++ b) = (unm a + unm b)%nat.
Proof. unfold unm. now rewrite filter_app, app_length. Qed.
Lemma unm_marks us : marks us -> Forall (fun c => c < 0x200000) us -> unm us = 0%nat.
Proof.
  intros H HB. induction H as [|c us Hc H IH]; [reflexivity|]. inversion HB; subst. unfold unm in *. cbn [filter].
  rewrite <- mark_combining, Hc by assumption. cbn [negb]. now apply IH.
Qed.
Lemma Text_below s cs : Text s cs -> Forall (fun c => c < 0x200000) cs.
Proof. induction 1 as [|g c s cs Hg _ IH]; constructor; [|exact IH]. apply uchar_bound in Hg. lia. Qed.
Lemma one_char_text p cs : one_char is_mark p -> Text p cs -> exists c us, cs = c :: us /\ marks us.
Proof.
  intros (g & c & u & us & -> & Hg & Hu & HM) HT. exists c, us. split; [|exact HM].
  apply (Text_fun _ _ _ HT). now constructor.
Qed.
Lemma unmarked_head p c us : starts_unmarked is_mark p -> Text p (c :: us) -> is_mark c = false.
Proof.
  intros (g & d & t & -> & Hg & Hd) HT. destruct (Text_app_inv g [d] t _ (Text_one _ _ Hg) HT) as (ds & E & _). injection E as -> _. exact Hd.
Qed.
Lemma Text_concat_cons p ps cs : (exists c, Text p c) -> Text (p ++ concat ps) cs -> exists us vs, cs = us ++ vs /\ Text p us /\ Text (concat ps) vs.
Proof. intros [us Hp] HT. destruct (Text_app_inv p us _ cs Hp HT) as (vs & -> & Hv). eauto. Qed.
Lemma one_char_has p : one_char is_mark p -> exists cs, Text p cs.
Proof. intros (g & c & u & us & -> & Hg & Hu & _). exists (c :: us). now constructor. Qed.
Lemma count_unmarked ps : Forall (one_char is_mark) ps -> Forall (starts_unmarked is_mark) ps -> forall cs, Text (concat ps) cs -> unm cs = length ps.
Proof.
  induction ps as [|p ps IH]; intros H1 H2 cs HT; cbn [concat] in HT.
  - inversion HT as [|g c s' cs' Hg _ E]; subst; [reflexivity|]. destruct g; [|discriminate]. inversion Hg.
  - inversion H1 as [|? ? Hp H1']; inversion H2 as [|? ? Hq H2']; subst.
    destruct (Text_concat_cons p ps cs (one_char_has p Hp) HT) as (us & vs & -> & Hu & Hv).
    destruct (one_char_text p us Hp Hu) as (c & ws & -> & HM). pose proof (unmarked_head p c ws Hq Hu) as Hc.
    pose proof (Text_below _ _ Hu) as HB. inversion HB; subst. rewrite unm_app, (IH H1' H2' vs Hv). cbn [length].
    change (c :: ws) with ([c] ++ ws). rewrite unm_app, (unm_marks ws) by assumption. unfold unm. cbn [filter]. rewrite <- mark_combining, Hc by assumption. reflexivity.
Qed.
Lemma count_of_chars ps cs : Chars ps -> Text (concat ps) cs -> char_count cs = N.of_nat (length ps).
Proof.
  intros [H1 H2] HT. destruct ps as [|p ps]; cbn [concat tl] in *.
  - inversion HT as [|g c s' cs' Hg _ E]; subst; [reflexivity|]. destruct g; [|discriminate]. inversion Hg.
  - inversion H1 as [|? ? Hp H1']; subst.
    destruct (Text_concat_cons p ps cs (one_char_has p Hp) HT) as (us & vs & -> & Hu & Hv).
    destruct (one_char_text p us Hp Hu) as (c & ws & -> & HM). pose proof (Text_below _ _ Hu) as HB. inversion HB; subst.
    cbn [app char_count]. fold (unm (ws ++ vs)). rewrite unm_app, (unm_marks ws), (count_unmarked ps H1' H2 vs Hv) by assumption. cbn [length]. lia.
Qed.
Lemma p_c104_count s cs : Text s cs -> Fits s -> count_chars s = Ok (char_count cs).
Proof.
  intros HT HF. destruct (Chars_exist s cs HT) as (ps & HC & <-). rewrite (proj1 (p_c21_agree ps HC HF)). f_equal. symmetry. now apply count_of_chars.
Qed.
Lemma char_count_app us c vs : us <> [] -> char_count (us ++ c :: vs) = char_count us + char_count (c :: vs) - (if combining c then 1 else 0).
Proof.
  intros H. destruct us as [|u us]; [congruence|]. cbn [app char_count]. fold (unm (us ++ c :: vs)) (unm us) (unm vs).
  rewrite unm_app. change (c :: vs) with ([c] ++ vs). rewrite unm_app. unfold unm at 2. cbn [filter]. destruct (combining c); cbn [negb length]; lia.
Qed.
Lemma p_c104_concat s cs t d ds : Text s cs -> cs <> [] -> Text t (d :: ds) -> Fits (s ++ t) -> exists n m n' m',
  count_codepoints s = Ok n /\ count_codepoints t = Ok m /\ count_codepoints (s ++ t) = Ok (n + m) /\
  count_chars s = Ok n' /\ count_chars t = Ok m' /\ count_chars (s ++ t) = Ok (n' + m' - if combining d then 1 else 0).
Proof.
  intros Hs Hne Ht HF. assert (Fits s) as F1 by (now apply Fits_l in HF). assert (Fits t) as F2 by (unfold Fits in *; rewrite size_app in HF; lia).
  assert (Text (s ++ t) (cs ++ d :: ds)) as HT by (now apply Text_app).
  eexists _, _, _, _. rewrite (count_text s cs F1 Hs), (count_text t _ F2 Ht), (count_text _ _ HF HT), (p_c104_count s cs Hs F1), (p_c104_count t _ Ht F2), (p_c104_count _ _ HT HF).
  repeat split; [f_equal; rewrite app_length; lia|]. now rewrite char_count_app.
Qed.
Lemma char_count_map f cs : (forall c, In c cs -> combining (f c) = combining c) -> char_count (map f cs) = char_count cs.
Proof.
  intros H. destruct cs as [|c cs]; [reflexivity|]. cbn [map char_count]. do 2 f_equal.
  assert (forall x, In x cs -> combining (f x) = combining x) as H' by (intros; apply H; now right). clear H.
  induction cs as [|d cs IH]; [reflexivity|]. cbn [map filter]. rewrite H' by (now left).
  destruct (combining d); cbn [negb length]; rewrite IH; auto; intros; apply H'; now right.
Qed.
Definition fast_comb (c : N) : bool := match fast_category c with Mn | Mc | Me => true | _ => false end.
Lemma fast_comb_ok c : fast_comb c = combining c.
Proof. unfold fast_comb, combining. now rewrite fast_category_ok. Qed.
Lemma lower_combining c : combining (simple_lower c) = combining c.
Proof.
  unfold simple_lower. apply (mapped_ind (fun c d => combining d = combining c) (fun p => Bool.eqb (fast_comb (snd p)) (fast_comb (fst p)))).
  - vm_cast_no_check (eq_refl true).
  - intros p Hp. apply Bool.eqb_prop in Hp. now rewrite !fast_comb_ok in Hp.
  - reflexivity.
Qed.
Lemma upper_combining c : c <> 0x345 -> combining (simple_upper c) = combining c.
Proof.
  unfold simple_upper. apply (mapped_ind (fun c d => c <> 0x345 -> combining d = combining c) (fun p => Bool.eqb (fast_comb (snd p)) (fast_comb (fst p)) || (fst p =? 0x345))).
  - vm_cast_no_check (eq_refl true).
  - intros p Hp Hn. apply orb_true_iff in Hp. destruct Hp as [Hp|Hp]; [|apply N.eqb_eq in Hp; congruence]. apply Bool.eqb_prop in Hp. now rewrite !fast_comb_ok in Hp.
  - reflexivity.
Qed.
Lemma p_c104_lower s cs : Text s cs -> Forall (fun c => c <= 0x10FFFF) cs -> Fits s -> exists r, to_lower_str s = Ok r /\
  (Fits r -> count_codepoints r = count_codepoints s /\ count_chars r = count_chars s).
Proof.
  intros HT HR HF. destruct (to_lower_str_ok s cs HT HR) as (r & E & He). exists r. split; [exact E|]. intros Fr.
  pose proof (Encoded_Text _ _ He (lower_cps_range _ HR)) as Hr.
  rewrite (count_text r _ Fr Hr), (count_text s _ HF HT), (p_c104_count r _ Hr Fr), (p_c104_count s _ HT HF).
  unfold lower_cps. rewrite map_length. split; [reflexivity|]. f_equal. apply char_count_map. intros; apply lower_combining.
Qed.
Lemma times_cons c d cs : times c (d :: cs) = (if c =? d then 1 else 0) + times c cs.
Proof. unfold times. cbn [filter]. destruct (c =? d); cbn [length]; lia. Qed.
Lemma upper_cps_length cs : N.of_nat (length (upper_cps cs)) = N.of_nat (length cs) + times 0xDF cs.
Proof.
  induction cs as [|c cs IH]; [reflexivity|]. unfold upper_cps in *. cbn [flat_map]. rewrite app_length, times_cons, N.eqb_sym.
  destruct (0xDF =? c); cbn [length]; lia.
Qed.
Lemma comb_df : combining 0xDF = false. Proof. now vm_compute. Qed.
Lemma comb_s : combining 0x53 = false. Proof. now vm_compute. Qed.
Lemma unm_cons c cs : unm (c :: cs) = ((if combining c then 0 else 1) + unm cs)%nat.
Proof. unfold unm. cbn [filter]. destruct (combining c); reflexivity. Qed.
Lemma comb_345 : combining 0x345 = true. Proof. now vm_compute. Qed.
Lemma comb_399 : combining (simple_upper 0x345) = false. Proof. now vm_compute. Qed.
Lemma unm_upper cs : N.of_nat (unm (upper_cps cs)) = N.of_nat (unm cs) + times 0xDF cs + times 0x345 cs.
Proof.
  induction cs as [|c cs IH]; [reflexivity|]. unfold upper_cps in *. cbn [flat_map]. rewrite unm_app, !times_cons, unm_cons.
  rewrite (N.eqb_sym 0xDF), (N.eqb_sym 0x345).
  destruct (N.eqb_spec c 0xDF) as [->|Hc]; [|destruct (N.eqb_spec c 0x345) as [->|Hd]].
  - rewrite comb_df, !unm_cons, comb_s. change (unm []) with 0%nat. change (0xDF =? 0x345) with false. cbv iota. lia.
  - rewrite unm_cons, comb_399, comb_345. change (unm []) with 0%nat. lia.
  - rewrite unm_cons, upper_combining by exact Hd. change (unm []) with 0%nat. lia.
Qed.
Lemma char_count_upper cs : char_count (upper_cps cs) = char_count cs + times 0xDF cs + times 0x345 (tl cs).
Proof.
  destruct cs as [|c cs]; [reflexivity|]. cbn [tl].
  pose proof (unm_upper cs) as E. unfold upper_cps in *. cbn [flat_map]. rewrite times_cons, (N.eqb_sym 0xDF).
  destruct (N.eqb_spec c 0xDF) as [->|Hc]; cbn [app char_count].
  - fold (unm (0x53 :: flat_map (fun c : N => if c =? 223 then [83; 83] else [simple_upper c]) cs)) (unm cs). rewrite unm_cons, comb_s. lia.
  - fold (unm (flat_map (fun c : N => if c =? 223 then [83; 83] else [simple_upper c]) cs)) (unm cs). lia.
Qed.
Lemma p_c104_upper s cs : Text s cs -> Forall (fun c => c <= 0x10FFFF) cs -> Fits s -> exists r n k, to_upper_str s = Ok r /\
  count_codepoints s = Ok n /\ count_chars s = Ok k /\
  (Fits r -> count_codepoints r = Ok (n + times 0xDF cs) /\ count_chars r = Ok (k + times 0xDF cs + times 0x345 (tl cs))).
Proof.
  intros HT HR HF. destruct (to_upper_str_ok s cs HT HR) as (r & E & He). eexists r, _, _. split; [exact E|].
  rewrite (count_text s _ HF HT), (p_c104_count s _ HT HF). split; [reflexivity|]. split; [reflexivity|]. intros Fr.
  pose proof (Encoded_Text _ _ He (upper_cps_range _ HR)) as Hr. rewrite (count_text r _ Fr Hr), (p_c104_count r _ Hr Fr).
  split; [f_equal; apply upper_cps_length|]. f_equal. apply char_count_upper.
Qed.
Lemma rfu_length f t ps : forall n, length (replace_first_units n f t ps) = length ps.
Proof. induction ps as [|g ps IH]; intros n; [reflexivity|]. cbn [replace_first_units]. destruct (_ && _); cbn [length]; now rewrite IH. Qed.
Lemma rfu_codepoints f t ps : (exists c, uchar t c) -> Codepoints ps -> forall n, Codepoints (replace_first_units n f t ps).
Proof.
  intros Ht H. induction H as [|g ps Hg H IH]; intros n; [constructor|]. cbn [replace_first_units]. destruct (_ && _); apply Forall_cons; solve [auto | apply IH].
Qed.
Lemma Codepoints_Text ps : Codepoints ps -> exists cs, Text (concat ps) cs /\ length cs = length ps.
Proof.
  induction 1 as [|g ps [c Hc] H (cs & HT & HL)]; [exists []; split; [constructor|reflexivity]|]. exists (c :: cs). split; [now constructor|cbn [length]; now rewrite HL].
Qed.
Lemma Text_Codepoints s cs : Text s cs -> exists ps, Codepoints ps /\ concat ps = s.
Proof. induction 1 as [|g c s cs Hg _ (ps & HP & <-)]; [exists []; now split; [constructor|]|]. exists (g :: ps). split; [apply Forall_cons; eauto|reflexivity]. Qed.
Lemma p_c104_replace_codepoint s cs a b m : Text s cs -> Fits s -> a <= 0x10FFFF -> b <= 0x10FFFF -> (- 0x8000000000000000 < m)%Z ->
  exists r, replace_codepoint s a b m = Ok r /\ (Fits r -> count_codepoints r = count_codepoints s).
Proof.
  intros HT HF Ha Hb Hm. destruct (Text_Codepoints s cs HT) as (ps & HP & E).
  subst s. destruct (p_c33_units ps a b m HP HF Ha Hb Hm) as (f & t & Hf & Ht & ->). clear HT cs.
  assert (exists c, uchar t c) as Htu by (exists b; now apply encodes_uchar).
  eexists. split; [reflexivity|].
  set (qs := if (0 <=? m)%Z then _ else _). intros Fr.
  assert (Codepoints qs /\ length qs = length ps) as [HQ HL].
  { subst qs. destruct (0 <=? m)%Z; [split; [now apply rfu_codepoints|apply rfu_length]|]. unfold replace_last_units. split.
    - apply Forall_rev. apply rfu_codepoints; [exact Htu|]. now apply Forall_rev.
    - now rewrite rev_length, rfu_length, rev_length. }
  destruct (Codepoints_Text qs HQ) as (us & HU & LU). destruct (Codepoints_Text ps HP) as (vs & HV & LV).
  rewrite (count_text _ _ Fr HU). rewrite (count_text _ _ HF HV). apply (f_equal (fun n => Ok (N.of_nat n))). rewrite LU, LV. exact HL.
Qed.
Lemma unm_perm a b : Permutation a b -> unm a = unm b.
Proof. induction 1 as [|x a b _ IH|x y a|a b c _ IH1 _ IH2]; [reflexivity| | |congruence]; rewrite ?unm_cons; lia. Qed.
Lemma rev_text ps : Forall (one_char is_mark) ps -> forall cs, Text (concat ps) cs -> exists us, Text (concat (rev ps)) us /\ Permutation cs us.
Proof.
  induction 1 as [|p ps Hp H IH]; intros cs HT; [exists cs; now split|]. cbn [concat rev] in *.
  destruct (Text_concat_cons p ps cs (one_char_has p Hp) HT) as (us & vs & -> & Hu & Hv). destruct (IH vs Hv) as (ws & Hw & HPm).
  exists (ws ++ us). rewrite concat_app. cbn [concat]. rewrite app_nil_r. split; [now apply Text_app|]. rewrite Permutation_app_comm. now apply Permutation_app_tail.
Qed.
Lemma char_count_unm c cs : char_count (c :: cs) = N.of_nat (unm (c :: cs)) + if combining c then 1 else 0.
Proof. rewrite unm_cons. cbn [char_count]. fold (unm cs). destruct (combining c); lia. Qed.
Lemma concat_rev_length (ps : list (list byte)) : length (concat (rev ps)) = length (concat ps).
Proof.
  induction ps as [|p ps IH]; [reflexivity|]. cbn [rev concat]. rewrite concat_app, !app_length, IH. cbn [concat]. rewrite app_nil_r. apply Nat.add_comm.
Qed.
Lemma p_c104_reverse s c cs : Text s (c :: cs) -> Fits s -> exists r k, reverse s = Ok r /\ count_codepoints r = count_codepoints s /\
  count_chars s = Ok k /\ count_chars r = Ok (if combining c && (1 <? k) then k - 1 else k).
Proof.
  intros HT HF. destruct (Chars_exist s _ HT) as (ps & HC & <-). exists (concat (rev ps)), (char_count (c :: cs)).
  split; [now apply reverse_spec|]. destruct (rev_text ps (proj1 HC) _ HT) as (us & HU & HPm).
  assert (Fits (concat (rev ps))) as Fr.
  { unfold Fits, size in *. pose proof (concat_rev_length ps) as L. unfold str in *. rewrite L. exact HF. }
  rewrite (count_text _ _ HF HT), (count_text _ _ Fr HU), (p_c104_count _ _ HT HF), (p_c104_count _ _ HU Fr).
  split; [now rewrite (Permutation_length HPm)|]. split; [reflexivity|]. f_equal.
  pose proof (count_of_chars ps _ HC HT) as HN. destruct ps as [|p ps]; [exfalso; cbn [char_count length] in HN; lia|].
  destruct (@exists_last _ (p :: ps) ltac:(discriminate)) as (qs & q & E). destruct qs as [|p' qs].
  - injection E as <- ->. cbn [rev app] in HU. rewrite (Text_fun _ _ _ HU HT), HN. cbn [length]. now rewrite andb_false_r.
  - injection E as <- ->. cbn [rev] in HU. rewrite rev_app_distr in HU. cbn [rev app concat] in HU.
    cbn [length] in HN. rewrite app_length in HN. cbn [length] in HN. replace (1 <? char_count (c :: cs)) with true by lia.
    destruct HC as [_ H2]. cbn [tl] in H2. apply Forall_app in H2. destruct H2 as [_ H2]. apply Forall_inv in H2.
    destruct H2 as (g & d & t & -> & Hg & Hd). rewrite <- !app_assoc in HU.
    destruct (Text_app_inv g [d] _ _ (Text_one _ _ Hg) HU) as (ws & -> & _). cbn [app] in *.
    rewrite !char_count_unm, (unm_perm _ _ HPm). rewrite mark_combining in Hd by (apply uchar_bound in Hg; lia). rewrite Hd. destruct (combining c); cbn [andb]; lia.
Qed.
