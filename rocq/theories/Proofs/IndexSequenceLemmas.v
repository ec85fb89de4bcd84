(** C132: searching and indexing encoded texts is searching and indexing
    sequences of code points. *)
From Verif Require Import Base Spec.Utf8Spec Spec.Strings Spec.Slices Spec.CaseFold Spec.Case Spec.Sequences
  Model.Decode Model.Encode Model.Subrange Model.Search Model.CharClass Model.Chars Model.ConvertCase Model.CaseInsensitive
  Proofs.Utf8Lemmas Proofs.DecodeLemmas Proofs.EncodeLemmas Proofs.SyncLemmas Proofs.SyncUtf32 Proofs.AgreeLemmas
  Proofs.Utf8Props Proofs.CodepointLemmas Proofs.SearchLemmas Proofs.SliceLemmas Proofs.CharLemmas Proofs.PositionProps Proofs.CaseStringLemmas Proofs.SequenceLemmas.
From Coq Require Import ZifyBool ZifyNat ZifyN.
Ltac Zify.zify_post_hook ::= Z.div_mod_to_equations.

(** ** Searching *)
Lemma p_c132_starts cs ps : inr cs -> inr ps -> exists b, starts_with (E cs) (E ps) = Ok b /\ (b = true <-> exists t, cs = ps ++ t).
Proof.
  intros HC HP. destruct (starts_with_spec (E cs) (E ps)) as (b & Hb & K). exists b. split; [exact Hb|]. rewrite K. split.
  - intros (t & Q). destruct (Text_app_inv (E ps) ps t cs (from_utf32_Text ps HP)) as (ts & -> & _); [rewrite <- Q; now apply from_utf32_Text|eauto].
  - intros (t & ->). exists (E t). apply E_app.
Qed.
Lemma p_c132_ends cs ps : inr cs -> inr ps -> Fits (E cs) -> exists b, ends_with (E cs) (E ps) = Ok b /\ (b = true <-> exists t, cs = t ++ ps).
Proof.
  intros HC HP HF. destruct (ends_with_spec (E cs) (E ps) HF) as (b & Hb & K). exists b. split; [exact Hb|]. rewrite K. split.
  - intros (t & Q). destruct ps as [|c ps]; [exists cs; now rewrite app_nil_r|].
    destruct (E_around cs (c :: ps) t [] HC HP ltac:(discriminate)) as (us & vs & -> & _ & HV & _ & Z); [now rewrite app_nil_r|].
    exists us. destruct vs as [|v vs]; [now rewrite app_nil_r|]. exfalso. exact (E_ne (v :: vs) HV ltac:(discriminate) (eq_sym Z)).
  - intros (t & ->). exists (E t). apply E_app.
Qed.
Lemma p_c132_contains cs c : inr cs -> exists b, contains (E cs) c = Ok b /\ (b = true <-> In c cs).
Proof.
  intros HC. destruct (p_c12 (E cs) cs [] c (from_utf32_Text cs HC) (or_introl eq_refl)) as (A & B & _). rewrite app_nil_r in A, B.
  destruct (in_dec N.eq_dec c cs) as [H|H].
  - exists true. split; [now apply A|tauto].
  - exists false. split; [now apply B|]. split; [discriminate|contradiction].
Qed.

Lemma p_c132_first pre cs ps : inr pre -> inr cs -> inr ps -> ps <> [] ->
  (exists us vs, cs = us ++ ps ++ vs /\ absent_before ps cs (length us) /\
     find_first (E (pre ++ cs)) (E ps) (size (E pre)) = Ok (Sub (size (E (pre ++ us))) (size (E ps)))) \/
  (absent ps cs /\ find_first (E (pre ++ cs)) (E ps) (size (E pre)) = Ok (Sub (size (E (pre ++ cs))) 0)).
Proof.
  intros HR HC HP HN. destruct (find_first_spec (E (pre ++ cs)) (E ps) (length (E pre)) (E_ne ps HP HN)) as [(i & Li & (u & v & Q & Lu) & Hmin & K)|[Hno K]].
  - rewrite E_app, app_length. lia.
  - left. destruct (E_around (pre ++ cs) ps u v) as (us & vs & Qc & HU & HV & -> & ->); [now apply Forall_app|exact HP|exact HN|exact Q|].
    assert (length pre <= length us)%nat as LL.
    { destruct (Nat.le_gt_cases (length pre) (length us)) as [L|L]; [exact L|exfalso].
      pose proof (E_prefix_le pre cs us (ps ++ vs) Qc ltac:(now apply Forall_app) L). lia. }
    assert (us = pre ++ skipn (length pre) us /\ cs = skipn (length pre) us ++ ps ++ vs) as [Q1 Q2].
    { pose proof (f_equal (firstn (length pre)) Qc) as F1. pose proof (f_equal (skipn (length pre)) Qc) as F2.
      rewrite firstn_app, firstn_all, Nat.sub_diag, firstn_O, app_nil_r, firstn_app in F1. replace (length pre - length us)%nat with 0%nat in F1 by lia. rewrite firstn_O, app_nil_r in F1.
      rewrite skipn_app, skipn_all, Nat.sub_diag, skipn_app in F2. cbn [app skipn] in F2. replace (length pre - length us)%nat with 0%nat in F2 by lia. cbn [skipn] in F2.
      split; [|exact F2]. rewrite <- (firstn_skipn (length pre) us) at 1. now rewrite <- F1. }
    exists (skipn (length pre) us), vs. split; [exact Q2|]. split.
    + intros a b Qa. destruct (Nat.le_gt_cases (length (skipn (length pre) us)) (length a)) as [L|L]; [exact L|exfalso].
      apply (Hmin (length (E (pre ++ a)))).
      * rewrite E_app, app_length. split; [lia|]. rewrite <- Lu. rewrite Q1, E_app, app_length.
        assert (length (E a) < length (E (skipn (length pre) us)))%nat; [|lia].
        eapply (E_prefix_le (skipn (length pre) us) (ps ++ vs) a (ps ++ b)); [rewrite <- Q2; exact Qa|rewrite <- Q2; exact HC|exact L].
      * exists (E (pre ++ a)), (E b). rewrite Qa, !E_app, <- !app_assoc. split; reflexivity.
    + unfold size at 1. rewrite K. rewrite <- Q1. rewrite <- Lu. reflexivity.
  - right. split; [|unfold size at 1; exact K]. intros us vs ->. apply (Hno (length (E (pre ++ us)))).
    + rewrite E_app, app_length. lia.
    + exists (E (pre ++ us)), (E vs). rewrite !E_app, <- !app_assoc. split; reflexivity.
Qed.
Lemma p_c132_last cs post ps : inr cs -> inr post -> inr ps -> ps <> [] ->
  (exists us vs, cs = us ++ ps ++ vs /\ absent_after ps cs (length us) /\
     find_last (E (cs ++ post)) (E ps) (size (E cs)) = Ok (Sub (size (E us)) (size (E ps)))) \/
  (absent ps cs /\ find_last (E (cs ++ post)) (E ps) (size (E cs)) = Ok (Sub 0 0)).
Proof.
  intros HC HR HP HN. destruct (find_last_spec (E (cs ++ post)) (E ps) (size (E cs)) (E_ne ps HP HN)) as [(i & (u & v & Q & Lu) & W & Hmax & K)|[Hno K]].
  - left. rewrite E_app, size_app in W.
    assert (exists w, E cs = u ++ E ps ++ w) as (w & Qw).
    { exists (skipn (length (u ++ E ps)) (E cs)). rewrite app_assoc. rewrite <- (firstn_skipn (length (u ++ E ps)) (E cs)) at 1. f_equal.
      rewrite E_app, (app_assoc u) in Q. pose proof (f_equal (firstn (length (u ++ E ps))) Q) as F. rewrite (firstn_app _ (E cs) (E post)), (firstn_app _ (u ++ E ps) v), firstn_all, Nat.sub_diag, firstn_O, app_nil_r in F.
      replace (length (u ++ E ps) - length (E cs))%nat with 0%nat in F by (rewrite app_length; unfold size in W; lia). rewrite firstn_O, app_nil_r in F. exact F. }
    destruct (E_around cs ps u w HC HP HN Qw) as (us & vs & Qc & HU & HV & -> & ->).
    exists us, vs. split; [exact Qc|]. split.
    + intros a b Qa. destruct (Nat.le_gt_cases (length a) (length us)) as [L|L]; [exact L|exfalso].
      apply (Hmax (length (E a))).
      * rewrite <- Lu. eapply (E_prefix_le a (ps ++ b) us (ps ++ vs)); [rewrite <- Qa; exact Qc|rewrite <- Qa; exact HC|exact L].
      * rewrite Qa, !E_app, !size_app. unfold size. lia.
      * exists (E a), (E b ++ E post). rewrite Qa, !E_app, <- !app_assoc. split; reflexivity.
    + rewrite K, <- Lu. reflexivity.
  - right. split; [|exact K]. intros us vs ->. apply (Hno (length (E us))).
    + rewrite !E_app, !size_app. unfold size. lia.
    + exists (E us), (E vs ++ E post). rewrite !E_app, <- !app_assoc. split; reflexivity.
Qed.

(** ** Indexing *)
Lemma encodes_E1 g c : c <= 0x10FFFF -> encodes g c -> g = E [c].
Proof.
  intros Hc Hg. pose proof (E_enc [c] ltac:(constructor; [exact Hc|constructor])) as K. remember (E [c]) as e. clear Heqe.
  inversion K as [|g' c' s' cs' Hg' Hs' E1 E2]; subst. inversion Hs'; subst. rewrite app_nil_r. now apply (encodes_fun g g' c).
Qed.
Definition units (cs : list N) : list str := map (fun c => E [c]) cs.
Lemma units_concat cs : concat (units cs) = E cs.
Proof. induction cs as [|c cs IH]; [reflexivity|]. unfold units in *. cbn [map concat]. rewrite IH, <- E_app. reflexivity. Qed.
Lemma units_length cs : length (units cs) = length cs.
Proof. apply map_length. Qed.
Lemma units_firstn n cs : concat (firstn n (units cs)) = E (firstn n cs).
Proof. unfold units. rewrite firstn_map. apply units_concat. Qed.
Lemma units_skipn n cs : concat (skipn n (units cs)) = E (skipn n cs).
Proof. unfold units. rewrite skipn_map. apply units_concat. Qed.
Lemma units_cps cs : inr cs -> CodeUnits (units cs).
Proof. intros H. left. unfold Codepoints, units. induction H as [|c cs Hc _ IH]; cbn [map]; constructor; [exists c; now apply uchar_E1|exact IH]. Qed.

Section Units.
  Context (cs : list N) (HC : inr cs).
  Lemma p_c132_pos k : Fits (E cs) -> (- 0x8000000000000000 < k <= 0x7FFFFFFFFFFFFFFF)%Z ->
    get_codepoint_pos (E cs) k = Ok (if (Z.of_nat (length cs) <? Z.abs k)%Z then npos else size (E (firstn (resolve (length cs) k) cs))).
  Proof.
    intros HF Hk. rewrite <- (units_concat cs) in HF |- *. rewrite (get_codepoint_pos_spec (units cs) k (units_cps cs HC) HF Hk).
    unfold position, offset_of. now rewrite units_length, units_firstn.
  Qed.
  Lemma p_c132_get n c : nth_error cs n = Some c -> forall k, (k = Z.of_nat n \/ k = Z.of_nat n - Z.of_nat (length cs))%Z ->
    get_codepoint (E cs) k = Ok (Sub (size (E (firstn n cs))) (size (E [c])), c).
  Proof.
    intros Hn k Hk. destruct (p_c25 (units cs) k (units_cps cs HC)) as (A & B & _). rewrite units_concat in A, B.
    assert (nth_error (units cs) n = Some (E [c])) as HU by (unfold units; now apply (map_nth_error (fun c => E [c]))).
    assert (uchar (E [c]) c) as HG. { apply uchar_E1. rewrite Forall_forall in HC. apply HC. eapply nth_error_In. exact Hn. }
    assert (n < length cs)%nat as L by (apply nth_error_Some; congruence).
    unfold offset_of in A, B. rewrite units_length in B.
    destruct Hk as [-> | ->].
    - rewrite Nat2Z.id in A. rewrite (A (E [c]) c ltac:(lia) HU HG), units_firstn. reflexivity.
    - replace (Z.to_nat (Z.of_nat (length cs) + (Z.of_nat n - Z.of_nat (length cs)))) with n in B by lia.
      rewrite (B (E [c]) c ltac:(lia) HU HG), units_firstn. reflexivity.
  Qed.
  Lemma p_c132_sub i j : Fits (E cs) -> (- 0x8000000000000000 < i <= 0x7FFFFFFFFFFFFFFF)%Z -> (- 0x8000000000000000 < j <= 0x7FFFFFFFFFFFFFFF)%Z ->
    (0 <= i /\ 0 <= j)%Z \/ (i < j < 0)%Z \/ (j < 0 <= i)%Z ->
    let a := resolve (length cs) i in let b := resolve (length cs) j in
    get_codepoint_substring (E cs) i j = Ok (E (firstn (b - a) (skipn a cs))) /\
    forall ds, replace_codepoints (E cs) i j (E ds) = Ok (E (firstn a cs ++ ds ++ skipn (Nat.max a b) cs)).
  Proof.
    intros HF Hi Hj Ho a b. rewrite <- (units_concat cs) in HF |- *. split.
    - rewrite (cp_substring_ok (units cs) i j (units_cps cs HC) HF Hi Hj Ho). unfold units_between. rewrite units_length. fold a b.
      unfold units at 1. rewrite skipn_map, firstn_map. f_equal. apply units_concat.
    - intros ds. rewrite (cp_replace_ok (units cs) i j (E ds) (units_cps cs HC) HF Hi Hj Ho). unfold units_before, units_after. rewrite units_length. fold a b.
      rewrite units_firstn, units_skipn, !E_app. reflexivity.
  Qed.
  Lemma p_c132_insert k : Fits (E cs) -> (- 0x8000000000000000 < k <= 0x7FFFFFFFFFFFFFFF)%Z -> (Z.abs k <= Z.of_nat (length cs))%Z ->
    let a := resolve (length cs) k in
    (forall ds, insert_codepoints (E cs) k (E ds) = Ok (E (firstn a cs ++ ds ++ skipn a cs))) /\
    forall c, c <= 0x10FFFF -> insert_codepoint (E cs) k c = Ok (E (firstn a cs ++ [c] ++ skipn a cs)).
  Proof.
    intros HF Hk Ha a. rewrite <- (units_concat cs) in HF |- *. rewrite <- (units_length cs) in Ha. split.
    - intros ds. rewrite (cp_insert_str (units cs) k (E ds) (units_cps cs HC) HF Hk Ha). unfold units_before, units_after. rewrite units_length. fold a.
      rewrite Nat.max_id, units_firstn, units_skipn, !E_app. reflexivity.
    - intros c Hc. destruct (cp_insert_cp (units cs) k c (units_cps cs HC) HF Hk Ha Hc) as (g & Hg & ->). unfold units_before, units_after. rewrite units_length. fold a.
      rewrite Nat.max_id, units_firstn, units_skipn, !E_app. do 3 f_equal. now apply encodes_E1.
  Qed.
  Lemma p_c132_count : Fits (E cs) -> count_codepoints (E cs) = Ok (N.of_nat (length cs)).
  Proof. intros HF. apply count_text; [exact HF|now apply from_utf32_Text]. Qed.
  Lemma p_c132_case : to_lower_str (E cs) = Ok (E (lower_cps cs)) /\ to_upper_str (E cs) = Ok (E (upper_cps cs)).
  Proof.
    pose proof (from_utf32_Text cs HC) as HT. split.
    - destruct (to_lower_str_ok (E cs) cs HT HC) as (r & -> & K). f_equal. apply enc_eq; [exact K|now apply lower_cps_range].
    - destruct (to_upper_str_ok (E cs) cs HT HC) as (r & -> & K). f_equal. apply enc_eq; [exact K|now apply upper_cps_range].
  Qed.
End Units.

(** ** Characters *)
Lemma groups_concat css : concat (map E css) = E (concat css).
Proof. induction css as [|l css IH]; [reflexivity|]. cbn [map concat]. now rewrite IH, E_app. Qed.
Lemma groups_firstn n css : concat (firstn n (map E css)) = E (concat (firstn n css)).
Proof. rewrite firstn_map. apply groups_concat. Qed.
Lemma groups_skipn n css : concat (skipn n (map E css)) = E (concat (skipn n css)).
Proof. rewrite skipn_map. apply groups_concat. Qed.
Lemma groups_inr css : inr (concat css) -> Forall (Forall (fun c => c <= 0x10FFFF)) css.
Proof. induction css as [|l css IH]; intros H; [constructor|]. cbn [concat] in H. apply Forall_app in H. destruct H. constructor; auto. Qed.
Lemma groups_chars css : groups is_mark css -> inr (concat css) -> Chars (map E css).
Proof.
  intros [A B] HI. apply groups_inr in HI. split.
  - clear B. induction A as [|l css (c & ms & -> & Hm) _ IH]; cbn [map]; constructor.
    + pose proof (Forall_inv HI) as H. inversion H as [|? ? Hc Hms]; subst. exists (E [c]), c, (E ms), ms.
      split; [now rewrite <- E_app|]. split; [now apply uchar_E1|]. split; [now apply from_utf32_Text|exact Hm].
    + apply IH. now apply Forall_inv_tail in HI.
  - destruct css as [|l css]; [constructor|]. cbn [map tl] in *. apply Forall_inv_tail in HI. clear A.
    induction B as [|l' css (c & t & -> & Hm) _ IH]; cbn [map]; constructor.
    + pose proof (Forall_inv HI) as H. inversion H as [|? ? Hc Ht]; subst. exists (E [c]), c, (E t).
      split; [now rewrite <- E_app|]. split; [now apply uchar_E1|exact Hm].
    + apply IH. now apply Forall_inv_tail in HI.
Qed.

Section Groups.
  Context (css : list (list N)) (HG : groups is_mark css) (HI : inr (concat css)) (HF : Fits (E (concat css))).
  Let HC : Chars (map E css) := groups_chars css HG HI.
  Local Lemma HF' : Fits (concat (map E css)).
  Proof. now rewrite groups_concat. Qed.
  Lemma p_c132_char_count : count_chars (E (concat css)) = Ok (N.of_nat (length css)).
  Proof. rewrite <- groups_concat, (proj1 (p_c21_agree (map E css) HC HF')), map_length. reflexivity. Qed.
  Lemma p_c132_char_pos k : get_char_pos (E (concat css)) k =
    Ok (if (Z.of_nat (length css) <? Z.abs k)%Z then npos else size (E (concat (firstn (resolve (length css) k) css)))).
  Proof. rewrite <- groups_concat, (p_c22 (map E css) k HC HF'). unfold position, offset_of. now rewrite map_length, groups_firstn. Qed.
  Lemma p_c132_char_sub i j : (- 0x8000000000000000 <= i <= 0x7FFFFFFFFFFFFFFF)%Z -> (- 0x8000000000000000 <= j <= 0x7FFFFFFFFFFFFFFF)%Z ->
    (0 <= i /\ 0 <= j)%Z \/ (i < j < 0)%Z \/ (i < 0 <= j)%Z ->
    let a := resolve (length css) i in let b := resolve (length css) j in
    get_char_substring (E (concat css)) i j = Ok (E (concat (firstn (b - a) (skipn a css)))) /\
    forall ds, replace_chars (E (concat css)) i j (E ds) = Ok (E (concat (firstn a css) ++ ds ++ concat (skipn (Nat.max a b) css))).
  Proof.
    intros Hi Hj Ho a b. rewrite <- !groups_concat. split.
    - rewrite (char_substring_ok (map E css) i j HC HF' Hi Hj Ho). unfold units_between. rewrite map_length. fold a b. now rewrite skipn_map, firstn_map.
    - intros ds. rewrite (char_replace_ok (map E css) i j (E ds) HC HF' Hi Hj Ho). unfold units_before, units_after. rewrite map_length. fold a b.
      now rewrite groups_firstn, groups_skipn, !E_app.
  Qed.
  Lemma p_c132_char_insert k : (Z.abs k <= Z.of_nat (length css))%Z -> let a := resolve (length css) k in
    (forall ds, insert_chars (E (concat css)) k (E ds) = Ok (E (concat (firstn a css) ++ ds ++ concat (skipn a css)))) /\
    forall c, c <= 0x10FFFF -> insert_char (E (concat css)) k c = Ok (E (concat (firstn a css) ++ [c] ++ concat (skipn a css))).
  Proof.
    intros Ha a. rewrite <- !groups_concat. assert (Z.abs k <= Z.of_nat (length (map E css)))%Z as Ha' by now rewrite map_length. split.
    - intros ds. rewrite (char_insert_str (map E css) k (E ds) HC HF' Ha'). unfold units_before, units_after. rewrite map_length. fold a.
      now rewrite Nat.max_id, groups_firstn, groups_skipn, !E_app.
    - intros c Hc. destruct (char_insert_cp (map E css) k c HC HF' Ha' Hc) as (g & Hg & ->). unfold units_before, units_after. rewrite map_length. fold a.
      rewrite Nat.max_id, groups_firstn, groups_skipn, !E_app. do 3 f_equal. now apply encodes_E1.
  Qed.
  Lemma p_c132_reverse : reverse (E (concat css)) = Ok (E (concat (rev css))).
  Proof. rewrite <- !groups_concat, (reverse_spec (map E css) HC HF'), map_rev. reflexivity. Qed.
End Groups.

Lemma p_c132_groups mk cs : exists css, concat css = cs /\ groups mk css.
Proof.
  induction cs as [|c cs (css & <- & A & B)]; [exists []; split; [reflexivity|split; constructor]|].
  destruct css as [|l css]; [exists [[c]]; split; [reflexivity|split; [constructor; [exists c, []; auto|constructor]|constructor]]|].
  pose proof (Forall_inv A) as (d & ms & -> & Hm). destruct (mk d) eqn:M.
  - exists ((c :: d :: ms) :: css). split; [reflexivity|]. split; [|exact B]. constructor; [|now apply Forall_inv_tail in A].
    exists c, (d :: ms). split; [reflexivity|]. now constructor.
  - exists ([c] :: (d :: ms) :: css). split; [reflexivity|]. split; [constructor; [exists c, []; auto|exact A]|].
    cbn [tl]. constructor; [exists d, ms; auto|exact B].
Qed.
