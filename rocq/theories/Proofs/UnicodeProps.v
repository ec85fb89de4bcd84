(** C43-C45, C55, C56 *)
From Verif Require Import Base Spec.Category Spec.UnicodeData Spec.Case Spec.Utf8Spec Spec.Newline
  Model.Decode Model.Encode Model.Search Model.CharClass Model.ConvertCase Tables.UnicodeDataTables Tables.CharClassTables
  Proofs.Utf8Lemmas Proofs.EncodeLemmas Proofs.CodepointLemmas
  Proofs.TableLemmas Proofs.CharClassLemmas Proofs.CaseLemmas Proofs.CaseStringLemmas.

Definition letters_kept (table : list (N * N)) : bool :=
  forallb (fun p => negb (match fast_class (fst p) with Ok v => negb (N.land v LETTER =? 0) | _ => false end)
                    || (match fast_class (snd p) with Ok v => negb (N.land v LETTER =? 0) | _ => false end)) table.
Lemma is_letter_fast c : is_letter c = match fast_class c with Ok v => negb (N.land v LETTER =? 0) | _ => false end.
Proof. rewrite fast_class_ok. unfold is_letter, has_class, char_class. destruct (get_char_class c); reflexivity. Qed.
Lemma mapped_letter table c : letters_kept table = true -> is_letter c = true -> is_letter (mapped table c) = true.
Proof.
  intros H. apply (mapped_ind (fun c d => is_letter c = true -> is_letter d = true) _ table c H); [|auto].
  intros p Hp. rewrite !is_letter_fast. intros E. rewrite E in Hp. exact Hp.
Qed.
Lemma lower_letter c : is_letter c = true -> is_letter (simple_lower c) = true.
Proof. apply mapped_letter. vm_cast_no_check (eq_refl true). Qed.
Lemma title_letter c : is_letter c = true -> is_letter (simple_title c) = true.
Proof. apply mapped_letter. vm_cast_no_check (eq_refl true). Qed.
Lemma simple_title_not_DF c : c <> 0xDF -> simple_title c <> 0xDF.
Proof.
  intros H. unfold simple_title.
  apply (mapped_ind (fun _ d => d <> 0xDF) (fun p => negb (snd p =? 0xDF))); [vm_compute; reflexivity| |exact H].
  intros p Hp. apply negb_true_iff, N.eqb_neq in Hp. exact Hp.
Qed.

Lemma title_cps_twice cs : forall b, title_cps is_letter b (title_cps is_letter b cs) = title_cps is_letter b cs.
Proof.
  induction cs as [|c cs IH]; intros b; [reflexivity|]. cbn [title_cps].
  destruct (is_letter c) eqn:Ec.
  - destruct b.
    + cbn [app title_cps]. rewrite (lower_letter c Ec), simple_lower_twice. cbn [app]. now rewrite IH.
    + destruct (N.eqb_spec c 0xDF) as [->|Hc].
      * cbn [app title_cps]. replace (is_letter 0x53) with true by (vm_compute; reflexivity).
        replace (is_letter 0x73) with true by (vm_compute; reflexivity).
        replace (0x53 =? 0xDF) with false by reflexivity.
        replace (simple_title 0x53) with 0x53 by (vm_compute; reflexivity).
        replace (simple_lower 0x73) with 0x73 by (vm_compute; reflexivity). cbn [app]. now rewrite IH.
      * cbn [app title_cps]. rewrite (title_letter c Ec), (proj2 (N.eqb_neq _ 0xDF) (simple_title_not_DF c Hc)), simple_title_twice.
        cbn [app]. now rewrite IH.
  - cbn [title_cps]. rewrite Ec. now rewrite IH.
Qed.
Lemma title_cps_range cs : Forall (fun c => c <= 0x10FFFF) cs -> forall b, Forall (fun c => c <= 0x10FFFF) (title_cps is_letter b cs).
Proof.
  induction 1 as [|c cs Hc H IH]; intros b; [constructor|]. cbn [title_cps].
  destruct (is_letter c); [|constructor; auto]. apply Forall_app. split; [|apply IH].
  destruct b; [constructor; [now apply simple_lower_bound|constructor]|].
  destruct (c =? 0xDF); repeat constructor; try lia. now apply simple_title_bound.
Qed.
Lemma to_title_twice s r : to_title_str s = Ok r -> to_title_str r = Ok r.
Proof.
  intros H. destruct (Text_dec s) as [[cs HT]|HN].
  - destruct (inrange_dec cs) as [HR|HE].
    + destruct (to_title_str_ok s cs HT HR) as (r' & E & He). rewrite E in H. injection H as ->.
      assert (HR' := title_cps_range cs HR false).
      destruct (to_title_str_ok r _ (Encoded_Text _ _ He HR') HR') as (r2 & E2 & He2).
      rewrite title_cps_twice in He2. rewrite E2. f_equal. eapply Encoded_fun; eauto.
    + exfalso. destruct (case_all_bad s) as (_ & _ & E); [|congruence]. intros cs' HT'. rewrite (Text_fun _ _ _ HT' HT). exact HE.
  - exfalso. destruct (case_all_bad s) as (_ & _ & E); [|congruence]. intros cs HT. destruct (HN cs HT).
Qed.

(** *** Predicates *)
Lemma lib_category_eq c : c < 0x200000 -> lib_category c = category_of c \/ (category_of c = Lo /\ lib_category c = Cn).
Proof.
  intros Hc. unfold lib_category. destruct (in_ideograph_gap c) eqn:E; [|left; reflexivity].
  right. split; [|reflexivity]. now apply (class_spec c Hc).
Qed.
(** Predicates that treat Lo and Cn alike see the category itself. *)
Lemma has_class_cat c mask : c < 0x200000 -> N.testbit mask 4 = N.testbit mask 29 ->
  has_class c mask = N.testbit mask (category_number (category_of c)).
Proof.
  intros Hc H. rewrite has_class_spec by exact Hc. destruct (lib_category_eq c Hc) as [->|[E1 E2]]; [reflexivity|].
  rewrite E1, E2. symmetry. exact H.
Qed.
Lemma has_class_cat_nogap c mask : c < 0x200000 -> in_ideograph_gap c = false ->
  has_class c mask = N.testbit mask (category_number (category_of c)).
Proof. intros Hc H. rewrite has_class_spec by exact Hc. unfold lib_category. rewrite H. reflexivity. Qed.

Ltac by_category c := destruct (category_of c); vm_compute; intuition congruence.
Lemma p_c56_exact c : c < 0x200000 ->
  (is_mark c = true <-> In (category_of c) [Mn; Mc; Me]) /\
  (is_number c = true <-> In (category_of c) [Nd; Nl; No]) /\
  (is_punctuation c = true <-> In (category_of c) [Pc; Pd; Ps; Pe; Pi; Pf; Po]) /\
  (is_symbol c = true <-> In (category_of c) [Sm; Sc; Sk; So]) /\
  (is_separator c = true <-> In (category_of c) [Zs; Zl; Zp]) /\
  (is_control c = true <-> category_of c = Cc) /\
  (is_format c = true <-> category_of c = Cf) /\
  (is_surrogate c = true <-> category_of c = Cs) /\
  (is_upper c = true <-> category_of c = Lu) /\
  (is_lower c = true <-> category_of c = Ll) /\
  (is_cased_letter c = true <-> In (category_of c) [Lu; Ll; Lt]).
Proof.
  intros Hc. unfold is_mark, is_number, is_punctuation, is_symbol, is_separator, is_control, is_format, is_surrogate, is_upper, is_lower, is_cased_letter.
  rewrite !has_class_cat by (exact Hc || reflexivity). by_category c.
Qed.
Lemma p_c56_letters c : c < 0x200000 -> in_ideograph_gap c = false ->
  (is_letter c = true <-> In (category_of c) [Lu; Ll; Lt; Lm; Lo]) /\
  (is_alpha_numeric c = true <-> In (category_of c) [Lu; Ll; Lt; Lm; Lo; Nd; Nl; No]) /\
  (is_graphical c = true <-> In (category_of c) [Lu; Ll; Lt; Lm; Lo; Mn; Mc; Me; Nd; Nl; No; Pc; Pd; Ps; Pe; Pi; Pf; Po; Sm; Sc; Sk; So]) /\
  (is_visible c = true <-> In (category_of c) [Lu; Ll; Lt; Lm; Lo; Mn; Mc; Me; Nd; Nl; No; Pc; Pd; Ps; Pe; Pi; Pf; Po; Sm; Sc; Sk; So; Zs; Zl; Zp]).
Proof.
  intros Hc Hg. unfold is_letter, is_alpha_numeric, is_graphical, is_visible.
  rewrite !has_class_cat_nogap by assumption. by_category c.
Qed.
Lemma p_c56_gap c : in_ideograph_gap c = true -> c < 0x200000 /\ category_of c = Lo /\
  is_letter c = false /\ is_alpha_numeric c = false /\ is_graphical c = false /\ is_visible c = false.
Proof.
  intros Hg.
  assert (Hc : c < 0x200000).
  { apply existsb_exists in Hg. destruct Hg as (r & Hr & E). apply andb_true_iff in E. destruct E as [_ E]. apply N.leb_le in E.
    assert (HA : Forall (fun r : N * N => snd r < 0x200000) ideograph_gaps) by (repeat constructor; cbn [snd]; lia).
    rewrite Forall_forall in HA. specialize (HA r Hr). cbn beta in HA. lia. }
  split; [exact Hc|]. split; [now apply (class_spec c Hc)|].
  unfold is_letter, is_alpha_numeric, is_graphical, is_visible. rewrite !has_class_spec by exact Hc.
  unfold lib_category. rewrite Hg. repeat split; reflexivity.
Qed.
Lemma p_c56_newline c : is_newline c = true <-> newline c.
Proof.
  unfold is_newline, newline, NEXT_LINE, LINE_SEPARATOR, PARAGRAPH_SEPARATOR. rewrite !orb_true_iff, !N.eqb_eq. intuition.
Qed.
Lemma p_c56_hex c : is_hex_digit c = true <-> 0x30 <= c <= 0x39 \/ 0x41 <= c <= 0x46 \/ 0x61 <= c <= 0x66.
Proof. unfold is_hex_digit. rewrite !orb_true_iff, !andb_true_iff, !N.leb_le. intuition. Qed.
Lemma p_c56_whitespace c : c < 0x200000 ->
  is_whitespace c = true <-> c = 0x09 \/ newline c \/ In (category_of c) [Zs; Zl; Zp].
Proof.
  intros Hc. unfold is_whitespace. rewrite !orb_true_iff, andb_true_iff, N.ltb_lt, !N.eqb_eq, p_c56_newline.
  assert (HS : has_class c SEPARATOR = true <-> In (category_of c) [Zs; Zl; Zp]).
  { rewrite has_class_cat by (exact Hc || reflexivity). by_category c. }
  rewrite HS. split; [intros [[[H|H]|H]|H]|intros [H|[H|H]]]; auto.
  - subst c. right. right. vm_compute. auto.
  - right. right. apply H.
  - destruct (N.lt_ge_cases 128 c) as [L|L]; [right; split; assumption|].
    left. left. right. apply HS in H.
    assert (A : forallb (fun c => negb (has_class c SEPARATOR) || (c =? 0x20)) (map N.of_nat (seq 0 129)) = true) by (vm_compute; reflexivity).
    rewrite forallb_forall in A. specialize (A c). rewrite H in A. cbn [negb orb] in A. apply N.eqb_eq, A.
    apply in_map_iff. exists (N.to_nat c). split; [apply N2Nat.id|]. apply in_seq. lia.
Qed.
Lemma is_letter_unicode c : c < 0x200000 -> in_ideograph_gap c = false -> is_letter c = unicode_letter c.
Proof.
  intros Hc Hg. unfold is_letter. rewrite has_class_cat_nogap by assumption. unfold unicode_letter. destruct (category_of c); reflexivity.
Qed.
Lemma title_cps_ext f g cs : (forall c, In c cs -> f c = g c) -> forall b, title_cps f b cs = title_cps g b cs.
Proof.
  induction cs as [|c cs IH]; intros H b; [reflexivity|]. cbn [title_cps].
  rewrite (H c) by (left; reflexivity). rewrite !IH by (intros d Hd; apply H; now right). reflexivity.
Qed.
Lemma p_c45 s cs : Text s cs -> Forall (fun c => c <= 0x10FFFF /\ in_ideograph_gap c = false) cs ->
  exists r, to_title_str s = Ok r /\ Encoded r (title_cps unicode_letter false cs).
Proof.
  intros HT HR.
  assert (HR' : Forall (fun c => c <= 0x10FFFF) cs) by (eapply Forall_impl; [|exact HR]; cbn beta; tauto).
  destruct (to_title_str_ok s cs HT HR') as (r & E & He). exists r. split; [exact E|].
  rewrite (title_cps_ext unicode_letter is_letter); [exact He|].
  intros c Hin. rewrite Forall_forall in HR. destruct (HR c Hin). symmetry. apply is_letter_unicode; [lia|assumption].
Qed.
Lemma p_c55 c : c < 0x200000 -> in_ideograph_gap c = false -> get_char_class c = Ok (2 ^ category_number (category_of c)).
Proof. intros Hc Hg. destruct (class_spec c Hc) as [-> _]. rewrite Hg, N.shiftl_1_l. reflexivity. Qed.
Lemma p_c55_gap c : in_ideograph_gap c = true -> category_of c = Lo /\ get_char_class c = Ok (2 ^ category_number Cn).
Proof.
  intros Hg. destruct (p_c56_gap c Hg) as (Hc & Hk & _). split; [exact Hk|].
  destruct (class_spec c Hc) as [-> _]. rewrite Hg, N.shiftl_1_l. reflexivity.
Qed.
Lemma p_c56_one c : exists n, n < 30 /\ get_char_class c = Ok (2 ^ n).
Proof. destruct (class_one_bit c) as (n & Hn & E). exists n. split; [exact Hn|]. rewrite E, N.shiftl_1_l. reflexivity. Qed.

(** Beyond Unicode. *)
Lemma lower_bound_none {A} (less : A -> bool) l : Forall (fun x => less x = true) l -> lower_bound less l = None.
Proof. induction 1 as [|x l H _ IH]; [reflexivity|]. cbn [lower_bound]. now rewrite H. Qed.
Lemma p_c55_beyond c : c < 0x100000000 -> 0x10FFFF < c mod 0x200000 ->
  category_of c = Cn /\ get_char_class c = Ok (2 ^ category_number Cn).
Proof.
  intros Hc H. assert (0x10FFFF < c) as Hl by (pose proof (N.mod_le c 0x200000 ltac:(discriminate)); lia). split.
  - unfold category_of.
    assert (F : forallb (fun r : N * N * category => snd (fst r) <=? 0x10FFFF) UD_CATEGORIES = true) by (vm_compute; reflexivity).
    destruct (find _ UD_CATEGORIES) as [[[lo hi] cat]|] eqn:E; [|reflexivity].
    apply find_some in E. destruct E as [I E]. rewrite forallb_forall in F. specialize (F _ I). cbn [fst snd] in F.
    apply andb_true_iff in E. destruct E as [_ E]. apply N.leb_le in E, F. lia.
  - unfold get_char_class. replace (c <? 128) with false by (symmetry; apply N.ltb_ge; lia).
    assert (shl32 c CODE_POINT_SHIFT = (c mod 0x200000) * 0x800) as ->.
    { unfold shl32, CODE_POINT_SHIFT, W32. rewrite N.shiftl_mul_pow2. change (2 ^ 11) with 0x800. 
      change 0x100000000 with (0x200000 * 0x800). rewrite N.mul_mod_distr_r by discriminate. reflexivity. }
    assert (F : forallb (fun e => e <=? 0x10FFFF * 0x800) COMPLETE_CHAR_CLASSES = true) by (vm_compute; reflexivity).
    rewrite lower_bound_none; [reflexivity|]. apply Forall_forall. intros e He. rewrite forallb_forall in F. specialize (F e He).
    apply N.leb_le in F. apply N.ltb_lt. lia.
Qed.
Lemma p_c56_beyond c : c < 0x100000000 -> 0x10FFFF < c mod 0x200000 ->
  is_mark c = false /\ is_number c = false /\ is_punctuation c = false /\ is_symbol c = false /\ is_separator c = false /\
  is_control c = false /\ is_format c = false /\ is_surrogate c = false /\ is_upper c = false /\ is_lower c = false /\
  is_cased_letter c = false /\ is_letter c = false /\ is_alpha_numeric c = false /\ is_graphical c = false /\ is_visible c = false.
Proof.
  intros Hc H. destruct (p_c55_beyond c Hc H) as [_ E].
  unfold is_mark, is_number, is_punctuation, is_symbol, is_separator, is_control, is_format, is_surrogate, is_upper, is_lower,
    is_cased_letter, is_letter, is_alpha_numeric, is_graphical, is_visible, has_class, char_class. rewrite E.
  repeat split; vm_compute; reflexivity.
Qed.
