(** C137: case conversion and the predicates. *)
From Verif Require Import Base Spec.Category Spec.UnicodeData Spec.Case Spec.Utf8Spec Spec.CaseClasses
  Model.Decode Model.Encode Model.CharClass Model.ConvertCase
  Proofs.Utf8Lemmas Proofs.DecodeLemmas Proofs.SkipLemmas Proofs.EncodeLemmas Proofs.CodepointLemmas Proofs.CharClassLemmas Proofs.CaseLemmas Proofs.CaseStringLemmas Proofs.CaseRelate Proofs.UnicodeProps.
From Coq Require Import ZifyBool ZifyNat ZifyN.

Definition masks : list N :=
  [LETTER; CASED_LETTER; N.lor LETTER NUMBER; MARK; NUMBER; PUNCTUATION; SYMBOL; SEPARATOR; CONTROL; FORMAT; SURROGATE;
   N.lor (N.lor (N.lor (N.lor LETTER MARK) NUMBER) PUNCTUATION) SYMBOL;
   N.lor (N.lor (N.lor (N.lor (N.lor LETTER MARK) NUMBER) PUNCTUATION) SYMBOL) SEPARATOR].
Definition same_masks (k l : N) : bool := forallb (fun m => Bool.eqb (negb (N.land k m =? 0)) (negb (N.land l m =? 0))) masks.
Definition same_answers (c d : N) : bool :=
  same_masks (char_class c) (char_class d) && Bool.eqb (is_whitespace c) (is_whitespace d) && Bool.eqb (is_newline c) (is_newline d) &&
  Bool.eqb (is_hex_digit c) (is_hex_digit d).
Lemma same_answers_spec c d : same_answers c d = true -> Forall (fun p => p c = p d) caseless_predicates.
Proof.
  unfold same_answers, same_masks. rewrite !andb_true_iff, forallb_forall. intros [[[H1 H2] H3] H4].
  assert (HM : forall m, In m masks -> has_class c m = has_class d m) by (intros m Hm; unfold has_class; now apply Bool.eqb_prop, H1).
  unfold caseless_predicates. repeat (apply Forall_cons; [first [now apply Bool.eqb_prop|apply HM; cbn; tauto]|]). apply Forall_nil.
Qed.
Lemma lower_answers c : Forall (fun p => p c = p (simple_lower c)) caseless_predicates.
Proof.
  unfold simple_lower. apply (mapped_ind (fun c d => Forall (fun p => p c = p d) caseless_predicates) (fun p => same_answers (fst p) (snd p))).
  - vm_cast_no_check (eq_refl true).
  - intros p Hp. now apply same_answers_spec.
  - apply Forall_forall. reflexivity.
Qed.
Lemma upper_answers c : c <> 0x345 -> Forall (fun p => p c = p (simple_upper c)) caseless_predicates.
Proof.
  unfold simple_upper. apply (mapped_ind (fun c d => c <> 0x345 -> Forall (fun p => p c = p d) caseless_predicates) (fun p => same_answers (fst p) (snd p) || (fst p =? 0x345))).
  - vm_cast_no_check (eq_refl true).
  - intros p Hp HN. apply Bool.orb_prop in Hp as [Hp|Hp]; [now apply same_answers_spec|lia].
  - intros _. apply Forall_forall. reflexivity.
Qed.
Lemma title_answers c : c <> 0x345 -> Forall (fun p => p c = p (simple_title c)) caseless_predicates.
Proof.
  unfold simple_title. apply (mapped_ind (fun c d => c <> 0x345 -> Forall (fun p => p c = p d) caseless_predicates) (fun p => same_answers (fst p) (snd p) || (fst p =? 0x345))).
  - vm_cast_no_check (eq_refl true).
  - intros p Hp HN. apply Bool.orb_prop in Hp as [Hp|Hp]; [now apply same_answers_spec|lia].
  - intros _. apply Forall_forall. reflexivity.
Qed.
(** What conversion does to upper and lower case letters. *)
Lemma upper_case c : (is_upper c = true -> simple_upper c = c) /\ (is_lower (simple_upper c) = true -> simple_upper c = c).
Proof.
  unfold simple_upper. apply (mapped_ind (fun c d => (is_upper c = true -> d = c) /\ (is_lower d = true -> d = c)) (fun p => negb (is_upper (fst p)) && negb (is_lower (snd p)))).
  - vm_cast_no_check (eq_refl true).
  - intros p Hp. apply andb_true_iff in Hp as [H1 H2]. apply Bool.negb_true_iff in H1, H2. split; congruence.
  - auto.
Qed.
Lemma lower_case c : (is_lower c = true -> simple_lower c = c) /\ (is_upper (simple_lower c) = true -> simple_lower c = c).
Proof.
  unfold simple_lower. apply (mapped_ind (fun c d => (is_lower c = true -> d = c) /\ (is_upper d = true -> d = c)) (fun p => negb (is_lower (fst p)) && negb (is_upper (snd p)))).
  - vm_cast_no_check (eq_refl true).
  - intros p Hp. apply andb_true_iff in Hp as [H1 H2]. apply Bool.negb_true_iff in H1, H2. split; congruence.
  - auto.
Qed.
Lemma lower_upper_case c : is_upper c = true -> simple_lower c = c \/ is_lower (simple_lower c) = true.
Proof.
  unfold simple_lower. apply (mapped_ind (fun c d => is_upper c = true -> d = c \/ is_lower d = true) (fun p => negb (is_upper (fst p)) || is_lower (snd p))).
  - vm_cast_no_check (eq_refl true).
  - intros p Hp H. rewrite H in Hp. cbn in Hp. now right.
  - now left.
Qed.
Lemma upper_lower_case c : is_lower c = true -> simple_upper c = c \/ is_cased_letter (simple_upper c) = true /\ is_lower (simple_upper c) = false.
Proof.
  unfold simple_upper. apply (mapped_ind (fun c d => is_lower c = true -> d = c \/ is_cased_letter d = true /\ is_lower d = false) (fun p => negb (is_lower (fst p)) || (is_cased_letter (snd p) && negb (is_lower (snd p))))).
  - vm_cast_no_check (eq_refl true).
  - intros p Hp H. rewrite H in Hp. cbn in Hp. apply andb_true_iff in Hp as [H1 H2]. apply Bool.negb_true_iff in H2. now right.
  - now left.
Qed.

Lemma lower_ok c : c < 0x100000000 -> to_lower c = simple_lower c.
Proof. apply to_lower_spec. Qed.
Lemma upper_ok c : c < 0x100000000 -> to_upper c = simple_upper c.
Proof. apply to_upper_spec. Qed.
Lemma p_c137_predicates c : c < 0x100000000 ->
  Forall (fun p => p (to_lower c) = p c) caseless_predicates /\
  (c <> 0x345 -> Forall (fun p => p (to_upper c) = p c) caseless_predicates /\ Forall (fun p => p (to_title c) = p c) caseless_predicates).
Proof.
  intros H. rewrite (to_lower_spec c H), (to_upper_spec c H), (to_title_spec c H).
  split; [|intros Hn; split].
  - generalize (lower_answers c). apply Forall_impl. auto.
  - generalize (upper_answers c Hn). apply Forall_impl. auto.
  - generalize (title_answers c Hn). apply Forall_impl. auto.
Qed.
Lemma p_c137_case c : c < 0x100000000 ->
  (is_upper c = true -> to_upper c = c /\ (to_lower c = c \/ is_lower (to_lower c) = true)) /\
  (is_lower c = true -> to_lower c = c /\ (to_upper c = c \/ is_cased_letter (to_upper c) = true /\ is_lower (to_upper c) = false)) /\
  (is_lower (to_upper c) = true -> to_upper c = c) /\ (is_upper (to_lower c) = true -> to_lower c = c).
Proof.
  intros H. rewrite (to_lower_spec c H), (to_upper_spec c H).
  split; [|split; [|split]].
  - intros U. split; [now apply (proj1 (upper_case c))|now apply lower_upper_case].
  - intros L. split; [now apply (proj1 (lower_case c))|now apply upper_lower_case].
  - exact (proj2 (upper_case c)).
  - exact (proj2 (lower_case c)).
Qed.

(** *** Strings *)
Lemma to_lower_inv s r : to_lower_str s = Ok r -> exists cs, Text s cs /\ inrange cs /\ Encoded r (lower_cps cs).
Proof.
  intros H. destruct (Text_dec s) as [[cs HT]|HN].
  - destruct (inrange_dec cs) as [HR|HE].
    + destruct (to_lower_str_ok s cs HT HR) as (r' & E & He). rewrite E in H. injection H as ->. eauto.
    + exfalso. destruct (case_all_bad s) as [E _]; [|congruence]. intros cs' HT'. rewrite (Text_fun _ _ _ HT' HT). exact HE.
  - exfalso. destruct (case_all_bad s) as [E _]; [|congruence]. intros cs HT. destruct (HN cs HT).
Qed.
Lemma to_upper_inv s r : to_upper_str s = Ok r -> exists cs, Text s cs /\ inrange cs /\ Encoded r (upper_cps cs).
Proof.
  intros H. destruct (Text_dec s) as [[cs HT]|HN].
  - destruct (inrange_dec cs) as [HR|HE].
    + destruct (to_upper_str_ok s cs HT HR) as (r' & E & He). rewrite E in H. injection H as ->. eauto.
    + exfalso. destruct (case_all_bad s) as (_ & E & _); [|congruence]. intros cs' HT'. rewrite (Text_fun _ _ _ HT' HT). exact HE.
  - exfalso. destruct (case_all_bad s) as (_ & E & _); [|congruence]. intros cs HT. destruct (HN cs HT).
Qed.
Lemma p_c137_lower_unchanged s : to_lower_str s = Ok s <-> exists cs, Encoded s cs /\ Forall (fun c => c <= 0x10FFFF /\ to_lower c = c) cs.
Proof.
  split.
  - intros H. destruct (to_lower_inv s s H) as (cs & HT & HR & HE).
    assert (E : lower_cps cs = cs) by (apply (Text_fun s); [apply Encoded_Text; [exact HE|now apply lower_cps_range]|exact HT]).
    rewrite E in HE. exists cs. split; [exact HE|]. clear - HR E. induction HR as [|c cs Hc HR IH]; [constructor|].
    unfold lower_cps in E. cbn [map] in E. injection E as E1 E2. cbv beta in Hc. constructor; [|now apply IH]. split; [exact Hc|]. rewrite lower_ok by lia. exact E1.
  - intros (cs & HE & HF). assert (HR : inrange cs) by (revert HF; apply Forall_impl; tauto).
    destruct (to_lower_str_ok s cs (Encoded_Text _ _ HE HR) HR) as (r & E & He). rewrite E. f_equal.
    replace (lower_cps cs) with cs in He; [eapply Encoded_fun; eauto|].
    symmetry. unfold lower_cps. transitivity (map (fun c => c) cs); [|apply map_id]. apply map_ext_in. intros c Hc.
    rewrite Forall_forall in HF. destruct (HF c Hc) as [H1 H2]. rewrite lower_ok in H2 by lia. exact H2.
Qed.
Lemma upper_fixed cs : upper_cps cs = cs -> Forall (fun c => simple_upper c = c /\ c <> 0xDF) cs.
Proof.
  intros E. assert (HN : ~ In 0xDF cs).
  { intros HI. destruct (upper_cps_length cs) as [_ H]. specialize (H HI). rewrite E in H. lia. }
  induction cs as [|c cs IH]; [constructor|].
  assert (Hc : c <> 0xDF) by (intros ->; apply HN; now left).
  unfold upper_cps in E. cbn [flat_map] in E. rewrite (proj2 (N.eqb_neq _ _) Hc) in E. cbn [app] in E. injection E as E1 E2.
  constructor; [auto|]. apply IH; [exact E2|]. intros HI. apply HN. now right.
Qed.
Lemma fixed_upper cs : Forall (fun c => simple_upper c = c /\ c <> 0xDF) cs -> upper_cps cs = cs.
Proof.
  induction 1 as [|c cs [H1 H2] HF IH]; [reflexivity|]. unfold upper_cps. cbn [flat_map]. rewrite (proj2 (N.eqb_neq _ _) H2). cbn [app]. rewrite H1. now f_equal.
Qed.
Lemma p_c137_upper_unchanged s : to_upper_str s = Ok s <-> exists cs, Encoded s cs /\ Forall (fun c => c <= 0x10FFFF /\ to_upper c = c /\ c <> 0xDF) cs.
Proof.
  split.
  - intros H. destruct (to_upper_inv s s H) as (cs & HT & HR & HE).
    assert (E : upper_cps cs = cs) by (apply (Text_fun s); [apply Encoded_Text; [exact HE|now apply upper_cps_range]|exact HT]).
    rewrite E in HE. exists cs. split; [exact HE|]. apply upper_fixed in E. apply Forall_forall. intros c Hc. rewrite Forall_forall in HR, E.
    specialize (HR c Hc). cbv beta in HR. destruct (E c Hc) as [E1 E2]. split; [exact HR|]. split; [rewrite upper_ok by lia; exact E1|exact E2].
  - intros (cs & HE & HF). assert (HR : inrange cs) by (revert HF; apply Forall_impl; tauto).
    destruct (to_upper_str_ok s cs (Encoded_Text _ _ HE HR) HR) as (r & E & He). rewrite E. f_equal.
    rewrite fixed_upper in He; [eapply Encoded_fun; eauto|]. revert HF. apply Forall_impl. intros c (H1 & H2 & H3). rewrite upper_ok in H2 by lia. auto.
Qed.
Lemma p_c137_no_lower s r : to_upper_str s = Ok r -> exists ds, Text r ds /\ Forall (fun d => is_lower d = true -> to_upper d = d /\ d <> 0xDF) ds.
Proof.
  intros H. apply to_upper_twice in H. apply p_c137_upper_unchanged in H as (ds & HE & HF). exists ds.
  split; [apply Encoded_Text; [exact HE|revert HF; apply Forall_impl; tauto]|]. revert HF. apply Forall_impl. tauto.
Qed.
Lemma p_c137_no_upper s r : to_lower_str s = Ok r -> exists ds, Text r ds /\ Forall (fun d => is_upper d = true -> to_lower d = d) ds.
Proof.
  intros H. apply to_lower_twice in H. apply p_c137_lower_unchanged in H as (ds & HE & HF). exists ds.
  split; [apply Encoded_Text; [exact HE|revert HF; apply Forall_impl; tauto]|]. revert HF. apply Forall_impl. tauto.
Qed.
Lemma p_c137_lower_positions s cs r : Text s cs -> to_lower_str s = Ok r ->
  exists ds, Text r ds /\ Forall (fun p => map p ds = map p cs) caseless_predicates.
Proof.
  intros HT H. destruct (to_lower_inv s r H) as (cs' & HT' & HR & HE). rewrite <- (Text_fun _ _ _ HT HT') in *. exists (lower_cps cs).
  split; [apply Encoded_Text; [exact HE|now apply lower_cps_range]|]. apply Forall_forall. intros p Hp.
  unfold lower_cps. rewrite map_map. apply map_ext. intros c. symmetry. generalize (lower_answers c). rewrite Forall_forall. auto.
Qed.
Lemma p_c137_upper_positions s cs r : Text s cs -> to_upper_str s = Ok r -> ~ In 0xDF cs -> ~ In 0x345 cs ->
  exists ds, Text r ds /\ Forall (fun p => map p ds = map p cs) caseless_predicates.
Proof.
  intros HT H N1 N2. destruct (to_upper_inv s r H) as (cs' & HT' & HR & HE). rewrite <- (Text_fun _ _ _ HT HT') in *. exists (upper_cps cs).
  split; [apply Encoded_Text; [exact HE|now apply upper_cps_range]|]. apply Forall_forall. intros p Hp.
  clear - N1 N2 Hp. induction cs as [|c cs IH]; [reflexivity|].
  assert (Hc : c <> 0xDF) by (intros ->; apply N1; now left). assert (Hd : c <> 0x345) by (intros ->; apply N2; now left).
  unfold upper_cps. cbn [flat_map]. rewrite (proj2 (N.eqb_neq _ _) Hc). cbn [app map]. f_equal.
  - symmetry. generalize (upper_answers c Hd). rewrite Forall_forall. auto.
  - apply IH; intros HI; [apply N1|apply N2]; now right.
Qed.
