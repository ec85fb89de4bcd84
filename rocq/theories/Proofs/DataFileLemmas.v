(** C119: reading the data file *)
From Coq Require Import String.
From Verif Require Import Base Spec.Category Spec.Escape Spec.DataFile Spec.Template Model.PyText Model.GenFiles Proofs.NumeralLemmas Proofs.CodegenLemmas.
From Coq Require Import ZifyBool ZifyNat ZifyN.
Local Notation "'#' s" := (list_byte_of_string s%string) (at level 5, only parsing).

(** ** Lines *)
Lemma eqb_no c d : c <> d -> byte_eqb c d = false.
Proof. apply byte_eqb_false. Qed.
Lemma newlines_plain f t : ~ In x0d f -> py_newlines (f ++ t) = f ++ py_newlines t.
Proof.
  induction f as [|c f IH]; intros H; [reflexivity|]. cbn [app py_newlines]. rewrite eqb_no by (intros ->; apply H; now left).
  rewrite IH; [reflexivity|]. intros Hi. apply H. now right.
Qed.
Lemma lines_of_plain f t : ~ In x0a f -> py_lines_of (f ++ x0a :: t) = (f ++ [x0a]) :: py_lines_of t.
Proof.
  induction f as [|c f IH]; intros H; [reflexivity|]. cbn [app py_lines_of]. rewrite eqb_no by (intros ->; apply H; now left).
  rewrite IH; [reflexivity|]. intros Hi. apply H. now right.
Qed.
Lemma lines_of_last f : ~ In x0a f -> f <> [] -> py_lines_of f = [f].
Proof.
  induction f as [|c f IH]; intros H HN; [congruence|]. cbn [py_lines_of]. rewrite eqb_no by (intros ->; apply H; now left).
  destruct f as [|d f]; [reflexivity|]. rewrite IH; [reflexivity| |discriminate]. intros Hi. apply H. now right.
Qed.
Lemma semicolons_absent c fs : c <> x3b -> Forall (fun f => ~ In c f) fs -> ~ In c (with_semicolons fs).
Proof.
  intros Hc HF. induction HF as [|f fs Hf HF IH]; [intros []|]. destruct fs as [|g fs]; [exact Hf|].
  change (with_semicolons (f :: g :: fs)) with (f ++ x3b :: with_semicolons (g :: fs)). rewrite in_app_iff. intros [H|[H|H]]; [contradiction|congruence|contradiction].
Qed.
Lemma semicolons_nonempty fs : length fs = 15%nat -> with_semicolons fs <> [].
Proof.
  destruct fs as [|f [|g fs]]; intros H E; try discriminate. change (f ++ x3b :: with_semicolons (g :: fs) = []) in E. apply app_eq_nil in E as [_ E]. discriminate.
Qed.
Definition line_end (e : str) : Prop := e = [x0a] \/ e = [].
Definition line_is (fs : list str) (s : str) : Prop := data_line fs /\ exists e, line_end e /\ s = with_semicolons fs ++ e.
Lemma data_lines lines t : DataText lines t -> Forall2 line_is lines (py_lines t).
Proof.
  unfold py_lines. assert (forall fs, data_line fs -> ~ In x0a (with_semicolons fs) /\ ~ In x0d (with_semicolons fs)) as K.
  { intros fs [_ HF]. split; apply semicolons_absent; try discriminate; revert HF; apply Forall_impl; tauto. }
  induction 1 as [|fs lines t HL HD IH|fs lines t HL HD IH|fs HL]; [constructor| | |]; destruct (K fs HL) as [K1 K2].
  - rewrite newlines_plain by exact K2. change (py_newlines ([x0a] ++ t)) with (x0a :: py_newlines t). rewrite lines_of_plain by exact K1.
    constructor; [|exact IH]. split; [exact HL|]. exists [x0a]. split; [now left|reflexivity].
  - rewrite newlines_plain by exact K2. change (py_newlines ([x0d; x0a] ++ t)) with (x0a :: py_newlines t). rewrite lines_of_plain by exact K1.
    constructor; [|exact IH]. split; [exact HL|]. exists [x0a]. split; [now left|reflexivity].
  - rewrite <- (app_nil_r (with_semicolons fs)), newlines_plain by exact K2. cbn [py_newlines]. rewrite app_nil_r.
    rewrite lines_of_last; [|exact K1|apply semicolons_nonempty, HL]. constructor; [|constructor]. split; [exact HL|]. exists []. split; [now right|now rewrite app_nil_r].
Qed.

(** ** Fields *)
Lemma split_cons c f r : ~ In c f -> py_split c (f ++ c :: r) = f :: py_split c r.
Proof.
  induction f as [|d f IH]; intros H; cbn [app py_split].
  - now rewrite (proj2 (byte_eqb_true c c) eq_refl).
  - rewrite eqb_no by (intros ->; apply H; now left). rewrite IH; [reflexivity|]. intros Hi. apply H. now right.
Qed.
Lemma split_one c f : ~ In c f -> py_split c f = [f].
Proof.
  induction f as [|d f IH]; intros H; cbn [py_split]; [reflexivity|]. rewrite eqb_no by (intros ->; apply H; now left).
  rewrite IH; [reflexivity|]. intros Hi. apply H. now right.
Qed.
Lemma split_fields gs g : Forall (fun f => ~ In x3b f) gs -> ~ In x3b g -> py_split x3b (with_semicolons (gs ++ [g])) = gs ++ [g].
Proof.
  intros HF Hg. induction HF as [|f gs Hf HF IH]; [now apply split_one|]. cbn [app].
  destruct (gs ++ [g]) as [|h r] eqn:E; [now destruct gs|]. change (with_semicolons (f :: h :: r)) with (f ++ x3b :: with_semicolons (h :: r)).
  now rewrite split_cons, IH by exact Hf.
Qed.
Lemma semicolons_snoc gs g e : with_semicolons (gs ++ [g]) ++ e = with_semicolons (gs ++ [g ++ e]).
Proof.
  induction gs as [|f gs IH]; [reflexivity|]. cbn [app].
  destruct (gs ++ [g]) as [|h r] eqn:E; [now destruct gs|]. destruct (gs ++ [g ++ e]) as [|h' r'] eqn:E'; [now destruct gs|].
  change (with_semicolons (f :: h :: r)) with (f ++ x3b :: with_semicolons (h :: r)). change (with_semicolons (f :: h' :: r')) with (f ++ x3b :: with_semicolons (h' :: r')).
  now rewrite <- app_assoc, <- IH.
Qed.
Lemma fields_of fs e : data_line fs -> line_end e ->
  exists gs g, fs = gs ++ [g] /\ length gs = 14%nat /\ Forall (fun f => ~ In x3b f /\ ~ In x0a f /\ ~ In x0d f) (gs ++ [g]) /\ py_split x3b (with_semicolons fs ++ e) = gs ++ [g ++ e].
Proof.
  intros [HL HF] He. destruct (exists_last (l := fs)) as (gs & g & ->); [now destruct fs|]. exists gs, g. split; [reflexivity|].
  rewrite app_length in HL. cbn in HL. split; [lia|]. split; [exact HF|].
  rewrite semicolons_snoc. apply Forall_app in HF as [HF Hg]. apply Forall_inv in Hg. apply split_fields.
  - revert HF. apply Forall_impl. tauto.
  - rewrite in_app_iff. destruct He as [-> | ->]; cbn; intuition discriminate.
Qed.
Lemma field_before gs g h i f : length gs = 14%nat -> (i < 14)%nat -> field (gs ++ [g]) i f -> nth_error (gs ++ [h]) i = Some f.
Proof. unfold field. intros HL Hi. rewrite !nth_error_app1 by lia. auto. Qed.
Lemma field_end gs g h f : length gs = 14%nat -> field (gs ++ [g]) 14 f -> f = g /\ nth_error (gs ++ [h]) 14 = Some h.
Proof. unfold field. intros HL. rewrite !nth_error_app2 by lia. rewrite HL. cbn. intros E. split; [congruence|reflexivity]. Qed.

(** ** Numbers *)
Lemma hex_not_space c d : hex_digit c d -> py_space c = false.
Proof. unfold hex_digit, py_space. lia. Qed.
Lemma py_digit c d : hex_digit c d -> py_hex_digit c = Some d.
Proof.
  unfold hex_digit, py_hex_digit. intros H. destruct ((0x30 <=? u8 c) && (u8 c <=? 0x39)) eqn:E1; [f_equal; lia|].
  destruct ((0x41 <=? u8 c) && (u8 c <=? 0x46)) eqn:E2; [f_equal; lia|]. destruct ((0x61 <=? u8 c) && (u8 c <=? 0x66)) eqn:E3; [f_equal; lia|]. lia.
Qed.
Lemma hex_loop_app a b v : py_hex_loop (a ++ b) v = match py_hex_loop a v with Some w => py_hex_loop b w | None => None end.
Proof. revert v. induction a as [|c a IH]; intros v; cbn; [reflexivity|]. destruct (py_hex_digit c); [apply IH|reflexivity]. Qed.
Lemma hex_loop_hex ds n : Hex ds n -> py_hex_loop ds 0 = Some n.
Proof.
  induction 1 as [|ds v c d H IH Hc]; [reflexivity|]. rewrite hex_loop_app, IH. cbn. now rewrite (py_digit c d Hc).
Qed.
Lemma lstrip_none c s : py_space c = false -> py_lstrip (c :: s) = c :: s.
Proof. intros H. cbn. now rewrite H. Qed.
Lemma rstrip_none s c : py_space c = false -> py_rstrip (s ++ [c]) = s ++ [c].
Proof. intros H. unfold py_rstrip. rewrite rev_app_distr. cbn [rev app]. rewrite lstrip_none by exact H. cbn [rev]. now rewrite rev_involutive. Qed.
Lemma rstrip_end s : py_rstrip (s ++ [x0a]) = py_rstrip s.
Proof. unfold py_rstrip. now rewrite rev_app_distr. Qed.
Lemma rstrip_line s e : line_end e -> py_rstrip (s ++ e) = py_rstrip s.
Proof. intros [-> | ->]; [apply rstrip_end|now rewrite app_nil_r]. Qed.
Lemma hex_digits_all ds n : Hex ds n -> Forall (fun c => exists d, hex_digit c d) ds.
Proof. apply num_forall. Qed.
Lemma rstrip_hex ds n : Hex ds n -> py_rstrip ds = ds.
Proof.
  intros H. apply hex_digits_all in H. destruct ds as [|c ds _] using rev_ind; [reflexivity|]. apply Forall_app in H as [_ H]. apply Forall_inv in H as [d H].
  apply rstrip_none. now apply (hex_not_space c d).
Qed.
Lemma lstrip_hex ds n t : Hex ds n -> ds <> [] -> py_lstrip (ds ++ t) = ds ++ t.
Proof.
  intros H HN. apply hex_digits_all in H. destruct ds as [|c ds]; [congruence|]. apply Forall_inv in H as [d H]. apply lstrip_none. now apply (hex_not_space c d).
Qed.
Lemma strip_code f n e : code f n -> line_end e -> py_strip (f ++ e) = f.
Proof. intros [HN H] He. unfold py_strip. rewrite (lstrip_hex f n e H HN), rstrip_line by exact He. now apply (rstrip_hex f n). Qed.
Lemma int16_code f n : code f n -> py_int16 f = Some n.
Proof.
  intros H. unfold py_int16. pose proof (strip_code f n [] H (or_intror eq_refl)) as E. rewrite app_nil_r in E. rewrite E.
  destruct H as [HN H]. destruct f; [congruence|]. now apply hex_loop_hex.
Qed.

(** ** The three scripts *)
Lemma class_of_category k : class_of_name (category_name k) = Some k.
Proof. destruct k; reflexivity. Qed.
Lemma class_row_ok fs s row : line_is fs s -> class_line fs row -> class_row s = Some row.
Proof.
  intros [HD (e & He & ->)] (f & H0 & Hc & H2). destruct (fields_of fs e HD He) as (gs & g & -> & HL & _ & E). unfold class_row. rewrite E.
  unfold py_nth. rewrite (field_before gs g _ 2 _ HL) by (lia || exact H2). rewrite (field_before gs g _ 0 _ HL) by (lia || exact H0).
  rewrite class_of_category, (int16_code f _ Hc). now destruct row.
Qed.
Lemma class_rows_ok lines t rows : DataText lines t -> Forall2 class_line lines rows -> class_rows t = Some rows.
Proof.
  intros HD HF. apply data_lines in HD. unfold class_rows. revert rows HF. induction HD as [|fs s lines ss HL HD IH]; intros rows HF; inversion_clear HF as [|? row ? rs Hr HF']; [reflexivity|].
  cbn [collect]. rewrite (class_row_ok fs s row HL Hr), (IH rs HF'). reflexivity.
Qed.
Lemma collect_says {A} (f : str -> option (option A)) (says : list str -> option A -> Prop) :
  (forall fs s o, line_is fs s -> says fs o -> f s = Some o) -> forall lines t rows, DataText lines t -> Says says lines rows ->
  match collect f (py_lines t) with None => None | Some l => Some (present l) end = Some rows.
Proof.
  intros Hf lines t rows HD HS. apply data_lines in HD. revert rows HS. induction HD as [|fs s lines ss HL HD IH]; intros rows HS.
  - inversion_clear HS. reflexivity.
  - inversion_clear HS as [|? ? ? HN HS'|? ? x rs HX HS']; cbn [collect].
    + rewrite (Hf fs s _ HL HN). specialize (IH rows HS'). destruct (collect f ss); [|discriminate]. exact IH.
    + rewrite (Hf fs s _ HL HX). specialize (IH rs HS'). destruct (collect f ss); [|discriminate]. cbn [present]. congruence.
Qed.
Lemma nth_back {A} (l : list A) i j : length l = 15%nat -> (i + j = 15)%nat -> (1 <= j)%nat -> py_nth_back l j = nth_error l i.
Proof. intros HL HI HJ. unfold py_nth_back. rewrite HL. destruct (j <=? 15)%nat eqn:E; [f_equal; lia|]. apply Nat.leb_gt in E. lia. Qed.
Lemma field_case gs g e i f : length gs = 14%nat -> (i < 15)%nat -> line_end e -> field (gs ++ [g]) i f ->
  exists e', line_end e' /\ nth_error (gs ++ [g ++ e]) i = Some (f ++ e').
Proof.
  intros HL Hi He H. destruct (Nat.eq_dec i 14) as [-> |Hn].
  - destruct (field_end gs g (g ++ e) f HL H) as [-> E]. exists e. auto.
  - exists []. split; [now right|]. rewrite app_nil_r. apply (field_before gs g (g ++ e) i f HL); [lia|exact H].
Qed.
Lemma case_row_ok i j fs s o : (i + j = 15)%nat -> (1 <= j)%nat -> (1 <= i)%nat -> line_is fs s -> case_line i fs o -> case_row j s = Some o.
Proof.
  intros Hij Hj Hi [HD (e & He & ->)] HC. destruct (fields_of fs e HD He) as (gs & g & -> & HL & _ & E). unfold case_row. rewrite E.
  rewrite (nth_back _ i j) by (rewrite ?app_length; cbn; lia). destruct HC as [H|f h c d H0 Hc Hi' Hd].
  - destruct (field_case gs g e i [] HL) as (e' & He' & ->); [lia|exact He|exact H|]. destruct He' as [-> | ->]; reflexivity.
  - destruct (field_case gs g e i h HL) as (e' & He' & ->); [lia|exact He|exact Hi'|]. rewrite (strip_code h d e' Hd He').
    destruct h as [|x h]; [now destruct Hd|]. unfold py_nth. rewrite (field_before gs g _ 0 f HL) by (lia || exact H0).
    now rewrite (int16_code _ _ Hd), (int16_code _ _ Hc).
Qed.
Lemma case_rows_ok i j lines t rows : (i + j = 15)%nat -> (1 <= j)%nat -> (1 <= i)%nat -> DataText lines t -> Says (case_line i) lines rows -> case_rows j t = Some rows.
Proof. intros Hij Hj Hi. apply collect_says. intros fs s o. now apply case_row_ok. Qed.

Lemma words_skip n r : py_words_loop (repeat x20 n ++ r) [] = py_words_loop r [].
Proof. induction n as [|n IH]; [reflexivity|]. exact IH. Qed.
Lemma words_word f r w : Forall (fun c => py_space c = false) f -> py_words_loop (f ++ r) w = py_words_loop r (rev f ++ w).
Proof. intros HF. revert w. induction HF as [|c f Hc HF IH]; intros w; [reflexivity|]. cbn [app py_words_loop rev]. rewrite Hc, IH. now rewrite <- app_assoc. Qed.
Lemma code_no_space f c : code f c -> Forall (fun x => py_space x = false) f.
Proof. intros [_ H]. apply hex_digits_all in H. revert H. apply Forall_impl. intros x [d Hd]. exact (hex_not_space x d Hd). Qed.
Lemma words_codes g cs : codes g cs -> collect py_int16 (py_words g) = Some cs.
Proof.
  induction 1 as [f c Hc|f c n g cs Hc Hg IH]; unfold py_words.
  - rewrite <- (app_nil_r f), words_word by exact (code_no_space f c Hc). rewrite app_nil_r. cbn [py_words_loop].
    assert (rev f <> []) as HN by (destruct Hc as [HN _]; intros E; apply HN; rewrite <- (rev_involutive f), E; reflexivity).
    destruct (rev f) as [|x w] eqn:Ew; [congruence|]. rewrite <- Ew, rev_involutive. cbn [collect]. now rewrite (int16_code f c Hc).
  - rewrite words_word by exact (code_no_space f c Hc). rewrite app_nil_r. cbn [repeat app py_words_loop]. change (py_space x20) with true.
    assert (rev f <> []) as HN by (destruct Hc as [HN _]; intros E; apply HN; rewrite <- (rev_involutive f), E; reflexivity).
    destruct (rev f) as [|x w] eqn:Ew; [congruence|]. rewrite <- Ew, rev_involutive, words_skip. cbn [collect]. rewrite (int16_code f c Hc).
    unfold py_words in IH. now rewrite IH.
Qed.
Lemma codes_start g cs : codes g cs -> exists c g' d, g = c :: g' /\ hex_digit c d.
Proof.
  assert (forall f c r, code f c -> exists x g' d, f ++ r = x :: g' /\ hex_digit x d) as K.
  { intros f c r [HN H]. apply hex_digits_all in H. destruct f as [|x f]; [congruence|]. apply Forall_inv in H as [d H]. exists x, (f ++ r), d. auto. }
  destruct 1 as [f c Hc|f c n g cs Hc Hg]; [|now apply (K f c)]. rewrite <- (app_nil_r f). now apply (K f c).
Qed.
Lemma rstrip_app a c b : py_space c = false -> py_rstrip (a ++ c :: b) = a ++ c :: py_rstrip b.
Proof.
  intros Hc. unfold py_rstrip. rewrite rev_app_distr. cbn [rev]. rewrite <- app_assoc.
  assert (forall l t, py_lstrip (l ++ c :: t) = py_lstrip l ++ c :: t) as K.
  { induction l as [|x l IH]; intros t; cbn; [now rewrite Hc|]. destruct (py_space x); [apply IH|reflexivity]. }
  cbn [app]. rewrite K, rev_app_distr. cbn [rev]. rewrite rev_involutive, <- app_assoc. reflexivity.
Qed.
Lemma semicolons_join gs g : gs <> [] -> with_semicolons (gs ++ [g]) = with_semicolons gs ++ x3b :: g.
Proof.
  induction gs as [|f gs IH]; [congruence|]. intros _. destruct gs as [|h gs]; [reflexivity|].
  change (with_semicolons ((f :: h :: gs) ++ [g])) with (f ++ x3b :: with_semicolons ((h :: gs) ++ [g])). rewrite IH by discriminate.
  change (with_semicolons (f :: h :: gs)) with (f ++ x3b :: with_semicolons (h :: gs)). now rewrite <- app_assoc.
Qed.
Lemma rule_line gs g e f c : length gs = 14%nat -> Forall (fun f => ~ In x3b f /\ ~ In x0a f /\ ~ In x0d f) (gs ++ [g]) -> line_end e ->
  field (gs ++ [g]) 0 f -> code f c -> exists x t h, py_strip (with_semicolons (gs ++ [g]) ++ e) = x :: t /\ py_split x3b (x :: t) = gs ++ [h].
Proof.
  intros HL HF He H0 Hc. apply Forall_app in HF as [HF Hg]. apply Forall_inv in Hg.
  assert (exists gs', gs = f :: gs' /\ gs' <> []) as (gs' & -> & HN).
  { destruct gs as [|f' [|f2 gs]]; try discriminate. cbn in H0. unfold field in H0. cbn in H0. injection H0 as ->. eexists. split; [reflexivity|discriminate]. }
  assert (py_lstrip (with_semicolons ((f :: gs') ++ [g]) ++ e) = with_semicolons ((f :: gs') ++ [g]) ++ e) as E1.
  { destruct gs' as [|f2 gs']; [congruence|]. change (with_semicolons ((f :: f2 :: gs') ++ [g])) with (f ++ x3b :: with_semicolons ((f2 :: gs') ++ [g])).
    rewrite <- app_assoc. destruct Hc as [Hn Hc]. now apply (lstrip_hex f c). }
  assert (py_strip (with_semicolons ((f :: gs') ++ [g]) ++ e) = with_semicolons ((f :: gs') ++ [py_rstrip g])) as E2.
  { unfold py_strip. rewrite E1, rstrip_line by exact He. rewrite !semicolons_join by discriminate. now rewrite rstrip_app by reflexivity. }
  destruct (with_semicolons ((f :: gs') ++ [py_rstrip g])) as [|x t] eqn:Et.
  - rewrite semicolons_join in Et by discriminate. now apply app_eq_nil in Et as [_ Et].
  - exists x, t, (py_rstrip g). split; [exact E2|]. rewrite <- Et. apply split_fields.
    + revert HF. apply Forall_impl. tauto.
    + destruct (rstrip_spec g) as (w & Eg & _). intros Hi. apply (proj1 Hg). rewrite Eg. apply in_or_app. left. exact Hi.
Qed.
Lemma rule_row_ok fs s o : line_is fs s -> pair_line fs o -> rule_row s = Some o.
Proof.
  intros [HD (e & He & ->)] HP. destruct (fields_of fs e HD He) as (gs & g & -> & HL & HF & _).
  assert (exists f c, field (gs ++ [g]) 0 f /\ code f c) as (f0 & c0 & H00 & Hc0) by (destruct HP; eauto).
  destruct (rule_line gs g e f0 c0 HL HF He H00 Hc0) as (x & t & h & E1 & E2). unfold rule_row.
  match goal with |- context [py_strip ?a] => replace (py_strip a) with (x :: t) by (symmetry; exact E1) end. rewrite E2. unfold py_nth.
  assert (nth_error (gs ++ [h]) 0 = Some f0) as E0 by (apply (field_before gs g h 0 f0 HL); [lia|exact H00]).
  match goal with |- match ?a with _ => _ end = _ => assert (a = Some f0) as -> by exact E0 end. cbv iota beta. rewrite (int16_code f0 c0 Hc0). cbv iota beta.
  assert (forall v, field (gs ++ [g]) 5 v -> nth_error (gs ++ [h]) 5 = Some v) as K by (intros v Hv; apply (field_before gs g h 5 v HL); [lia|exact Hv]).
  destruct HP as [f c H0 Hc H5|f c v H0 Hc H5|f c v cs H0 Hc H5 Hcs Hn|f c v a b H0 Hc H5 Hcs]; apply K in H5;
    match goal with |- match ?a with _ => _ end = _ => match type of H5 with _ = ?r => assert (a = r) as -> by exact H5 end end; cbv iota beta.
  - reflexivity.
  - reflexivity.
  - destruct (codes_start v cs Hcs) as (y & v' & d & -> & Hy). rewrite eqb_no by (intros ->; revert Hy; unfold hex_digit; change (u8 x3c) with 0x3C; lia).
    rewrite (words_codes _ _ Hcs). destruct cs as [|a [|b [|z cs]]]; try reflexivity. cbn in Hn. congruence.
  - destruct (codes_start v _ Hcs) as (y & v' & d & -> & Hy). rewrite eqb_no by (intros ->; revert Hy; unfold hex_digit; change (u8 x3c) with 0x3C; lia).
    rewrite (words_codes _ _ Hcs). assert (c0 = c) as ->; [|reflexivity]. unfold field in H00, H0. assert (f0 = f) as -> by congruence.
    destruct Hc0 as [_ Hc0], Hc as [_ Hc]. exact (Hex_fun f c0 c Hc0 Hc).
Qed.
Lemma get_rules_ok lines t rules : DataText lines t -> Says pair_line lines rules -> get_rules t = Some rules.
Proof. apply collect_says. exact rule_row_ok. Qed.
