(** C105-C108: the shipped tables are what the generators make of Unicode 16. *)
From Verif Require Import Base Spec.Category Spec.UnicodeData Spec.TableRows Model.CharClass Model.ConvertCase Model.Normalize
  Model.GenClass Model.GenCase Model.GenNorm Tables.UnicodeRows Tables.CharClassTables Tables.CaseTables Tables.NormalizationTables Tables.UnicodeDataTables
  Proofs.TableLemmas Proofs.GenClassLemmas Proofs.GenCaseLemmas Proofs.GenNormLemmas.
From Coq Require Import ZifyBool ZifyNat ZifyN.

Lemma increasing_sorted {A} (key : A -> N) l : increasing key l = true -> StronglySorted (fun a b => key a < key b) l.
Proof.
  intros H. apply Sorted_StronglySorted; [intros x y z; apply N.lt_trans|]. induction l as [|x l IH]; [constructor|]. cbn [increasing] in H.
  destruct l as [|y l]; [constructor; constructor|]. apply andb_true_iff in H as [H1 H2]. constructor; [now apply IH|]. constructor. now apply N.ltb_lt.
Qed.

Notation rows16 := (rows_of UD_ROW_RUNS).
Lemma rows16_increasing : increasing_rows rows16.
Proof. apply increasing_sorted. vm_compute. reflexivity. Qed.
Lemma rows16_small : Forall (fun r => fst r < 2 ^ 21) rows16.
Proof.
  apply Forall_forall. assert (forallb (fun r : N * category => fst r <? 2 ^ 21) rows16 = true) as H by (vm_compute; reflexivity).
  intros r Hr. apply N.ltb_lt. now apply (proj1 (forallb_forall _ _) H).
Qed.
Definition ascii16 := Eval vm_compute in firstn 128 rows16.
Lemma rows16_first : firstn 128 rows16 = ascii16.
Proof. vm_compute. reflexivity. Qed.
Lemma rows16_ascii c : c < 128 -> exists k, In (c, k) rows16.
Proof.
  intros Hc. assert (forallb (fun i => existsb (fun r : N * category => fst r =? i) ascii16) (map N.of_nat (seq 0 128)) = true) as H by (vm_compute; reflexivity).
  pose proof (proj1 (forallb_forall _ _) H c) as K. cbv beta in K. assert (In c (map N.of_nat (seq 0 128))) as HI.
  { apply in_map_iff. exists (N.to_nat c). split; [lia|]. apply in_seq. lia. }
  apply K in HI. apply existsb_exists in HI as ([a k] & H1 & H2). cbn [fst] in H2. apply N.eqb_eq in H2. subst a. exists k.
  rewrite <- (firstn_skipn 128 rows16). apply in_or_app. left. rewrite rows16_first. exact H1.
Qed.

Lemma p_c105_header : get_ascii_table rows16 = ASCII_CHAR_CLASSES /\ make_char_classes rows16 = Some COMPLETE_CHAR_CLASSES.
Proof. split; vm_compute; reflexivity. Qed.
Lemma get_in c : get_char_class c = get_char_class_in ASCII_CHAR_CLASSES COMPLETE_CHAR_CLASSES c.
Proof. reflexivity. Qed.
Lemma p_c105_lookup c k : c < 2 ^ 21 -> RowClass rows16 c k -> get_char_class c = Ok (2 ^ category_number k).
Proof.
  intros Hc HK. destruct (p_c105 rows16 rows16_increasing rows16_small rows16_ascii) as (table & H1 & _ & H2). destruct p_c105_header as [E1 E2].
  rewrite E2 in H1. assert (COMPLETE_CHAR_CLASSES = table) as <- by congruence. rewrite get_in, <- E1. now apply H2.
Qed.

Lemma p_c106_header : make_case_tables UD_UPPER = (COMPACT_UPPER_CASE, UPPER_CASE) /\
  make_case_tables UD_LOWER = (COMPACT_LOWER_CASE, LOWER_CASE) /\ make_case_tables UD_TITLE = (COMPACT_TITLE_CASE, TITLE_CASE).
Proof. split; [|split]; vm_compute; reflexivity. Qed.
Lemma p_c106_hyps : Forall (fun rows => increasing_rows rows /\ Forall (fun p => fst p < 2 ^ 32 /\ snd p < 2 ^ 32) rows) [UD_UPPER; UD_LOWER; UD_TITLE].
Proof.
  assert (forall rows, increasing fst rows && forallb (fun p : N * N => (fst p <? 2 ^ 32) && (snd p <? 2 ^ 32)) rows = true ->
    increasing_rows rows /\ Forall (fun p => fst p < 2 ^ 32 /\ snd p < 2 ^ 32) rows) as K.
  { intros rows H. apply andb_true_iff in H as [H1 H2]. split; [now apply increasing_sorted|]. apply Forall_forall. intros p Hp.
    pose proof (proj1 (forallb_forall _ _) H2 p Hp) as Q. cbv beta in Q. apply andb_true_iff in Q as [Q1 Q2]. split; now apply N.ltb_lt. }
  repeat apply Forall_cons; try apply Forall_nil; apply K; vm_compute; reflexivity.
Qed.

Lemma p_c107_header : make_decomposed_table_rows UD_PAIRS = TO_DECOMPOSED /\ make_composed_table_rows UD_PAIRS = TO_COMPOSED.
Proof. split; vm_compute; reflexivity. Qed.
Lemma find_in ch : find_decomposed ch = find_decomposed_in TO_DECOMPOSED ch.
Proof. reflexivity. Qed.
Lemma compose_in adjacent a b : find_composed adjacent a b = find_composed_in adjacent TO_COMPOSED a b.
Proof. reflexivity. Qed.
Lemma pairs16_small : Forall small_rule UD_PAIRS.
Proof.
  assert (forallb (fun r : N * (N * N) => (fst r <? 0x100000) && (fst (snd r) <? 0x100000) && (snd (snd r) <? 0x100000)) UD_PAIRS = true) as H by (vm_compute; reflexivity).
  apply Forall_forall. intros r Hr. pose proof (proj1 (forallb_forall _ _) H r Hr) as K. cbv beta in K. unfold small_rule. clear H. lia.
Qed.
Lemma pairs16_distinct : NoDup (map snd UD_PAIRS).
Proof.
  assert (increasing pkey (sorted_rules UD_PAIRS) = true) as H by (vm_compute; reflexivity). apply increasing_sorted in H. apply sorted_nodup in H.
  assert (NoDup (map snd (sorted_rules UD_PAIRS))) as K.
  { assert (map pkey (sorted_rules UD_PAIRS) = map (fun p => fst p * 2 ^ 20 + snd p) (map snd (sorted_rules UD_PAIRS))) as E by (rewrite map_map; reflexivity).
    rewrite E in H. now apply NoDup_map_inv in H. }
  eapply Permutation.Permutation_NoDup; [|exact K]. apply Permutation.Permutation_map, Permutation.Permutation_sym, sorted_perm.
Qed.
Lemma pairs16_increasing : increasing_rows UD_PAIRS.
Proof. apply increasing_sorted. vm_compute. reflexivity. Qed.
Lemma pairs16_high : Forall (fun r => 0xC0 <= fst r) UD_PAIRS.
Proof.
  assert (forallb (fun r : N * (N * N) => 0xC0 <=? fst r) UD_PAIRS = true) as H by (vm_compute; reflexivity).
  apply Forall_forall. intros r Hr. apply N.leb_le. now apply (proj1 (forallb_forall _ _) H).
Qed.
Lemma p_c107_pair rules ch a b : increasing_rows rules -> Forall small_rule rules -> Forall (fun r => 0xC0 <= fst r) rules ->
  (In (ch, (a, b)) rules -> find_decomposed_in (make_decomposed_table_rows rules) ch = (a, b)) /\
  ((forall x y, ~ In (ch, (x, y)) rules) -> find_decomposed_in (make_decomposed_table_rows rules) ch = (ch, 0)).
Proof.
  intros HI HB HL. rewrite p_c107 by assumption. split; intros H.
  - pose proof (find_sorted fst rules _ HI H) as F. cbn [fst] in F. now rewrite F.
  - rewrite (find_missing fst); [reflexivity|]. intros [c [x y]] Hr E. cbn [fst] in E. subst c. exact (H x y Hr).
Qed.
Lemma p_c106_pair rows c d : increasing_rows rows -> Forall (fun p => fst p < 2 ^ 32 /\ snd p < 2 ^ 32) rows -> c < 2 ^ 32 ->
  (In (c, d) rows -> convert (fst (make_case_tables rows)) (snd (make_case_tables rows)) c = d) /\
  ((forall x, ~ In (c, x) rows) -> convert (fst (make_case_tables rows)) (snd (make_case_tables rows)) c = c).
Proof.
  intros HI HB Hc. rewrite p_c106 by assumption. unfold mapped. split; intros H.
  - pose proof (find_sorted fst rows _ HI H) as F. cbn [fst] in F. now rewrite F.
  - rewrite (find_missing fst); [reflexivity|]. intros [x y] Hr E. cbn [fst] in E. subst x. exact (H y Hr).
Qed.
Lemma p_c108_wrong : find_composed_in false (make_composed_table_rows [(0x2000, (0x1041, 0x300))]) 0x41 0x300 = Ok 0x2000 /\
  find_composed_in false (make_composed_table_rows [(0x2000, (0x1041, 0x300))]) 0x1041 0x300 = Ok 0.
Proof. split; vm_compute; reflexivity. Qed.
