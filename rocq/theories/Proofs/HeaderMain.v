(** C119 *)
From Coq Require Import String.
From Verif Require Import Base Spec.Category Spec.Escape Spec.Template Spec.CppText Spec.DataFile Spec.TableRows Spec.UnicodeData
  Model.PyText Model.Codegen Model.GenFiles Model.GenClass Model.GenCase Model.GenNorm Model.CharClass Model.ConvertCase
  Tables.HeaderTexts Tables.UnicodeRows Tables.UnicodeDataTables Tables.CharClassTables Tables.CaseTables Tables.NormalizationTables
  Proofs.NumeralLemmas Proofs.CodegenLemmas Proofs.DataFileLemmas Proofs.HeaderLemmas Proofs.HeaderProps Proofs.GenClassLemmas Proofs.GenCaseLemmas Proofs.GenNormLemmas Proofs.GenProps.
From Coq Require Import ZifyBool ZifyNat ZifyN.
Local Notation "'#' s" := (list_byte_of_string s%string) (at level 5, only parsing).

(** ** The numbers fit *)
Lemma pow2_bits a n : a < 2 ^ n <-> forall i, n <= i -> N.testbit a i = false.
Proof.
  split.
  - intros H i Hi. destruct (N.eq_dec a 0) as [-> |]; [apply N.bits_0|]. apply N.bits_above_log2. apply N.log2_lt_pow2; [lia|]. eapply N.lt_le_trans; [exact H|]. apply N.pow_le_mono_r; lia.
  - intros H. destruct (N.eq_dec a 0) as [-> |Ha]; [apply N.neq_0_lt_0, N.pow_nonzero; lia|]. apply N.log2_lt_pow2; [lia|]. destruct (N.lt_ge_cases (N.log2 a) n) as [L|L]; [exact L|].
    specialize (H _ L). now rewrite N.bit_log2 in H.
Qed.
Lemma ascii_fits rows : Forall (fun v => v < 2 ^ 8) (get_ascii_table rows).
Proof.
  induction rows as [|[c k] rows IH]; [constructor|]. cbn [get_ascii_table]. destruct (128 <=? c); [constructor|]. constructor; [|exact IH]. destruct k; reflexivity.
Qed.
Lemma best_diff_in values : let d := fst (get_most_prevalent_diff values) in d = 0%Z \/ exists p, In p values /\ diff_of p = d.
Proof.
  unfold get_most_prevalent_diff.
  assert (forall e, In e (fold_left (fun diffs p => count_diff diffs (diff_of p)) values []) -> exists p, In p values /\ diff_of p = fst e) as K1.
  { assert (forall vs acc (P : Z -> Prop), (forall e, In e acc -> P (fst e)) -> (forall p, In p vs -> P (diff_of p)) ->
      forall e, In e (fold_left (fun diffs p => count_diff diffs (diff_of p)) vs acc) -> P (fst e)) as K.
    { induction vs as [|p vs IH]; intros acc P HA HV e; [apply HA|]. cbn [fold_left]. apply IH; [|intros q Hq; apply HV; now right].
      intros e' He'. assert (e' = (fst e', snd e')) as Ee by now destruct e'. assert (fst e' = diff_of p \/ exists x, In x acc /\ fst x = fst e') as [-> |(x & Hx & <-)]; [|apply HV; now left|now apply HA].
      clear -He'. induction acc as [|[z n] acc IH]; cbn [count_diff] in He'; [destruct He' as [<-|[]]; now left|]. destruct (Z.eqb z (diff_of p)) eqn:E.
      - destruct He' as [<-|He']; [left; cbn; lia|right; exists e'; split; [now right|reflexivity]].
      - destruct He' as [<-|He']; [right; exists (z, n); split; [now left|reflexivity]|]. destruct (IH He') as [H|(x & Hx & E')]; [now left|right; exists x; split; [now right|exact E']]. }
    intros e He. apply (K values [] (fun z => exists p, In p values /\ diff_of p = z)) in He; [exact He|intros ? []|]. intros p Hp. now exists p. }
  generalize dependent (fold_left (fun diffs p => count_diff diffs (diff_of p)) values []). intros l K.
  assert (forall l (b : Z * N), (forall e, In e l -> exists p, In p values /\ diff_of p = fst e) -> (fst b = 0%Z \/ exists p, In p values /\ diff_of p = fst b) ->
    let r := fold_left (fun (best : Z * N) (e : Z * N) => if snd best <? snd e then e else best) l b in fst r = 0%Z \/ exists p, In p values /\ diff_of p = fst r) as K2.
  { clear. induction l as [|e l IH]; intros b HL HB; [exact HB|]. cbn [fold_left]. apply IH; [intros x Hx; apply HL; now right|]. destruct (snd b <? snd e); [right; apply HL; now left|exact HB]. }
  apply (K2 l (0%Z, 0) K). now left.
Qed.
Lemma diff_number_fits values : Forall (fun p : N * N => fst p < 2 ^ 32 /\ snd p < 2 ^ 32) values -> diff_number (fst (get_most_prevalent_diff values)) < 2 ^ 32.
Proof.
  intros HF. pose proof (best_diff_in values) as H. cbv zeta in H. set (d := fst (get_most_prevalent_diff values)) in *. rewrite Forall_forall in HF.
  change (2 ^ 32) with 4294967296 in *. unfold diff_number. change (2 ^ 32)%Z with 4294967296%Z. destruct H as [-> |(p & Hp & <-)]; [reflexivity|]. destruct (HF p Hp). unfold diff_of.
  destruct (Z.ltb_spec (Z.of_N (snd p) - Z.of_N (fst p)) 0); lia.
Qed.
Lemma diff_fold_fits m diff vs : Forall (fun p => fst p - m < 32) vs -> forall b n r, b < 2 ^ 32 -> n < 2 ^ 32 ->
  let '(b', n', _) := fold_left (diff_fold m diff) vs (b, n, r) in b' < 2 ^ 32 /\ n' < 2 ^ 32.
Proof.
  induction 1 as [|p vs Hp HF IH]; intros b n r Hb Hn; [split; assumption|]. cbn [fold_left]. unfold diff_fold at 2.
  assert (N.shiftl 1 (fst p - m) < 2 ^ 32) as Hs by (rewrite N.shiftl_1_l; apply N.pow_lt_mono_r; lia).
  assert (forall x y, x < 2 ^ 32 -> y < 2 ^ 32 -> N.lor x y < 2 ^ 32 /\ N.lxor x y < 2 ^ 32) as K.
  { intros x y. rewrite !pow2_bits. intros Hx Hy. split; intros i Hi; rewrite ?N.lor_spec, ?N.lxor_spec, Hx, Hy by exact Hi; reflexivity. }
  destruct (Z.eqb (diff_of p) diff); apply IH; try apply K; assumption.
Qed.
Definition fits4 (m : N * N * N * N) : Prop := let '(a, b, c, d) := m in a < 2 ^ 32 /\ b < 2 ^ 32 /\ c < 2 ^ 32 /\ d < 2 ^ 32.
Lemma case_fits rows : Forall (fun p => fst p < 2 ^ 32 /\ snd p < 2 ^ 32) rows ->
  Forall fits4 (fst (make_case_tables rows)) /\ Forall (fun p => fst p < 2 ^ 32 /\ snd p < 2 ^ 32) (snd (make_case_tables rows)).
Proof.
  intros HB. unfold make_case_tables. cbv zeta. cbn [fst snd]. destruct (group_chars_spec rows) as (G1 & G2 & G3).
  assert (forall m, Forall (fun p : N * N => (fst p < 2 ^ 32 /\ snd p < 2 ^ 32) /\ major_of p = m) (group rows m)) as HG.
  { intros m. apply Forall_forall. intros p Hp. apply filter_In in Hp as [Hp E]. rewrite Forall_forall in HB. split; [now apply HB|now apply N.eqb_eq]. }
  assert (forall m, In m (sorted_keys (group_chars rows)) -> m < 2 ^ 32) as HM.
  { intros m Hm. apply (sorted_keys_spec _ G1), G3 in Hm as (p & Hp & <-). rewrite Forall_forall in HB. destruct (HB p Hp) as [H _]. unfold major_of. lia. }
  assert (forall m, m < 2 ^ 32 -> Forall fits4 (fst (convert_group m (chars_get (group_chars rows) m))) /\
    Forall (fun p => fst p < 2 ^ 32 /\ snd p < 2 ^ 32) (snd (convert_group m (chars_get (group_chars rows) m)))) as K.
  { intros m Hm. rewrite G2. specialize (HG m). assert (Forall (fun p : N * N => fst p < 2 ^ 32 /\ snd p < 2 ^ 32) (group rows m)) as HF by (revert HG; apply Forall_impl; tauto).
    unfold convert_group. pose proof (diff_number_fits _ HF) as HD. destruct (get_most_prevalent_diff (group rows m)) as [diff count]. cbn [fst] in HD.
    destruct (2 <? count); [|split; [constructor|exact HF]]. unfold make_diff_set.
    change (fold_left _ (group rows m) (0, 0xFFFFFFFF, [])) with (fold_left (diff_fold m diff) (group rows m) (0, 0xFFFFFFFF, [])).
    pose proof (diff_fold_fits m diff (group rows m)) as H1. specialize (H1 ltac:(revert HG; apply Forall_impl; unfold major_of; intros p [_ E]; lia) 0 0xFFFFFFFF [] ltac:(reflexivity) ltac:(reflexivity)).
    assert (forall b n, incl (snd (fold_left (diff_fold m diff) (group rows m) (b, n, []))) ([] ++ group rows m)) as H2.
    { generalize (@nil (N * N)) as r. generalize (group rows m) as vs. clear. induction vs as [|p vs IH]; intros r b n; [cbn; rewrite app_nil_r; apply incl_refl|]. cbn [fold_left]. unfold diff_fold at 2.
      destruct (Z.eqb (diff_of p) diff); (eapply incl_tran; [apply IH|]).
      - intros x Hx. apply in_app_or in Hx as [Hx|Hx]; apply in_or_app; [now left|right; now right].
      - intros x Hx. rewrite <- app_assoc in Hx. exact Hx. }
    specialize (H2 0 0xFFFFFFFF). destruct (fold_left (diff_fold m diff) (group rows m) (0, 0xFFFFFFFF, [])) as [[b n] r]. cbn [fst snd] in *. destruct H1 as [Hb Hn]. split.
    - constructor; [|constructor]. unfold fits4. auto.
    - apply Forall_forall. intros p Hp. rewrite Forall_forall in HF. apply HF. now apply H2. }
  split; apply Forall_flat_map, Forall_map, Forall_forall; intros m Hm; apply K, HM, Hm.
Qed.
Lemma encode_fits x y z : x < 2 ^ 20 -> y < 2 ^ 20 -> z < 2 ^ 20 -> N.lor (N.lor (N.shiftl x 40) (N.shiftl y 20)) z < 2 ^ 64.
Proof. intros Hx Hy Hz. rewrite encode_packed by assumption. unfold packed. change (2 ^ 20) with 1048576 in *. change (2 ^ 40) with 1099511627776. change (2 ^ 64) with 18446744073709551616. lia. Qed.
Lemma norm_fits rules : Forall small_rule rules -> Forall (fun v => v < 2 ^ 64) (make_decomposed_table_rows rules) /\ Forall (fun v => v < 2 ^ 64) (make_composed_table_rows rules).
Proof.
  intros HF. unfold make_decomposed_table_rows, make_composed_table_rows. rewrite !concat_rows by discriminate. split; apply Forall_map.
  - revert HF. apply Forall_impl. intros r (H1 & H2 & H3). now apply encode_fits.
  - apply (Permutation.Permutation_Forall (sorted_perm rules)). revert HF. apply Forall_impl. intros r (H1 & H2 & H3). now apply encode_fits.
Qed.

(** ** The three scripts *)
Lemma make_class_eq year date t rows values : class_rows t = Some rows -> make_char_classes rows = Some values ->
  make_class_file year date t = printed (make_text class_template (class_dict year date (ascii_rows_loop (get_ascii_table rows) []) (table_rows 5 8 values))).
Proof. intros E1 E2. unfold make_class_file. now rewrite E1, E2. Qed.
Lemma p_c119_class year date lines t rows : date_text year -> date_text date -> DataText lines t -> Forall2 class_line lines rows ->
  increasing_rows rows -> Forall (fun r => fst r < 2 ^ 21) rows -> (forall c, c < 128 -> exists k, In (c, k) rows) ->
  exists a b ascii complete, make_class_file year date t = Some (class_header year date a b) /\
    Items literal a ascii /\ Items literal b complete /\ Forall (fun v => v < 2 ^ 8) ascii /\ Forall (fun v => v < 2 ^ 32) complete /\
    forall c k, c < 2 ^ 21 -> RowClass rows c k -> get_char_class_in ascii complete c = Ok (2 ^ category_number k).
Proof.
  intros HY HD HT HR H1 H2 H3. destruct (p_c105 rows H1 H2 H3) as (values & E & HF & HL).
  pose proof (class_rows_ok lines t rows HT HR) as ER. rewrite (make_class_eq year date t rows values ER E).
  destruct (ascii_body (get_ascii_table rows) 8) as [A1 A2]. destruct (table_body 5 8 values 8 ltac:(discriminate)) as [B1 B2].
  rewrite class_text by assumption. do 4 eexists. split; [reflexivity|]. split; [exact A2|]. split; [exact B2|]. split; [apply ascii_fits|]. split; [exact HF|exact HL].
Qed.
Definition case_field (name : str) (i : nat) : Prop := (name = #"UPPER" /\ i = 12%nat) \/ (name = #"LOWER" /\ i = 13%nat) \/ (name = #"TITLE" /\ i = 14%nat).
Lemma make_case_eq name i year date lines t rows : case_field name i -> DataText lines t -> Says (case_line i) lines rows ->
  make_case_file name year date t = printed (make_text case_template (case_dict name year date (map compact_row (fst (make_case_tables rows))) (map mapping_row (snd (make_case_tables rows))))) /\
  name <> [] /\ ~ In x0a name.
Proof.
  intros HN HT HS.
  assert (exists j, alternative_index name = Some j /\ (i + j = 15)%nat /\ (1 <= j)%nat /\ (1 <= i)%nat /\ name <> [] /\ ~ In x0a name) as (j & E1 & Hij & Hj & Hi & N1 & N2).
  { destruct HN as [[-> ->]|[[-> ->]|[-> ->]]]; eexists; (split; [reflexivity|]); repeat split; try lia; try discriminate; cbn; intuition discriminate. }
  split; [|split; [exact N1|exact N2]]. unfold make_case_file. rewrite E1, (case_rows_ok i j lines t rows) by assumption. now destruct (make_case_tables rows).
Qed.
Lemma p_c119_case name i year date lines t rows : case_field name i -> date_text year -> date_text date -> DataText lines t -> Says (case_line i) lines rows ->
  increasing_rows rows -> Forall (fun p => fst p < 2 ^ 32 /\ snd p < 2 ^ 32) rows ->
  exists a b compact single, make_case_file name year date t = Some (case_header name year date a b) /\
    Items braced4 a compact /\ Items braced2 b single /\
    Forall (fun x => let '(p, q, r, s) := x in p < 2 ^ 32 /\ q < 2 ^ 32 /\ r < 2 ^ 32 /\ s < 2 ^ 32) compact /\ Forall (fun p => fst p < 2 ^ 32 /\ snd p < 2 ^ 32) single /\
    forall c d, c < 2 ^ 32 -> (In (c, d) rows -> convert compact single c = d) /\ ((forall x, ~ In (c, x) rows) -> convert compact single c = c).
Proof.
  intros HN HY HD HT HS H1 H2. destruct (make_case_eq name i year date lines t rows HN HT HS) as (-> & N1 & N2).
  destruct (compact_body (fst (make_case_tables rows)) 8) as [A1 A2]. destruct (mapping_body (snd (make_case_tables rows)) 8) as [B1 B2]. destruct (case_fits rows H2) as [F1 F2].
  rewrite case_text by (try assumption; now right). do 4 eexists. split; [reflexivity|]. split; [exact A2|]. split; [exact B2|]. split; [exact F1|]. split; [exact F2|].
  intros c d Hc. now apply p_c106_pair.
Qed.
Lemma make_norm_eq year date lines t rules : DataText lines t -> Says pair_line lines rules ->
  make_norm_file year date t = printed (make_text norm_template (norm_dict year date (table_rows 3 16 (make_decomposed_table_rows rules)) (table_rows 3 16 (make_composed_table_rows rules)))).
Proof.
  intros HT HS. unfold make_norm_file, make_decomposed_table_rows, make_composed_table_rows. rewrite (get_rules_ok lines t rules) by assumption. now rewrite !concat_rows by discriminate.
Qed.
Lemma p_c119_norm year date lines t rules : date_text year -> date_text date -> DataText lines t -> Says pair_line lines rules ->
  increasing_rows rules -> Forall small_rule rules -> Forall (fun r => 0xC0 <= fst r) rules -> NoDup (map snd rules) ->
  exists a b decomposed composed, make_norm_file year date t = Some (norm_header year date a b) /\
    Items literal a decomposed /\ Items literal b composed /\ Forall (fun v => v < 2 ^ 64) decomposed /\ Forall (fun v => v < 2 ^ 64) composed /\
    (forall c x y, In (c, (x, y)) rules -> find_decomposed_in decomposed c = (x, y)) /\
    (forall c, (forall x y, ~ In (c, (x, y)) rules) -> find_decomposed_in decomposed c = (c, 0)) /\
    (forall c x y, In (c, (x, y)) rules -> x < 0x1000 -> 0x300 <= y -> find_composed_in false composed x y = Ok c).
Proof.
  intros HY HD HT HS H1 H2 H3 H4. rewrite (make_norm_eq year date lines t rules HT HS).
  destruct (table_body 3 16 (make_decomposed_table_rows rules) 8 ltac:(discriminate)) as [A1 A2]. destruct (table_body 3 16 (make_composed_table_rows rules) 8 ltac:(discriminate)) as [B1 B2].
  destruct (norm_fits rules H2) as [F1 F2].
  rewrite norm_text by assumption. do 4 eexists. split; [reflexivity|]. split; [exact A2|]. split; [exact B2|]. split; [exact F1|]. split; [exact F2|]. split; [|split].
  - intros c x y Hi. now apply p_c107_pair.
  - intros c Hc. now apply (p_c107_pair rules c 0 0 H1 H2 H3).
  - intros c x y Hi Hx Hy. apply p_c108_listed; try assumption. discriminate.
Qed.

(** ** The shipped headers *)
Definition same (o : option str) (b : str) : bool := match o with Some a => str_eqb a b | None => false end.
Lemma same_text o b : same o b = true -> o = Some b.
Proof. destruct o; [|discriminate]. intros H. f_equal. now apply str_eqb_true. Qed.
Lemma p_c119_class_shipped lines t : DataText lines t -> Forall2 class_line lines (rows_of UD_ROW_RUNS) -> make_class_file #"2025" #"2025-01-01" t = Some CHAR_CLASS_HEADER.
Proof.
  intros HT HR. destruct p_c105_header as [E1 E2]. pose proof (class_rows_ok lines t _ HT HR) as ER. rewrite (make_class_eq _ _ t _ _ ER E2).
  change (get_ascii_table (rows_of UD_ROW_RUNS)) with (get_ascii_table rows16). rewrite E1. apply same_text. vm_cast_no_check (eq_refl true).
Qed.
Lemma p_c119_case_shipped lines t :  DataText lines t ->
  (Says (case_line 12) lines UD_UPPER -> make_case_file #"UPPER" #"2025" #"2025-01-01" t = Some UPPER_CASE_HEADER) /\
  (Says (case_line 13) lines UD_LOWER -> make_case_file #"LOWER" #"2025" #"2025-01-01" t = Some LOWER_CASE_HEADER) /\
  (Says (case_line 14) lines UD_TITLE -> make_case_file #"TITLE" #"2025" #"2025-01-01" t = Some TITLE_CASE_HEADER).
Proof.
  intros HT. destruct p_c106_header as (E1 & E2 & E3). split; [|split]; intros HS.
  - destruct (make_case_eq #"UPPER" 12 #"2025" #"2025-01-01" lines t UD_UPPER ltac:(left; auto) HT HS) as (-> & _). rewrite E1. apply same_text. vm_cast_no_check (eq_refl true).
  - destruct (make_case_eq #"LOWER" 13 #"2025" #"2025-01-01" lines t UD_LOWER ltac:(right; left; auto) HT HS) as (-> & _). rewrite E2. apply same_text. vm_cast_no_check (eq_refl true).
  - destruct (make_case_eq #"TITLE" 14 #"2025" #"2025-01-01" lines t UD_TITLE ltac:(right; right; auto) HT HS) as (-> & _). rewrite E3. apply same_text. vm_cast_no_check (eq_refl true).
Qed.
Lemma p_c119_norm_shipped lines t : DataText lines t -> Says pair_line lines UD_PAIRS -> make_norm_file #"2025" #"2025-01-01" t = Some NORMALIZATION_HEADER.
Proof.
  intros HT HS. destruct p_c107_header as [E1 E2]. rewrite (make_norm_eq _ _ lines t _ HT HS). rewrite E1, E2. apply same_text. vm_cast_no_check (eq_refl true).
Qed.
