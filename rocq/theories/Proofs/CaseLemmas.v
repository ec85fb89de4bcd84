(** to_lower, to_title and to_upper on code points against UnicodeData. *)
From Verif Require Import Base Spec.UnicodeData Model.ConvertCase Tables.CaseTables Tables.UnicodeDataTables Proofs.TableLemmas.

Section Fast.
Variable compact : list (N * N * N * N).
Variable mapping : list (N * N).
Variable ud : list (N * N).
Variable ct : tree (N * N * N * N).
Variables mt ut : tree (N * N).
Hypothesis ct_flat : flatten ct = compact.
Hypothesis mt_flat : flatten mt = mapping.
Hypothesis ut_flat : flatten ut = ud.
Hypothesis compact_sorted : increasing segment_of compact = true.
Hypothesis mapping_sorted : increasing fst mapping = true.
Hypothesis ud_sorted : increasing fst ud = true.

Definition fast_convert (c : N) : N :=
  let seg := N.land c SEGMENT_MASK in
  let r := match tree_lower_bound (fun m => segment_of m <? seg) ct with
           | None => None
           | Some set => if negb (segment_of set =? seg) then None else compact_get set c
           end in
  match r with
  | Some d => d
  | None =>
    match tree_lower_bound (fun m : N * N => fst m <? c) mt with
    | None => c
    | Some it => if negb (fst it =? c) then c else snd it
    end
  end.
Lemma fast_convert_ok c : fast_convert c = convert compact mapping c.
Proof using All.
  unfold fast_convert, convert, find_in_compact_mapping, find_in_mapping. cbv zeta.
  rewrite (tree_lower_bound_ok _ ct), ct_flat by (rewrite ct_flat; now apply (increasing_partitioned segment_of)).
  rewrite (tree_lower_bound_ok _ mt), mt_flat by (rewrite mt_flat; now apply (increasing_partitioned fst)).
  destruct (lower_bound _ compact) as [set|].
  - destruct (negb _); [|destruct (compact_get set c); [reflexivity|]];
      (destruct (lower_bound _ mapping) as [it|]; [destruct (negb _); reflexivity|reflexivity]).
  - destruct (lower_bound _ mapping) as [it|]; [destruct (negb _); reflexivity|reflexivity].
Qed.
Definition fast_mapped (c : N) : N :=
  match tree_lower_bound (fun m : N * N => fst m <? c) ut with
  | Some p => if fst p =? c then snd p else c
  | None => c
  end.
Lemma fast_mapped_ok c : fast_mapped c = mapped ud c.
Proof using All.
  unfold fast_mapped, mapped. rewrite (find_lower_bound fst ud c ud_sorted).
  rewrite (tree_lower_bound_ok _ ut), ut_flat by (rewrite ut_flat; now apply (increasing_partitioned fst)).
  destruct (lower_bound _ ud) as [p|]; [|reflexivity]. destruct (fst p =? c); reflexivity.
Qed.

Variable ascii : N -> N.
Definition case_check (c : N) : bool := (if c <? 128 then ascii c else fast_convert c) =? fast_mapped c.
Hypothesis sweep : all_from case_check 17 0 = true.
Hypothesis compact_low : forallb (fun m => segment_of m <? 0x20000) compact = true.
Hypothesis mapping_low : forallb (fun m : N * N => fst m <? 0x20000) mapping = true.
Hypothesis ud_low : forallb (fun m : N * N => fst m <? 0x20000) ud = true.

Lemma land_segment c : c < W32 -> N.land c SEGMENT_MASK = 32 * (c / 32).
Proof using.
  intros H. change SEGMENT_MASK with (N.shiftl (N.ones 27) 5).
  apply N.bits_inj. intros i. rewrite N.land_spec.
  change 32 with (2 ^ 5). rewrite N.mul_comm.
  destruct (N.lt_ge_cases i 5) as [L|L].
  - rewrite N.shiftl_spec_low by exact L. rewrite andb_false_r, N.mul_pow2_bits_low by exact L. reflexivity.
  - rewrite N.shiftl_spec_high' by exact L. rewrite N.mul_pow2_bits_high by exact L. rewrite N.div_pow2_bits.
    replace (i - 5 + 5) with i by lia.
    destruct (N.lt_ge_cases (i - 5) 27) as [L'|L'].
    + rewrite N.ones_spec_low by exact L'. apply andb_true_r.
    + rewrite N.ones_spec_high by exact L'. rewrite andb_false_r.
      destruct (N.eq_dec c 0) as [->|Hc]; [now rewrite N.bits_0|].
      symmetry. apply N.bits_above_log2. apply N.log2_lt_pow2; [lia|].
      apply N.lt_le_trans with (2 ^ 32); [exact H|]. apply N.pow_le_mono_r; lia.
Qed.

Lemma case_all c : c < W32 -> (if c <? 128 then ascii c else convert compact mapping c) = mapped ud c.
Proof using All.
  intros Hc. destruct (N.lt_ge_cases c 0x20000) as [L|L].
  - assert (H := all_from_spec case_check 17 0 sweep c). unfold case_check in H.
    rewrite fast_convert_ok, fast_mapped_ok in H. apply N.eqb_eq, H.
    change (0 + 2 ^ N.of_nat 17) with 0x20000. lia.
  - rewrite (proj2 (N.ltb_ge c 128)) by lia. rewrite <- fast_mapped_ok, <- fast_convert_ok.
    unfold fast_convert, fast_mapped. cbv zeta.
    rewrite (tree_lower_bound_ok _ ct), ct_flat by (rewrite ct_flat; now apply (increasing_partitioned segment_of)).
    rewrite (tree_lower_bound_ok _ mt), mt_flat by (rewrite mt_flat; now apply (increasing_partitioned fst)).
    rewrite (tree_lower_bound_ok _ ut), ut_flat by (rewrite ut_flat; now apply (increasing_partitioned fst)).
    assert (HS : 0x20000 <= N.land c SEGMENT_MASK).
    { rewrite land_segment by exact Hc. assert (0x20000 / 32 <= c / 32) by (apply N.div_le_mono; lia).
      change (0x20000 / 32) with 0x1000 in *. lia. }
    rewrite (lower_bound_above segment_of compact), (lower_bound_above fst mapping), (lower_bound_above fst ud).
    + reflexivity.
    + rewrite forallb_forall in ud_low. apply Forall_forall. intros m Hm. specialize (ud_low m Hm). apply N.ltb_lt in ud_low. lia.
    + rewrite forallb_forall in mapping_low. apply Forall_forall. intros m Hm. specialize (mapping_low m Hm). apply N.ltb_lt in mapping_low. lia.
    + rewrite forallb_forall in compact_low. apply Forall_forall. intros m Hm. specialize (compact_low m Hm). apply N.ltb_lt in compact_low. lia.
Qed.
End Fast.

Definition LC_TREE := Eval vm_compute in tree_of COMPACT_LOWER_CASE.
Definition L_TREE := Eval vm_compute in tree_of LOWER_CASE.
Definition UL_TREE := Eval vm_compute in tree_of UD_LOWER.
Definition TC_TREE := Eval vm_compute in tree_of COMPACT_TITLE_CASE.
Definition T_TREE := Eval vm_compute in tree_of TITLE_CASE.
Definition UT_TREE := Eval vm_compute in tree_of UD_TITLE.
Definition UC_TREE := Eval vm_compute in tree_of COMPACT_UPPER_CASE.
Definition U_TREE := Eval vm_compute in tree_of UPPER_CASE.
Definition UU_TREE := Eval vm_compute in tree_of UD_UPPER.

Definition ascii_lower (c : N) : N := if (0x41 <=? c) && (c <=? 0x5A) then c + 32 else c.
Definition ascii_upper (c : N) : N := if (0x61 <=? c) && (c <=? 0x7A) then c - 32 else c.

Lemma lower_sweep : all_from (case_check LC_TREE L_TREE UL_TREE ascii_lower) 17 0 = true.
Proof. vm_cast_no_check (eq_refl true). Qed.
Lemma title_sweep : all_from (case_check TC_TREE T_TREE UT_TREE ascii_upper) 17 0 = true.
Proof. vm_cast_no_check (eq_refl true). Qed.
Lemma upper_sweep : all_from (case_check UC_TREE U_TREE UU_TREE ascii_upper) 17 0 = true.
Proof. vm_cast_no_check (eq_refl true). Qed.

Lemma to_lower_spec c : c < W32 -> to_lower c = simple_lower c.
Proof.
  intros Hc. unfold simple_lower, to_lower.
  refine (case_all COMPACT_LOWER_CASE LOWER_CASE UD_LOWER LC_TREE L_TREE UL_TREE _ _ _ _ _ _ ascii_lower lower_sweep _ _ _ c Hc);
    clear; vm_compute; reflexivity.
Qed.
Lemma to_title_spec c : c < W32 -> to_title c = simple_title c.
Proof.
  intros Hc. unfold simple_title, to_title.
  refine (case_all COMPACT_TITLE_CASE TITLE_CASE UD_TITLE TC_TREE T_TREE UT_TREE _ _ _ _ _ _ ascii_upper title_sweep _ _ _ c Hc);
    clear; vm_compute; reflexivity.
Qed.
Lemma to_upper_spec c : c < W32 -> to_upper c = simple_upper c.
Proof.
  intros Hc. unfold simple_upper, to_upper.
  refine (case_all COMPACT_UPPER_CASE UPPER_CASE UD_UPPER UC_TREE U_TREE UU_TREE _ _ _ _ _ _ ascii_upper upper_sweep _ _ _ c Hc);
    clear; vm_compute; reflexivity.
Qed.
