(** C107, C108: the normalization tables, for every Unicode data file. *)
From Verif Require Import Base Spec.TableRows Model.Normalize Model.GenNorm Proofs.TableLemmas Proofs.NormLemmas Proofs.GenClassLemmas Proofs.GenCaseLemmas.
From Coq Require Import ZifyBool ZifyNat ZifyN Permutation.
Ltac Zify.zify_post_hook ::= Z.div_mod_to_equations.

Lemma lor_add n k b : b < 2 ^ k -> N.lor (N.shiftl n k) b = n * 2 ^ k + b.
Proof.
  intros H. rewrite N.shiftl_mul_pow2. apply N.bits_inj. intros i. rewrite N.lor_spec. destruct (N.lt_ge_cases i k) as [L|L].
  - rewrite N.mul_pow2_bits_low by exact L. cbn [orb]. rewrite <- (N.mod_pow2_bits_low (n * 2 ^ k + b) k) by exact L.
    rewrite N.add_comm, N.mod_add by (apply N.pow_nonzero; lia). now rewrite N.mod_small.
  - rewrite N.mul_pow2_bits_high by exact L. replace (N.testbit b i) with false.
    2:{ symmetry. destruct (N.eq_dec b 0) as [->|]; [apply N.bits_0|]. apply N.bits_above_log2. apply N.log2_lt_pow2; [lia|]. eapply N.lt_le_trans; [exact H|]. apply N.pow_le_mono_r; lia. }
    rewrite orb_false_r. replace i with (i - k + k) at 2 by lia. rewrite <- N.div_pow2_bits. f_equal.
    rewrite N.add_comm, N.div_add by (apply N.pow_nonzero; lia). now rewrite N.div_small.
Qed.
Definition packed (x y z : N) : N := x * 2 ^ 40 + y * 2 ^ 20 + z.
Lemma encode_packed x y z : y < 2 ^ 20 -> z < 2 ^ 20 -> N.lor (N.lor (N.shiftl x 40) (N.shiftl y 20)) z = packed x y z.
Proof.
  intros Hy Hz. replace (N.shiftl x 40) with (N.shiftl (N.shiftl x 20) 20) by now rewrite N.shiftl_shiftl.
  rewrite <- N.shiftl_lor, lor_add, lor_add by assumption. unfold packed. lia.
Qed.
Lemma packed_parts x y z : y < 2 ^ 20 -> z < 2 ^ 20 ->
  N.shiftr (packed x y z) 40 = x /\ N.shiftr (packed x y z) 20 = x * 2 ^ 20 + y /\ N.land (N.shiftr (packed x y z) 20) 0xFFFFF = y /\ N.land (packed x y z) 0xFFFFF = z.
Proof.
  intros Hy Hz. unfold packed. change 0xFFFFF with (N.ones 20). rewrite !N.land_ones, !N.shiftr_div_pow2.
  change (2 ^ 40) with 1099511627776. change (2 ^ 20) with 1048576 in *. lia.
Qed.

Lemma p_c107 rules ch : increasing_rows rules -> Forall small_rule rules -> Forall (fun r => 0xC0 <= fst r) rules ->
  find_decomposed_in (make_decomposed_table_rows rules) ch =
  match find (fun r => fst r =? ch) rules with Some r => snd r | None => (ch, 0) end.
Proof.
  intros HI HB HL. unfold make_decomposed_table_rows. rewrite concat_rows by discriminate. unfold find_decomposed_in. rewrite Forall_forall in HB, HL.
  assert (map encode_decomposed rules = map (fun r => packed (fst r) (fst (snd r)) (snd (snd r))) rules) as ->.
  { apply map_ext_in. intros r Hr. destruct (HB r Hr) as (H1 & H2 & H3). unfold encode_decomposed. now apply encode_packed. }
  destruct (N.ltb_spec ch 0xC0) as [L|L].
  { rewrite (find_missing fst); [reflexivity|]. intros r Hr E. apply HL in Hr. lia. }
  rewrite lower_bound_map. destruct (N.lt_ge_cases ch (2 ^ 24)) as [S|S].
  - rewrite (lower_bound_ext _ (fun r => fst r <? ch)).
    2:{ intros r Hr. destruct (HB r Hr) as (H1 & H2 & H3). unfold packed, shl64, W64. rewrite N.shiftl_mul_pow2.
        change (2 ^ 40) with 1099511627776. change (2 ^ 20) with 1048576. change (2 ^ 24) with 16777216 in S. rewrite N.mod_small by lia.
        destruct (N.ltb_spec (fst r) ch), (N.ltb_spec (fst r * 1099511627776 + fst (snd r) * 1048576 + snd (snd r)) (ch * 1099511627776)); lia. }
    rewrite <- (lookup_lower fst rules ch HI). destruct (lower_bound _ rules) as [r|] eqn:E; [|reflexivity]. cbn [option_map].
    apply lower_bound_some in E as (u & v & E & _). assert (In r rules) as Hr by (rewrite E; apply in_elt). destruct (HB r Hr) as (H1 & H2 & H3).
    destruct (packed_parts (fst r) (fst (snd r)) (snd (snd r)) H2 H3) as (Q1 & _ & Q2 & Q3). rewrite Q1, Q2, Q3.
    rewrite N.mod_small by (unfold W32; lia). destruct (negb _); [reflexivity|]. now destruct (snd r).
  - rewrite (find_missing fst) by (intros r Hr E; apply HB in Hr as (H1 & _); subst ch; change (2 ^ 24) with 16777216 in S; lia).
    destruct (lower_bound _ rules) as [r|] eqn:E; [|reflexivity]. cbn [option_map].
    apply lower_bound_some in E as (u & v & E & _). assert (In r rules) as Hr by (rewrite E; apply in_elt). destruct (HB r Hr) as (H1 & H2 & H3).
    destruct (packed_parts (fst r) (fst (snd r)) (snd (snd r)) H2 H3) as (Q1 & _). rewrite Q1, N.mod_small by (unfold W32; lia).
    replace (fst r =? ch) with false; [reflexivity|]. change (2 ^ 24) with 16777216 in S. lia.
Qed.

(** *** Composition *)
Definition pkey (r : rule) : N := fst (snd r) * 2 ^ 20 + snd (snd r).
Lemma insert_rule_perm r l : Permutation (r :: l) (insert_rule r l).
Proof. induction l as [|x l IH]; cbn [insert_rule]; [reflexivity|]. destruct (pair_le _ _); [reflexivity|]. rewrite perm_swap. now constructor. Qed.
Lemma sorted_perm l : Permutation l (sorted_rules l).
Proof. induction l as [|r l IH]; cbn [sorted_rules fold_right]; [constructor|]. rewrite <- insert_rule_perm. now constructor. Qed.
Lemma pair_key r s : small_rule r -> small_rule s ->
  (pair_before (snd r) (snd s) <-> pkey r < pkey s) /\ (pkey r = pkey s -> snd r = snd s) /\ (pair_le (snd r) (snd s) = true <-> pkey r <= pkey s).
Proof.
  destruct r as [c [a b]], s as [c' [a' b']]. unfold small_rule, pair_before, pair_le, pkey. cbn [fst snd]. change (2 ^ 20) with 1048576. intros H1 H2. split; [lia|]. split; [|lia].
  intros E. assert (a = a') as -> by lia. now assert (b = b') as -> by lia.
Qed.
Lemma insert_rule_sorted r l : Forall small_rule (r :: l) -> ~ In (snd r) (map snd l) -> StronglySorted (fun x y => pkey x < pkey y) l ->
  StronglySorted (fun x y => pkey x < pkey y) (insert_rule r l).
Proof.
  intros HB HN HS. induction HS as [|x l HS IH HF]; cbn [insert_rule]; [constructor; constructor|].
  inversion HB as [|? ? Hr HB1]; subst. inversion HB1 as [|? ? Hx HB2]; subst. destruct (pair_key r x Hr Hx) as (_ & K2 & K3). destruct (pair_le (snd r) (snd x)) eqn:E.
  - assert (pkey r < pkey x) as L.
    { assert (pkey r <> pkey x); [|lia]. intros EE. apply HN. left. symmetry. now apply K2. }
    constructor; [now constructor|]. constructor; [exact L|]. eapply Forall_impl; [|exact HF]. intros y Hy. exact (N.lt_trans _ _ _ L Hy).
  - constructor.
    + apply IH; [now constructor|]. intros H. apply HN. now right.
    + apply Forall_forall. intros y Hy. apply (Permutation_in y (Permutation_sym (insert_rule_perm r l))) in Hy. destruct Hy as [<-|Hy]; [lia|].
      rewrite Forall_forall in HF. now apply HF.
Qed.
Lemma sorted_sorted l : Forall small_rule l -> NoDup (map snd l) -> StronglySorted (fun x y => pkey x < pkey y) (sorted_rules l).
Proof.
  induction l as [|r l IH]; intros HB HD; cbn [sorted_rules fold_right]; [constructor|]. inversion HB; subst. cbn [map] in HD. inversion HD; subst.
  apply insert_rule_sorted.
  - constructor; [assumption|]. apply Forall_forall. intros y Hy. apply (Permutation_in y (Permutation_sym (sorted_perm l))) in Hy. rewrite Forall_forall in *. auto.
  - intros H. apply (Permutation_in _ (Permutation_map snd (Permutation_sym (sorted_perm l)))) in H. contradiction.
  - now apply IH.
Qed.

Lemma shl64_id x k m : x * 2 ^ k < m -> m <= W64 -> shl64 x k = x * 2 ^ k.
Proof. intros H1 H2. unfold shl64. rewrite N.shiftl_mul_pow2. apply N.mod_small. lia. Qed.
Lemma composed_key a b : a < 2 ^ 24 -> b < 2 ^ 20 -> N.lor (shl64 a 20) b = a * 2 ^ 20 + b /\ shl64 (a * 2 ^ 20 + b) 20 = (a * 2 ^ 20 + b) * 2 ^ 20.
Proof.
  intros Ha Hb. split.
  - unfold shl64. rewrite N.mod_small; [now apply lor_add|]. rewrite N.shiftl_mul_pow2. unfold W64. change (2 ^ 20) with 1048576. change (2 ^ 24) with 16777216 in Ha. lia.
  - apply (shl64_id _ _ W64); [|lia]. unfold W64. change (2 ^ 20) with 1048576 in *. change (2 ^ 24) with 16777216 in Ha. lia.
Qed.

(** The lookup, in terms of the sorted rules. *)
Lemma composed_lookup adjacent rules a b : Forall small_rule rules -> NoDup (map snd rules) -> a < 2 ^ 24 -> 0x300 <= b -> b < 2 ^ 20 ->
  find_composed_in adjacent (make_composed_table_rows rules) a b =
  match lower_bound (fun r => pkey r <? a * 2 ^ 20 + b) (sorted_rules rules) with
  | None => UB
  | Some r => if (adjacent && match sorted_rules rules with [] => true | x :: _ => negb (pkey x <? a * 2 ^ 20 + b) end) || negb (pkey r mod W32 =? a * 2 ^ 20 + b)
              then Ok 0 else Ok (fst r)
  end.
Proof.
  intros HB HD Ha Hb1 Hb. unfold make_composed_table_rows. rewrite concat_rows by discriminate.
  assert (forall r, In r (sorted_rules rules) -> small_rule r) as HS.
  { intros r Hr. apply (Permutation_in r (Permutation_sym (sorted_perm rules))) in Hr. rewrite Forall_forall in HB. now apply HB. }
  assert (map encode_composed (sorted_rules rules) = map (fun r => packed (fst (snd r)) (snd (snd r)) (fst r)) (sorted_rules rules)) as ->.
  { apply map_ext_in. intros r Hr. destruct (HS r Hr) as (H1 & H2 & H3). unfold encode_composed. now apply encode_packed. }
  unfold find_composed_in. rewrite (proj2 (N.ltb_ge _ _) Hb1). destruct (composed_key a b Ha Hb) as [K1 K2]. rewrite K1. cbv zeta. rewrite K2.
  assert (forall r, In r (sorted_rules rules) -> (packed (fst (snd r)) (snd (snd r)) (fst r) <? (a * 2 ^ 20 + b) * 2 ^ 20) = (pkey r <? a * 2 ^ 20 + b)) as LT.
  { intros r Hr. destruct (HS r Hr) as (H1 & H2 & H3). unfold packed, pkey. change (2 ^ 40) with 1099511627776. change (2 ^ 20) with 1048576 in *.
    destruct (N.ltb_spec (fst (snd r) * 1099511627776 + snd (snd r) * 1048576 + fst r) ((a * 1048576 + b) * 1048576)), (N.ltb_spec (fst (snd r) * 1048576 + snd (snd r)) (a * 1048576 + b)); lia. }
  match goal with |- context [lower_bound ?f (map ?g ?l)] => assert (lower_bound f (map g l) = option_map g (lower_bound (fun r => pkey r <? a * 2 ^ 20 + b) l)) as -> by (rewrite lower_bound_map; f_equal; apply lower_bound_ext; exact LT) end.
  destruct (lower_bound _ (sorted_rules rules)) as [r|] eqn:E; [|reflexivity]. cbn [option_map].
  apply lower_bound_some in E as (u & v & E & _). assert (In r (sorted_rules rules)) as Hr by (rewrite E; apply in_elt). destruct (HS r Hr) as (H1 & H2 & H3).
  destruct (packed_parts (fst (snd r)) (snd (snd r)) (fst r) H3 H1) as (_ & Q1 & _ & Q2). rewrite Q1, Q2. fold (pkey r).
  replace (lower_bound_is_begin (fun e => e <? (a * 2 ^ 20 + b) * 2 ^ 20) (map (fun r0 => packed (fst (snd r0)) (snd (snd r0)) (fst r0)) (sorted_rules rules)))
    with (match sorted_rules rules with [] => true | x :: _ => negb (pkey x <? a * 2 ^ 20 + b) end); [reflexivity|].
  destruct (sorted_rules rules) as [|x l] eqn:EL; [reflexivity|]. cbn [map lower_bound_is_begin]. f_equal. symmetry. apply LT. now left.
Qed.

Lemma key_mod a b a' b' : a < 2 ^ 24 -> b < 2 ^ 20 -> b' < 2 ^ 20 -> ((a' * 2 ^ 20 + b') mod W32 = a * 2 ^ 20 + b <-> a' mod 0x1000 = a /\ b' = b).
Proof.
  intros Ha Hb Hb'. unfold W32. change (2 ^ 20) with 1048576 in *. change (2 ^ 24) with 16777216 in Ha.
  assert ((a' * 1048576 + b') mod 4294967296 = (a' mod 4096) * 1048576 + b') as ->.
  { symmetry. apply (N.mod_unique _ _ (a' / 4096)); lia. }
  lia.
Qed.

Lemma p_c108_next adjacent rules a b c a' b' : Forall small_rule rules -> NoDup (map snd rules) -> a < 2 ^ 24 -> 0x300 <= b -> b < 2 ^ 20 ->
  NextRule rules (a, b) (c, (a', b')) -> (adjacent = true -> exists r, In r rules /\ pair_before (snd r) (a, b)) ->
  find_composed_in adjacent (make_composed_table_rows rules) a b = Ok (if (a' mod 0x1000 =? a) && (b' =? b) then c else 0).
Proof.
  intros HB HD Ha Hb1 Hb (HN1 & HN2 & HN3) HA. rewrite composed_lookup by assumption.
  pose proof (sorted_sorted rules HB HD) as SS. rewrite Forall_forall in HB.
  assert (forall r, In r rules -> (pair_before (snd r) (a, b) <-> pkey r < a * 2 ^ 20 + b)) as PB.
  { intros [x [y z]] Hr. destruct (HB _ Hr) as (H1 & H2 & H3). unfold pair_before, pkey. cbn [fst snd] in *. change (2 ^ 20) with 1048576 in *. lia. }
  assert (forall r, In r (sorted_rules rules) <-> In r rules) as IS.
  { intros r. split; apply Permutation_in; [apply Permutation_sym|]; apply sorted_perm. }
  destruct (lower_bound _ (sorted_rules rules)) as [r|] eqn:E.
  - apply lower_bound_some in E as (u & v & E & HU & HR). apply N.ltb_ge in HR.
    assert (In r rules) as Hr by (apply IS; rewrite E; apply in_elt).
    assert (r = (c, (a', b'))) as ->.
    { pose proof (proj2 (IS _) HN1) as HI. rewrite E in HI. apply in_app_or in HI as [HI|[HI|HI]]; [|exact HI|].
      - rewrite Forall_forall in HU. apply HU in HI. cbv beta in HI. apply N.ltb_lt in HI. apply (PB _ HN1) in HI. contradiction.
      - exfalso. destruct (pair_key r (c, (a', b')) (HB _ Hr) (HB _ HN1)) as (PK & _). apply (HN3 r Hr); [rewrite (PB _ Hr); lia|]. apply PK.
        rewrite E in SS. clear - SS HI. induction u as [|x u IH]; cbn [app] in SS; inversion SS as [|? ? SS' HF]; subst.
        + rewrite Forall_forall in HF. now apply HF.
        + now apply IH. }
    assert (adjacent && match sorted_rules rules with [] => true | x :: _ => negb (pkey x <? a * 2 ^ 20 + b) end = false) as ->.
    { destruct adjacent; [|reflexivity]. cbn [andb]. destruct (HA eq_refl) as (q & Hq & HQ). apply (PB _ Hq) in HQ. destruct (sorted_rules rules) as [|x l] eqn:EL.
      - now destruct u.
      - pose proof (proj2 (IS _) Hq) as HI. apply negb_false_iff, N.ltb_lt. destruct HI as [->|HI]; [exact HQ|]. inversion SS as [|? ? _ HF]; subst. rewrite Forall_forall in HF. specialize (HF _ HI). cbn beta in HF. lia. }
    cbn [orb]. destruct (HB _ HN1) as (H1 & H2 & H3). cbn [fst snd] in *. unfold pkey. cbn [fst snd].
    pose proof (key_mod a b a' b' Ha Hb H3) as KM.
    destruct (N.eqb_spec ((a' * 2 ^ 20 + b') mod W32) (a * 2 ^ 20 + b)) as [EQ|NE]; cbn [negb].
    + apply KM in EQ as [-> ->]. now rewrite !N.eqb_refl.
    + replace ((a' mod 0x1000 =? a) && (b' =? b)) with false; [reflexivity|]. symmetry. apply not_true_iff_false. intros H. apply NE, KM. clear - H. lia.
  - exfalso. apply lower_bound_none in E. rewrite Forall_forall in E. specialize (E _ (proj2 (IS _) HN1)). cbv beta in E. apply N.ltb_lt in E. apply (PB _ HN1) in E. contradiction.
Qed.

Lemma p_c108_end adjacent rules a b : Forall small_rule rules -> NoDup (map snd rules) -> a < 2 ^ 24 -> 0x300 <= b -> b < 2 ^ 20 ->
  (forall r, In r rules -> pair_before (snd r) (a, b)) -> find_composed_in adjacent (make_composed_table_rows rules) a b = UB.
Proof.
  intros HB HD Ha Hb1 Hb HA. rewrite composed_lookup by assumption. rewrite lower_bound_all; [reflexivity|]. apply Forall_forall. intros r Hr.
  apply (Permutation_in r (Permutation_sym (sorted_perm rules))) in Hr. rewrite Forall_forall in HB. specialize (HA r Hr). destruct (HB r Hr) as (H1 & H2 & H3).
  destruct r as [x [y z]]. unfold pair_before, pkey in *. cbn [fst snd] in *. change (2 ^ 20) with 1048576 in *. lia.
Qed.

Lemma p_c108_first rules a b : Forall small_rule rules -> NoDup (map snd rules) -> a < 2 ^ 24 -> 0x300 <= b -> b < 2 ^ 20 -> rules <> [] ->
  (forall r, In r rules -> ~ pair_before (snd r) (a, b)) -> find_composed_in true (make_composed_table_rows rules) a b = Ok 0.
Proof.
  intros HB HD Ha Hb1 Hb HN HA. rewrite composed_lookup by assumption. destruct (sorted_rules rules) as [|x l] eqn:E.
  - exfalso. apply HN. apply Permutation_nil. pose proof (Permutation_sym (sorted_perm rules)) as PS. rewrite E in PS. exact PS.
  - assert (In x rules) as Hx. { apply (Permutation_in x (Permutation_sym (sorted_perm rules))). rewrite E. now left. }
    rewrite Forall_forall in HB. destruct (HB x Hx) as (H1 & H2 & H3). specialize (HA x Hx).
    assert (pkey x <? a * 2 ^ 20 + b = false) as K. { destruct x as [c [y z]]. unfold pair_before, pkey in *. cbn [fst snd] in *. change (2 ^ 20) with 1048576 in *. lia. }
    cbn [lower_bound]. rewrite K. reflexivity.
Qed.

Lemma p_c108_listed adjacent rules a b c : Forall small_rule rules -> NoDup (map snd rules) -> a < 0x1000 -> 0x300 <= b ->
  In (c, (a, b)) rules -> (adjacent = true -> exists r, In r rules /\ pair_before (snd r) (a, b)) ->
  find_composed_in adjacent (make_composed_table_rows rules) a b = Ok c.
Proof.
  intros HB HD Ha Hb HI HA. rewrite Forall_forall in HB. destruct (HB _ HI) as (H1 & H2 & H3). cbn [fst snd] in *.
  rewrite (p_c108_next adjacent rules a b c a b).
  - rewrite N.mod_small by exact Ha. now rewrite !N.eqb_refl.
  - now apply Forall_forall.
  - exact HD.
  - change (2 ^ 24) with 16777216. lia.
  - exact Hb.
  - exact H3.
  - split; [exact HI|]. split; [unfold pair_before; cbn [fst snd]; lia|]. intros q _ Hq. exact Hq.
  - exact HA.
Qed.
