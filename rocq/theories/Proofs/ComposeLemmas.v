(** Composition. *)
From Verif Require Import Base Spec.Utf8Spec Spec.Strings Spec.Normalization Tables.UnicodeDataTables Tables.NormalizationTables
  Model.Decode Model.Encode Model.Normalize
  Proofs.Utf8Lemmas Proofs.DecodeLemmas Proofs.EncodeLemmas Proofs.CodepointLemmas Proofs.SearchLemmas Proofs.ReplaceLemmas Proofs.TableLemmas Proofs.NormLemmas.
From Coq Require Import ZifyBool ZifyNat ZifyN.

(** ** The table *)
Definition pack_c (p : N * (N * N)) : N := let '(c, (a, b)) := p in a * 2 ^ 40 + b * 2 ^ 20 + c.
Definition unpack_c (e : N) : N * (N * N) := (e mod 2 ^ 20, (e / 2 ^ 40, (e / 2 ^ 20) mod 2 ^ 20)).
Definition kc (e : N) : N := e / 2 ^ 20.

Definition pair_eqb (p q : N * (N * N)) : bool :=
  let '(c, (a, b)) := p in let '(c', (a', b')) := q in (c =? c') && (a =? a') && (b =? b').
Lemma pair_eqb_eq p q : pair_eqb p q = true -> p = q.
Proof. destruct p as [c [a b]], q as [c' [a' b']]. cbn [pair_eqb]. intros H. repeat f_equal; lia. Qed.

(** Every pair is in TO_COMPOSED and conversely. *)
Definition found (e : N) : bool :=
  match lookup (fst (unpack_c e)) with Some p => pair_eqb p (unpack_c e) | None => false end.
Lemma composed_found : forallb found TO_COMPOSED = true.
Proof. vm_compute. reflexivity. Qed.
Lemma composed_pairs e : In e TO_COMPOSED -> In (unpack_c e) UD_PAIRS.
Proof.
  intros H. pose proof (proj1 (forallb_forall _ _) composed_found _ H) as K. unfold found in K.
  destruct (lookup (fst (unpack_c e))) as [p|] eqn:E; [|discriminate]. apply pair_eqb_eq in K. subst p.
  unfold lookup in E. now apply find_some in E.
Qed.
Lemma composed_increasing : increasing kc TO_COMPOSED = true.
Proof. vm_compute. reflexivity. Qed.
Lemma pairs_listed : forallb (fun p => existsb (N.eqb (pack_c p)) TO_COMPOSED) UD_PAIRS = true.
Proof. vm_compute. reflexivity. Qed.
Lemma entry_fun e e' : In e TO_COMPOSED -> In e' TO_COMPOSED -> kc e = kc e' -> e = e'.
Proof.
  intros H1 H2 E. apply in_split in H1 as (u & v & E1). pose proof composed_increasing as HI. rewrite E1 in H2, HI.
  apply in_app_or in H2 as [H2|[H2|H2]]; [|exact H2|].
  - apply in_split in H2 as (u1 & u2 & ->). pose proof (increasing_lt _ _ HI u1 e' u2 e v) as K. rewrite <- app_assoc in K. specialize (K eq_refl). lia.
  - apply in_split in H2 as (u1 & u2 & ->). pose proof (increasing_lt _ _ HI u e u1 e' u2 eq_refl) as K. lia.
Qed.

Lemma unpack_pack c a b : has_pair c a b -> unpack_c (pack_c (c, (a, b))) = (c, (a, b)) /\ kc (pack_c (c, (a, b))) = a * 2 ^ 20 + b.
Proof.
  intros H. apply has_pair_bounds in H. unfold unpack_c, kc. cbn [pack_c].
  assert (E1 : (a * 2 ^ 40 + b * 2 ^ 20 + c) / 2 ^ 40 = a) by (symmetry; apply (N.div_unique _ _ _ (b * 2 ^ 20 + c)); lia).
  assert (E2 : (a * 2 ^ 40 + b * 2 ^ 20 + c) / 2 ^ 20 = a * 2 ^ 20 + b) by (symmetry; apply (N.div_unique _ _ _ c); lia).
  assert (E3 : (a * 2 ^ 40 + b * 2 ^ 20 + c) mod 2 ^ 20 = c) by (symmetry; apply (N.mod_unique _ _ (a * 2 ^ 20 + b)); lia).
  assert (E4 : (a * 2 ^ 20 + b) mod 2 ^ 20 = b) by (symmetry; apply (N.mod_unique _ _ a); lia).
  rewrite E1, E2, E3, E4. auto.
Qed.
Lemma find_pair c a b : has_pair c a b -> find (fun e => kc e =? a * 2 ^ 20 + b) TO_COMPOSED = Some (pack_c (c, (a, b))).
Proof.
  intros H. pose proof (proj1 (forallb_forall _ _) pairs_listed _ H) as K. cbv beta in K. apply existsb_exists in K as (e & K1 & K2).
  apply N.eqb_eq in K2. subst e. pose proof (proj2 (unpack_pack _ _ _ H)) as KE.
  destruct (find _ _) as [e|] eqn:E.
  - apply find_some in E as [E1 E2]. apply N.eqb_eq in E2. f_equal. apply (entry_fun e _ E1 K1). congruence.
  - apply (find_none _ _ E) in K1. rewrite KE, N.eqb_refl in K1. discriminate K1.
Qed.
Lemma Some_inj {A} (x y : A) : Some x = Some y -> x = y.
Proof. congruence. Qed.
Lemma has_pair_inj d d' a b : has_pair d a b -> has_pair d' a b -> d = d'.
Proof.
  intros H H'. pose proof (find_pair _ _ _ H) as P. rewrite (find_pair _ _ _ H') in P. apply Some_inj in P.
  apply (f_equal unpack_c) in P. rewrite (proj1 (unpack_pack _ _ _ H)), (proj1 (unpack_pack _ _ _ H')) in P. now apply (f_equal fst) in P.
Qed.
Lemma find_entry a b e : find (fun e => kc e =? a * 2 ^ 20 + b) TO_COMPOSED = Some e -> b < 2 ^ 20 ->
  has_pair (N.land e 0xFFFFF) a b /\ kc e = a * 2 ^ 20 + b.
Proof.
  intros H Hb. apply find_some in H as [H1 H2]. apply N.eqb_eq in H2. apply composed_pairs in H1. unfold unpack_c in H1.
  change 0xFFFFF with (N.ones 20). rewrite N.land_ones.
  change (e / 2 ^ 20) with (kc e) in H1. replace (e / 2 ^ 40) with (kc e / 2 ^ 20) in H1 by (unfold kc; rewrite N.div_div by discriminate; reflexivity).
  rewrite H2 in H1 |- *. split; [|reflexivity].
  replace ((a * 2 ^ 20 + b) / 2 ^ 20) with a in H1 by (apply (N.div_unique _ _ _ b); lia).
  replace ((a * 2 ^ 20 + b) mod 2 ^ 20) with b in H1 by (apply (N.mod_unique _ _ a); lia).
  exact H1.
Qed.
Lemma first_pair a b : has_pair 0x226E a b -> a = 0x3C /\ b = 0x338.
Proof. intros H. destruct (has_pair_fun 0x226E 0x3C 0x338 a b) as [-> ->]; [|exact H|auto]. unfold has_pair. apply (find_some (fun p => fst p =? 0x226E)). vm_compute. reflexivity. Qed.
Lemma has_first : has_pair 0x226E 0x3C 0x338.
Proof. unfold has_pair. apply (find_some (fun p => fst p =? 0x226E)). vm_compute. reflexivity. Qed.

Lemma lower_bound_mono (l : list N) k k' e : lower_bound (fun x => kc x <? k) l = Some e -> k <= k' -> k' <= kc e -> lower_bound (fun x => kc x <? k') l = Some e.
Proof.
  induction l as [|x l IH]; cbn [lower_bound]; [discriminate|]. intros H L1 L2. destruct (N.ltb_spec (kc x) k).
  - rewrite (proj2 (N.ltb_lt (kc x) k')) by lia. now apply IH.
  - injection H as ->. now rewrite (proj2 (N.ltb_ge (kc e) k')) by lia.
Qed.
(** No entry from U+1000 on looks like one below after truncation. *)
Lemma no_wrap key e : key < W32 -> lower_bound (fun x => kc x <? key) TO_COMPOSED = Some e -> kc e mod W32 = key -> kc e = key.
Proof.
  intros HK HL HM. destruct (N.lt_ge_cases (kc e) W32) as [L|L]; [now rewrite N.mod_small in HM|].
  exfalso. pose proof (lower_bound_mono TO_COMPOSED key W32 e HL) as K. specialize (K ltac:(lia) L).
  assert (C : match lower_bound (fun x => kc x <? W32) TO_COMPOSED with
              | Some e2 => match lower_bound (fun x => kc x <? kc e2 mod W32) TO_COMPOSED with Some e1 => kc e1 <? W32 | None => false end
              | None => false end = true) by (vm_compute; reflexivity).
  rewrite K, HM, HL in C. lia.
Qed.

(** ** find_composed *)
Definition key_of (a m : N) : N := fst (looked_up a m) * 2 ^ 20 + snd (looked_up a m).
Lemma lor_bound a b n : a < 2 ^ n -> b < 2 ^ n -> N.lor a b < 2 ^ n.
Proof.
  intros Ha Hb. destruct (N.eq_dec (N.lor a b) 0) as [E|E]; [rewrite E; apply N.neq_0_lt_0; now apply N.pow_nonzero|].
  apply N.log2_lt_pow2; [lia|]. rewrite N.log2_lor.
  assert (F : forall x, x < 2 ^ n -> N.log2 x < n \/ x = 0).
  { intros x Hx. destruct (N.eq_dec x 0); [now right|left]. apply N.log2_lt_pow2; lia. }
  destruct (F a Ha) as [A| ->], (F b Hb) as [B| ->]; try lia.
  all: rewrite ?N.lor_0_l, ?N.lor_0_r in E; try congruence; cbn [N.log2] in *; try lia.
Qed.
Lemma key_eq a m : a < 2 ^ 21 -> m < 2 ^ 21 -> N.lor (shl64 a 20) m = key_of a m /\ fst (looked_up a m) < 2 ^ 21 /\ snd (looked_up a m) < 2 ^ 20.
Proof.
  intros Ha Hm. unfold key_of, looked_up. cbn [fst snd]. change 0x100000 with (2 ^ 20).
  assert (Hq : m / 2 ^ 20 < 2 ^ 1) by (apply N.div_lt_upper_bound; [discriminate|]; cbn; lia).
  assert (B : N.lor a (m / 2 ^ 20) < 2 ^ 21) by (apply lor_bound; [exact Ha|change (2 ^ 1) with 2 in Hq; lia]).
  split; [|split; [exact B|apply N.mod_lt; discriminate]].
  unfold shl64. rewrite N.mod_small by (rewrite N.shiftl_mul_pow2; unfold W64; lia).
  rewrite <- N.shiftl_mul_pow2.
  assert (D : N.land (N.shiftl (N.lor a (m / 2 ^ 20)) 20) (m mod 2 ^ 20) = 0).
  { rewrite <- N.land_ones. apply N.bits_inj. intros i. rewrite N.land_spec, N.land_spec, N.bits_0.
    destruct (N.lt_ge_cases i 20) as [L|L]; [now rewrite N.shiftl_spec_low|]. rewrite N.ones_spec_high by exact L. now rewrite !andb_false_r. }
  rewrite (N.add_nocarry_lxor _ _ D), (N.lxor_lor _ _ D).
  apply N.bits_inj. intros i. rewrite !N.lor_spec. destruct (N.lt_ge_cases i 20) as [L|L].
  - rewrite !N.shiftl_spec_low by exact L. now rewrite N.mod_pow2_bits_low.
  - rewrite !N.shiftl_spec_high' by exact L. rewrite N.lor_spec, N.div_pow2_bits, N.mod_pow2_bits_high by exact L.
    replace (i - 20 + 20) with i by lia. now rewrite orb_false_r.
Qed.

Lemma composed_last : forallb (fun e => kc e <=? 0x1D1BC * 2 ^ 20 + 0x1D16F) TO_COMPOSED = true /\
  exists e, In e TO_COMPOSED /\ kc e = 0x1D1BC * 2 ^ 20 + 0x1D16F.
Proof.
  split; [vm_compute; reflexivity|]. exists 0x01D1BC1D16F1D1C0. split; [|vm_compute; reflexivity].
  apply (find_some (fun e => e =? 0x01D1BC1D16F1D1C0)). vm_compute. reflexivity.
Qed.
Lemma composed_first : exists l, TO_COMPOSED = 0x00003C003380226E :: l.
Proof. eexists. reflexivity. Qed.

Lemma off_table_key a m : a < 2 ^ 21 -> m < 2 ^ 21 -> 0x300 <= m -> (off_table a m <-> 0x1D1BC * 2 ^ 20 + 0x1D16F < key_of a m).
Proof. intros Ha Hm H. destruct (key_eq a m Ha Hm) as (_ & H1 & H2). unfold off_table, key_of in *. lia. Qed.

Lemma find_composed_eq adj a m : a < 2 ^ 21 -> m < 2 ^ 21 ->
  (m < 0x300 -> find_composed adj a m = Ok 0) /\
  (off_table a m -> find_composed adj a m = UB) /\
  (forall d, composes adj a m d -> find_composed adj a m = Ok d /\ d <> 0 /\ ~ off_table a m) /\
  (~ off_table a m -> (forall d, ~ composes adj a m d) -> find_composed adj a m = Ok 0).
Proof.
  intros Ha Hm. destruct (key_eq a m Ha Hm) as (KE & KA & KM).
  destruct (N.lt_ge_cases m 0x300) as [L|L].
  { unfold find_composed. rewrite (proj2 (N.ltb_lt _ _) L). repeat split; try reflexivity; try (intros [H _]; lia); try (destruct H; lia). }
  assert (F : find_composed adj a m = match lower_bound (fun e => kc e <? key_of a m) TO_COMPOSED with
    | None => UB
    | Some e => if (adj && (key_of a m <=? kc 0x00003C003380226E)) || negb (kc e mod W32 =? key_of a m) then Ok 0 else Ok (N.land e 0xFFFFF) end).
  { unfold find_composed. rewrite (proj2 (N.ltb_ge _ _) L). rewrite KE.
    assert (SH : shl64 (key_of a m) 20 = key_of a m * 2 ^ 20).
    { unfold shl64. rewrite N.shiftl_mul_pow2. apply N.mod_small. unfold key_of, W64. lia. }
    rewrite SH.
    assert (LT : forall e, (e <? key_of a m * 2 ^ 20) = (kc e <? key_of a m)).
    { intros e. unfold kc. pose proof (N.div_mod e (2 ^ 20) ltac:(discriminate)) as D. pose proof (N.mod_lt e (2 ^ 20) ltac:(discriminate)) as D2.
      destruct (N.ltb_spec e (key_of a m * 2 ^ 20)), (N.ltb_spec (e / 2 ^ 20) (key_of a m)); lia. }
    rewrite (lower_bound_ext _ (fun e => kc e <? key_of a m)) by (intros e _; apply LT).
    destruct (lower_bound _ _) as [e|]; [|reflexivity]. destruct composed_first as [l El].
    unfold lower_bound_is_begin. rewrite El, LT. rewrite <- N.leb_antisym. rewrite N.shiftr_div_pow2. reflexivity. }
  pose proof (find_lower_bound kc TO_COMPOSED (key_of a m) composed_increasing) as FL.
  destruct composed_last as [CL1 (el & CL2 & CL3)]. rewrite (off_table_key a m Ha Hm L).
  split; [lia|]. split; [|split].
  - intros O. rewrite F. rewrite lower_bound_above; [reflexivity|]. apply Forall_forall. intros e He.
    pose proof (proj1 (forallb_forall _ _) CL1 e He) as Q. cbv beta in Q. apply N.leb_le in Q. lia.
  - intros d (_ & HP & HS & HA). pose proof (find_pair _ _ _ HP) as FP. change (fst (looked_up a m) * 2 ^ 20 + snd (looked_up a m)) with (key_of a m) in FP.
    rewrite FL in FP. rewrite F. destruct (lower_bound _ _) as [e|] eqn:EL; [|discriminate FP].
    destruct (N.eqb_spec (kc e) (key_of a m)) as [E|E]; [|discriminate FP].
    assert (EP : e = pack_c (d, (fst (looked_up a m), snd (looked_up a m)))) by congruence. clear FP. subst e.
    pose proof (unpack_pack _ _ _ HP) as [UP _]. pose proof (has_pair_bounds _ _ _ HP) as HB.
    assert (LD : N.land (pack_c (d, (fst (looked_up a m), snd (looked_up a m)))) 0xFFFFF = d).
    { change 0xFFFFF with (N.ones 20). rewrite N.land_ones. now apply (f_equal fst) in UP. }
    rewrite LD, E. rewrite N.mod_small by (unfold key_of, W32; lia). rewrite N.eqb_refl. cbn [negb orb]. rewrite orb_false_r.
    split; [|split; [lia|]].
    + destruct adj; [|reflexivity]. cbn [andb]. destruct (N.leb_spec (key_of a m) (kc 0x00003C003380226E)) as [B|B]; [|reflexivity].
      exfalso. apply HA. split; [reflexivity|]. change (kc 0x00003C003380226E) with (0x3C * 2 ^ 20 + 0x338) in B.
      assert (EQ : kc 0x00003C003380226E = key_of a m).
      { apply lower_bound_some in EL as (u & v & EL & HU & _). destruct composed_first as [l El]. rewrite El in EL.
        destruct u as [|u0 u]; [cbn [app] in EL; apply cons_eq in EL as [-> _]; exact E|]. cbn [app] in EL. apply cons_eq in EL as [<- _].
        inversion HU as [|? ? HU1 _]; subst. apply N.ltb_lt in HU1. change (kc 0x00003C003380226E) with (0x3C * 2 ^ 20 + 0x338) in HU1. lia. }
      change (kc 0x00003C003380226E) with (0x3C * 2 ^ 20 + 0x338) in EQ. unfold key_of in EQ.
      assert (A1 : fst (looked_up a m) = 0x3C) by lia. assert (A2 : snd (looked_up a m) = 0x338) by lia. rewrite A1, A2 in HP.
      exact (has_pair_inj _ _ _ _ HP has_first).
    + intros O. assert (Hin : In (pack_c (d, (fst (looked_up a m), snd (looked_up a m)))) TO_COMPOSED).
      { apply lower_bound_some in EL as (u & v & -> & _). apply in_elt. }
      pose proof (proj1 (forallb_forall _ _) CL1 _ Hin) as Q. cbv beta in Q. apply N.leb_le in Q. rewrite E in Q. apply (off_table_key a m Ha Hm L) in O. lia.
  - intros NO NC. rewrite F. destruct (lower_bound _ _) as [e|] eqn:EL.
    2:{ exfalso. apply lower_bound_none in EL. rewrite Forall_forall in EL. specialize (EL el CL2). cbn beta in EL. lia. }
    destruct (N.eqb_spec (kc e mod W32) (key_of a m)) as [E|E]; [|now rewrite orb_true_r].
    assert (KW : key_of a m < W32) by (rewrite <- E; apply N.mod_lt; discriminate).
    pose proof (no_wrap _ _ KW EL E) as E'. rewrite E', N.eqb_refl in FL.
    apply find_entry in FL as [HP _]; [|exact KM]. cbn [negb]. rewrite orb_false_r.
    destruct adj; cbn [andb].
    2:{ exfalso. apply (NC (N.land e 0xFFFFF)). split; [exact L|]. split; [exact HP|]. split; [unfold key_of, W32 in KW; lia|]. intros [H _]. discriminate H. }
    destruct (N.leb_spec (key_of a m) (kc 0x00003C003380226E)) as [B|B]; [reflexivity|].
    exfalso. apply (NC (N.land e 0xFFFFF)). split; [exact L|]. split; [exact HP|]. split; [unfold key_of, W32 in KW; lia|]. intros [_ H].
    rewrite H in HP. apply first_pair in HP as [A1 A2]. change (kc 0x00003C003380226E) with (0x3C * 2 ^ 20 + 0x338) in B. unfold key_of in B. lia.
Qed.

(** The three cases. *)
Lemma composes_fun adj a m d d' : composes adj a m d -> composes adj a m d' -> d = d'.
Proof.
  intros (_ & H & _) (_ & H' & _). exact (has_pair_inj _ _ _ _ H H').
Qed.
Lemma consult adj a m : a < 2 ^ 21 -> m < 2 ^ 21 -> off_table a m \/ (exists d, composes adj a m d) \/ (~ off_table a m /\ forall d, ~ composes adj a m d).
Proof.
  intros Ha Hm. destruct (find_composed_eq adj a m Ha Hm) as (_ & H1 & H2 & H3).
  destruct (key_eq a m Ha Hm) as (_ & KA & KM).
  destruct (N.lt_ge_cases m 0x300) as [L|L].
  { right. right. split; [intros [H _]; lia|intros d [H _]; lia]. }
  destruct (N.lt_ge_cases (0x1D1BC * 2 ^ 20 + 0x1D16F) (key_of a m)) as [O|O]; [left; now apply off_table_key|].
  right. destruct (find (fun e => kc e =? fst (looked_up a m) * 2 ^ 20 + snd (looked_up a m)) TO_COMPOSED) as [e|] eqn:E.
  - apply find_entry in E as [HP _]; [|exact KM].
    destruct (N.lt_ge_cases (fst (looked_up a m)) 0x1000) as [S|S].
    + destruct adj; [destruct (N.eq_dec (N.land e 0xFFFFF) 0x226E) as [D|D]|].
      * right. split; [rewrite off_table_key by assumption; lia|]. intros d (_ & HP' & _ & HA). apply HA. split; [reflexivity|].
        rewrite <- D. exact (has_pair_inj _ _ _ _ HP' HP).
      * left. exists (N.land e 0xFFFFF). split; [exact L|]. split; [exact HP|]. split; [exact S|]. tauto.
      * left. exists (N.land e 0xFFFFF). split; [exact L|]. split; [exact HP|]. split; [exact S|]. intros [H _]. discriminate H.
    + right. split; [rewrite off_table_key by assumption; lia|]. intros d (_ & _ & H & _). lia.
  - right. split; [rewrite off_table_key by assumption; lia|]. intros d (_ & HP & _ & _). apply find_pair in HP. rewrite HP in E. discriminate E.
Qed.
