(** get_char_class and the predicates against UnicodeData. *)
From Verif Require Import Base Spec.Category Spec.UnicodeData Model.CharClass
  Tables.CharClassTables Tables.UnicodeDataTables Proofs.TableLemmas.

(** *** A fast get_char_class *)
Definition CC_TREE : tree N := Eval vm_compute in tree_of COMPLETE_CHAR_CLASSES.
Lemma CC_flat : flatten CC_TREE = COMPLETE_CHAR_CLASSES.
Proof. vm_cast_no_check (eq_refl COMPLETE_CHAR_CLASSES). Qed.
Lemma CC_sorted : increasing (fun e => e) COMPLETE_CHAR_CLASSES = true.
Proof. vm_cast_no_check (eq_refl true). Qed.

(** Division-free versions of the modular operations, for the sweep. *)
Definition fsub32 (a b : N) : N := if (b <=? a) && (a <? W32) then a - b else sub32 a b.
Lemma fsub32_ok a b : fsub32 a b = sub32 a b.
Proof.
  unfold fsub32, sub32. destruct (N.leb_spec b a) as [L|L]; [|reflexivity].
  destruct (N.ltb_spec a W32) as [L'|L']; [|reflexivity]. cbn [andb].
  rewrite (N.mod_small b) by lia. replace (a + (W32 - b)) with (a - b + 1 * W32) by (unfold W32 in *; lia).
  rewrite N.mod_add by (unfold W32; lia). rewrite N.mod_small; lia.
Qed.
Definition fast_decode (code_point encoded_char_class : N) : N :=
  let lower_char_class := N.land encoded_char_class 0x1F in
  let upper_char_class := N.land (N.shiftr encoded_char_class 5) 0x3F in
  if upper_char_class =? 0 then fsub32 lower_char_class 1
  else
    let end_code_point := N.shiftr encoded_char_class CODE_POINT_SHIFT in
    if upper_char_class =? 0x20 then
      if negb (N.land (N.lxor code_point end_code_point) 1 =? 0)
      then fsub32 1 (fsub32 lower_char_class 1)
      else fsub32 lower_char_class 1
    else if code_point =? end_code_point then fsub32 lower_char_class 1
    else fsub32 upper_char_class 1.
Lemma fast_decode_ok c e : fast_decode c e = decode_char_class c e.
Proof. unfold fast_decode, decode_char_class. rewrite !fsub32_ok. reflexivity. Qed.
Definition fshl (n : N) : outcome N := if n <? 32 then Ok (N.shiftl 1 n) else UB.
Lemma fshl_ok n : fshl n = one_shl n.
Proof.
  unfold fshl, one_shl. destruct (N.ltb_spec n 32) as [L|L]; [|reflexivity].
  f_equal. unfold shl32. rewrite N.mod_small; [reflexivity|]. rewrite N.shiftl_1_l.
  change W32 with (2 ^ 32). apply N.pow_lt_mono_r; lia.
Qed.
Definition fkey (c : N) : N := if c <? 0x200000 then N.shiftl c 11 else shl32 c 11.
Lemma fkey_ok c : fkey c = shl32 c CODE_POINT_SHIFT.
Proof.
  unfold fkey, shl32, CODE_POINT_SHIFT. destruct (N.ltb_spec c 0x200000) as [L|L]; [|reflexivity].
  rewrite N.mod_small; [reflexivity|]. rewrite N.shiftl_mul_pow2. change (2 ^ 11) with 2048. unfold W32. lia.
Qed.

Definition fast_class (c : N) : outcome N :=
  if c <? 128 then let* k := deref ASCII_CHAR_CLASSES (N.to_nat c) in one_shl k
  else let key := fkey c in
       match tree_lower_bound (fun e => e <? key) CC_TREE with
       | None => Ok UNASSIGNED
       | Some e => fshl (fast_decode c e)
       end.
Lemma fast_class_ok c : fast_class c = get_char_class c.
Proof.
  unfold fast_class, get_char_class. destruct (c <? 128); [reflexivity|]. cbv zeta. rewrite fkey_ok.
  rewrite tree_lower_bound_ok; rewrite CC_flat.
  - destruct (lower_bound _ _); [|reflexivity]. now rewrite fast_decode_ok, fshl_ok.
  - apply (increasing_partitioned (fun e => e)), CC_sorted.
Qed.

(** *** A fast category_of *)
Notation range := (N * N * category)%type.
Definition lo_of (r : range) : N := fst (fst r).
Definition hi_of (r : range) : N := snd (fst r).
Fixpoint ranges_ok (l : list range) : bool :=
  match l with
  | [] => true
  | x :: l' => (lo_of x <=? hi_of x) && match l' with [] => true | y :: _ => (hi_of x <? lo_of y) && ranges_ok l' end
  end.
Lemma ranges_tail x l : ranges_ok (x :: l) = true -> ranges_ok l = true.
Proof. cbn [ranges_ok]. rewrite andb_true_iff. intros [_ H]. destruct l; [reflexivity|]. apply andb_true_iff in H. tauto. Qed.
Lemma ranges_after l : forall x, ranges_ok (x :: l) = true -> Forall (fun y => hi_of x < lo_of y) l.
Proof.
  induction l as [|y l IH]; intros x H; [constructor|].
  assert (Ht := ranges_tail _ _ H). cbn [ranges_ok] in H.
  rewrite !andb_true_iff, N.leb_le, N.ltb_lt in H. destruct H as (H1 & H2 & H3).
  constructor; [exact H2|]. specialize (IH y Ht).
  assert (lo_of y <= hi_of y) by (cbn [ranges_ok] in Ht; rewrite andb_true_iff, N.leb_le in Ht; tauto).
  eapply Forall_impl; [|exact IH]. cbn beta. intros z Hz. lia.
Qed.
Lemma find_range l c : ranges_ok l = true ->
  find (fun r : range => let '(lo, hi, _) := r in (lo <=? c) && (c <=? hi)) l =
  match lower_bound (fun r => hi_of r <? c) l with
  | Some r => if lo_of r <=? c then Some r else None
  | None => None
  end.
Proof.
  induction l as [|[[lo hi] k] l IH]; intros H; [reflexivity|].
  assert (Ht := ranges_tail _ _ H). assert (Ha := ranges_after _ _ H).
  cbn [find lower_bound]. unfold hi_of at 1, lo_of at 1. cbn [fst snd].
  destruct (N.ltb_spec hi c) as [L|L].
  - rewrite (proj2 (N.leb_gt c hi)) by lia. rewrite andb_false_r. exact (IH Ht).
  - unfold lo_of. cbn [fst snd]. rewrite (proj2 (N.leb_le c hi)) by lia. rewrite andb_true_r.
    destruct (lo <=? c); [reflexivity|]. clear -Ha L. unfold hi_of at 1 in Ha. cbn [fst snd] in Ha.
    induction Ha as [|[[lo' hi'] k'] l Hy _ IH]; [reflexivity|]. cbn [find].
    unfold lo_of in Hy. cbn [fst snd] in Hy. rewrite (proj2 (N.leb_gt lo' c)) by lia. exact IH.
Qed.
Lemma ranges_increasing l : ranges_ok l = true -> increasing hi_of l = true.
Proof.
  induction l as [|x l IH]; intros H; [reflexivity|]. assert (Ht := ranges_tail _ _ H).
  assert (Hi := IH Ht). cbn [increasing]. destruct l as [|y l]; [reflexivity|].
  rewrite Hi, andb_true_r. cbn [ranges_ok] in H, Ht.
  rewrite !andb_true_iff, N.leb_le, N.ltb_lt in H. rewrite andb_true_iff, N.leb_le in Ht.
  apply N.ltb_lt. lia.
Qed.

Definition CAT_TREE : tree range := Eval vm_compute in tree_of UD_CATEGORIES.
Lemma CAT_flat : flatten CAT_TREE = UD_CATEGORIES.
Proof. vm_cast_no_check (eq_refl UD_CATEGORIES). Qed.
Lemma CAT_sorted : ranges_ok UD_CATEGORIES = true.
Proof. vm_cast_no_check (eq_refl true). Qed.
Definition fast_category (c : N) : category :=
  match tree_lower_bound (fun r => hi_of r <? c) CAT_TREE with
  | Some (lo, _, k) => if lo <=? c then k else Cn
  | None => Cn
  end.
Lemma fast_category_ok c : fast_category c = category_of c.
Proof.
  unfold fast_category, category_of. rewrite (find_range _ c CAT_sorted).
  rewrite tree_lower_bound_ok; rewrite CAT_flat.
  - destruct (lower_bound _ _) as [[[lo hi] k]|]; [|reflexivity]. unfold lo_of. cbn [fst snd]. destruct (lo <=? c); reflexivity.
  - apply increasing_partitioned, ranges_increasing, CAT_sorted.
Qed.

(** *** The comparison *)
Definition fast_gap (c : N) : bool :=
  if c <? 0x3401 then false else if 0x323AE <? c then false
  else existsb (fun r : N * N => (fst r <=? c) && (c <=? snd r)) ideograph_gaps.
Lemma fast_gap_ok c : fast_gap c = in_ideograph_gap c.
Proof.
  unfold fast_gap, in_ideograph_gap. destruct (N.ltb_spec c 0x3401) as [L|L].
  - symmetry. apply not_true_is_false. intros E. apply existsb_exists in E. destruct E as (r & Hr & E).
    apply andb_true_iff in E. destruct E as [E _]. apply N.leb_le in E.
    assert (HA : Forall (fun r : N * N => 0x3401 <= fst r) ideograph_gaps) by (repeat constructor; cbn [fst]; lia).
    rewrite Forall_forall in HA. specialize (HA r Hr). cbn beta in HA. lia.
  - destruct (N.ltb_spec 0x323AE c) as [L'|L']; [|reflexivity].
    symmetry. apply not_true_is_false. intros E. apply existsb_exists in E. destruct E as (r & Hr & E).
    apply andb_true_iff in E. destruct E as [_ E]. apply N.leb_le in E.
    assert (HA : Forall (fun r : N * N => snd r <= 0x323AE) ideograph_gaps) by (repeat constructor; cbn [snd]; lia).
    rewrite Forall_forall in HA. specialize (HA r Hr). cbn beta in HA. lia.
Qed.

Definition class_check (c : N) : bool :=
  let k := category_number (fast_category c) in
  match fast_class c with
  | Ok v => if fast_gap c then (v =? UNASSIGNED) && (k =? 4) else v =? N.shiftl 1 k
  | _ => false
  end.
Lemma class_sweep : all_from class_check 18 0 = true.
Proof. vm_cast_no_check (eq_refl true). Qed.

(** Above 0x3FFFF both tables have a handful of entries. *)
Lemma lower_bound_tail {A} (less : A -> bool) n l t : skipn n l = t ->
  Forall (fun x => less x = true) (firstn n l) -> lower_bound less l = lower_bound less t.
Proof.
  intros <- H. rewrite <- (firstn_skipn n l) at 1. rewrite lower_bound_app, (lower_bound_all _ _ H). reflexivity.
Qed.
Lemma forallb_Forall {A} (p q : A -> bool) l : forallb p l = true -> (forall x, p x = true -> q x = true) -> Forall (fun x => q x = true) l.
Proof. intros H HH. apply Forall_forall. intros x Hx. rewrite forallb_forall in H. auto. Qed.

Lemma CC_tail key : 0x40000 * 2048 <= key -> lower_bound (fun e => e <? key) COMPLETE_CHAR_CLASSES =
  lower_bound (fun e => e <? key) [0x70000BDB; 0x7000F81E; 0x7003F81B; 0x7007F81E; 0x700F7806; 0x77FFF81E; 0x7FFFE81D; 0x7FFFF81E; 0x87FFE81D].
Proof.
  intros Hk. apply (lower_bound_tail _ 2320).
  - vm_compute. reflexivity.
  - apply forallb_Forall with (p := fun e => e <? 0x40000 * 2048); [vm_cast_no_check (eq_refl true)|].
    intros x Hx. apply N.ltb_lt in Hx. apply N.ltb_lt. lia.
Qed.
Lemma CAT_tail c : 0x40000 <= c -> lower_bound (fun r => hi_of r <? c) UD_CATEGORIES =
  lower_bound (fun r => hi_of r <? c) [(0xE0001, 0xE0001, Cf); (0xE0020, 0xE007F, Cf); (0xE0100, 0xE01EF, Mn); (0xF0000, 0xFFFFD, Co); (0x100000, 0x10FFFD, Co)].
Proof.
  intros Hk. apply (lower_bound_tail _ 3363).
  - vm_compute. reflexivity.
  - apply forallb_Forall with (p := fun r => hi_of r <? 0x40000); [vm_cast_no_check (eq_refl true)|].
    intros x Hx. apply N.ltb_lt in Hx. apply N.ltb_lt. lia.
Qed.

Lemma decode_single c e : N.land (N.shiftr e 5) 0x3F =? 0 = true -> decode_char_class c e = sub32 (N.land e 0x1F) 1.
Proof. intros H. unfold decode_char_class. cbv zeta. rewrite H. reflexivity. Qed.
Lemma decode_range c e : N.land (N.shiftr e 5) 0x3F =? 0 = false -> N.land (N.shiftr e 5) 0x3F =? 0x20 = false ->
  c < N.shiftr e 11 -> decode_char_class c e = sub32 (N.land (N.shiftr e 5) 0x3F) 1.
Proof.
  intros H H' L. unfold decode_char_class. cbv zeta. rewrite H, H'. unfold CODE_POINT_SHIFT.
  rewrite (proj2 (N.eqb_neq c (N.shiftr e 11))) by lia. reflexivity.
Qed.

Lemma class_high c : 0x40000 <= c < 0x200000 ->
  get_char_class c = Ok (N.shiftl 1 (category_number (category_of c))).
Proof.
  intros Hc. unfold get_char_class. rewrite (proj2 (N.ltb_ge c 128)) by lia.
  rewrite <- fkey_ok. unfold fkey. rewrite (proj2 (N.ltb_lt c 0x200000)) by lia.
  rewrite N.shiftl_mul_pow2. change (2 ^ 11) with 2048. cbv zeta.
  rewrite CC_tail by lia. unfold category_of. rewrite (find_range _ c CAT_sorted), CAT_tail by lia.
  cbn [lower_bound]. unfold hi_of, lo_of. cbn [fst snd].
  repeat match goal with
  | |- context [?a <? ?b] =>
    let H := fresh "L" in destruct (N.ltb_spec a b) as [H|H]; try lia
  end; cbn [fst snd];
  repeat match goal with
  | |- context [?a <=? c] =>
    let H := fresh "L" in destruct (N.leb_spec a c) as [H|H]; try lia
  end;
  try (rewrite decode_single by reflexivity; reflexivity); try reflexivity.
  - assert (c = 0xE0001) as -> by lia. reflexivity.
  - rewrite decode_range; [reflexivity|reflexivity|reflexivity|]. change (N.shiftr 0x70000BDB 11) with 0xE0001. lia.
Qed.

Lemma class_spec c : c < 0x200000 ->
  get_char_class c = Ok (N.shiftl 1 (category_number (if in_ideograph_gap c then Cn else category_of c))) /\
  (in_ideograph_gap c = true -> category_of c = Lo).
Proof.
  intros Hc. destruct (N.lt_ge_cases c 0x40000) as [L|L].
  - assert (H := all_from_spec class_check 18 0 class_sweep c). unfold class_check in H.
    rewrite fast_class_ok, fast_category_ok, fast_gap_ok in H. cbv zeta in H.
    assert (Hr : 0 <= c < 0 + 2 ^ N.of_nat 18) by (change (0 + 2 ^ N.of_nat 18) with 0x40000; lia). specialize (H Hr).
    destruct (get_char_class c) as [v| | |]; try discriminate.
    destruct (in_ideograph_gap c).
    + apply andb_true_iff in H. destruct H as [H1 H2]. apply N.eqb_eq in H1, H2. subst v. split; [reflexivity|].
      intros _. destruct (category_of c); cbn in H2; (discriminate || reflexivity).
    + apply N.eqb_eq in H. subst v. split; [reflexivity|discriminate].
  - rewrite <- fast_gap_ok. unfold fast_gap. rewrite (proj2 (N.ltb_ge c 0x3401)), (proj2 (N.ltb_lt 0x323AE c)) by lia.
    split; [apply class_high; lia|discriminate].
Qed.

(** *** Every 32-bit value has exactly one class bit *)
Lemma one_shl_ok n : n < 30 -> one_shl n = Ok (N.shiftl 1 n).
Proof. intros H. rewrite <- fshl_ok. unfold fshl. rewrite (proj2 (N.ltb_lt n 32)) by lia. reflexivity. Qed.
Definition entry_ok (e : N) : bool :=
  let lo := N.land e 0x1F in
  let up := N.land (N.shiftr e 5) 0x3F in
  (1 <=? lo) && (lo <=? 30) && ((up =? 0) || ((up =? 0x20) && (lo <=? 2)) || (negb (up =? 0x20) && (up <=? 30))).
Lemma entries_ok : forallb entry_ok COMPLETE_CHAR_CLASSES = true.
Proof. vm_cast_no_check (eq_refl true). Qed.
Lemma sub32_le a b : b <= a -> a < W32 -> sub32 a b = a - b.
Proof. intros H H'. rewrite <- fsub32_ok. unfold fsub32. now rewrite (proj2 (N.leb_le b a) H), (proj2 (N.ltb_lt a W32) H'). Qed.
Lemma decode_lt c e : entry_ok e = true -> decode_char_class c e < 30.
Proof.
  unfold entry_ok, decode_char_class. cbv zeta. rewrite !andb_true_iff, !orb_true_iff, !andb_true_iff, !negb_true_iff, !N.leb_le.
  generalize (N.land e 0x1F) as lo. generalize (N.land (N.shiftr e 5) 0x3F) as up. intros up lo ((H1 & H2) & H3).
  assert (A : sub32 lo 1 = lo - 1) by (apply sub32_le; unfold W32; lia).
  destruct (N.eqb_spec up 0) as [E|E]; [rewrite A; lia|].
  destruct (N.eqb_spec up 0x20) as [E'|E'].
  - destruct H3 as [[H3|[_ H3]]|[H3 _]]; [congruence| |discriminate].
    rewrite A. rewrite sub32_le by (unfold W32; lia). destruct (negb _); lia.
  - destruct H3 as [[H3|[H3 _]]|[_ H3]]; [congruence|discriminate|].
    destruct (_ =? _); [rewrite A; lia|]. rewrite sub32_le by (unfold W32; lia). lia.
Qed.
Lemma ascii_ok : forallb (fun k => k <? 30) ASCII_CHAR_CLASSES = true.
Proof. vm_compute. reflexivity. Qed.
Lemma class_one_bit c : exists n, n < 30 /\ get_char_class c = Ok (N.shiftl 1 n).
Proof.
  unfold get_char_class. destruct (N.ltb_spec c 128) as [L|L].
  - unfold deref. destruct (nth_error _ _) as [k|] eqn:E.
    + cbn [bind]. apply nth_error_In in E. assert (H := ascii_ok). rewrite forallb_forall in H. specialize (H k E).
      apply N.ltb_lt in H. exists k. split; [exact H|now apply one_shl_ok].
    + apply nth_error_None in E. change (length ASCII_CHAR_CLASSES) with 128%nat in E. lia.
  - cbv zeta. destruct (lower_bound _ _) as [e|] eqn:E.
    + apply lower_bound_some in E. destruct E as (u & v & E & _).
      assert (H := entries_ok). rewrite E, forallb_app in H. cbn [forallb] in H. rewrite !andb_true_iff in H.
      destruct H as (_ & H & _). exists (decode_char_class c e). assert (HL := decode_lt c e H).
      split; [exact HL|now apply one_shl_ok].
    + exists 29. split; [lia|reflexivity].
Qed.

(** *** Predicates *)
Definition lib_category (c : N) : category := if in_ideograph_gap c then Cn else category_of c.
Lemma land_shl1 n mask : negb (N.land (N.shiftl 1 n) mask =? 0) = N.testbit mask n.
Proof.
  destruct (N.testbit mask n) eqn:E.
  - apply negb_true_iff, N.eqb_neq. intros H.
    assert (T : N.testbit (N.land (N.shiftl 1 n) mask) n = true).
    { rewrite N.land_spec, E, N.shiftl_spec_high', N.sub_diag by lia. reflexivity. }
    rewrite H in T. now rewrite N.bits_0 in T.
  - apply negb_false_iff, N.eqb_eq. apply N.bits_inj. intros i. rewrite N.bits_0, N.land_spec.
    destruct (N.eq_dec i n) as [->|Hi]; [rewrite E; apply andb_false_r|].
    rewrite N.shiftl_1_l, N.pow2_bits_false by lia. reflexivity.
Qed.
Lemma has_class_spec c mask : c < 0x200000 -> has_class c mask = N.testbit mask (category_number (lib_category c)).
Proof.
  intros Hc. unfold has_class, char_class. destruct (class_spec c Hc) as [-> _]. apply land_shl1.
Qed.
