(** C55 for values from 2^21: the key is shifted out of 32 bits. *)
From Verif Require Import Base Spec.Category Spec.UnicodeData Spec.Newline Model.Decode Model.CharClass Tables.CharClassTables Tables.UnicodeDataTables Proofs.TableLemmas Proofs.CharClassLemmas Proofs.UnicodeProps.
From Coq Require Import ZifyBool ZifyNat ZifyN.
Ltac Zify.zify_post_hook ::= Z.div_mod_to_equations.

Definition mixed (e : N) : bool :=
  let up := N.land (N.shiftr e 5) 0x3F in negb (up =? 0) && negb (up =? 0x20).
(** The class before the last code point of a mixed entry. *)
Definition before_end (e : N) : bool :=
  negb (mixed e) || ((128 <? N.shiftr e 11) && (N.shiftr e 11 <? 0x200000) &&
    match fast_class (N.shiftr e 11 - 1), one_shl (sub32 (N.land (N.shiftr e 5) 0x3F) 1) with Ok v, Ok w => v =? w | _, _ => false end).
Lemma mixed_ends : forallb before_end (filter (fun e => 0x800 * 128 <=? e) COMPLETE_CHAR_CLASSES) = true.
Proof. vm_cast_no_check (eq_refl true). Qed.

Definition far (d : N) : outcome N :=
  match lower_bound (fun e => e <? d * 0x800) COMPLETE_CHAR_CLASSES with
  | None => Ok UNASSIGNED
  | Some e => one_shl (decode_char_class (0x200000 + d) e)
  end.
Definition small_far (d : N) : bool :=
  match fast_class (0x200000 + d), fast_class d, fast_class (d - 1) with
  | Ok v, Ok w, Ok u => (v =? w) || ((0 <? d) && (v =? u))
  | _, _, _ => false
  end.
Lemma small_sweep : all_from small_far 7 0 = true.
Proof. vm_cast_no_check (eq_refl true). Qed.
Lemma decode_far c c' e : N.odd c = N.odd c' -> N.shiftr e 11 < 0x200000 -> 0x200000 <= c -> 0x200000 <= c' -> decode_char_class c e = decode_char_class c' e.
Proof.
  intros P He Hc Hc'. unfold decode_char_class, CODE_POINT_SHIFT. cbv zeta.
  replace (c =? N.shiftr e 11) with false by lia. replace (c' =? N.shiftr e 11) with false by lia.
  assert (forall x y, N.land (N.lxor x y) 1 = N.b2n (xorb (N.odd x) (N.odd y))) as K.
  { intros x y. change 1 with (N.ones 1). rewrite N.land_ones. change (2 ^ 1) with 2.
    rewrite <- N.bit0_mod, N.lxor_spec, !N.bit0_odd. reflexivity. }
  rewrite !K, P. reflexivity.
Qed.
Lemma entries_small : forallb (fun e => N.shiftr e 11 <? 0x200000) COMPLETE_CHAR_CLASSES = true.
Proof. vm_cast_no_check (eq_refl true). Qed.
Lemma shl_key c : c < 0x100000000 -> shl32 c CODE_POINT_SHIFT = (c mod 0x200000) * 0x800.
Proof.
  intros _. unfold shl32, CODE_POINT_SHIFT, W32. rewrite N.shiftl_mul_pow2. change (2 ^ 11) with 0x800.
  change 0x100000000 with (0x200000 * 0x800). rewrite N.mul_mod_distr_r by discriminate. reflexivity.
Qed.
Lemma lower_bound_In (less : N -> bool) l e : lower_bound less l = Some e -> In e l /\ less e = false.
Proof.
  induction l as [|x l IH]; cbn [lower_bound]; [discriminate|]. destruct (less x) eqn:E; [intros H; destruct (IH H); split; [now right|assumption]|].
  intros [= <-]. split; [now left|exact E].
Qed.
Lemma class_far c : 0x200000 <= c < 0x100000000 -> get_char_class c = far (c mod 0x200000).
Proof.
  intros Hc. unfold get_char_class, far. replace (c <? 128) with false by lia. cbv zeta. rewrite shl_key by lia.
  destruct (lower_bound _ COMPLETE_CHAR_CLASSES) as [e|] eqn:E; [|reflexivity].
  destruct (lower_bound_In _ _ _ E) as [I _]. pose proof entries_small as F. rewrite forallb_forall in F. specialize (F e I). apply N.ltb_lt in F.
  f_equal. apply decode_far; [|exact F|lia|lia].
  rewrite N.odd_add. change (N.odd 0x200000) with false. cbn [xorb].
  pose proof (N.div_mod c 0x200000 ltac:(discriminate)) as D. rewrite D at 1. rewrite N.odd_add, N.odd_mul. reflexivity.
Qed.
Lemma p_c55_alias c : 0x200000 <= c < 0x100000000 ->
  let d := c mod 0x200000 in
  get_char_class c = get_char_class d \/ (0 < d /\ get_char_class c = get_char_class (d - 1)).
Proof.
  intros Hc d. assert (d < 0x200000) as Hd by (apply N.mod_lt; discriminate).
  assert (get_char_class c = get_char_class (0x200000 + d)) as ->.
  { rewrite !class_far by lia. fold d. f_equal. replace (0x200000 + d) with (d + 1 * 0x200000) by lia. rewrite N.mod_add by discriminate. now rewrite N.mod_small. }
  destruct (N.lt_ge_cases d 128) as [L|L].
  - pose proof (all_from_spec small_far 7 0 small_sweep d) as H. unfold small_far in H. rewrite !fast_class_ok in H.
    assert (0 <= d < 0 + 2 ^ N.of_nat 7) as Hr by (change (0 + 2 ^ N.of_nat 7) with 128; lia). specialize (H Hr).
    destruct (get_char_class (0x200000 + d)); try discriminate. destruct (get_char_class d); try discriminate. destruct (get_char_class (d - 1)); try discriminate.
    apply orb_true_iff in H. rewrite andb_true_iff, !N.eqb_eq, N.ltb_lt in H. destruct H as [->|[? ->]]; auto.
  - rewrite class_far by lia. replace ((0x200000 + d) mod 0x200000) with d
      by (replace (0x200000 + d) with (d + 1 * 0x200000) by lia; rewrite N.mod_add by discriminate; now rewrite N.mod_small).
    unfold far. unfold get_char_class at 1. replace (d <? 128) with false by lia. cbv zeta. rewrite shl_key by lia. rewrite (N.mod_small d) by lia.
    destruct (lower_bound _ COMPLETE_CHAR_CLASSES) as [e|] eqn:E; [|now left].
    destruct (lower_bound_In _ _ _ E) as [I G]. pose proof entries_small as F. rewrite forallb_forall in F. specialize (F e I). apply N.ltb_lt in F. cbn beta in G.
    destruct (mixed e && (d =? N.shiftr e 11)) eqn:M.
    + right. split; [lia|]. apply andb_true_iff in M. destruct M as [M ->%N.eqb_eq].
      pose proof mixed_ends as B. rewrite forallb_forall in B. specialize (B e). unfold before_end in B. rewrite M, fast_class_ok in B. cbn [negb orb] in B.
      assert (In e (filter (fun e => 0x800 * 128 <=? e) COMPLETE_CHAR_CLASSES)) as Hin by (apply filter_In; split; [exact I|lia]). specialize (B Hin).
      apply andb_true_iff in B. destruct B as [_ B].
      assert (decode_char_class (0x200000 + N.shiftr e 11) e = sub32 (N.land (N.shiftr e 5) 0x3F) 1) as ->.
      { unfold decode_char_class, CODE_POINT_SHIFT. cbv zeta. unfold mixed in M. cbv zeta in M. apply andb_true_iff in M. destruct M as [M1 M2].
        apply negb_true_iff in M1, M2. rewrite M1, M2. now replace (0x200000 + N.shiftr e 11 =? N.shiftr e 11) with false by lia. }
      destruct (get_char_class (N.shiftr e 11 - 1)); try discriminate. destruct (one_shl (sub32 (N.land (N.shiftr e 5) 63) 1)); try discriminate.
      apply N.eqb_eq in B. now subst.
    + left. f_equal. unfold decode_char_class, CODE_POINT_SHIFT. cbv zeta. unfold mixed in M. cbv zeta in M.
      destruct (N.land (N.shiftr e 5) 63 =? 0); [reflexivity|]. destruct (N.land (N.shiftr e 5) 63 =? 32) eqn:P.
      * assert (forall x y, N.land (N.lxor x y) 1 = N.b2n (xorb (N.odd x) (N.odd y))) as K.
        { intros x y. change 1 with (N.ones 1). rewrite N.land_ones. change (2 ^ 1) with 2. rewrite <- N.bit0_mod, N.lxor_spec, !N.bit0_odd. reflexivity. }
        rewrite !K, N.odd_add. change (N.odd 0x200000) with false. rewrite xorb_false_l. reflexivity.
      * cbn [negb andb] in M. rewrite M. now replace (0x200000 + d =? N.shiftr e 11) with false by lia.
Qed.

Lemma has_class_same c e mask : get_char_class c = get_char_class e -> has_class c mask = has_class e mask.
Proof. unfold has_class, char_class. intros ->. reflexivity. Qed.

Lemma p_c56_alias c : 0x200000 <= c < 0x100000000 ->
  exists e, (e = c mod 0x200000 \/ e + 1 = c mod 0x200000) /\
  is_mark c = is_mark e /\ is_number c = is_number e /\ is_punctuation c = is_punctuation e /\ is_symbol c = is_symbol e /\
  is_separator c = is_separator e /\ is_control c = is_control e /\ is_format c = is_format e /\ is_surrogate c = is_surrogate e /\
  is_upper c = is_upper e /\ is_lower c = is_lower e /\ is_cased_letter c = is_cased_letter e /\ is_letter c = is_letter e /\
  is_alpha_numeric c = is_alpha_numeric e /\ is_graphical c = is_graphical e /\ is_visible c = is_visible e /\
  is_whitespace c = is_separator e.
Proof.
  intros Hc. pose proof (p_c55_alias c Hc) as H. cbn zeta in H.
  assert (forall e mask, get_char_class c = get_char_class e -> has_class c mask = has_class e mask) as HC
    by (intros; now apply has_class_same).
  assert (is_whitespace c = is_separator c) as HW.
  { unfold is_whitespace, is_newline, is_separator, NEXT_LINE, LINE_SEPARATOR, PARAGRAPH_SEPARATOR.
    repeat match goal with |- context [c =? ?k] => replace (c =? k) with false by (symmetry; apply N.eqb_neq; lia) end.
    replace (128 <? c) with true by (symmetry; apply N.ltb_lt; lia). reflexivity. }
  rewrite HW.
  destruct H as [H|[Hd H]]; [exists (c mod 0x200000)|exists (c mod 0x200000 - 1)];
    (split; [|repeat apply conj; apply HC; exact H]); [left; reflexivity|right; lia].
Qed.

(** ** White space *)
Definition sep_cat (k : category) : bool := match k with Zs | Zl | Zp => true | _ => false end.
Lemma p_c56_white_space c : c < 0x200000 ->
  is_whitespace c = true <->
  0x09 <= c <= 0x0D \/ c = 0x20 \/ c = 0x85 \/ c = 0xA0 \/ c = 0x1680 \/ 0x2000 <= c <= 0x200A \/ c = 0x2028 \/ c = 0x2029 \/
  c = 0x202F \/ c = 0x205F \/ c = 0x3000.
Proof.
  intros H. rewrite (p_c56_whitespace c H).
  assert (K : In (category_of c) [Zs; Zl; Zp] <-> c = 0x20 \/ c = 0xA0 \/ c = 0x1680 \/ 0x2000 <= c <= 0x200A \/ c = 0x2028 \/ c = 0x2029 \/
    c = 0x202F \/ c = 0x205F \/ c = 0x3000).
  { split.
    - intros HI. assert (S : sep_cat (category_of c) = true) by (destruct HI as [<-|[<-|[<-|[]]]]; reflexivity).
      unfold category_of in S. destruct (find _ UD_CATEGORIES) as [[[lo hi] k]|] eqn:E; [|discriminate].
      apply find_some in E as [E1 E2]. apply andb_true_iff in E2 as [E2 E3]. apply N.leb_le in E2, E3.
      assert (F : In (lo, hi, k) (filter (fun r => sep_cat (snd r)) UD_CATEGORIES)) by (apply filter_In; now split).
      replace (filter (fun r => sep_cat (snd r)) UD_CATEGORIES) with
        [(0x20, 0x20, Zs); (0xA0, 0xA0, Zs); (0x1680, 0x1680, Zs); (0x2000, 0x200A, Zs); (0x2028, 0x2028, Zl); (0x2029, 0x2029, Zp);
         (0x202F, 0x202F, Zs); (0x205F, 0x205F, Zs); (0x3000, 0x3000, Zs)] in F by (vm_compute; reflexivity).
      cbn [In] in F. repeat destruct F as [F|F]; try contradiction; injection F as <- <- <-; lia.
    - intros HI.
      assert (A : forallb (fun c => sep_cat (category_of c)) ([0x20; 0xA0; 0x1680; 0x2028; 0x2029; 0x202F; 0x205F; 0x3000] ++ map (fun n => 0x2000 + N.of_nat n) (seq 0 11)) = true) by (vm_compute; reflexivity).
      rewrite forallb_forall in A.
      assert (S : sep_cat (category_of c) = true).
      { apply A. apply in_or_app. destruct (N.leb_spec 0x2000 c) as [L|L]; [destruct (N.leb_spec c 0x200A) as [L'|L']|].
        - right. apply in_map_iff. exists (N.to_nat (c - 0x2000)). split; [lia|]. apply in_seq. lia.
        - left. cbn [In]. intuition lia.
        - left. cbn [In]. intuition lia. }
      destruct (category_of c); cbn [In]; try discriminate S; auto. }
  rewrite K. unfold newline. split; intros; lia.
Qed.
