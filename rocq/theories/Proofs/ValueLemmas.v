(** C92-C94: Subrange, the class constants, comparison of code points. *)
From Verif Require Import Base Spec.Category Spec.UnicodeData Spec.Strings
  Model.Decode Model.Encode Model.Subrange Model.Search Model.CharClass Model.ConvertCase
  Proofs.CharClassLemmas Proofs.CaseLemmas Proofs.CaseStringLemmas Proofs.UnicodeProps Proofs.SearchLemmas Proofs.CpSetLemmas.
From Coq Require Import ZifyBool ZifyNat ZifyN.

Lemma p_c92_eq a b : sub_eqb a b = true <-> a = b.
Proof.
  destruct a as [o l], b as [o' l']. unfold sub_eqb. cbn [sub_offset sub_length]. rewrite Bool.andb_true_iff, !N.eqb_eq.
  split; [intros [-> ->]; reflexivity|intros E; injection E; auto].
Qed.
Lemma p_c92_text (u m v : str) : Fits (u ++ m ++ v) ->
  let r := Sub (size u) (size m) in
  r = sub_its 0 (length u) (length (u ++ m)) /\
  sub_start r = size u /\ sub_end r = size (u ++ m) /\ (sub_bool r = true <-> m <> []) /\
  substr (u ++ m ++ v) (sub_start r) (sub_length r) = Ok m.
Proof.
  intros HF. cbn [sub_start sub_offset sub_length]. unfold Fits in HF. unfold size in *. rewrite ?app_length in *.
  repeat split.
  - unfold sub_its. f_equal; lia.
  - unfold sub_end, add64. cbn [sub_offset sub_length]. unfold SIZE_MAX, PTRDIFF_MAX in *. rewrite N.mod_small; unfold W64 in *; lia.
  - unfold sub_bool. cbn [sub_length]. intros H ->. discriminate.
  - unfold sub_bool. cbn [sub_length]. intros H. destruct m; [contradiction|]. cbn [length]. destruct (N.eqb_spec (N.of_nat (S (length m))) 0); [lia|reflexivity].
  - unfold substr, size. rewrite !app_length. replace (N.of_nat (length u + (length m + length v)) <? N.of_nat (length u)) with false by lia.
    rewrite Nat2N.id, skipn_app, skipn_all, Nat.sub_diag. cbn [app skipn].
    replace (N.to_nat _) with (length m) by lia.
    rewrite firstn_app, firstn_all, Nat.sub_diag, firstn_O, app_nil_r. reflexivity.
Qed.
Lemma p_c92_default (s : str) : Fits s -> sub_bool sub_default = false /\ size s < sub_start sub_default.
Proof. intros HF. unfold Fits in HF. split; [reflexivity|]. cbn. unfold SIZE_MAX, PTRDIFF_MAX in *. lia. Qed.

Lemma p_c94 a b : a < 0x100000000 -> b < 0x100000000 ->
  (case_insensitive_equal a b = true <-> simple_upper a = simple_upper b) /\
  (case_insensitive_less a b = true <-> simple_upper a < simple_upper b) /\
  (case_insensitive_compare a b = 0%Z <-> simple_upper a = simple_upper b) /\
  (a < 0x80000000 -> b < 0x80000000 ->
    case_insensitive_compare a b = (Z.of_N (simple_upper a) - Z.of_N (simple_upper b))%Z).
Proof.
  intros Ha Hb. unfold case_insensitive_equal, case_insensitive_less, case_insensitive_compare.
  rewrite !to_upper_spec by (unfold W32; lia).
  assert (B : forall c, c < 0x80000000 -> simple_upper c < 0x80000000).
  { intros c H. destruct (N.le_gt_cases c 0x10FFFF) as [L|L]; [apply simple_upper_bound in L; lia|now rewrite simple_upper_above]. }
  assert (B2 : forall c, c < 0x100000000 -> simple_upper c < 0x100000000) by (intros c H; now apply up_W32).
  pose proof (B a) as Ba. pose proof (B b) as Bb. pose proof (B2 a Ha) as Ca. pose proof (B2 b Hb) as Cb. clear B B2.
  generalize dependent (simple_upper a). generalize dependent (simple_upper b). intros y By Cy x Bx Cx.
  split; [apply N.eqb_eq|]. split; [apply N.ltb_lt|].
  unfold to_int32, sub32, W32. rewrite (N.mod_small y) by lia.
  destruct (N.le_gt_cases y x) as [L|L].
  - replace (x + (0x100000000 - y)) with (x - y + 1 * 0x100000000) by lia.
    rewrite N.mod_add, N.mod_small by lia. split; [|intros; destruct (N.ltb_spec (x - y) 0x80000000); lia].
    destruct (N.ltb_spec (x - y) 0x80000000); lia.
  - rewrite N.mod_small by lia. split; [|intros; destruct (N.ltb_spec (x + (0x100000000 - y)) 0x80000000); lia].
    destruct (N.ltb_spec (x + (0x100000000 - y)) 0x80000000); lia.
Qed.
Lemma p_c94_orders a b c : a < 0x100000000 -> b < 0x100000000 -> c < 0x100000000 ->
  case_insensitive_less a a = false /\
  (case_insensitive_less a b = true -> case_insensitive_less b c = true -> case_insensitive_less a c = true) /\
  (case_insensitive_less a b = true /\ case_insensitive_equal a b = false /\ case_insensitive_less b a = false \/
   case_insensitive_less a b = false /\ case_insensitive_equal a b = true /\ case_insensitive_less b a = false \/
   case_insensitive_less a b = false /\ case_insensitive_equal a b = false /\ case_insensitive_less b a = true) /\
  (case_insensitive_equal a b = true -> case_insensitive_equal b c = true -> case_insensitive_equal a c = true) /\
  case_insensitive_equal a b = case_insensitive_equal b a /\
  case_insensitive_equal a (to_upper a) = true.
Proof.
  intros Ha Hb Hc. unfold case_insensitive_equal, case_insensitive_less.
  repeat split.
  - lia.
  - lia.
  - destruct (N.lt_trichotomy (to_upper a) (to_upper b)) as [H|[H|H]]; [left|right; left|right; right]; lia.
  - lia.
  - lia.
  - rewrite (to_upper_spec a), (to_upper_spec (simple_upper a)) by (try apply up_W32; unfold W32; lia).
    rewrite simple_upper_twice. apply N.eqb_refl.
Qed.
Lemma p_c93_masks k :
  let selects mask := N.land (2 ^ category_number k) mask <> 0 in
  (selects CASED_LETTER <-> In k [Lu; Ll; Lt]) /\
  (selects LETTER <-> In k [Lu; Ll; Lt; Lm; Lo]) /\
  (selects MARK <-> In k [Mn; Mc; Me]) /\
  (selects NUMBER <-> In k [Nd; Nl; No]) /\
  (selects PUNCTUATION <-> In k [Pc; Pd; Ps; Pe; Pi; Pf; Po]) /\
  (selects SYMBOL <-> In k [Sm; Sc; Sk; So]) /\
  (selects SEPARATOR <-> In k [Zs; Zl; Zp]) /\
  (selects OTHER <-> In k [Cc; Cf; Cs; Co; Cn]).
Proof.
  cbv zeta.
  repeat match goal with |- _ /\ _ => split end;
  (destruct k; vm_compute; split; intros H; try (exfalso; apply H; reflexivity); try (intuition discriminate); intuition).
Qed.
