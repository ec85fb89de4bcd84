(** Case-insensitive comparison. *)
From Verif Require Import Base Model.Decode Model.Encode Model.Subrange Model.Search Model.Split Model.CharClass Model.ConvertCase
  Model.CodepointSet Model.CaseInsensitive Spec.Utf8Spec Spec.Strings Spec.UnicodeData Spec.CaseFold
  Proofs.Utf8Lemmas Proofs.DecodeLemmas Proofs.EncodeLemmas Proofs.CodepointLemmas Proofs.SearchLemmas Proofs.CaseLemmas Proofs.CaseStringLemmas.
Require Import Lia ZifyBool ZifyNat ZifyN.

Notation up := simple_upper.

Lemma uchar_W32 g c : uchar g c -> c < W32.
Proof. intros H. apply W32_bound. now apply uchar_bound in H. Qed.

Lemma up_bound c : c < 0x200000 -> up c < 0x200000.
Proof.
  intros H. destruct (N.le_gt_cases c 0x10FFFF) as [L|L].
  - apply simple_upper_bound in L. lia.
  - rewrite simple_upper_above; lia.
Qed.

Lemma ci_eq_spec g c h d : uchar g c -> uchar h d -> case_insensitive_equal c d = (up c =? up d).
Proof. intros H1 H2. unfold case_insensitive_equal. now rewrite !to_upper_spec by eauto using uchar_W32. Qed.

Lemma ci_cmp_spec g c h d : uchar g c -> uchar h d ->
  case_insensitive_compare c d = (Z.of_N (up c) - Z.of_N (up d))%Z.
Proof.
  intros H1 H2. unfold case_insensitive_compare. rewrite !to_upper_spec by eauto using uchar_W32.
  apply uchar_bound, up_bound in H1. apply uchar_bound, up_bound in H2.
  unfold to_int32, sub32. generalize dependent (up c). generalize dependent (up d). intros y Hy x Hx.
  unfold W32 in *. rewrite (N.mod_small y) by lia.
  destruct (N.le_gt_cases y x) as [L|L].
  - replace (x + (0x100000000 - y)) with (x - y + 1 * 0x100000000) by lia.
    rewrite N.mod_add, N.mod_small by lia. destruct (N.ltb_spec (x - y) 0x80000000); lia.
  - rewrite N.mod_small by lia. destruct (N.ltb_spec (x + (0x100000000 - y)) 0x80000000); lia.
Qed.

(** *** What the loops compute *)
Definition tail (r : str) (bad : bool) : Prop := if bad then Malformed r else r = [].

Lemma decoded s : exists u us r t, s = u ++ r /\ Text u us /\ tail r t.
Proof.
  destruct (text_prefix s) as (u & us & r & E & HT & [H|H]).
  - exists u, us, r, false. auto.
  - exists u, us, r, true. auto.
Qed.

Lemma decode_tail pre r t : tail r t ->
  safe_decode_next (pre ++ r) (length pre) = if t then Throw YstringException else Ok None.
Proof.
  destruct t; cbn; intros H.
  - now apply safe_decode_next_malformed.
  - subst. rewrite app_nil_r. apply safe_decode_next_end.
Qed.

Fixpoint cmp_pure (us : list N) (t : bool) (vs : list N) (t' : bool) : option Z :=
  match us, vs with
  | [], [] => if t || t' then None else Some 0%Z
  | _ :: _, [] => if t' then None else Some 1%Z
  | [], _ :: _ => if t then None else Some (-1)%Z
  | c :: us', d :: vs' =>
    let z := (Z.of_N (up c) - Z.of_N (up d))%Z in
    if (z =? 0)%Z then cmp_pure us' t vs' t' else Some z
  end.

Definition to_outcome {A} (f : Z -> A) (o : option Z) : outcome A :=
  match o with Some z => Ok (f z) | None => Throw YstringException end.

Section Loops.
Variables (A : Type) (f : Z -> A).
Variables (same : N -> N -> bool) (diff : N -> N -> A).
Hypothesis same_ok : forall g c h d, uchar g c -> uchar h d -> same c d = (Z.of_N (up c) - Z.of_N (up d) =? 0)%Z.
Hypothesis diff_ok : forall g c h d, uchar g c -> uchar h d -> same c d = false -> diff c d = f (Z.of_N (up c) - Z.of_N (up d))%Z.
Variable loop : nat -> str -> str -> nat -> nat -> outcome A.
Hypothesis loop_S : forall fuel s c i j, loop (S fuel) s c i j =
  let* rs := safe_decode_next s i in
  let* rc := safe_decode_next c j in
  match rs, rc with
  | None, None => Ok (f 0%Z)
  | Some _, None => Ok (f 1%Z)
  | None, Some _ => Ok (f (-1)%Z)
  | Some (a, i'), Some (b, j') =>
    if same a b then loop fuel s c i' j' else Ok (diff a b)
  end.

Lemma loop_pure us : forall vs pre u r pre' v w t t' fuel, Text u us -> Text v vs -> tail r t -> tail w t' ->
  (length us < fuel)%nat ->
  loop fuel (pre ++ u ++ r) (pre' ++ v ++ w) (length pre) (length pre') = to_outcome f (cmp_pure us t vs t').
Proof using loop_S same_ok diff_ok.
  induction us as [|c us IH]; intros vs pre u r pre' v w t t' fuel Hu Hv Hr Hw Hf;
    (destruct fuel as [|fuel]; [cbn in Hf; lia|]); rewrite loop_S.
  - apply Text_nil_inv in Hu. subst u. cbn [app]. rewrite (decode_tail _ _ _ Hr).
    destruct vs as [|d vs].
    + apply Text_nil_inv in Hv. subst v. cbn [app]. rewrite (decode_tail _ _ _ Hw).
      destruct t, t'; reflexivity.
    + apply Text_cons_inv in Hv. destruct Hv as (h & v' & -> & Hh & Hv). rewrite <- app_assoc.
      rewrite (safe_decode_next_uchar _ _ _ _ Hh). destruct t; reflexivity.
  - apply Text_cons_inv in Hu. destruct Hu as (g & u' & -> & Hg & Hu). rewrite <- (app_assoc g).
    rewrite (safe_decode_next_uchar _ _ _ _ Hg). cbn [bind].
    destruct vs as [|d vs].
    + apply Text_nil_inv in Hv. subst v. cbn [app]. rewrite (decode_tail _ _ _ Hw). destruct t'; reflexivity.
    + apply Text_cons_inv in Hv. destruct Hv as (h & v' & -> & Hh & Hv). rewrite <- (app_assoc h).
      rewrite (safe_decode_next_uchar _ _ _ _ Hh). cbn [bind cmp_pure].
      destruct (same c d) eqn:Es; [|rewrite (diff_ok _ _ _ _ Hg Hh Es)]; rewrite (same_ok _ _ _ _ Hg Hh) in Es;
        rewrite Es; [|reflexivity].
      rewrite (app_assoc pre), (app_assoc pre'), <- !app_length. apply IH; auto. cbn [length] in Hf. lia.
Qed.
End Loops.

Ltac decode_cases s i c j :=
  destruct (safe_decode_next s i) as [[[? ?]|]| | |]; cbn [bind]; try reflexivity;
  destruct (safe_decode_next c j) as [[[? ?]|]| | |]; cbn [bind]; try reflexivity.

Lemma Zdiff0 x y : (Z.of_N x - Z.of_N y =? 0)%Z = (x =? y).
Proof. destruct (N.eqb_spec x y) as [->|H]; [now rewrite Z.sub_diag|]. apply Z.eqb_neq. lia. Qed.

Lemma ci_compare_pure u us r t v vs w t' : Text u us -> Text v vs -> tail r t -> tail w t' ->
  ci_compare (u ++ r) (v ++ w) = to_outcome (fun z => z) (cmp_pure us t vs t').
Proof.
  intros Hu Hv Hr Hw. unfold ci_compare.
  refine (loop_pure Z (fun z => z) (fun a b => (case_insensitive_compare a b =? 0)%Z) case_insensitive_compare
    _ _ ci_compare_loop _ us vs [] u r [] v w t t' _ Hu Hv Hr Hw _).
  - intros g c h d H1 H2. now rewrite (ci_cmp_spec _ _ _ _ H1 H2).
  - intros g c h d H1 H2 _. apply (ci_cmp_spec _ _ _ _ H1 H2).
  - intros fuel s c i j. cbn [ci_compare_loop]. decode_cases s i c j. destruct (_ =? 0)%Z; reflexivity.
  - apply Text_length in Hu. rewrite app_length. lia.
Qed.

Lemma ci_equal_pure u us r t v vs w t' : Text u us -> Text v vs -> tail r t -> tail w t' ->
  ci_equal (u ++ r) (v ++ w) = to_outcome (fun z => z =? 0)%Z (cmp_pure us t vs t').
Proof.
  intros Hu Hv Hr Hw. unfold ci_equal.
  refine (loop_pure bool (fun z => z =? 0)%Z case_insensitive_equal (fun _ _ => false)
    _ _ ci_equal_loop _ us vs [] u r [] v w t t' _ Hu Hv Hr Hw _).
  - intros g c h d H1 H2. now rewrite (ci_eq_spec _ _ _ _ H1 H2), Zdiff0.
  - intros g c h d H1 H2 E. rewrite (ci_eq_spec _ _ _ _ H1 H2) in E. now rewrite Zdiff0.
  - intros fuel s c i j. cbn [ci_equal_loop]. decode_cases s i c j. destruct (case_insensitive_equal _ _); reflexivity.
  - apply Text_length in Hu. rewrite app_length. lia.
Qed.

Lemma ci_less_pure u us r t v vs w t' : Text u us -> Text v vs -> tail r t -> tail w t' ->
  ci_less (u ++ r) (v ++ w) = to_outcome (fun z => z <? 0)%Z (cmp_pure us t vs t').
Proof.
  intros Hu Hv Hr Hw. unfold ci_less.
  refine (loop_pure bool (fun z => z <? 0)%Z (fun a b => (case_insensitive_compare a b =? 0)%Z)
    (fun a b => (case_insensitive_compare a b <? 0)%Z)
    _ _ ci_less_loop _ us vs [] u r [] v w t t' _ Hu Hv Hr Hw _).
  - intros g c h d H1 H2. now rewrite (ci_cmp_spec _ _ _ _ H1 H2).
  - intros g c h d H1 H2 _. now rewrite (ci_cmp_spec _ _ _ _ H1 H2).
  - intros fuel s c i j. cbn [ci_less_loop]. decode_cases s i c j. destruct (_ =? 0)%Z; reflexivity.
  - apply Text_length in Hu. rewrite app_length. lia.
Qed.

(** *** Properties of the comparison of lists *)
Lemma cmp_pure_opp us : forall t vs t', cmp_pure vs t' us t = option_map Z.opp (cmp_pure us t vs t').
Proof.
  induction us as [|c us IH]; intros t [|d vs] t'; cbn [cmp_pure option_map].
  - destruct t, t'; reflexivity.
  - destruct t; reflexivity.
  - destruct t'; reflexivity.
  - rewrite !Zdiff0, (N.eqb_sym (up d)). destruct (up c =? up d); [apply IH|]. cbn [option_map]. f_equal. lia.
Qed.

Lemma cmp_pure_trans us : forall t vs t' ws t'' x y,
  cmp_pure us t vs t' = Some x -> cmp_pure vs t' ws t'' = Some y -> (x <= 0)%Z -> (y <= 0)%Z ->
  exists z, cmp_pure us t ws t'' = Some z /\ (z <= 0)%Z /\ (z = 0 -> x = 0 /\ y = 0)%Z.
Proof.
  induction us as [|c us IH]; intros t [|d vs] t' [|e ws] t'' x y H1 H2 Hx Hy; cbn [cmp_pure] in *.
  - destruct t, t', t''; try discriminate. injection H1 as <-. injection H2 as <-. exists 0%Z. auto.
  - destruct t, t'; try discriminate. injection H1 as <-. injection H2 as <-. exists (-1)%Z. repeat split; auto; lia.
  - destruct t''; try discriminate. injection H2 as <-. lia.
  - destruct t; try discriminate. injection H1 as <-. exists (-1)%Z. repeat split; auto; lia.
  - destruct t'; try discriminate. injection H1 as <-. lia.
  - destruct t'; try discriminate. injection H1 as <-. lia.
  - destruct t''; try discriminate. injection H2 as <-. lia.
  - rewrite Zdiff0 in *. destruct (N.eqb_spec (up c) (up d)) as [E1|E1]; destruct (N.eqb_spec (up d) (up e)) as [E2|E2].
    + rewrite E1, E2, N.eqb_refl. eauto.
    + injection H2 as <-. rewrite E1. apply N.eqb_neq in E2. rewrite E2. apply N.eqb_neq in E2.
      eexists. split; [reflexivity|]. lia.
    + injection H1 as <-. rewrite <- E2. apply N.eqb_neq in E1. rewrite E1. apply N.eqb_neq in E1.
      eexists. split; [reflexivity|]. lia.
    + injection H1 as <-. injection H2 as <-. destruct (N.eqb_spec (up c) (up e)); [lia|].
      eexists. split; [reflexivity|]. lia.
Qed.

Lemma cmp_pure_lex us : forall vs, exists z, cmp_pure us false vs false = Some z /\
  (z ?= 0)%Z = lex (fold_case us) (fold_case vs).
Proof.
  induction us as [|c us IH]; intros [|d vs]; cbn [cmp_pure fold_case map lex orb].
  - exists 0%Z. auto.
  - exists (-1)%Z. auto.
  - exists 1%Z. auto.
  - rewrite Zdiff0. destruct (N.eqb_spec (up c) (up d)) as [E|E].
    + rewrite E, N.compare_refl. apply IH.
    + exists (Z.of_N (up c) - Z.of_N (up d))%Z. split; [reflexivity|].
      destruct (N.compare_spec (up c) (up d)) as [H|H|H]; [contradiction| |].
      * apply Z.compare_lt_iff. lia.
      * apply Z.compare_gt_iff. lia.
Qed.

Lemma lex_eq a : forall b, lex a b = Eq <-> a = b.
Proof.
  induction a as [|x a IH]; intros [|y b]; cbn [lex]; try (split; congruence).
  destruct (N.compare_spec x y) as [->|H|H].
  - rewrite IH. split; congruence.
  - split; [discriminate|]. intros E. injection E. lia.
  - split; [discriminate|]. intros E. injection E. lia.
Qed.

(** *** C46-C48 *)
Lemma p_c46_lex a cs b ds : Text a cs -> Text b ds ->
  exists z, ci_compare a b = Ok z /\ (z ?= 0)%Z = lex (fold_case cs) (fold_case ds).
Proof.
  intros Ha Hb. rewrite <- (app_nil_r a), <- (app_nil_r b).
  rewrite (ci_compare_pure a cs [] false b ds [] false Ha Hb eq_refl eq_refl).
  destruct (cmp_pure_lex cs ds) as (z & -> & E). exists z. auto.
Qed.

Lemma p_c46_opp a b : ci_compare b a = omap Z.opp (ci_compare a b).
Proof.
  destruct (decoded a) as (u & us & r & t & -> & Hu & Hr). destruct (decoded b) as (v & vs & w & t' & -> & Hv & Hw).
  rewrite (ci_compare_pure u us r t v vs w t'), (ci_compare_pure v vs w t' u us r t) by assumption.
  rewrite (cmp_pure_opp us). destruct (cmp_pure us t vs t'); reflexivity.
Qed.

Lemma p_c46_trans a b c x y : ci_compare a b = Ok x -> ci_compare b c = Ok y -> (x <= 0)%Z -> (y <= 0)%Z ->
  exists z, ci_compare a c = Ok z /\ (z <= 0)%Z /\ (z = 0 -> x = 0 /\ y = 0)%Z.
Proof.
  destruct (decoded a) as (u & us & r & t & -> & Hu & Hr). destruct (decoded b) as (v & vs & w & t' & -> & Hv & Hw).
  destruct (decoded c) as (k & ks & l & t'' & -> & Hk & Hl).
  rewrite (ci_compare_pure u us r t v vs w t'), (ci_compare_pure v vs w t' k ks l t''),
    (ci_compare_pure u us r t k ks l t'') by assumption.
  intros H1 H2 Hx Hy.
  destruct (cmp_pure us t vs t') as [x'|] eqn:E1; [|discriminate]. destruct (cmp_pure vs t' ks t'') as [y'|] eqn:E2; [|discriminate].
  injection H1 as ->. injection H2 as ->.
  destruct (cmp_pure_trans _ _ _ _ _ _ _ _ E1 E2 Hx Hy) as (z & -> & H). exists z. split; [reflexivity|exact H].
Qed.

Lemma p_c47 a b : ci_equal a b = omap (fun z => z =? 0)%Z (ci_compare a b).
Proof.
  destruct (decoded a) as (u & us & r & t & -> & Hu & Hr). destruct (decoded b) as (v & vs & w & t' & -> & Hv & Hw).
  rewrite (ci_compare_pure u us r t v vs w t'), (ci_equal_pure u us r t v vs w t') by assumption.
  destruct (cmp_pure us t vs t'); reflexivity.
Qed.

Lemma p_c48 a b : ci_less a b = omap (fun z => z <? 0)%Z (ci_compare a b).
Proof.
  destruct (decoded a) as (u & us & r & t & -> & Hu & Hr). destruct (decoded b) as (v & vs & w & t' & -> & Hv & Hw).
  rewrite (ci_compare_pure u us r t v vs w t'), (ci_less_pure u us r t v vs w t') by assumption.
  destruct (cmp_pure us t vs t'); reflexivity.
Qed.

Lemma p_c47_text a cs b ds : Text a cs -> Text b ds ->
  exists e, ci_equal a b = Ok e /\ (e = true <-> fold_case cs = fold_case ds).
Proof.
  intros Ha Hb. destruct (p_c46_lex _ _ _ _ Ha Hb) as (z & E & L). rewrite p_c47, E.
  exists (z =? 0)%Z. split; [reflexivity|]. rewrite <- lex_eq, <- L, Z.eqb_eq, Z.compare_eq_iff. reflexivity.
Qed.

(** Where a malformed sequence is met. *)
Lemma cmp_pure_common us : forall vs xs t ys t', fold_case us = fold_case vs ->
  cmp_pure (us ++ xs) t (vs ++ ys) t' = cmp_pure xs t ys t'.
Proof.
  induction us as [|c us IH]; intros [|d vs] xs t ys t' E; try discriminate; [reflexivity|].
  cbn [fold_case map] in E. injection E as E1 E2. cbn [app cmp_pure]. rewrite Zdiff0, E1, N.eqb_refl. now apply IH.
Qed.

Lemma p_c46_malformed u us r v vs w : Text u us -> Text v vs -> fold_case us = fold_case vs -> Malformed r ->
  ci_compare (u ++ r) (v ++ w) = Throw YstringException /\ ci_compare (v ++ w) (u ++ r) = Throw YstringException.
Proof.
  intros Hu Hv E Hr.
  destruct (decoded w) as (y & ys & q & t' & -> & Hy & Hq).
  assert (HT : Text (v ++ y) (vs ++ ys)) by now apply Text_app.
  assert (H : ci_compare (u ++ r) (v ++ y ++ q) = Throw YstringException).
  { rewrite app_assoc, (ci_compare_pure u us r true (v ++ y) (vs ++ ys) q t') by assumption.
    rewrite <- (app_nil_r us), cmp_pure_common by exact E. destruct ys; reflexivity. }
  split; [exact H|]. rewrite p_c46_opp, H. reflexivity.
Qed.

Lemma p_c46_total a b : (exists z, ci_compare a b = Ok z) \/ ci_compare a b = Throw YstringException.
Proof.
  destruct (decoded a) as (u & us & r & t & -> & Hu & Hr). destruct (decoded b) as (v & vs & w & t' & -> & Hv & Hw).
  rewrite (ci_compare_pure u us r t v vs w t') by assumption.
  destruct (cmp_pure us t vs t'); [left; eexists; reflexivity|right; reflexivity].
Qed.

Lemma p_c46_zero a cs b ds : Text a cs -> Text b ds -> (ci_compare a b = Ok 0%Z <-> fold_case cs = fold_case ds).
Proof.
  intros Ha Hb. destruct (p_c46_lex _ _ _ _ Ha Hb) as (z & -> & L). rewrite <- lex_eq, <- L, Z.compare_eq_iff.
  split; congruence.
Qed.

Lemma omap_inv {A B} (f : A -> B) o b : omap f o = Ok b -> exists a, o = Ok a /\ f a = b.
Proof. destruct o; cbn; try discriminate. intros H. injection H as <-. eauto. Qed.

Lemma p_c47_equivalence a b c :
  (ci_equal a b = Ok true -> ci_equal b a = Ok true) /\
  (ci_equal a b = Ok true -> ci_equal b c = Ok true -> ci_equal a c = Ok true) /\
  ((exists cs, Text a cs) -> ci_equal a a = Ok true).
Proof.
  rewrite !p_c47. repeat split.
  - intros H. apply omap_inv in H. destruct H as (z & E & Hz). rewrite p_c46_opp, E. cbn. apply Z.eqb_eq in Hz. now subst z.
  - intros H1 H2. apply omap_inv in H1. destruct H1 as (x & E1 & Hx). apply omap_inv in H2. destruct H2 as (y & E2 & Hy).
    apply Z.eqb_eq in Hx. apply Z.eqb_eq in Hy. subst x y.
    destruct (p_c46_trans _ _ _ _ _ E1 E2) as (z & E & Hz & _); [lia|lia|].
    assert (F1 : ci_compare c b = Ok 0%Z) by now rewrite p_c46_opp, E2.
    assert (F2 : ci_compare b a = Ok 0%Z) by now rewrite p_c46_opp, E1.
    destruct (p_c46_trans _ _ _ _ _ F1 F2) as (z' & E' & Hz' & _); [lia|lia|].
    rewrite p_c46_opp, E in E'. cbn in E'. injection E' as <-. rewrite E. cbn. f_equal. lia.
  - intros (cs & H). rewrite (proj2 (p_c46_zero a cs a cs H H) eq_refl). reflexivity.
Qed.

Lemma p_c48_order a b c :
  (ci_less a a <> Ok true) /\
  (ci_less a b = Ok true -> ci_less b a = Ok false) /\
  (ci_less a b = Ok true -> ci_less b c = Ok true -> ci_less a c = Ok true) /\
  (ci_less a b = Ok false -> ci_less b a = Ok false -> ci_less b c = Ok false -> ci_less c b = Ok false ->
   ci_less a c = Ok false /\ ci_less c a = Ok false).
Proof.
  rewrite !p_c48. repeat split.
  - intros H. apply omap_inv in H. destruct H as (z & E & Hz). pose proof (p_c46_opp a a) as O. rewrite E in O. cbn in O.
    injection O as O. lia.
  - intros H. apply omap_inv in H. destruct H as (z & E & Hz). rewrite p_c46_opp, E. cbn. f_equal. lia.
  - intros H1 H2. apply omap_inv in H1. destruct H1 as (x & E1 & Hx). apply omap_inv in H2. destruct H2 as (y & E2 & Hy).
    destruct (p_c46_trans _ _ _ _ _ E1 E2) as (z & E & Hz & Hz'); [lia|lia|]. rewrite E. cbn. f_equal. lia.
  - apply omap_inv in H, H0, H1, H2. destruct H as (x & E1 & Hx). destruct H0 as (x' & E1' & Hx').
    destruct H1 as (y & E2 & Hy). destruct H2 as (y' & E2' & Hy').
    rewrite p_c46_opp, E1 in E1'. injection E1' as <-. rewrite p_c46_opp, E2 in E2'. injection E2' as <-.
    destruct (p_c46_trans _ _ _ _ _ E1 E2) as (z & E & Hz & Hz'); [lia|lia|]. rewrite E. cbn. f_equal.
    assert (F1 : ci_compare c b = Ok (- y)%Z) by now rewrite p_c46_opp, E2.
    assert (F2 : ci_compare b a = Ok (- x)%Z) by now rewrite p_c46_opp, E1.
    destruct (p_c46_trans _ _ _ _ _ F1 F2) as (z' & E' & Hz2 & _); [lia|lia|].
    rewrite p_c46_opp, E in E'. injection E' as <-. lia.
  - apply omap_inv in H, H0, H1, H2. destruct H as (x & E1 & Hx). destruct H0 as (x' & E1' & Hx').
    destruct H1 as (y & E2 & Hy). destruct H2 as (y' & E2' & Hy').
    rewrite p_c46_opp, E1 in E1'. injection E1' as <-. rewrite p_c46_opp, E2 in E2'. injection E2' as <-.
    destruct (p_c46_trans _ _ _ _ _ E1 E2) as (z & E & Hz & Hz'); [lia|lia|]. rewrite p_c46_opp, E. cbn. f_equal. lia.
Qed.
