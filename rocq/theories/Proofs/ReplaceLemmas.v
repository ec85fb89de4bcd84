(** replace, replace_codepoint, replace_invalid_utf8. *)
From Verif Require Import Base Spec.Utf8Spec Spec.Strings Spec.Replace Model.Decode Model.Encode Model.Subrange Model.Search
  Proofs.Utf8Lemmas Proofs.DecodeLemmas Proofs.SkipLemmas Proofs.EncodeLemmas Proofs.CodepointLemmas Proofs.SearchLemmas.
From Coq Require Import ZifyBool ZifyNat ZifyN.
Ltac Zify.zify_post_hook ::= Z.div_mod_to_equations.

Lemma occurs_at_shift p pre s i : occurs_at p (pre ++ s) (length pre + i) <-> occurs_at p s i.
Proof.
  split.
  - intros (u & v & E & Hl).
    assert (exists w, u = pre ++ w) as (w & ->).
    { exists (skipn (length pre) u).
      assert (E2 : firstn (length pre) (u ++ p ++ v) = pre) by (rewrite <- E; apply firstn_length_app).
      rewrite firstn_app in E2. replace (length pre - length u)%nat with 0%nat in E2 by lia.
      cbn in E2. rewrite app_nil_r in E2. rewrite <- E2 at 1. now rewrite firstn_skipn. }
    rewrite <- app_assoc in E. apply app_inv_head in E. rewrite app_length in Hl.
    exists w, v. split; [exact E|lia].
  - intros (u & v & -> & <-). exists (pre ++ u), v. rewrite <- app_assoc, app_length. now split.
Qed.

(** ** Front *)

Lemma replace_front_loop_spec from to : from <> [] -> forall fuel pre s m acc,
  (length s < fuel)%nat -> (0 <= m)%Z ->
  exists r acc' it', ReplaceFront from to (Z.to_N m) s r /\
    replace_front_loop fuel (pre ++ s) from to m (length pre) acc = Ok (acc', it') /\
    (it' <= length (pre ++ s))%nat /\ acc ++ r = acc' ++ skipn it' (pre ++ s).
Proof.
  intros Hfrom. induction fuel as [|fuel IH]; intros pre s m acc Hf Hm; [lia|].
  cbn [replace_front_loop]. destruct (Z.ltb_spec 0 m) as [L|L].
  2:{ exists s, acc, (length pre). replace m with 0%Z by lia. repeat split.
      - constructor.
      - rewrite app_length. lia.
      - now rewrite skipn_length_app. }
  cbv zeta.
  assert (Hle : (length pre <= length (pre ++ s))%nat) by (rewrite app_length; lia).
  destruct (std_search_spec (pre ++ s) from (length pre) Hfrom Hle) as [(H1 & H2 & H3)|(H1 & H2)].
  - remember (std_search (pre ++ s) from (length pre)) as mt eqn:Emt.
    replace (Nat.eqb mt (length (pre ++ s))) with false by lia.
    replace mt with (length pre + (mt - length pre))%nat in H1 by lia.
    apply (proj1 (occurs_at_shift _ _ _ _)) in H1. destruct H1 as (u & v & -> & Hu).
    assert (mt = length (pre ++ u)) as -> by (rewrite app_length; lia).
    assert (Hlt : (0 < length from)%nat) by (destruct from; [congruence|cbn; lia]).
    replace (pre ++ u ++ from ++ v) with ((pre ++ u ++ from) ++ v) by now rewrite <- !app_assoc.
    replace (length (pre ++ u) + length from)%nat with (length (pre ++ u ++ from)) by (rewrite !app_length; lia).
    edestruct (IH (pre ++ u ++ from) v (m - 1)%Z) as (r & acc' & it' & R1 & R2 & R3 & R4);
      [rewrite !app_length in Hf; lia|lia|].
    exists (u ++ to ++ r), acc', it'. split; [|split; [exact R2|split; [exact R3|]]].
    + replace (Z.to_N m) with (Z.to_N (m - 1) + 1) by lia. constructor; [|exact R1].
      intros i Hi Ho. apply (H3 (length pre + i)%nat); [rewrite app_length; lia|].
      now apply occurs_at_shift.
    + rewrite <- R4. rewrite <- !app_assoc. f_equal.
      rewrite slice_app with (g := u); [reflexivity|reflexivity|rewrite app_length; lia].
  - rewrite H1, Nat.eqb_refl. exists s, acc, (length pre). repeat split.
    + apply rf_none. intros i Ho. apply (H2 (length pre + i)%nat); [lia|]. now apply occurs_at_shift.
    + rewrite app_length. lia.
    + now rewrite skipn_length_app.
Qed.

Lemma replace_front s from to m : from <> [] -> (0 <= m)%Z ->
  exists r, replace s from to m = Ok r /\ ReplaceFront from to (Z.to_N m) s r.
Proof.
  intros Hfrom Hm. unfold replace. replace (0 <=? m)%Z with true by lia.
  destruct (replace_front_loop_spec from to Hfrom (S (length s)) [] s m [] ltac:(lia) Hm)
    as (r & acc & it & R1 & R2 & R3 & R4).
  cbn [app length] in *. exists r. split; [|exact R1].
  destruct from as [|x from]; [congruence|]. rewrite R2. cbn [bind]. rewrite R4.
  destruct (Nat.eqb_spec it (length s)) as [->|Hn]; cbn [negb]; [|reflexivity].
  now rewrite skipn_all, app_nil_r.
Qed.

Lemma app_eq_len {A} (u u' x x' : list A) : u ++ x = u' ++ x' -> length u = length u' -> u = u' /\ x = x'.
Proof.
  revert u'. induction u as [|a u IH]; intros [|b u'] E Hl; cbn in *; try discriminate; [now split|].
  injection E as -> E. destruct (IH u' E ltac:(lia)) as [-> ->]. now split.
Qed.

Lemma ReplaceFront_fun from to n s r : ReplaceFront from to n s r ->
  forall r', ReplaceFront from to n s r' -> r = r'.
Proof.
  assert (Hocc : forall u v : str, occurs_at from (u ++ from ++ v) (length u)) by (intros u v; exists u, v; auto).
  induction 1 as [s|n s Hn|n u v r Hi H IH]; intros r' H'.
  - remember 0 as k eqn:Ek. destruct H' as [|? ? Hn|k u v r' Hi H']; try reflexivity. exfalso. lia.
  - destruct H' as [|? ? Hn'|k u v r' Hi H']; try reflexivity. destruct (Hn _ (Hocc u v)).
  - remember (n + 1) as k eqn:Ek. remember (u ++ from ++ v) as s eqn:Es.
    destruct H' as [s|k s Hn|k u' v' r' Hi' H'].
    + exfalso. lia.
    + subst s. destruct (Hn _ (Hocc u v)).
    + assert (k = n) as -> by lia.
      assert (Hl : length u = length u').
      { destruct (Nat.lt_total (length u) (length u')) as [L|[L|L]]; [|exact L|].
        - exfalso. apply (Hi' _ L). rewrite Es. apply Hocc.
        - exfalso. apply (Hi _ L). apply Hocc. }
      symmetry in Es. apply app_eq_len in Es; [|exact Hl]. destruct Es as [-> E].
      apply app_inv_head in E. subst v'. now rewrite (IH r').
Qed.

Lemma ReplaceBack_fun from to n s r : ReplaceBack from to n s r ->
  forall r', ReplaceBack from to n s r' -> r = r'.
Proof.
  assert (Hocc : forall u v : str, occurs_at from (u ++ from ++ v) (length u)) by (intros u v; exists u, v; auto).
  induction 1 as [s|n s Hn|n u v r Hi H IH]; intros r' H'.
  - remember 0 as k eqn:Ek. destruct H' as [|? ? Hn|k u v r' Hi H']; try reflexivity. exfalso. lia.
  - destruct H' as [|? ? Hn'|k u v r' Hi H']; try reflexivity. destruct (Hn _ (Hocc v u)).
  - remember (n + 1) as k eqn:Ek. remember (v ++ from ++ u) as s eqn:Es.
    destruct H' as [s|k s Hn|k u' v' r' Hi' H'].
    + exfalso. lia.
    + subst s. destruct (Hn _ (Hocc v u)).
    + assert (k = n) as -> by lia.
      assert (Hl : length v = length v').
      { destruct (Nat.lt_total (length v) (length v')) as [L|[L|L]]; [|exact L|].
        - exfalso. apply (Hi _ L). apply Hocc.
        - exfalso. apply (Hi' _ L). rewrite Es. apply Hocc. }
      symmetry in Es. apply app_eq_len in Es; [|exact Hl]. destruct Es as [-> E].
      apply app_inv_head in E. subst u'. now rewrite (IH r').
Qed.

Lemma replace_front_zero s from to : replace s from to 0 = Ok s.
Proof.
  unfold replace. cbn [Z.leb Z.compare]. 
  assert (forall fuel, replace_front_loop (S fuel) s from to 0 0 [] = Ok ([], 0%nat)) as E by reflexivity.
  destruct from as [|x from].
  - rewrite E. cbn [bind]. destruct s; reflexivity.
  - rewrite E. cbn [bind]. destruct s; reflexivity.
Qed.

Lemma replace_front_nothing from to m : (0 <= m)%Z -> replace [] from to m = Ok [].
Proof.
  intros Hm. unfold replace. replace (0 <=? m)%Z with true by lia.
  assert (std_search [] from 0 = 0%nat) as E by (destruct from; reflexivity).
  destruct from as [|a from]; cbn [replace_front_loop]; (destruct (0 <? m)%Z; [rewrite E; reflexivity|reflexivity]).
Qed.
Lemma replace_front_empty s to m : s <> [] -> (0 <= m)%Z ->
  replace s [] to m = Ok (concat (repeat to (Z.to_nat m)) ++ s).
Proof.
  intros Hs Hm. unfold replace. replace (0 <=? m)%Z with true by lia.
  assert (forall k m acc, m = Z.of_nat k ->
    replace_front_loop (S k) s [] to m 0 acc = Ok (acc ++ concat (repeat to k), 0%nat)) as E.
  { clear m Hm. induction k as [|k IH]; intros m acc ->.
    - cbn. now rewrite app_nil_r.
    - remember (S k) as k1 eqn:Ek1. cbn [replace_front_loop]. replace (0 <? Z.of_nat k1)%Z with true by lia.
      cbn [std_search]. destruct s as [|x s]; [congruence|]. cbn [length Nat.eqb Nat.add].
      rewrite IH by lia. subst k1. cbn [repeat concat]. unfold slice. cbn [Nat.sub firstn skipn app].
      now rewrite <- app_assoc. }
  rewrite (E (Z.to_nat m) m) by lia. cbn [bind app].
  destruct s as [|x s]; [congruence|]. reflexivity.
Qed.

(** ** Back *)

Lemma replace_back_loop_app s to l1 : forall l2 prev acc,
  replace_back_loop s to (l1 ++ l2) prev acc
  = let* p := replace_back_loop s to l1 prev acc in
    let (r, prev') := p in replace_back_loop s to l2 prev' r.
Proof.
  induction l1 as [|x l1 IH]; intros l2 prev acc; cbn [app replace_back_loop bind]; [reflexivity|].
  destruct (if negb (sub_offset x =? prev) then _ else _); cbn [bind]; try reflexivity. apply IH.
Qed.

Lemma substr_slice s i j : (i <= j <= length s)%nat -> substr s (N.of_nat i) (N.of_nat j - N.of_nat i) = Ok (slice s i j).
Proof.
  intros H. rewrite (slice_split s i j H) at 1. apply substr_mid; unfold size.
  - rewrite firstn_length. lia.
  - rewrite slice_length by exact H. lia.
Qed.

Lemma slice_self {A} (s : list A) i : slice s i i = [].
Proof. unfold slice. now rewrite Nat.sub_diag. Qed.

Lemma slice_cat {A} (s : list A) i j k : (i <= j <= k)%nat -> slice s i j ++ slice s j k = slice s i k.
Proof.
  intros H. unfold slice. replace (k - i)%nat with ((j - i) + (k - j))%nat by lia.
  rewrite <- (firstn_skipn (j - i) (skipn i s)) at 2.
  rewrite firstn_app, firstn_firstn, skipn_skipn.
  replace (Nat.min (j - i + (k - j)) (j - i)) with (j - i)%nat by lia.
  rewrite firstn_length, skipn_length.
  replace (j - i + i)%nat with j by lia.
  destruct (Nat.le_gt_cases j (length s)).
  - do 2 f_equal. lia.
  - rewrite (skipn_all2 (n := j)) by lia. now rewrite !firstn_nil.
Qed.

Lemma find_last_n_spec s from to : from <> [] -> Fits s -> forall fuel e n res,
  (e < fuel)%nat -> (e <= length s)%nat -> 1 <= n < W64 ->
  exists r l x prev, ReplaceBack from to n (firstn e s) r /\
    find_last_n_loop fuel s from n e res = Ok (res ++ l) /\
    replace_back_loop s to (rev l) 0 [] = Ok (x, N.of_nat prev) /\ (prev <= e)%nat /\
    r = x ++ slice s prev e.
Proof.
  intros Hfrom HF. induction fuel as [|fuel IH]; intros e n res Hf He Hn; [lia|].
  cbn [find_last_n_loop].
  assert (Hlt : (0 < length from)%nat) by (destruct from; [congruence|cbn; lia]).
  destruct (search_last_spec s from e Hfrom He) as [(a & [Ho Hl] & Hmax & ->)|(Hno & ->)].
  2:{ cbn [Nat.eqb]. exists (firstn e s), [], [], 0%nat. rewrite app_nil_r. repeat split.
      - apply rb_none. intros i (u & v & E & Hu). apply (Hno i). 
        assert (length (firstn e s) = e) by (rewrite firstn_length; lia).
        rewrite E, !app_length in H. split; [|lia].
        exists u, (v ++ skipn e s). split; [|exact Hu].
        rewrite <- (firstn_skipn e s) at 1. rewrite E, <- !app_assoc. reflexivity.
      - lia.
      - unfold slice. cbn [skipn app]. now rewrite Nat.sub_0_r. }
  replace (Nat.eqb a (a + length from)) with false by lia.
  destruct Ho as (u & v & Es & Hu).
  assert (Efirst : firstn e s = u ++ from ++ slice s (a + length from) e).
  { unfold slice. rewrite Es. rewrite !(app_assoc u from v).
    replace (a + length from)%nat with (length (u ++ from)) by (rewrite app_length; lia).
    rewrite skipn_length_app, firstn_app, firstn_all2 by (rewrite app_length; lia).
    now rewrite <- app_assoc. }
  assert (Hstep : forall k r, ReplaceBack from to k u r ->
            ReplaceBack from to (k + 1) (firstn e s) (r ++ to ++ slice s (a + length from) e)).
  { intros k r Hk. rewrite Efirst. constructor; [|exact Hk].
    intros i Hi (u2 & v2 & E2 & Hu2). apply (Hmax i); [lia|].
    rewrite <- Efirst in E2.
    assert (length (firstn e s) = e) by (rewrite firstn_length; lia).
    rewrite E2, !app_length in H. split; [|lia].
    exists u2, (v2 ++ skipn e s). split; [|exact Hu2].
    rewrite <- (firstn_skipn e s) at 1. rewrite E2, <- !app_assoc. reflexivity. }
  assert (Efirst2 : firstn a s = u) by (rewrite Es, <- Hu; apply firstn_length_app).
  assert (Hlast : forall x prev, (prev <= a)%nat ->
     replace_back_loop s to [Sub (N.of_nat a) (size from)] (N.of_nat prev) x
     = Ok (x ++ slice s prev a ++ to, N.of_nat (a + length from))).
  { intros x prev Hp. cbn [replace_back_loop sub_offset].
    assert (sub_end (Sub (N.of_nat a) (size from)) = N.of_nat (a + length from)) as ->.
    { unfold sub_end. cbn [sub_offset sub_length]. rewrite add64_small; unfold size, Fits, W64, size in *; lia. }
    destruct (N.eqb_spec (N.of_nat a) (N.of_nat prev)) as [E|E]; cbn [negb].
    - replace prev with a by lia. rewrite slice_self. reflexivity.
    - rewrite sub64_small by (unfold Fits, size, W64 in *; lia).
      rewrite substr_slice by lia. cbn [bind]. now rewrite <- app_assoc. }
  rewrite sub64_small by lia.
  destruct (N.eqb_spec (n - 1) 0) as [E1|E1].
  - exists (u ++ to ++ slice s (a + length from) e), [Sub (N.of_nat a) (size from)],
      (slice s 0 a ++ to), (a + length from)%nat.
    repeat split.
    + replace n with (0 + 1) by lia. apply Hstep. constructor.
    + cbn [rev app]. change 0 with (N.of_nat 0). rewrite Hlast by lia. reflexivity.
    + lia.
    + rewrite <- app_assoc. f_equal. unfold slice. cbn [skipn]. now rewrite Nat.sub_0_r, Efirst2.
  - edestruct (IH a (n - 1) (res ++ [Sub (N.of_nat a) (size from)])) as (r & l & x & prev & R1 & R2 & R3 & R4 & R5);
      [lia|lia|lia|].
    exists (r ++ to ++ slice s (a + length from) e), (Sub (N.of_nat a) (size from) :: l),
      (x ++ slice s prev a ++ to), (a + length from)%nat.
    repeat split.
    + replace n with ((n - 1) + 1) by lia. apply Hstep. now rewrite Efirst2 in R1.
    + rewrite R2, <- app_assoc. reflexivity.
    + cbn [rev]. rewrite replace_back_loop_app, R3. cbn [bind]. now apply Hlast.
    + lia.
    + rewrite R5, <- !app_assoc. reflexivity.
Qed.

Lemma replace_back s from to m : from <> [] -> Fits s -> (PTRDIFF_MIN < m < 0)%Z ->
  exists r, replace s from to m = Ok r /\ ReplaceBack from to (Z.to_N (- m)) s r.
Proof.
  intros Hfrom HF Hm. unfold replace. replace (0 <=? m)%Z with false by lia.
  assert (signed (- m) = Ok (- m)%Z) as ->.
  { unfold signed, is_ptrdiff. unfold PTRDIFF_MIN, PTRDIFF_MAX in *.
    replace (_ && _) with true by lia. reflexivity. }
  cbn [bind]. unfold find_last_n.
  destruct (find_last_n_spec s from to Hfrom HF (S (length s)) (length s) (Z.to_N (- m)) [])
    as (r & l & x & prev & R1 & R2 & R3 & R4 & R5); [lia|lia|unfold W64, PTRDIFF_MIN in *; lia|].
  rewrite R2. cbn [bind app]. rewrite R3. cbn [bind]. rewrite firstn_all in R1.
  exists r. split; [|exact R1]. rewrite R5. unfold size.
  destruct (N.eqb_spec (N.of_nat prev) (N.of_nat (length s))) as [E|E]; cbn [negb].
  - replace prev with (length s) by lia. now rewrite slice_self, app_nil_r.
  - assert (substr s (N.of_nat prev) (N.of_nat (length s)) = Ok (slice s prev (length s))) as ->; [|reflexivity].
    unfold substr, size. replace (N.of_nat (length s) <? N.of_nat prev) with false by lia.
    unfold slice. rewrite Nat2N.id.
    replace (N.to_nat (N.min (N.of_nat (length s)) (N.of_nat (length s) - N.of_nat prev)))
      with (length s - prev)%nat by lia. reflexivity.
Qed.

Lemma replace_back_empty s to m : (PTRDIFF_MIN < m < 0)%Z -> replace s [] to m = Ok s.
Proof.
  intros Hm. unfold replace. replace (0 <=? m)%Z with false by lia.
  assert (signed (- m) = Ok (- m)%Z) as ->.
  { unfold signed, is_ptrdiff. unfold PTRDIFF_MIN, PTRDIFF_MAX in *.
    replace (_ && _) with true by lia. reflexivity. }
  cbn [bind]. unfold find_last_n. cbn [find_last_n_loop].
  assert (search_last s (length s) [] = (0, 0)%nat) as -> by reflexivity.
  cbn [Nat.eqb bind rev replace_back_loop]. unfold size.
  destruct (N.eqb_spec 0 (N.of_nat (length s))) as [E|E]; cbn [negb].
  - destruct s; [reflexivity|cbn in E; lia].
  - rewrite substr_clamp by (unfold size; lia). reflexivity.
Qed.

Lemma replace_min_UB s from to : replace s from to PTRDIFF_MIN = UB.
Proof. reflexivity. Qed.
