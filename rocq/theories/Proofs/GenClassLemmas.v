(** C105: the character class tables, for every Unicode data file. *)
From Verif Require Import Base Spec.Category Spec.UnicodeData Spec.TableRows Model.CharClass Model.GenClass Proofs.TableLemmas
  Tables.UnicodeRows Tables.CharClassTables.
From Coq Require Import ZifyBool ZifyNat ZifyN.
Ltac Zify.zify_post_hook ::= Z.div_mod_to_equations.

Lemma category_eqb_eq a b : category_eqb a b = true <-> a = b.
Proof. unfold category_eqb. split; [|intros ->; apply N.eqb_refl]. destruct a, b; try reflexivity; discriminate. Qed.

(** *** Ranges, newest first *)
Definition swap (k : category) : category := match k with Lu => Ll | _ => Lu end.
Definition label_class (hi : N) (l : label) (c : N) : category :=
  match l with
  | One k => k
  | Two k d => if c =? hi then d else k
  | Alt k => if Bool.eqb (N.odd c) (N.odd hi) then k else swap k
  | Other => Cn
  end.
Fixpoint semr (acc : list range) (c : N) : category :=
  match acc with
  | [] => Cn
  | (lo, hi, l) :: acc' => if lo <=? c then label_class hi l c else semr acc' c
  end.
Inductive Cov (P : N -> N -> label -> Prop) : list range -> N -> Prop :=
| Cov_nil : Cov P [] 0
| Cov_cons acc lo hi l : Cov P acc lo -> lo <= hi -> P lo hi l -> Cov P ((lo, hi, l) :: acc) (hi + 1).
Definition P1 (lo hi : N) (l : label) : Prop := exists k, l = One k.
Definition P2 (lo hi : N) (l : label) : Prop :=
  match l with One _ => True | Alt k => (k = Lu \/ k = Ll) /\ lo < hi | _ => False end.
Definition P3 (lo hi : N) (l : label) : Prop :=
  match l with One _ | Two _ _ => True | Alt k => k = Lu \/ k = Ll | Other => False end.

(** *** get_class_ranges *)
Definition known (c : N) : bool := existsb (N.eqb c) KnownRanges.
Definition same (rc : option category) (k : category) : bool := match rc with Some j => category_eqb k j | None => false end.
Fixpoint rowcls (rc : option category) (rows : list (N * category)) (c : N) : category :=
  match rows with
  | [] => Cn
  | (a, k) :: rows' => if c <? a then (if known a && same rc k then k else Cn) else if c =? a then k else rowcls (Some k) rows' c
  end.
Definition flush (ranges : list range) (rc : option category) (rs next : N) : list range :=
  match rc with Some k => (rs, next - 1, One k) :: ranges | None => ranges end.
Definition last_of (rows : list (N * category)) (next : N) : N := fold_left (fun _ r => fst r + 1) rows next.

Lemma loop_spec rows : forall ranges rc rs next,
  Cov P1 (flush ranges rc rs next) next -> (rc = None -> next = 0 /\ ranges = []) -> (rc <> None -> Cov P1 ranges rs /\ rs < next) ->
  increasing_rows rows -> Forall (fun r => next <= fst r) rows ->
  Cov P1 (get_class_ranges_loop rows ranges rc rs next) (last_of rows next) /\ next <= last_of rows next /\
  (forall c, c < next -> semr (get_class_ranges_loop rows ranges rc rs next) c = semr (flush ranges rc rs next) c) /\
  (forall c, next <= c -> c < last_of rows next -> semr (get_class_ranges_loop rows ranges rc rs next) c = rowcls rc rows c) /\
  (forall c, last_of rows next <= c -> rowcls rc rows c = Cn).
Proof.
  induction rows as [|[a k] rows IH]; intros ranges rc rs next HC HN HS HI HF.
  - cbn [get_class_ranges_loop last_of fold_left rowcls]. change (match rc with Some k => (rs, next - 1, One k) :: ranges | None => ranges end) with (flush ranges rc rs next).
    split; [exact HC|]. split; [lia|]. split; [reflexivity|]. split; [intros; lia|reflexivity].
  - inversion HI as [|? ? HI' HA]; subst. inversion HF as [|? ? Ha HF']; subst. cbn [fst] in Ha.
    assert (Forall (fun r : N * category => a + 1 <= fst r) rows) as HF2.
    { eapply Forall_impl; [|exact HA]. intros r Hr. cbn [fst] in Hr. lia. }
    cbn [get_class_ranges_loop]. fold (known a) (same rc k) (flush ranges rc rs next).
    change (match rc with Some k0 => category_eqb k k0 | None => false end) with (same rc k).
    change (last_of ((a, k) :: rows) next) with (last_of rows (a + 1)). cbn [rowcls].
    destruct (((a =? next) || known a) && same rc k) eqn:E.
    + apply andb_true_iff in E. destruct E as [E1 E2]. destruct rc as [j|]; [|discriminate]. cbn [same] in E2.
      apply category_eqb_eq in E2. subst j. destruct (HS ltac:(discriminate)) as [HR HL].
      assert (Cov P1 (flush ranges (Some k) rs (a + 1)) (a + 1)) as HC'.
      { cbn [flush]. replace (a + 1 - 1) with a by lia. constructor; [exact HR|lia|now exists k]. }
      destruct (IH ranges (Some k) rs (a + 1) HC') as (R1 & R2 & R3 & R4 & R5); [discriminate|intros; split; [exact HR|lia]|exact HI'|exact HF2|].
      split; [exact R1|]. split; [lia|]. split; [|split].
      * intros c Hc. rewrite R3 by lia. cbn [flush semr label_class]. reflexivity.
      * intros c H1 H2. destruct (N.ltb_spec c a) as [L|L].
        -- replace (known a) with true by (destruct (N.eqb_spec a next); [lia|now cbn [orb] in E1]). cbn [andb same]. rewrite (proj2 (category_eqb_eq k k) eq_refl).
           rewrite R3 by lia. cbn [flush semr]. replace (rs <=? c) with true by lia. reflexivity.
        -- destruct (N.eqb_spec c a) as [->|D]; [|apply R4; lia]. rewrite R3 by lia. cbn [flush semr]. replace (rs <=? a) with true by lia. reflexivity.
      * intros c Hc. replace (c <? a) with false by lia. replace (c =? a) with false by lia. now apply R5.
    + set (ranges' := if a =? next then flush ranges rc rs next else (next, a - 1, One Cn) :: flush ranges rc rs next).
      assert (Cov P1 ranges' a) as HR'.
      { subst ranges'. destruct (N.eqb_spec a next) as [->|D]; [exact HC|]. replace a with (a - 1 + 1) at 2 by lia. constructor; [exact HC|lia|now exists Cn]. }
      assert (Cov P1 (flush ranges' (Some k) a (a + 1)) (a + 1)) as HC'.
      { cbn [flush]. replace (a + 1 - 1) with a by lia. constructor; [exact HR'|lia|now exists k]. }
      destruct (IH ranges' (Some k) a (a + 1) HC') as (R1 & R2 & R3 & R4 & R5); [discriminate|intros; split; [exact HR'|lia]|exact HI'|exact HF2|].
      assert (forall c, c < next -> semr ranges' c = semr (flush ranges rc rs next) c) as S1.
      { intros c Hc. subst ranges'. destruct (a =? next); [reflexivity|]. cbn [semr]. replace (next <=? c) with false by lia. reflexivity. }
      assert (forall c, next <= c -> c < a -> semr ranges' c = Cn) as S2.
      { intros c H1 H2. subst ranges'. destruct (N.eqb_spec a next); [lia|]. cbn [semr]. replace (next <=? c) with true by lia. reflexivity. }
      split; [exact R1|]. split; [lia|]. split; [|split].
      * intros c Hc. rewrite R3 by lia. cbn [flush semr]. replace (a <=? c) with false by lia. now apply S1.
      * intros c H1 H2. destruct (N.ltb_spec c a) as [L|L].
        -- rewrite R3 by lia. cbn [flush semr]. replace (a <=? c) with false by lia. rewrite S2 by lia.
           replace (a =? next) with false in E by lia. cbn [orb] in E. now rewrite E.
        -- destruct (N.eqb_spec c a) as [->|D]; [|apply R4; lia]. rewrite R3 by lia. cbn [flush semr]. replace (a <=? a) with true by lia. reflexivity.
      * intros c Hc. replace (c <? a) with false by lia. replace (c =? a) with false by lia. now apply R5.
Qed.

(** *** rowcls says what the specification says *)
Lemma rowcls_listed rows : forall rc c k, increasing_rows rows -> In (c, k) rows -> rowcls rc rows c = k.
Proof.
  induction rows as [|[a j] rows IH]; intros rc c k HI HN; [destruct HN|]. inversion HI as [|? ? HI' HA]; subst. cbn [rowcls].
  destruct HN as [E|HN].
  - inversion E; subst. now rewrite N.ltb_irrefl, N.eqb_refl.
  - rewrite Forall_forall in HA. pose proof (HA _ HN) as L. cbn [fst] in L.
    replace (c <? a) with false by lia. replace (c =? a) with false by lia. now apply IH.
Qed.
Lemma known_in b : In b range_ends <-> known b = true.
Proof.
  unfold known. rewrite existsb_exists. change KnownRanges with range_ends. split.
  - intros H. exists b. split; [exact H|apply N.eqb_refl].
  - intros (x & H & E). apply N.eqb_eq in E. now subst.
Qed.
Lemma rowcls_inside u : forall rows rc a b k v c, rows = u ++ (a, k) :: (b, k) :: v -> increasing_rows rows -> a < c < b -> In b range_ends ->
  rowcls rc rows c = k.
Proof.
  induction u as [|[x j] u IH]; intros rows rc a b k v c -> HI HC HB; cbn [app] in *; inversion HI as [|? ? HI' HA]; subst; cbn [rowcls].
  - replace (c <? a) with false by lia. replace (c =? a) with false by lia. replace (c <? b) with true by lia.
    apply known_in in HB. rewrite HB. cbn [same andb]. now rewrite (proj2 (category_eqb_eq k k) eq_refl).
  - rewrite Forall_forall in HA. assert (x < a) as L. { apply (HA (a, k)). apply in_elt. }
    replace (c <? x) with false by lia. replace (c =? x) with false by lia. now apply (IH _ _ a b k v).
Qed.
Lemma rowcls_absent rows : forall rc c, increasing_rows rows -> (forall k, ~ In (c, k) rows) ->
  (forall u a b k v, rows = u ++ (a, k) :: (b, k) :: v -> a < c < b -> ~ In b range_ends) ->
  (forall j a v, rc = Some j -> rows = (a, j) :: v -> c < a -> ~ In a range_ends) -> rowcls rc rows c = Cn.
Proof.
  induction rows as [|[a k] rows IH]; intros rc c HI HN HR HP; [reflexivity|]. cbn [rowcls]. inversion HI as [|? ? HI' HA]; subst.
  destruct (N.ltb_spec c a) as [L|L].
  - destruct (known a) eqn:K; [|reflexivity]. cbn [andb]. apply known_in in K. destruct rc as [j|]; [|reflexivity]. cbn [same].
    destruct (category_eqb k j) eqn:E; [|reflexivity]. apply category_eqb_eq in E. subst j. now destruct (HP k a rows eq_refl eq_refl L).
  - destruct (N.eqb_spec c a) as [->|D]; [destruct (HN k); now left|]. apply IH.
    + exact HI'.
    + intros j Hj. apply (HN j). now right.
    + intros u x y j v E. apply (HR ((a, k) :: u) x y j v). now rewrite E.
    + intros j x v E1 E2 L2. inversion E1; subst j. apply (HR [] a x k v); [now rewrite E2|lia].
Qed.
Lemma rowcls_spec rows c k : increasing_rows rows -> RowClass rows c k -> rowcls None rows c = k.
Proof.
  intros HI [j H|u a b j v H1 H2 H3|H1 H2].
  - now apply rowcls_listed.
  - now apply (rowcls_inside u rows None a b j v).
  - apply rowcls_absent; try assumption. intros; discriminate.
Qed.
Lemma RowClass_fun rows c j k : increasing_rows rows -> RowClass rows c j -> RowClass rows c k -> j = k.
Proof. intros HI HJ HK. rewrite <- (rowcls_spec rows c j HI HJ). now apply rowcls_spec. Qed.

Lemma RowClass_ex rows c : increasing_rows rows -> exists k, RowClass rows c k.
Proof.
  intros HI. destruct (existsb (fun r : N * category => fst r =? c) rows) eqn:E.
  - apply existsb_exists in E as ([a k] & H & E). cbn [fst] in E. apply N.eqb_eq in E. subst a. exists k. now constructor.
  - assert (forall k, ~ In (c, k) rows) as HN.
    { intros k H. assert (existsb (fun r : N * category => fst r =? c) rows = true) as T; [|congruence]. apply existsb_exists. exists (c, k). split; [exact H|apply N.eqb_refl]. }
    assert ((exists u a b k v, rows = u ++ (a, k) :: (b, k) :: v /\ a < c < b /\ In b range_ends) \/
            (forall u a b k v, rows = u ++ (a, k) :: (b, k) :: v -> a < c < b -> ~ In b range_ends)) as [(u & a & b & k & v & H1 & H2 & H3)|H].
    2:{ exists k. exact (Row_inside rows c u a b k v H1 H2 H3). }
    2:{ exists Cn. exact (Row_absent rows c HN H). }
    clear. induction rows as [|[a k] rows IH].
    { right. intros u a b k v H. now destruct u. }
    destruct IH as [(u & a' & b & k' & v & -> & H)|IH].
    { left. exists ((a, k) :: u), a', b, k', v. now split. }
    destruct rows as [|[b j] rows].
    { right. intros u x y i v H. destruct u as [|? [|? u]]; discriminate. }
    destruct ((a <? c) && (c <? b) && known b && category_eqb k j) eqn:E.
    + apply andb_true_iff in E as (E & E4). apply andb_true_iff in E as (E & E3). apply andb_true_iff in E as (E1 & E2).
      apply category_eqb_eq in E4. subst j. apply known_in in E3. left. exists [], a, b, k, rows. split; [reflexivity|]. split; [lia|exact E3].
    + right. intros u x y i v H L B. destruct u as [|p u]; cbn [app] in H; inversion H; subst.
      * apply known_in in B. rewrite B in E. rewrite (proj2 (category_eqb_eq i i) eq_refl) in E. lia.
      * revert B. now apply (IH u x y i v).
Qed.

(** *** The two optimisers *)
Lemma is_one_eq k l : is_one k l = true -> l = One k.
Proof. destruct l as [j| | |]; cbn [is_one]; try discriminate. intros E. apply category_eqb_eq in E. now subst. Qed.
Lemma is_alt_eq k l : is_alt k l = true -> l = Alt k.
Proof. destruct l as [| |j|]; cbn [is_alt]; try discriminate. intros E. apply category_eqb_eq in E. now subst. Qed.

Lemma odd_succ n : N.odd (n + 1) = negb (N.odd n).
Proof. rewrite N.add_1_r, N.odd_succ. now rewrite <- N.negb_odd. Qed.

Lemma alternate_merge acc q0 q1 q2 lo k : Cov P2 ((q0, q1, q2) :: acc) lo -> (k = Lu \/ k = Ll) -> (q1 + 1 =? lo) &&
    (is_alt (swap k) q2 || (is_one (swap k) q2 && (q0 =? q1))) = true ->
  Cov P2 ((q0, lo, Alt k) :: acc) (lo + 1) /\
  forall c, c < lo + 1 -> semr ((q0, lo, Alt k) :: acc) c = semr ((lo, lo, One k) :: (q0, q1, q2) :: acc) c.
Proof.
  intros HC HK E. inversion HC as [|? ? ? ? HC' HL HP]; subst. split.
  - constructor; [exact HC'|lia|]. split; [exact HK|lia].
  - intros c Hc. cbn [semr]. destruct (N.leb_spec q0 c) as [L|L]; [|now replace (q1 + 1 <=? c) with false by lia].
    destruct (N.leb_spec (q1 + 1) c) as [L2|L2].
    + assert (c = q1 + 1) as -> by lia. cbn [label_class]. now rewrite eqb_reflx.
    + apply andb_true_iff in E as (_ & E). apply orb_true_iff in E as [E|E].
      * apply is_alt_eq in E. subst q2. cbn [label_class]. rewrite odd_succ. destruct HK as [-> | ->]; cbn [swap]; now destruct (N.odd c), (N.odd q1).
      * apply andb_true_iff in E as (E & E2). apply is_one_eq in E. subst q2. assert (c = q1) as -> by lia. cbn [label_class].
        rewrite odd_succ. destruct HK as [-> | ->]; cbn [swap]; now destruct (N.odd q1).
Qed.

Lemma alternate_step acc lo hi k : acc <> [] -> Cov P2 acc lo -> lo <= hi ->
  Cov P2 (alternate acc (lo, hi, One k)) (hi + 1) /\
  forall c, c < hi + 1 -> semr (alternate acc (lo, hi, One k)) c = semr ((lo, hi, One k) :: acc) c.
Proof.
  intros HN HC HL. destruct acc as [|[[q0 q1] q2] acc]; [congruence|]. cbn [alternate].
  assert (Cov P2 ((lo, hi, One k) :: (q0, q1, q2) :: acc) (hi + 1)) as K by (constructor; [exact HC|exact HL|exact I]).
  destruct ((lo =? hi) && is_one Lu (One k)) eqn:E.
  - apply andb_true_iff in E as (E1 & E2). apply N.eqb_eq in E1. subst hi. apply is_one_eq in E2. inversion E2; subst k.
    match goal with |- context [if ?b then _ else _] => destruct b eqn:E3 end; [|split; [exact K|reflexivity]].
    apply (alternate_merge acc q0 q1 q2 lo Lu HC); [now left|exact E3].
  - destruct ((lo =? hi) && is_one Ll (One k)) eqn:E'; [|split; [exact K|reflexivity]].
    apply andb_true_iff in E' as (E1 & E2). apply N.eqb_eq in E1. subst hi. apply is_one_eq in E2. inversion E2; subst k.
    match goal with |- context [if ?b then _ else _] => destruct b eqn:E3 end; [|split; [exact K|reflexivity]].
    apply (alternate_merge acc q0 q1 q2 lo Ll HC); [now right|exact E3].
Qed.

Lemma unassigned_step acc lo hi l : acc <> [] -> Cov P3 acc lo -> lo <= hi -> P2 lo hi l ->
  Cov P3 (unassigned acc (lo, hi, l)) (hi + 1) /\
  forall c, c < hi + 1 -> semr (unassigned acc (lo, hi, l)) c = semr ((lo, hi, l) :: acc) c.
Proof.
  intros HN HC HL HP. destruct acc as [|[[q0 q1] q2] acc]; [congruence|]. cbn [unassigned].
  assert (P3 lo hi l) as HP3. { destruct l; try exact I; try contradiction. exact (proj1 HP). }
  assert (Cov P3 ((lo, hi, l) :: (q0, q1, q2) :: acc) (hi + 1)) as K by (constructor; assumption).
  destruct q2 as [k| | |]; try (split; [exact K|reflexivity]).
  destruct (N.eqb_spec lo hi) as [<-|D]; [|split; [exact K|reflexivity]].
  inversion HC as [|? ? ? ? HC' HL' HP']; subst.
  destruct l as [j|i j|j|]; try contradiction; [|destruct HP; lia]. split; [constructor; [exact HC'|lia|exact I]|].
  intros c Hc. cbn [semr label_class]. destruct (N.leb_spec (q1 + 1) c).
  - replace (q0 <=? c) with true by lia. now replace (c =? q1 + 1) with true by lia.
  - now replace (c =? q1 + 1) with false by lia.
Qed.

Lemma fold_opt (P Q : N -> N -> label -> Prop) f x : (forall lo hi l, P lo hi l -> Q lo hi l) ->
  (forall acc lo hi l, acc <> [] -> Cov Q acc lo -> lo <= hi -> P lo hi l ->
     Cov Q (f acc (lo, hi, l)) (hi + 1) /\ forall c, c < hi + 1 -> semr (f acc (lo, hi, l)) c = semr ((lo, hi, l) :: acc) c) ->
  forall rs m, Cov P (rev (x :: rs)) m ->
  Cov Q (fold_left f rs [x]) m /\ forall c, c < m -> semr (fold_left f rs [x]) c = semr (rev (x :: rs)) c.
Proof.
  intros Hx Hf rs. induction rs as [|[[lo hi] l] rs IH] using rev_ind; intros m HC.
  - cbn [rev app fold_left] in *. split; [|reflexivity]. inversion HC as [|? lo hi l HC' HL HP]; subst. inversion HC'; subst. constructor; [constructor|exact HL|now apply Hx].
  - change (x :: rs ++ [(lo, hi, l)]) with ((x :: rs) ++ [(lo, hi, l)]) in *. rewrite rev_app_distr in *. cbn [rev app] in HC.
    change (rev rs ++ [x]) with (rev (x :: rs)) in HC.
    inversion HC as [|? ? ? ? HC' HL HP]; subst. destruct (IH lo HC') as [I1 I2]. rewrite fold_left_app. cbn [fold_left].
    assert (fold_left f rs [x] <> []) as HN.
    { intros E. rewrite E in I1. inversion I1; subst. inversion HC' as [E2|]; [now destruct (rev rs)|lia]. }
    destruct (Hf _ lo hi l HN I1 HL HP) as [J1 J2]. split; [exact J1|]. intros c Hc. rewrite J2 by exact Hc.
    change (rev [(lo, hi, l)] ++ rev (x :: rs)) with ((lo, hi, l) :: rev (x :: rs)). cbn [semr].
    destruct (N.leb_spec lo c) as [L|L]; [reflexivity|now apply I2].
Qed.

(** *** The encoded ranges *)
Definition code (l : label) : N :=
  match l with One k => Classes k | Two k d => Classes k * 32 + Classes d | Alt k => 1024 + Classes k | Other => 0 end.
Definition enc (r : range) : N := let '(_, hi, l) := r in hi * 2048 + code l.
Lemma Classes_bounds k : 1 <= Classes k <= 30.
Proof. destruct k; cbn [Classes]; lia. Qed.
Lemma code_bound lo hi l : P3 lo hi l -> code l < 2048.
Proof.
  destruct l as [k|k d|k|]; cbn [code]; intros H.
  - pose proof (Classes_bounds k). lia.
  - pose proof (Classes_bounds k). pose proof (Classes_bounds d). lia.
  - pose proof (Classes_bounds k). lia.
  - contradiction.
Qed.
Lemma encode_value_ok lo hi l : P3 lo hi l -> encode_value hi l = Some (hi * 2048 + code l).
Proof.
  assert (forall n, N.shiftl n 11 = n * 2048) as S by (intros; now rewrite N.shiftl_mul_pow2).
  destruct l as [k|k d|k|]; cbn [encode_value code]; intros H; rewrite ?S; try reflexivity; try contradiction; f_equal; f_equal.
  - destruct k, d; reflexivity.
  - destruct k; reflexivity.
Qed.
Lemma encode_all_ok acc m : Cov P3 acc m -> forall rest, encode_all (rev acc ++ rest) =
  match encode_all rest with Some vs => Some (map enc (rev acc) ++ vs) | None => None end.
Proof.
  induction 1 as [|acc lo hi l HC IH HL HP]; intros rest; cbn [rev app map].
  - now destruct (encode_all rest).
  - rewrite <- app_assoc, IH. cbn [app encode_all]. rewrite (encode_value_ok lo hi l HP). destruct (encode_all rest); [|reflexivity].
    rewrite map_app, <- app_assoc. reflexivity.
Qed.
Lemma enc_lookup acc m c : Cov P3 acc m ->
  match lower_bound (fun e => e <? c * 2048) (map enc (rev acc)) with
  | Some e => exists lo hi l, e = enc (lo, hi, l) /\ P3 lo hi l /\ c < m /\ semr acc c = label_class hi l c
  | None => m <= c
  end.
Proof.
  induction 1 as [|acc lo hi l HC IH HL HP]; cbn [rev map].
  - cbn [lower_bound]. lia.
  - rewrite map_app, lower_bound_app. cbn [map lower_bound semr]. destruct (lower_bound _ (map enc (rev acc))) as [e|].
    + destruct IH as (lo' & hi' & l' & E & HP' & L & HS). exists lo', hi', l'. split; [exact E|]. split; [exact HP'|]. split; [lia|].
      now replace (lo <=? c) with false by lia.
    + pose proof (code_bound _ _ _ HP) as B. replace (lo <=? c) with true by lia. unfold enc. destruct (N.ltb_spec (hi * 2048 + code l) (c * 2048)) as [L|L]; [lia|].
      exists lo, hi, l. repeat split; try assumption. lia.
Qed.
Lemma enc_bound acc m : Cov P3 acc m -> Forall (fun v => v < m * 2048) (map enc (rev acc)).
Proof.
  induction 1 as [|acc lo hi l HC IH HL HP]; cbn [rev map]; [constructor|]. rewrite map_app. apply Forall_app. split.
  - eapply Forall_impl; [|exact IH]. cbn beta. intros v Hv. lia.
  - apply Forall_cons; [|constructor]. cbn [enc]. pose proof (code_bound _ _ _ HP). lia.
Qed.

Lemma decode_ok c lo hi l : P3 lo hi l -> decode_char_class c (enc (lo, hi, l)) = category_number (label_class hi l c).
Proof.
  intros HP. pose proof (code_bound _ _ _ HP) as B. cbn [enc]. unfold decode_char_class.
  change 0x1F with (N.ones 5). change 0x3F with (N.ones 6). rewrite !N.land_ones, !N.shiftr_div_pow2.
  change (2 ^ 5) with 32. change (2 ^ 6) with 64. change (2 ^ CODE_POINT_SHIFT) with 2048.
  replace ((hi * 2048 + code l) mod 32) with (code l mod 32) by lia.
  replace ((hi * 2048 + code l) / 32 mod 64) with (code l / 32) by lia.
  replace ((hi * 2048 + code l) / 2048) with hi by lia.
  destruct l as [k|k d|k|]; cbn [code P3 label_class] in *; try contradiction.
  - destruct k; reflexivity.
  - destruct k, d; cbn; destruct (c =? hi); reflexivity.
  - assert (N.land (N.lxor c hi) 1 =? 0 = Bool.eqb (N.odd c) (N.odd hi)) as E.
    { change 1 with (N.ones 1) at 1. rewrite N.land_ones. change (2 ^ 1) with 2. rewrite <- N.bit0_mod, N.lxor_spec, !N.bit0_odd. now destruct (N.odd c), (N.odd hi). }
    destruct HP as [-> | ->]; cbn [Classes]; cbv zeta; cbn -[N.land N.lxor]; rewrite E; destruct (Bool.eqb _ _); reflexivity.
Qed.
Lemma one_shl_cat k : one_shl (category_number k) = Ok (2 ^ category_number k).
Proof. destruct k; reflexivity. Qed.

(** *** Rows of the header *)
Lemma firstn_plus {A} (l : list A) : forall i n, firstn (i + n) l = firstn i l ++ firstn n (skipn i l).
Proof. induction l as [|x l IH]; intros [|i] n; cbn [firstn skipn Nat.add app]; rewrite ?firstn_nil; try reflexivity. now rewrite IH. Qed.
Lemma concat_rows {A} n (l : list A) : n <> O -> concat (make_rows n l) = l.
Proof.
  intros Hn. unfold make_rows. set (r := match Nat.modulo (length l) n with O => n | S _ as r => r end).
  assert (forall q, concat (map (fun k => slice_of l (k * n) (k * n + n)) (seq 0 q)) = firstn (q * n) l) as K.
  { induction q as [|q IH]; [reflexivity|]. rewrite seq_S, map_app, concat_app, IH. cbn [Nat.add map concat]. rewrite app_nil_r.
    unfold slice_of. replace (q * n + n - q * n)%nat with n by lia. rewrite <- firstn_plus. f_equal. lia. }
  rewrite concat_app, K. cbn [concat]. rewrite app_nil_r.
  assert ((length l - r) / n * n = length l - r)%nat as ->; [|apply firstn_skipn].
  assert (exists q, length l - r = q * n)%nat as [q ->]; [|now rewrite Nat.div_mul].
  pose proof (Nat.div_mod_eq (length l) n) as D. rewrite (Nat.mul_comm n) in D. subst r. revert D. generalize (length l / n)%nat as q, (length l mod n)%nat as m.
  intros q m D. destruct m as [|m].
  - exists (q - 1)%nat. rewrite Nat.mul_sub_distr_r. lia.
  - exists q. lia.
Qed.
Lemma ascii_ok rows : forall n, increasing_rows rows -> Forall (fun r => n <= fst r) rows ->
  (forall c, n <= c < 128 -> exists k, In (c, k) rows) ->
  forall c k, n <= c < 128 -> In (c, k) rows -> deref (get_ascii_table rows) (N.to_nat (c - n)) = Ok (category_number k).
Proof.
  induction rows as [|[a j] rows IH]; intros n HI HF HA c k Hc HK; [destruct HK|]. inversion HI as [|? ? HI' HG]; subst. inversion HF as [|? ? Ha HF']; subst.
  cbn [fst] in Ha. rewrite Forall_forall in HG.
  assert (a = n) as ->.
  { destruct (HA n) as [i [E|E]]; [lia|now inversion E|]. apply HG in E. cbn [fst] in E. lia. }
  cbn [get_ascii_table]. replace (128 <=? n) with false by lia. destruct HK as [E|HK].
  - inversion E; subst. rewrite N.sub_diag. unfold deref. cbn [N.to_nat nth_error]. destruct k; reflexivity.
  - pose proof (HG _ HK) as L. cbn [fst] in L. replace (N.to_nat (c - n)) with (S (N.to_nat (c - (n + 1)))) by lia.
    change (deref (get_ascii_table rows) (N.to_nat (c - (n + 1))) = Ok (category_number k)). apply IH; try assumption; [| |lia].
    + apply Forall_forall. intros r Hr. apply HG in Hr. cbn [fst] in Hr. lia.
    + intros d Hd. destruct (HA d) as [i [E|E]]; [lia|inversion E; lia|now exists i].
Qed.

(** *** The theorem *)
Lemma last_of_bound rows : forall n b, n <= b -> Forall (fun r : N * category => fst r < b) rows -> last_of rows n <= b.
Proof. induction rows as [|[a k] rows IH]; intros n b Hn HF; cbn [last_of fold_left]; [exact Hn|]. inversion HF; subst. cbn [fst] in *. apply IH; [lia|assumption]. Qed.

Lemma table_spec rows : increasing_rows rows -> rows <> [] -> Forall (fun r => fst r < 2 ^ 21) rows ->
  exists table, make_char_classes rows = Some table /\ Forall (fun v => v < 2 ^ 32) table /\
    forall c k, c < 2 ^ 21 -> RowClass rows c k ->
    match lower_bound (fun e => e <? shl32 c CODE_POINT_SHIFT) table with
    | None => k = Cn
    | Some e => decode_char_class c e = category_number k
    end.
Proof.
  intros HI HN HB. destruct (loop_spec rows [] None 0 0) as (L1 & _ & _ & L4 & L5); try assumption.
  { constructor. } { now split. } { congruence. } { apply Forall_forall. intros; lia. }
  set (m := last_of rows 0) in *.
  assert (m <= 2 ^ 21) as Hm by (apply last_of_bound; [lia|exact HB]).
  assert (0 < m) as Hm0.
  { subst m. destruct rows as [|[a k] rows]; [congruence|]. change (0 < last_of rows (a + 1)).
    assert (forall n, 0 < n -> 0 < last_of rows n) as K; [|apply K; lia]. clear. induction rows as [|r rows IH]; intros n Hn; [exact Hn|]. cbn [last_of fold_left]. apply IH. lia. }
  unfold make_char_classes, get_class_ranges.
  destruct (rev (get_class_ranges_loop rows [] None 0 0)) as [|x rs] eqn:ER.
  { apply (f_equal (@rev _)) in ER. rewrite rev_involutive in ER. cbn [rev] in ER. rewrite ER in L1. inversion L1. lia. }
  apply (f_equal (@rev _)) in ER. rewrite rev_involutive in ER. rewrite ER in L1, L4.
  cbn [optimize_alternating_case].
  destruct (fold_opt P1 P2 alternate x) with (rs := rs) (m := m) as [A1 A2]; [|intros acc lo hi l H1 H2 H3 [k ->]; now apply alternate_step|exact L1|].
  { intros lo hi l [k ->]. exact I. }
  destruct (rev (fold_left alternate rs [x])) as [|y ys] eqn:EY.
  { apply (f_equal (@rev _)) in EY. rewrite rev_involutive in EY. cbn [rev] in EY. assert (Cov P2 [] m) as A1' by (rewrite <- EY; exact A1). inversion A1'. lia. }
  apply (f_equal (@rev _)) in EY. rewrite rev_involutive in EY.
  assert (Cov P2 (rev (y :: ys)) m) as A1' by (rewrite <- EY; exact A1).
  assert (forall c, c < m -> semr (rev (y :: ys)) c = semr (rev (x :: rs)) c) as A2' by (rewrite <- EY; exact A2).
  cbn [optimize_unassigned].
  destruct (fold_opt P2 P3 unassigned y) with (rs := ys) (m := m) as [B1 B2]; [|intros acc lo hi l H1 H2 H3 H4; now apply unassigned_step|exact A1'|].
  { intros lo hi l. destruct l; cbn; tauto. }
  set (acc := fold_left unassigned ys [y]) in *.
  pose proof (encode_all_ok acc m B1 []) as EA. rewrite app_nil_r in EA. rewrite EA. cbn [encode_all]. rewrite app_nil_r.
  exists (map enc (rev acc)). split; [now rewrite concat_rows|]. split.
  { eapply Forall_impl; [|exact (enc_bound acc m B1)]. cbn beta. intros v Hv. lia. }
  intros c k Hc HR. pose proof (rowcls_spec rows c k HI HR) as RC.
  assert (shl32 c CODE_POINT_SHIFT = c * 2048) as ->.
  { unfold shl32, CODE_POINT_SHIFT, W32. rewrite N.shiftl_mul_pow2. change (2 ^ 11) with 2048. rewrite N.mod_small; [reflexivity|lia]. }
  pose proof (enc_lookup acc m c B1) as LK. destruct (lower_bound _ _) as [e|].
  - destruct LK as (lo & hi & l & -> & HP & L & HS). rewrite decode_ok by exact HP. f_equal. rewrite <- HS, B2, A2', L4 by lia. exact RC.
  - rewrite <- RC. now apply L5.
Qed.

Lemma p_c105 rows : increasing_rows rows -> Forall (fun r => fst r < 2 ^ 21) rows -> (forall c, c < 128 -> exists k, In (c, k) rows) ->
  exists table, make_char_classes rows = Some table /\ Forall (fun v => v < 2 ^ 32) table /\
    forall c k, c < 2 ^ 21 -> RowClass rows c k ->
    get_char_class_in (get_ascii_table rows) table c = Ok (2 ^ category_number k).
Proof.
  intros HI HB HA. destruct (HA 0 ltac:(lia)) as [k0 H0]. destruct (table_spec rows HI) as (table & HT & HV & HL); [intros ->; destruct H0|exact HB|].
  exists table. split; [exact HT|]. split; [exact HV|]. intros c k Hc HR. unfold get_char_class_in. destruct (N.ltb_spec c 128) as [L|L].
  - destruct (HA c L) as [j Hj]. assert (j = k) as -> by (apply (RowClass_fun rows c); [exact HI|now constructor|exact HR]).
    replace (N.to_nat c) with (N.to_nat (c - 0)) by lia. rewrite (ascii_ok rows 0 HI) with (k := k); [|apply Forall_forall; intros; lia| |lia|exact Hj].
    + cbn [bind]. apply one_shl_cat.
    + intros d Hd. apply HA. lia.
  - specialize (HL c k Hc HR). cbv zeta. destruct (lower_bound _ table) as [e|].
    + rewrite HL. apply one_shl_cat.
    + now subst k.
Qed.

Lemma p_c105_ranges rows : increasing_rows rows -> forall c, exists k, RowClass rows c k /\ forall j, RowClass rows c j -> j = k.
Proof. intros HI c. destruct (RowClass_ex rows c HI) as [k Hk]. exists k. split; [exact Hk|]. intros j Hj. now apply (RowClass_fun rows c). Qed.
