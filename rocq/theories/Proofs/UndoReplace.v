(** C142: replacing can be undone. *)
From Verif Require Import Base Spec.Utf8Spec Spec.Strings Spec.Slices Spec.Replace Model.Decode Model.Encode Model.Subrange Model.Search
  Proofs.Utf8Lemmas Proofs.DecodeLemmas Proofs.SkipLemmas Proofs.EncodeLemmas Proofs.CodepointLemmas Proofs.SearchLemmas
  Proofs.ReplaceLemmas Proofs.ReplaceCpLemmas Proofs.ReplaceUnits Proofs.AlgebraLemmas.

Definition apart (a b : str) : Prop := forall x, In x a -> ~ In x b.
Definition glue (d p : str) (ps : list str) : str := p ++ concat (map (app d) ps).

Lemma glue_cons d p q ps : glue d p (q :: ps) = p ++ d ++ glue d q ps.
Proof. unfold glue. cbn [map concat]. now rewrite !app_assoc. Qed.
Lemma glue_snoc d p q ps : glue d p (ps ++ [q]) = glue d p ps ++ d ++ q.
Proof. unfold glue. rewrite map_app, concat_app. cbn [map concat]. now rewrite app_nil_r, !app_assoc. Qed.
Lemma apart_app d u v : apart d (u ++ v) -> apart d u /\ apart d v.
Proof. intros H. split; intros x Hx Hin; apply (H x Hx), in_or_app; auto. Qed.

Lemma front_pieces from to n s r : ReplaceFront from to n s r -> apart to s ->
  exists p ps, Forall (apart to) (p :: ps) /\ s = glue from p ps /\ r = glue to p ps.
Proof.
  induction 1 as [s|n s Hn|n u v r Hi H IH]; intros HA.
  - exists s, []. unfold glue. cbn. rewrite app_nil_r. auto.
  - exists s, []. unfold glue. cbn. rewrite app_nil_r. auto.
  - apply apart_app in HA as [Hu HA]. apply apart_app in HA as [_ Hv]. destruct (IH Hv) as (p & ps & HP & -> & ->).
    exists u, (p :: ps). rewrite !glue_cons. auto.
Qed.
Lemma back_pieces from to n s r : ReplaceBack from to n s r -> apart to s ->
  exists p ps, Forall (apart to) (p :: ps) /\ s = glue from p ps /\ r = glue to p ps.
Proof.
  induction 1 as [s|n s Hn|n u v r Hi H IH]; intros HA.
  - exists s, []. unfold glue. cbn. rewrite app_nil_r. auto.
  - exists s, []. unfold glue. cbn. rewrite app_nil_r. auto.
  - apply apart_app in HA as [Hv HA]. apply apart_app in HA as [_ Hu]. destruct (IH Hv) as (p & ps & HP & -> & ->).
    exists p, (ps ++ [u]). rewrite !glue_snoc. split; [|auto]. inversion HP; subst. constructor; [auto|]. apply Forall_app; auto.
Qed.
(** An occurrence of a separator does not begin in a piece without its bytes, nor end in one. *)
Lemma no_start d p x i : d <> [] -> apart d p -> occurs_at d (p ++ x) i -> (length p <= i)%nat.
Proof.
  intros Hd HA (u & v & E & <-). destruct d as [|a d]; [congruence|]. destruct (Nat.le_gt_cases (length p) (length u)) as [L|L]; [exact L|exfalso].
  apply (HA a (or_introl eq_refl)). assert (nth_error (p ++ x) (length u) = Some a) as E2 by (rewrite E, nth_error_app2, Nat.sub_diag by lia; reflexivity).
  rewrite nth_error_app1 in E2 by lia. exact (nth_error_In _ _ E2).
Qed.
Lemma no_end d p x i : d <> [] -> apart d p -> occurs_at d (x ++ p) i -> (i + length d <= length x)%nat.
Proof.
  intros Hd HA (u & v & E & <-). destruct (exists_last Hd) as (d' & a & ->). rewrite app_length. cbn [length].
  destruct (Nat.le_gt_cases (length u + (length d' + 1)) (length x)) as [L|L]; [exact L|exfalso].
  apply (HA a); [apply in_or_app; right; now left|].
  assert (nth_error (x ++ p) (length u + length d') = Some a) as E2.
  { rewrite E, nth_error_app2 by lia. replace (length u + length d' - length u)%nat with (length d') by lia.
    rewrite <- app_assoc, nth_error_app2, Nat.sub_diag by lia. reflexivity. }
  rewrite nth_error_app2 in E2 by lia. exact (nth_error_In _ _ E2).
Qed.
Lemma glue_front from to : to <> [] -> forall ps p n, Forall (apart to) (p :: ps) -> N.of_nat (length ps) <= n ->
  ReplaceFront to from n (glue to p ps) (glue from p ps).
Proof.
  intros Ht ps. induction ps as [|q ps IH]; intros p n HP Hn.
  - unfold glue. cbn. rewrite app_nil_r. apply rf_none. intros i Hi. inversion HP; subst.
    pose proof (no_start to p [] i Ht) as A. rewrite app_nil_r in A. specialize (A H1 Hi). destruct Hi as (u & v & E & <-).
    assert (length p = (length u + (length to + length v))%nat) as L by (rewrite E, !app_length; reflexivity). destruct to; [congruence|cbn in L; lia].
  - inversion HP; subst. rewrite !glue_cons. cbn [length] in Hn. replace n with ((n - 1) + 1) by lia. apply rf_step.
    + intros i Hi Ho. apply no_start in Ho; auto. lia.
    + apply IH; [assumption|lia].
Qed.
Lemma glue_back from to : to <> [] -> forall ps p n, Forall (apart to) (p :: ps) -> N.of_nat (length ps) <= n ->
  ReplaceBack to from n (glue to p ps) (glue from p ps).
Proof.
  intros Ht ps. induction ps as [|q ps IH] using rev_ind; intros p n HP Hn.
  - unfold glue. cbn. rewrite app_nil_r. apply rb_none. intros i Hi. inversion HP; subst.
    pose proof (no_start to p [] i Ht) as A. rewrite app_nil_r in A. specialize (A H1 Hi). destruct Hi as (u & v & E & <-).
    assert (length p = (length u + (length to + length v))%nat) as L by (rewrite E, !app_length; reflexivity). destruct to; [congruence|cbn in L; lia].
  - inversion HP as [|? ? Hp HP2]; subst. apply Forall_app in HP2 as [HP2 HQ]. inversion HQ; subst.
    rewrite !glue_snoc. rewrite app_length in Hn. cbn [length] in Hn. replace n with ((n - 1) + 1) by lia. apply rb_step.
    + intros i Hi Ho. rewrite app_assoc in Ho. apply no_end in Ho; auto. rewrite app_length in Ho. lia.
    + apply IH; [now constructor|lia].
Qed.
Lemma glue_count d p ps : d <> [] -> N.of_nat (length ps) <= size (glue d p ps).
Proof.
  intros Hd. enough (length ps <= length (glue d p ps))%nat by (unfold size; lia). revert p.
  induction ps as [|q ps IH]; intros p; [cbn; lia|]. rewrite glue_cons, !app_length. specialize (IH q). destruct d; [congruence|]. cbn [length]. lia.
Qed.
Lemma repeat_pieces to s k : apart to s -> exists p ps, Forall (apart to) (p :: ps) /\ s = glue [] p ps /\ concat (repeat to k) ++ s = glue to p ps.
Proof.
  intros HA. assert (apart to []) as HN by (intros x _ []). induction k as [|k (p & ps & HP & E1 & E2)].
  - exists s, []. unfold glue. cbn. rewrite app_nil_r. auto.
  - exists [], (p :: ps). rewrite !glue_cons. cbn [repeat concat]. rewrite <- app_assoc, E2, <- E1. auto.
Qed.
Lemma replace_pieces s from to m r : Fits s -> (- 0x8000000000000000 < m)%Z -> apart to s -> replace s from to m = Ok r ->
  exists p ps, Forall (apart to) (p :: ps) /\ s = glue from p ps /\ r = glue to p ps.
Proof.
  intros HF Hm HA E. assert (apart to []) as HN by (intros x _ []).
  assert (exists p ps, Forall (apart to) (p :: ps) /\ s = glue from p ps /\ s = glue to p ps) as HT.
  { exists s, []. unfold glue. cbn. rewrite app_nil_r. auto. }
  destruct (Z.le_gt_cases 0 m) as [L|L].
  - destruct from as [|x f].
    + destruct s as [|y s].
      * rewrite replace_front_nothing in E by exact L. injection E as <-. exact HT.
      * rewrite (replace_front_empty (y :: s) to m) in E by (congruence || exact L). injection E as <-. now apply repeat_pieces.
    + destruct (replace_front s (x :: f) to m ltac:(congruence) L) as (r' & E' & HR). rewrite E' in E. injection E as ->. exact (front_pieces _ _ _ _ _ HR HA).
  - destruct from as [|x f].
    + rewrite replace_back_empty in E by (unfold PTRDIFF_MIN; lia). injection E as <-. exact HT.
    + destruct (replace_back s (x :: f) to m ltac:(congruence) HF ltac:(unfold PTRDIFF_MIN; lia)) as (r' & E' & HR). rewrite E' in E. injection E as ->. exact (back_pieces _ _ _ _ _ HR HA).
Qed.
Lemma p_c142_undo : forall s from to m r n, to <> [] -> Fits s -> Fits r -> (forall x, In x to -> ~ In x s) -> (- 0x8000000000000000 < m)%Z ->
  replace s from to m = Ok r -> (- 0x8000000000000000 < n)%Z -> (Z.of_N (size r) <= Z.abs n)%Z -> replace r to from n = Ok s.
Proof.
  intros s from to m r n Ht HF HFr HA Hm E Hn Hs. destruct (replace_pieces s from to m r HF Hm HA E) as (p & ps & HP & E1 & E2).
  pose proof (glue_count to p ps Ht) as HC. rewrite <- E2 in HC. destruct (Z.le_gt_cases 0 n) as [L|L].
  - destruct (replace_front r to from n Ht L) as (r' & -> & HR). f_equal. apply (ReplaceFront_fun _ _ _ _ _ HR). rewrite E1, E2.
    apply glue_front; auto. lia.
  - destruct (replace_back r to from n Ht HFr ltac:(unfold PTRDIFF_MIN; lia)) as (r' & -> & HR). f_equal. apply (ReplaceBack_fun _ _ _ _ _ HR). rewrite E1, E2.
    apply glue_back; auto. lia.
Qed.
Lemma p_c142_injective : forall s s' from to m m' r, to <> [] -> Fits s -> Fits s' -> (forall x, In x to -> ~ In x s /\ ~ In x s') ->
  (- 0x8000000000000000 < m)%Z -> (- 0x8000000000000000 < m')%Z ->
  replace s from to m = Ok r -> replace s' from to m' = Ok r -> s = s'.
Proof.
  intros s s' from to m m' r Ht HF HF' HA Hm Hm' E E'.
  destruct (replace_pieces s from to m r HF Hm ltac:(intros x Hx; now apply HA) E) as (p & ps & HP & E1 & E2).
  destruct (replace_pieces s' from to m' r HF' Hm' ltac:(intros x Hx; now apply HA) E') as (p' & ps' & HP' & E1' & E2').
  pose proof (glue_front from to Ht ps p (N.of_nat (length ps + length ps')) HP ltac:(lia)) as A.
  pose proof (glue_front from to Ht ps' p' (N.of_nat (length ps + length ps')) HP' ltac:(lia)) as B.
  rewrite <- E1, <- E2 in A. rewrite <- E1', <- E2' in B. exact (ReplaceFront_fun _ _ _ _ _ A _ B).
Qed.

(** Nothing is left of what was replaced everywhere. *)
Lemma full_front from to n s r : ReplaceFront from to n s r -> from <> [] -> size s <= n ->
  exists p ps, Forall (fun x => forall i, ~ occurs_at from x i) (p :: ps) /\ r = glue to p ps.
Proof.
  induction 1 as [s|n s Hn|n u v r Hi H IH]; intros Hf Hs.
  - exists s, []. unfold glue. cbn. rewrite app_nil_r. split; [|reflexivity]. constructor; [|constructor]. unfold size in Hs. destruct s; [|cbn in Hs; lia].
    intros i (a & b & E & _). destruct a; [|discriminate]. destruct from; [congruence|discriminate].
  - exists s, []. unfold glue. cbn. rewrite app_nil_r. auto.
  - destruct (IH Hf) as (p & ps & HP & ->).
    { unfold size in *. rewrite !app_length in Hs. destruct from; [congruence|]. cbn [length] in Hs. lia. }
    exists u, (p :: ps). rewrite glue_cons. split; [|reflexivity]. constructor; [|exact HP].
    intros i (a & b & E & <-). apply (Hi (length a)); [rewrite E, app_length, app_length; destruct from; [congruence|cbn; lia]|].
    exists a, (b ++ from ++ v). rewrite E at 1. rewrite <- !app_assoc. auto.
Qed.
Lemma full_back from to n s r : ReplaceBack from to n s r -> from <> [] -> size s <= n ->
  exists p ps, Forall (fun x => forall i, ~ occurs_at from x i) (p :: ps) /\ r = glue to p ps.
Proof.
  induction 1 as [s|n s Hn|n u v r Hi H IH]; intros Hf Hs.
  - exists s, []. unfold glue. cbn. rewrite app_nil_r. split; [|reflexivity]. constructor; [|constructor]. unfold size in Hs. destruct s; [|cbn in Hs; lia].
    intros i (a & b & E & _). destruct a; [|discriminate]. destruct from; [congruence|discriminate].
  - exists s, []. unfold glue. cbn. rewrite app_nil_r. auto.
  - destruct (IH Hf) as (p & ps & HP & ->).
    { unfold size in *. rewrite !app_length in Hs. destruct from; [congruence|]. cbn [length] in Hs. lia. }
    exists p, (ps ++ [u]). rewrite glue_snoc. split; [|reflexivity]. inversion HP; subst. constructor; [assumption|]. apply Forall_app. split; [assumption|]. constructor; [|constructor].
    intros i (a & b & E & <-). apply (Hi (length (v ++ from ++ a))); [rewrite !app_length; destruct from; [congruence|cbn; lia]|].
    exists (v ++ from ++ a), b. split; [|reflexivity]. rewrite E at 1. now rewrite <- !app_assoc.
Qed.
Lemma app_cut {A} (a : list A) : forall b p x, a ++ b = p ++ x -> (length a <= length p)%nat -> exists c, p = a ++ c /\ b = c ++ x.
Proof.
  induction a as [|y a IH]; intros b p x E L; [now exists p|]. destruct p as [|z p]; [cbn in L; lia|]. cbn [app length] in *. injection E as -> E.
  destruct (IH b p x E ltac:(lia)) as (c & -> & ->). now exists c.
Qed.
Lemma glue_gone from to : from <> [] -> to <> [] -> apart to from -> forall ps p,
  Forall (fun x => forall i, ~ occurs_at from x i) (p :: ps) -> forall i, ~ occurs_at from (glue to p ps) i.
Proof.
  intros Hf Ht HA ps. induction ps as [|q ps IH]; intros p HP i Ho.
  - inversion HP; subst. unfold glue in Ho. cbn in Ho. rewrite app_nil_r in Ho. exact (H1 _ Ho).
  - inversion HP as [|? ? Hp HP2]; subst. rewrite glue_cons in Ho. destruct Ho as (a & b & E & <-).
    destruct (Nat.le_gt_cases (length a + length from) (length p)) as [L|L].
    + rewrite (app_assoc a) in E. symmetry in E. apply app_cut in E as (c & -> & _); [|rewrite app_length; lia].
      apply (Hp (length a)). exists a, c. now rewrite <- app_assoc.
    + destruct (Nat.le_gt_cases (length p + length to) (length a)) as [L2|L2].
      * rewrite app_assoc in E. apply app_cut in E as (c & -> & E); [|rewrite app_length; lia].
        apply (IH q HP2 (length c)). exists c, b. now split.
      * set (j := Nat.max (length p) (length a)).
        assert (Hlf : (0 < length from)%nat) by (destruct from; [congruence|cbn; lia]). assert (Hlt : (0 < length to)%nat) by (destruct to; [congruence|cbn; lia]).
        assert (exists x, nth_error to (j - length p) = Some x) as (x & Hx).
        { destruct (nth_error to (j - length p)) eqn:En; [eauto|]. apply nth_error_None in En. unfold j in En. lia. }
        apply (HA x (nth_error_In _ _ Hx)). assert (nth_error (p ++ to ++ glue to q ps) j = Some x) as E3.
        { rewrite nth_error_app2 by (unfold j; lia). rewrite nth_error_app1 by (unfold j; lia). exact Hx. }
        rewrite E in E3. rewrite nth_error_app2 in E3 by (unfold j; lia). rewrite nth_error_app1 in E3 by (unfold j; lia). exact (nth_error_In _ _ E3).
Qed.
Lemma p_c142_gone : forall s from to m r, from <> [] -> to <> [] -> (forall x, In x to -> ~ In x from) -> Fits s ->
  (- 0x8000000000000000 < m)%Z -> (Z.of_N (size s) <= Z.abs m)%Z -> replace s from to m = Ok r ->
  (forall i, ~ occurs_at from r i) /\ (forall to' n, Fits r -> (- 0x8000000000000000 < n)%Z -> replace r from to' n = Ok r).
Proof.
  intros s from to m r Hf Ht HA HF Hm Hs E. assert (forall i, ~ occurs_at from r i) as A.
  { destruct (Z.le_gt_cases 0 m) as [L|L].
    - destruct (replace_front s from to m Hf L) as (r' & E' & HR). rewrite E' in E. injection E as ->.
      destruct (full_front _ _ _ _ _ HR Hf ltac:(lia)) as (p & ps & HP & ->). now apply glue_gone.
    - destruct (replace_back s from to m Hf HF ltac:(unfold PTRDIFF_MIN; lia)) as (r' & E' & HR). rewrite E' in E. injection E as ->.
      destruct (full_back _ _ _ _ _ HR Hf ltac:(lia)) as (p & ps & HP & ->). now apply glue_gone. }
  split; [exact A|]. intros to' n HFr Hn. now apply p_c84_absent.
Qed.

(** The same for code points. *)
Lemma first_units_undo f t : forall ps n k, ~ In t ps -> N.of_nat (length ps) <= k -> replace_first_units k t f (replace_first_units n f t ps) = ps.
Proof.
  induction ps as [|g ps IH]; intros n k Hin Hk; [reflexivity|]. cbn [In] in Hin. cbn [length] in Hk. cbn [replace_first_units].
  destruct (unit_eqb f g && (0 <? n)) eqn:E.
  - cbn [replace_first_units]. rewrite unit_eqb_refl. replace (0 <? k) with true by (symmetry; apply N.ltb_lt; lia). cbn [andb].
    apply andb_true_iff in E as [E _]. apply unit_eqb_spec in E as ->. f_equal. apply IH; [tauto|lia].
  - cbn [replace_first_units]. destruct (unit_eqb t g) eqn:E2; [apply unit_eqb_spec in E2; subst; tauto|]. cbn [andb]. f_equal. apply IH; [tauto|lia].
Qed.
Lemma first_units_length f t : forall ps n, length (replace_first_units n f t ps) = length ps.
Proof. induction ps as [|g ps IH]; intros n; [reflexivity|]. cbn [replace_first_units]. destruct (_ && _); cbn [length]; now rewrite IH. Qed.
Lemma first_units_all f t : forall ps k k', N.of_nat (length ps) <= k -> N.of_nat (length ps) <= k' -> replace_first_units k f t ps = replace_first_units k' f t ps.
Proof.
  induction ps as [|g ps IH]; intros k k' Hk Hk'; [reflexivity|]. cbn [length] in Hk, Hk'. cbn [replace_first_units].
  replace (0 <? k) with true by (symmetry; apply N.ltb_lt; lia). replace (0 <? k') with true by (symmetry; apply N.ltb_lt; lia).
  destruct (unit_eqb f g); cbn [andb]; f_equal; apply IH; lia.
Qed.
Lemma first_units_map f t : forall ps k, N.of_nat (length ps) <= k -> replace_first_units k f t ps = map (fun g => if unit_eqb f g then t else g) ps.
Proof.
  induction ps as [|g ps IH]; intros k Hk; [reflexivity|]. cbn [length] in Hk. cbn [replace_first_units map].
  replace (0 <? k) with true by (symmetry; apply N.ltb_lt; lia). destruct (unit_eqb f g); cbn [andb]; f_equal; apply IH; lia.
Qed.
Lemma units_undo f t ps n k (back back' : bool) : ~ In t ps -> N.of_nat (length ps) <= k ->
  (if back' then replace_last_units k t f else replace_first_units k t f) ((if back then replace_last_units n f t else replace_first_units n f t) ps) = ps.
Proof.
  intros Hin Hk.
  assert (forall qs k, N.of_nat (length qs) <= k -> replace_last_units k t f qs = replace_first_units k t f qs) as R.
  { intros qs j Hj. unfold replace_last_units. rewrite !first_units_map by (rewrite ?rev_length; lia). now rewrite map_rev, rev_involutive. }
  assert (length ((if back then replace_last_units n f t else replace_first_units n f t) ps) = length ps) as HL.
  { destruct back; [unfold replace_last_units; rewrite rev_length|]; rewrite first_units_length; now rewrite ?rev_length. }
  assert (replace_first_units k t f ((if back then replace_last_units n f t else replace_first_units n f t) ps) = ps) as A.
  { destruct back; [|now apply first_units_undo]. unfold replace_last_units. rewrite first_units_map by (rewrite rev_length, first_units_length, rev_length; lia).
    rewrite map_rev. rewrite <- (first_units_map t f _ k) by (rewrite first_units_length, rev_length; lia).
    rewrite first_units_undo; [apply rev_involutive| |rewrite rev_length; lia]. now rewrite <- in_rev. }
  destruct back'; [|exact A]. rewrite R by (rewrite HL; lia). exact A.
Qed.
Lemma units_closed n f t ps : (exists c, uchar t c) -> Codepoints ps -> Codepoints (replace_first_units n f t ps).
Proof.
  intros Ht HP. revert n. induction HP as [|g ps Hg HP IH]; intros n; [constructor|]. cbn [replace_first_units].
  destruct (_ && _); constructor; auto; apply IH.
Qed.
Lemma p_c142_codepoints : forall s cs a b m r n, Text s cs -> Fits s -> a <= 0x10FFFF -> b <= 0x10FFFF -> ~ In b cs ->
  (- 0x8000000000000000 < m)%Z -> replace_codepoint s a b m = Ok r -> Fits r ->
  (- 0x8000000000000000 < n)%Z -> (Z.of_N (size r) <= Z.abs n)%Z -> replace_codepoint r b a n = Ok s.
Proof.
  intros s cs a b m r n HT HF Ha Hb Hin Hm E HFr Hn Hs.
  assert (exists ps, Codepoints ps /\ concat ps = s /\ forall t, uchar t b -> ~ In t ps) as (ps & HP & <- & HB).
  { clear -HT Hin. induction HT as [|g c s cs Hg HT IH]; [exists []; repeat split; [constructor|auto]|]. cbn [In] in Hin.
    destruct IH as (ps & HP & <- & HB); [tauto|]. exists (g :: ps). split; [constructor; eauto|]. split; [reflexivity|].
    intros t Ht [->|Hi]; [|exact (HB t Ht Hi)]. apply Hin. left. 
    destruct (uchar_prefix_unique _ _ [] _ _ [] Hg Ht eq_refl) as (_ & Ec & _). exact Ec. }
  destruct (p_c33_units ps a b m HP HF Ha Hb Hm) as (f & t & Hf & Ht & E2). rewrite E in E2.
  pose proof (encodes_uchar _ _ Ha Hf) as Uf. pose proof (encodes_uchar _ _ Hb Ht) as Ut.
  set (qs := if (0 <=? m)%Z then replace_first_units (Z.to_N m) f t ps else replace_last_units (Z.to_N (- m)) f t ps).
  assert (r = concat qs) as -> by (injection E2 as E2; exact E2).
  assert (Codepoints qs /\ length qs = length ps) as (HQ & HL).
  { unfold qs, replace_last_units. destruct (0 <=? m)%Z.
    - split; [apply units_closed; eauto|apply first_units_length].
    - split; [|now rewrite rev_length, first_units_length, rev_length]. unfold Codepoints. apply Forall_rev, units_closed; eauto. now apply Forall_rev. }
  destruct (p_c33_units qs b a n HQ HFr Hb Ha Hn) as (t' & f' & Ht' & Hf' & E3).
  assert (t' = t) by (eapply encodes_fun; eauto). assert (f' = f) by (eapply encodes_fun; eauto). subst t' f'.
  assert (N.of_nat (length ps) <= Z.abs_N n).
  { rewrite <- HL. clearbody qs. enough (N.of_nat (length qs) <= size (concat qs)) as W by (eapply N.le_trans; [exact W|]; apply N2Z.inj_le; rewrite N2Z.inj_abs_N; exact Hs). clear -HQ. enough (length qs <= length (concat qs))%nat by (unfold size; lia).
    induction HQ as [|g qs (c & Hg) HQ IH]; [cbn; lia|]. cbn [concat length]. rewrite app_length. pose proof (uchar_nonempty _ _ Hg). destruct g; [congruence|cbn [length]; lia]. }
  rewrite E3. f_equal. f_equal. pose proof (HB t Ut) as HBt. unfold qs.
  destruct (0 <=? m)%Z eqn:E4, (0 <=? n)%Z eqn:E5.
  - apply (units_undo f t ps (Z.to_N m) (Z.to_N n) false false HBt). lia.
  - apply (units_undo f t ps (Z.to_N m) (Z.to_N (- n)) false true HBt). lia.
  - apply (units_undo f t ps (Z.to_N (- m)) (Z.to_N n) true false HBt). lia.
  - apply (units_undo f t ps (Z.to_N (- m)) (Z.to_N (- n)) true true HBt). lia.
Qed.
