(** C145: edits at different places do not disturb each other. *)
From Verif Require Import Base Spec.Utf8Spec Spec.Strings Spec.Slices Spec.Batch
  Model.Decode Model.Encode Model.Subrange Model.Search Model.CharClass Model.Chars
  Proofs.Utf8Lemmas Proofs.DecodeLemmas Proofs.SliceLemmas Proofs.CharLemmas Proofs.PieceLemmas Proofs.AnyStringLemmas Proofs.NestedLemmas.

Notation inserted es := (fold_right (fun e n => size (snd e) + n) 0 es).

Section Generic.
Context (P : str -> Prop) (rep : str -> Z -> Z -> str -> outcome str) (count : str -> outcome N).
Context (P_ne : forall p, P p -> p <> []).
Context (rep_ok : forall a o r t, Forall P (a ++ o ++ r) -> Fits (concat (a ++ o ++ r)) ->
  rep (concat (a ++ o ++ r)) (Z.of_nat (length a)) (Z.of_nat (length a + length o)) t = Ok (concat a ++ t ++ concat r)).
Context (rep_neg : forall a o r t, Forall P (a ++ o ++ r) -> Fits (concat (a ++ o ++ r)) -> o <> [] -> r <> [] ->
  rep (concat (a ++ o ++ r)) (- Z.of_nat (length o + length r)) (- Z.of_nat (length r)) t = Ok (concat a ++ t ++ concat r)).
Context (count_ok : forall ps, Forall P ps -> Fits (concat ps) -> count (concat ps) = Ok (N.of_nat (length ps))).

Lemma csize (a b : list str) : size (concat (a ++ b)) = size (concat a) + size (concat b).
Proof. rewrite concat_app. unfold size. rewrite app_length. lia. Qed.
Lemma batch_size pos ps es rs : Batch pos ps es rs -> size (concat rs) <= size (concat ps) + inserted es.
Proof.
  induction 1 as [pos ps|pos a o rest qs es rs H IH]; [cbn; lia|]. cbn [fold_right snd]. rewrite !csize. lia.
Qed.

Lemma back_ok pos ps es rs : Batch pos ps es rs -> forall pre, length pre = pos -> Forall P (pre ++ ps) -> Forall P rs ->
  size (concat pre) + size (concat ps) + inserted es < 0x8000000000000000 ->
  from_back rep es (concat (pre ++ ps)) = Ok (concat (pre ++ rs)).
Proof.
  induction 1 as [pos ps|pos a o rest qs es rs H IH]; intros pre HL HP HR HF; [reflexivity|].
  cbn [from_back fold_right snd] in *. rewrite !csize in HF. apply Forall_app in HR as [_ HR]. apply Forall_app in HR as [_ HR].
  replace (pre ++ a ++ o ++ rest) with ((pre ++ a ++ o) ++ rest) in * by (now rewrite <- !app_assoc).
  rewrite (IH (pre ++ a ++ o)); [|rewrite !app_length; lia|exact HP|exact HR|rewrite !csize; lia]. cbn [bind].
  pose proof (batch_size _ _ _ _ H) as HS. apply Forall_app in HP as [HP _].
  replace ((pre ++ a ++ o) ++ rs) with ((pre ++ a) ++ o ++ rs) by (now rewrite <- !app_assoc).
  replace (pos + length a)%nat with (length (pre ++ a)) by (rewrite app_length; lia).
  rewrite rep_ok.
  - f_equal. rewrite !concat_app. now rewrite <- !app_assoc.
  - rewrite <- app_assoc. rewrite (app_assoc a), (app_assoc pre). apply Forall_app. auto.
  - unfold Fits. rewrite !csize. lia.
Qed.

Lemma front_ok pos ps es rs : Batch pos ps es rs -> forall pre grown, Z.of_nat (length pre) = (Z.of_nat pos + grown)%Z -> Forall P (pre ++ ps) -> Forall P rs ->
  size (concat pre) + size (concat ps) + inserted es < 0x8000000000000000 ->
  from_front rep count es grown (concat (pre ++ ps)) = Ok (concat (pre ++ rs)).
Proof.
  induction 1 as [pos ps|pos a o rest qs es rs H IH]; intros pre grown HL HP HR HF; [reflexivity|].
  cbn [from_front fold_right snd] in *. rewrite !csize in HF. apply Forall_app in HR as [HA HR]. apply Forall_app in HR as [HQ HR].
  replace (pre ++ a ++ o ++ rest) with ((pre ++ a) ++ o ++ rest) in * by (now rewrite <- !app_assoc).
  replace (Z.of_nat (pos + length a) + grown)%Z with (Z.of_nat (length (pre ++ a))) by (rewrite app_length; lia).
  replace (Z.of_nat (pos + length a + length o) + grown)%Z with (Z.of_nat (length (pre ++ a) + length o)) by (rewrite app_length; lia).
  rewrite rep_ok; [|exact HP|unfold Fits; rewrite !csize; lia]. cbn [bind].
  rewrite count_ok; [|exact HQ|unfold Fits; lia]. cbn [bind].
  replace (concat (pre ++ a) ++ concat qs ++ concat rest) with (concat ((pre ++ a ++ qs) ++ rest)) by (rewrite !concat_app, <- !app_assoc; reflexivity).
  rewrite (IH (pre ++ a ++ qs)); [now rewrite <- !app_assoc|rewrite !app_length; lia| |exact HR|rewrite !csize; lia].
  apply Forall_app in HP as [HP1 HP2]. apply Forall_app in HP2 as [_ HP2]. apply Forall_app in HP1 as [HP1 _].
  repeat (apply Forall_app; split); auto.
Qed.

Lemma end_ok pos ps es rs : Batch pos ps es rs -> forall n, n = (Z.of_nat pos + Z.of_nat (length ps))%Z -> Proper n es ->
  forall pre, Forall P (pre ++ ps) -> Forall P rs ->
  size (concat pre) + size (concat ps) + inserted es < 0x8000000000000000 ->
  from_end rep n es (concat (pre ++ ps)) = Ok (concat (pre ++ rs)).
Proof.
  induction 1 as [pos ps|pos a o rest qs es rs H IH]; intros n Hn HE pre HP HR HF; [reflexivity|].
  cbn [from_end fold_right snd] in *. rewrite !csize in HF. apply Forall_app in HR as [HA HR]. apply Forall_app in HR as [HQ HR].
  rewrite !app_length in Hn. inversion HE as [|i j t es' Hij HE' E1]. subst i j t es'.
  replace (pre ++ a ++ o ++ rest) with ((pre ++ a) ++ o ++ rest) in * by (now rewrite <- !app_assoc).
  replace (Z.of_nat (pos + length a) - n)%Z with (- Z.of_nat (length o + length rest))%Z by lia.
  replace (Z.of_nat (pos + length a + length o) - n)%Z with (- Z.of_nat (length rest))%Z by lia.
  rewrite rep_neg; [|exact HP|unfold Fits; rewrite !csize; lia|intros ->; cbn in *; lia|intros ->; cbn in *; lia]. cbn [bind].
  replace (concat (pre ++ a) ++ concat qs ++ concat rest) with (concat ((pre ++ a ++ qs) ++ rest)) by (rewrite !concat_app, <- !app_assoc; reflexivity).
  rewrite (IH n); [now rewrite <- !app_assoc|lia|exact HE'| |exact HR|rewrite !csize; lia].
  apply Forall_app in HP as [HP1 HP2]. apply Forall_app in HP2 as [_ HP2]. apply Forall_app in HP1 as [HP1 _].
  repeat (apply Forall_app; split); auto.
Qed.

Lemma batch_all ps es rs : Forall P ps -> Forall P rs -> Batch 0 ps es rs -> room (concat ps) es ->
  from_back rep es (concat ps) = Ok (concat rs) /\ from_front rep count es 0 (concat ps) = Ok (concat rs) /\
  (Proper (Z.of_nat (length ps)) es -> from_end rep (Z.of_nat (length ps)) es (concat ps) = Ok (concat rs)).
Proof.
  intros HP HR HB HF. unfold room in HF. split; [|split].
  - apply (back_ok 0 ps es rs HB []); auto.
  - apply (front_ok 0 ps es rs HB [] 0); auto.
  - intros HE. apply (end_ok 0 ps es rs HB (Z.of_nat (length ps)) ltac:(lia) HE []); auto.
Qed.
End Generic.

Lemma units_len (P : str -> Prop) ps : (forall p, P p -> p <> []) -> Forall P ps -> (length ps <= length (concat ps))%nat.
Proof.
  intros HN H. induction H as [|p ps Hp H IH]; [cbn; lia|]. cbn [concat length]. rewrite app_length. apply HN in Hp. destruct p; [congruence|cbn; lia].
Qed.
Lemma resolve_split (a o r : list str) : units_before (a ++ o ++ r) (Z.of_nat (length a)) = a /\
  units_after (a ++ o ++ r) (Z.of_nat (length a)) (Z.of_nat (length a + length o)) = r.
Proof.
  unfold units_before, units_after. rewrite !resolve_nonneg by lia. rewrite !Nat2Z.id, !app_length, !Nat.min_l by lia.
  rewrite Nat.max_r by lia. split.
  - rewrite firstn_app, Nat.sub_diag, firstn_all. cbn. apply app_nil_r.
  - rewrite app_assoc. rewrite <- (app_length a o), skipn_app, Nat.sub_diag, skipn_all. reflexivity.
Qed.
Lemma resolve_split_neg (a o r : list str) : o <> [] -> r <> [] -> units_before (a ++ o ++ r) (- Z.of_nat (length o + length r)) = a /\
  units_after (a ++ o ++ r) (- Z.of_nat (length o + length r)) (- Z.of_nat (length r)) = r.
Proof.
  intros HO HR. assert (length o <> 0%nat /\ length r <> 0%nat) as [LO LR] by (split; [destruct o|destruct r]; cbn; congruence).
  assert (forall n i, (0 < i <= n)%nat -> resolve n (- Z.of_nat i) = (n - i)%nat) as E.
  { intros n i Hi. unfold resolve. replace (- Z.of_nat i <? 0)%Z with true by lia. lia. }
  unfold units_before, units_after. rewrite !E by (rewrite !app_length; lia). rewrite !app_length.
  replace (length a + (length o + length r) - (length o + length r))%nat with (length a) by lia.
  replace (length a + (length o + length r) - length r)%nat with (length a + length o)%nat by lia.
  rewrite Nat.max_r by lia. split.
  - rewrite firstn_app, Nat.sub_diag, firstn_all. cbn. apply app_nil_r.
  - rewrite app_assoc. rewrite <- (app_length a o), skipn_app, Nat.sub_diag, skipn_all. reflexivity.
Qed.

Definition cp_unit (g : str) : Prop := exists c, uchar g c.
Lemma cp_unit_ne g : cp_unit g -> g <> [].
Proof. intros (c & H). now apply uchar_nonempty with c. Qed.
Lemma p_c145_codepoints : forall ps es rs, Codepoints ps -> Codepoints rs -> Batch 0 ps es rs -> room (concat ps) es ->
  from_back replace_codepoints es (concat ps) = Ok (concat rs) /\
  from_front replace_codepoints count_codepoints es 0 (concat ps) = Ok (concat rs) /\
  (Proper (Z.of_nat (length ps)) es -> from_end replace_codepoints (Z.of_nat (length ps)) es (concat ps) = Ok (concat rs)).
Proof.
  intros ps es rs HP HR HB HF. apply (batch_all cp_unit); auto.
  - intros a o r t H F. pose proof (units_len cp_unit _ cp_unit_ne H) as L. destruct (resolve_split a o r) as [E1 E2].
    unfold Fits, size in F. pose proof L as L'. rewrite !app_length in L'.
    rewrite cp_replace_ok; [now rewrite E1, E2|left; exact H|exact F| | |unfold in_order; lia]; unfold cp_ok; lia.
  - intros a o r t H F HO HE. pose proof (units_len cp_unit _ cp_unit_ne H) as L. destruct (resolve_split_neg a o r HO HE) as [E1 E2].
    assert (length o <> 0%nat /\ length r <> 0%nat) as [LO LR] by (split; [destruct o|destruct r]; cbn; congruence).
    unfold Fits, size in F. pose proof L as L'. rewrite !app_length in L'.
    rewrite cp_replace_ok; [now rewrite E1, E2|left; exact H|exact F| | |unfold in_order; lia]; unfold cp_ok; lia.
  - intros us H F. apply count_code_units; [left; exact H|exact F].
Qed.

Definition char_unit (g : str) : Prop := one_char is_mark g /\ starts_unmarked is_mark g.
Lemma char_unit_ne g : char_unit g -> g <> [].
Proof. intros (_ & (h & c & t & -> & H & _)). apply uchar_nonempty in H. destruct h; [congruence|discriminate]. Qed.
Lemma char_units ps : Forall char_unit ps -> Chars ps.
Proof.
  intros H. split; [eapply Forall_impl; [|exact H]; now intros g [? _]|].
  destruct H as [|p ps Hp H]; [constructor|]. cbn. eapply Forall_impl; [|exact H]; now intros g [_ ?].
Qed.
Lemma p_c145_chars : forall ps es rs, Forall char_unit ps -> Forall char_unit rs -> Batch 0 ps es rs -> room (concat ps) es ->
  from_back replace_chars es (concat ps) = Ok (concat rs) /\
  from_front replace_chars count_chars es 0 (concat ps) = Ok (concat rs) /\
  (Proper (Z.of_nat (length ps)) es -> from_end replace_chars (Z.of_nat (length ps)) es (concat ps) = Ok (concat rs)).
Proof.
  intros ps es rs HP HR HB HF. apply (batch_all char_unit); auto.
  - intros a o r t H F. pose proof (units_len char_unit _ char_unit_ne H) as L. destruct (resolve_split a o r) as [E1 E2].
    unfold Fits, size in F. pose proof L as L'. rewrite !app_length in L'.
    rewrite char_replace_ok; [now rewrite E1, E2|now apply char_units|exact F| | |unfold char_in_order; lia]; unfold isz, PTRDIFF_MIN, PTRDIFF_MAX; lia.
  - intros a o r t H F HO HE. pose proof (units_len char_unit _ char_unit_ne H) as L. destruct (resolve_split_neg a o r HO HE) as [E1 E2].
    assert (length o <> 0%nat /\ length r <> 0%nat) as [LO LR] by (split; [destruct o|destruct r]; cbn; congruence).
    unfold Fits, size in F. pose proof L as L'. rewrite !app_length in L'.
    rewrite char_replace_ok; [now rewrite E1, E2|now apply char_units|exact F| | |unfold char_in_order; lia]; unfold isz, PTRDIFF_MIN, PTRDIFF_MAX; lia.
  - intros us H F. apply count_chars_spec; [now apply char_units|exact F].
Qed.

(** Ascending edits of a valid text are such a batch. *)
Lemma codepoints_of s cs : Text s cs -> exists ps, concat ps = s /\ Codepoints ps /\ length ps = length cs.
Proof.
  induction 1 as [|g c s cs Hg H (ps & <- & H1 & H2)]; [exists []; repeat split; constructor|].
  exists (g :: ps). repeat split; [|cbn; lia]. constructor; [now exists c|exact H1].
Qed.
Lemma ascending_batch n lo es : Ascending n lo es -> forall pos ps, lo = Z.of_nat pos -> n = (lo + Z.of_nat (length ps))%Z -> Codepoints ps ->
  exists rs, Batch pos ps es rs /\ Codepoints rs.
Proof.
  induction 1 as [lo|lo i j t ts es Hij Hj HT H IH]; intros pos ps Hlo Hn HP; [exists ps; split; [constructor|exact HP]|].
  destruct (codepoints_of t ts HT) as (qs & <- & HQ & _).
  set (a := firstn (Z.to_nat (i - lo)) ps). set (o := firstn (Z.to_nat (j - i)) (skipn (Z.to_nat (i - lo)) ps)).
  set (r := skipn (Z.to_nat (j - i)) (skipn (Z.to_nat (i - lo)) ps)).
  assert (ps = a ++ o ++ r) as E by (unfold a, o, r; now rewrite !firstn_skipn).
  assert (length a = Z.to_nat (i - lo)) as LA by (unfold a; rewrite firstn_length; lia).
  assert (length o = Z.to_nat (j - i)) as LO by (unfold o; rewrite firstn_length, skipn_length; lia).
  clearbody a o r. subst ps. rewrite !app_length in Hn. unfold Codepoints in *. apply Forall_app in HP as [HA HP]. apply Forall_app in HP as [_ HR].
  destruct (IH (pos + length a + length o)%nat r ltac:(lia) ltac:(lia) HR) as (rs & HB & HRS).
  exists (a ++ qs ++ rs). split; [|repeat (apply Forall_app; split); assumption].
  replace i with (Z.of_nat (pos + length a)) by lia. replace j with (Z.of_nat (pos + length a + length o)) by lia. now constructor.
Qed.
Lemma p_c145_any_order : forall s cs es, Text s cs -> Ascending (Z.of_nat (length cs)) 0 es -> room s es -> exists r,
  from_back replace_codepoints es s = Ok r /\ from_front replace_codepoints count_codepoints es 0 s = Ok r /\
  (Proper (Z.of_nat (length cs)) es -> from_end replace_codepoints (Z.of_nat (length cs)) es s = Ok r).
Proof.
  intros s cs es HT HA HF. destruct (codepoints_of s cs HT) as (ps & <- & HP & L). rewrite <- L in *.
  destruct (ascending_batch _ _ _ HA 0%nat ps eq_refl eq_refl HP) as (rs & HB & HR). exists (concat rs). now apply p_c145_codepoints.
Qed.

(** Two edits *)
Lemma p_c145_two : forall s cs i j t ts k l w ws, Text s cs -> Text t ts -> Text w ws -> (0 <= i <= j)%Z -> (j <= k <= l)%Z -> (l <= Z.of_nat (length cs))%Z ->
  Fits (s ++ t ++ w) -> exists r1 r2 r n,
  replace_codepoints s i j t = Ok r1 /\ replace_codepoints s k l w = Ok r2 /\ count_codepoints t = Ok n /\
  replace_codepoints r2 i j t = Ok r /\
  replace_codepoints r1 (k + (Z.of_N n - (j - i))) (l + (Z.of_N n - (j - i))) w = Ok r.
Proof.
  intros s cs i j t ts k l w ws HS HT HW Hij Hkl Hl HF.
  assert (room s [(i, j, t); (k, l, w)]) as HR by (unfold room; cbn [fold_right snd]; clear -HF; unfold Fits, size in *; rewrite !app_length, !Nat2N.inj_add in HF; lia).
  assert (Ascending (Z.of_nat (length cs)) 0 [(i, j, t); (k, l, w)]) as HA.
  { apply asc_cons with ts; [lia|lia|exact HT|]. apply asc_cons with ws; [lia|lia|exact HW|constructor]. }
  destruct (p_c145_any_order s cs _ HS HA HR) as (r & HB & HFr & _).
  cbn [from_back from_front bind] in HB, HFr. rewrite !Z.add_0_r in HFr.
  destruct (replace_codepoints s k l w) as [r2| | |] eqn:E2; cbn [bind] in HB; try discriminate.
  destruct (replace_codepoints s i j t) as [r1| | |] eqn:E1; cbn [bind] in HFr; try discriminate.
  destruct (count_codepoints t) as [n| | |] eqn:E3; cbn [bind] in HFr; try discriminate.
  rewrite ?Z.add_0_l in HFr. exists r1, r2, r, n. repeat split; try reflexivity; [exact HB|].
  destruct (replace_codepoints r1 (k + (Z.of_N n - (j - i))) (l + (Z.of_N n - (j - i))) w) eqn:E5; cbn [bind] in HFr; try discriminate.
  destruct (count_codepoints w); cbn [bind] in HFr; try discriminate. congruence.
Qed.
