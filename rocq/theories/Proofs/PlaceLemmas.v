(** C149: positions and indices correspond. *)
From Verif Require Import Base Spec.Utf8Spec Spec.Strings Spec.Slices Spec.Counts Model.Decode Model.Encode Model.Subrange Model.Search Model.CharClass Model.Chars
  Proofs.Utf8Lemmas Proofs.CodepointLemmas Proofs.SearchLemmas Proofs.SliceLemmas Proofs.CharLemmas Proofs.CharCross Proofs.CountLemmas Proofs.PieceLemmas Proofs.PositionProps
  Proofs.NestedLemmas Proofs.AgreeLemmas Proofs.FoundLemmas.

(** A text of non-empty units *)
Lemma offset_step (ps : list str) k p : nth_error ps k = Some p -> offset_of ps (S k) = offset_of ps k + size p.
Proof.
  intros E. apply nth_error_split in E. destruct E as (a & b & -> & <-). unfold offset_of.
  assert (firstn (length a) (a ++ p :: b) = a) as -> by (rewrite <- (Nat.add_0_r (length a)), firstn_app_2; apply app_nil_r).
  assert (firstn (S (length a)) (a ++ p :: b) = a ++ [p]) as -> by (rewrite <- Nat.add_1_r, firstn_app_2; reflexivity).
  rewrite concat_app. cbn [concat]. rewrite app_nil_r. unfold size. rewrite app_length. lia.
Qed.
Lemma offset_mono (ps : list str) k l : Forall (fun p => p <> []) ps -> (k < l <= length ps)%nat -> offset_of ps k < offset_of ps l.
Proof.
  intros HN. induction l as [|l IH]; intros H; [lia|]. destruct (nth_error ps l) as [p|] eqn:E; [|apply nth_error_None in E; lia].
  rewrite (offset_step ps l p E). assert (p <> []) as Hp by (rewrite Forall_forall in HN; apply HN; now apply nth_error_In with l).
  assert (0 < size p) by (unfold size; destruct p; [congruence|cbn; lia]). destruct (Nat.eq_dec k l) as [->|]; [lia|]. specialize (IH ltac:(lia)). lia.
Qed.
Lemma offset_end (ps : list str) : offset_of ps (length ps) = size (concat ps).
Proof. unfold offset_of. now rewrite firstn_all. Qed.
Lemma offset_le (ps : list str) k l : Forall (fun p => p <> []) ps -> (k <= l <= length ps)%nat -> offset_of ps k <= offset_of ps l.
Proof. intros HN H. destruct (Nat.eq_dec k l) as [->|]; [lia|]. assert (offset_of ps k < offset_of ps l) by (apply offset_mono; auto; lia). lia. Qed.
Lemma offset_inside (ps : list str) i : Forall (fun p => p <> []) ps -> i < size (concat ps) ->
  exists k p, nth_error ps k = Some p /\ offset_of ps k <= i < offset_of ps k + size p.
Proof.
  intros HN H. assert (forall l, (l <= length ps)%nat -> i < offset_of ps l -> exists k p, nth_error ps k = Some p /\ offset_of ps k <= i < offset_of ps k + size p) as K.
  { induction l as [|l IH]; intros L HI; [unfold offset_of, size in HI; cbn in HI; lia|]. destruct (N.lt_ge_cases i (offset_of ps l)) as [Hi|Hi]; [apply IH; auto; lia|].
    destruct (nth_error ps l) as [p|] eqn:E; [|apply nth_error_None in E; lia]. exists l, p. rewrite (offset_step ps l p E) in HI. auto. }
  apply (K (length ps)); [lia|]. now rewrite offset_end.
Qed.
Lemma offset_inside_fun (ps : list str) i k p l q : Forall (fun p => p <> []) ps -> nth_error ps k = Some p -> nth_error ps l = Some q ->
  offset_of ps k <= i < offset_of ps k + size p -> offset_of ps l <= i < offset_of ps l + size q -> k = l.
Proof.
  intros HN Ek El Hk Hl. rewrite <- (offset_step ps k p Ek) in Hk. rewrite <- (offset_step ps l q El) in Hl.
  assert (k < length ps)%nat by (apply nth_error_Some; congruence). assert (l < length ps)%nat by (apply nth_error_Some; congruence).
  destruct (Nat.lt_trichotomy k l) as [L|[L|L]]; [|exact L|].
  - assert (offset_of ps (S k) <= offset_of ps l) by (apply offset_le; auto; lia). lia.
  - assert (offset_of ps (S l) <= offset_of ps k) by (apply offset_le; auto; lia). lia.
Qed.
Lemma position_at (ps : list str) k : (k <= length ps)%nat -> position ps (Z.of_nat k) = offset_of ps k.
Proof. intros H. unfold position. replace (_ <? _)%Z with false by lia. rewrite resolve_nonneg by lia. now rewrite Nat2Z.id, Nat.min_l by lia. Qed.

(** Code points *)
Lemma units_of s cs : Text s cs -> exists ps, concat ps = s /\ Forall2 uchar ps cs.
Proof. induction 1 as [|g c s cs Hg H (ps & <- & H2)]; [exists []; split; [reflexivity|constructor]|exists (g :: ps); split; [reflexivity|now constructor]]. Qed.
Lemma units_codepoints ps cs : Forall2 uchar ps cs -> Codepoints ps /\ length ps = length cs /\ Forall (fun p => p <> []) ps.
Proof.
  induction 1 as [|g c ps cs Hg H (H1 & H2 & H3)]; [repeat split; constructor|]. unfold Codepoints in *. split; [|split]; [constructor; [now exists c|exact H1]|cbn; congruence|].
  constructor; [now apply uchar_nonempty with c|exact H3].
Qed.
Lemma units_nth ps cs k p : Forall2 uchar ps cs -> nth_error ps k = Some p -> exists c, nth_error cs k = Some c /\ uchar p c.
Proof. intros H. revert k. induction H as [|g c ps cs Hg H IH]; intros [|k] E; try discriminate; [injection E as <-; now exists c|now apply IH]. Qed.
Lemma cp_pos_at ps cs k : Forall2 uchar ps cs -> Fits (concat ps) -> (k <= length cs)%nat -> get_codepoint_pos (concat ps) (Z.of_nat k) = Ok (offset_of ps k).
Proof.
  intros H2 HF Hk. destruct (units_codepoints ps cs H2) as (HC & HL & HN).
  pose proof (nonempty_length ps HN) as L. assert (N.of_nat (length (concat ps)) < 0x8000000000000000) as HF2 by (exact HF).
  rewrite get_codepoint_pos_codepoints by (auto; unfold cp_ok; lia). now rewrite position_at by lia.
Qed.
Lemma units_cut ps cs k : Forall2 uchar ps cs -> Text (concat (firstn k ps)) (firstn k cs) /\ Text (concat (skipn k ps)) (skipn k cs).
Proof.
  intros H. revert k. induction H as [|g c ps cs Hg H IH]; intros [|k]; cbn [firstn skipn concat].
  - split; constructor.
  - split; constructor.
  - split; [constructor|]. apply (Text_cons g c); [exact Hg|]. exact (proj2 (IH 0%nat)).
  - destruct (IH k) as [I1 I2]. split; [now apply (Text_cons g c)|exact I2].
Qed.
Lemma units_join (k : nat) (ps : list str) : concat ps = concat (firstn k ps) ++ concat (skipn k ps).
Proof. now rewrite <- concat_app, firstn_skipn. Qed.
Lemma fits_front u v : Fits (u ++ v) -> Fits u.
Proof. unfold Fits, size. rewrite app_length. lia. Qed.
Lemma count_text u us : Text u us -> Fits u -> count_codepoints u = Ok (N.of_nat (length us)).
Proof. intros HU HF. destruct (units_of u us HU) as (a & <- & HA). destruct (units_codepoints a us HA) as (HC & <- & _). now apply codepoints_count. Qed.
Lemma p_c149_codepoints : forall s cs, Text s cs -> Fits s ->
  (forall k, (k <= length cs)%nat -> exists u v, s = u ++ v /\ Text u (firstn k cs) /\ Text v (skipn k cs) /\
     get_codepoint_pos s (Z.of_nat k) = Ok (size u) /\ count_codepoints u = Ok (N.of_nat k)) /\
  (forall u v us, s = u ++ v -> Text u us -> (length us <= length cs)%nat /\ count_codepoints u = Ok (N.of_nat (length us)) /\ get_codepoint_pos s (Z.of_nat (length us)) = Ok (size u)).
Proof.
  intros s cs HT HF. split.
  - intros k Hk. destruct (units_of s cs HT) as (ps & <- & H2). destruct (units_cut ps cs k H2) as [T1 T2].
    exists (concat (firstn k ps)), (concat (skipn k ps)). split; [apply units_join|]. split; [exact T1|]. split; [exact T2|]. split; [now apply (cp_pos_at ps cs k)|].
    assert (Fits (concat (firstn k ps))) as F1. { rewrite (units_join k) in HF. now apply fits_front in HF. }
    pose proof (count_text _ _ T1 F1) as E. rewrite firstn_length_le in E by exact Hk. exact E.
  - intros u v us -> HU. destruct (Text_app_inv _ _ _ _ HU HT) as (vs & -> & HV). rewrite app_length. split; [lia|].
    split; [apply count_text; [exact HU|now apply fits_front in HF]|]. destruct (units_of u us HU) as (a & <- & HA). destruct (units_of v vs HV) as (r & <- & HR).
    rewrite <- concat_app in *. rewrite (cp_pos_at (a ++ r) (us ++ vs)); [|now apply Forall2_app|exact HF|rewrite app_length; lia].
    destruct (units_codepoints a us HA) as (_ & <- & _). f_equal. rewrite <- position_at by (unfold str in *; rewrite app_length; lia). apply position_len.
Qed.
Lemma p_c149_order : forall s cs k l, Text s cs -> Fits s -> (k < l <= length cs)%nat ->
  exists p q, get_codepoint_pos s (Z.of_nat k) = Ok p /\ get_codepoint_pos s (Z.of_nat l) = Ok q /\ p < q <= size s.
Proof.
  intros s cs k l HT HF H. destruct (units_of s cs HT) as (ps & <- & H2). destruct (units_codepoints ps cs H2) as (HC & HL & HN).
  exists (offset_of ps k), (offset_of ps l). split; [apply (cp_pos_at ps cs); auto; lia|]. split; [apply (cp_pos_at ps cs); auto; lia|].
  split; [apply offset_mono; auto; lia|]. rewrite <- offset_end. apply offset_le; auto; lia.
Qed.
Lemma p_c149_inside : forall s cs i, Text s cs -> Fits s -> i < size s -> exists k, (forall l q m d, get_codepoint s (Z.of_nat l) = Ok (Sub q m, d) -> q <= i < q + m -> l = k) /\
  exists p n c, get_codepoint s (Z.of_nat k) = Ok (Sub p n, c) /\ p <= i < p + n /\ nth_error cs k = Some c /\
    get_codepoint_pos s (Z.of_nat k) = Ok p /\ get_codepoint_pos s (Z.of_nat (S k)) = Ok (p + n).
Proof.
  intros s cs i HT HF Hi. destruct (units_of s cs HT) as (ps & <- & H2). destruct (units_codepoints ps cs H2) as (HC & HL & HN).
  destruct (offset_inside ps i HN Hi) as (k & p & Ek & Hk). destruct (units_nth ps cs k p H2 Ek) as (c & Ec & Hc). exists k.
  assert (forall l q d, nth_error ps l = Some q -> uchar q d -> get_codepoint (concat ps) (Z.of_nat l) = Ok (Sub (offset_of ps l) (size q), d)) as G.
  { intros l q d El Hq. destruct (p_c25 ps (Z.of_nat l) (or_introl HC)) as (G & _). rewrite Nat2Z.id in G. apply G; auto; lia. }
  pose proof (nonempty_length ps HN) as L. assert (N.of_nat (length (concat ps)) < 0x8000000000000000) as HF2 by (exact HF).
  assert (k < length ps)%nat as Lk by (apply nth_error_Some; unfold str in *; congruence). split.
  - intros l q m d El Hl. destruct (nth_error ps l) as [r|] eqn:Er.
    + destruct (units_nth ps cs l r H2 Er) as (e & _ & He). rewrite (G l r e Er He) in El. injection El as <- <- <-. now apply (offset_inside_fun ps i l r k p).
    + apply nth_error_None in Er. destruct (p_c25 ps (Z.of_nat l) (or_introl HC)) as (_ & _ & X & _).
      rewrite X in El by (unfold str in *; lia). injection El as <- <- _. lia.
  - exists (offset_of ps k), (size p), c. split; [now apply G|]. split; [exact Hk|]. split; [exact Ec|].
    rewrite !get_codepoint_pos_codepoints by (auto; unfold cp_ok, str in *; lia). rewrite !position_at by (unfold str in *; lia). split; [reflexivity|]. f_equal. now apply offset_step.
Qed.

(** Characters *)
Lemma text_empty cs : Text [] cs -> cs = [].
Proof. intros H. exact (Text_fun _ _ _ H Text_nil). Qed.
Lemma chars_nonempty ps : Chars ps -> Forall (fun p => p <> []) ps.
Proof. intros [H _]. eapply Forall_impl; [|exact H]. intros p Hp ->. apply one_char_length in Hp. cbn in Hp. lia. Qed.
Lemma char_pos_at ps k : Chars ps -> Fits (concat ps) -> (k <= length ps)%nat -> get_char_pos (concat ps) (Z.of_nat k) = Ok (offset_of ps k).
Proof. intros HC HF Hk. rewrite get_char_pos_spec by auto. now rewrite position_at. Qed.
Lemma p_c149_chars_order : forall s cs n k l, Text s cs -> Fits s -> count_chars s = Ok n -> k < l <= n ->
  exists p q, get_char_pos s (Z.of_N k) = Ok p /\ get_char_pos s (Z.of_N l) = Ok q /\ p < q <= size s.
Proof.
  intros s cs n k l HT HF E H. destruct (Chars_exist s cs HT) as (ps & HC & <-). rewrite count_chars_spec in E by assumption. injection E as <-.
  exists (offset_of ps (N.to_nat k)), (offset_of ps (N.to_nat l)). rewrite <- !N_nat_Z, !char_pos_at by (auto; lia). split; [reflexivity|]. split; [reflexivity|].
  pose proof (chars_nonempty ps HC) as HN. split; [apply offset_mono; auto; lia|]. rewrite <- offset_end. apply offset_le; auto; lia.
Qed.
Lemma p_c149_chars : forall s cs n, Text s cs -> Fits s -> count_chars s = Ok n ->
  (forall k, k <= n -> exists j u v, s = u ++ v /\ get_char_pos s (Z.of_N k) = Ok (size u) /\ count_chars u = Ok k /\
     Text u (firstn j cs) /\ Text v (skipn j cs) /\ (N.to_nat k <= j <= length cs)%nat /\ get_codepoint_pos s (Z.of_nat j) = Ok (size u)) /\
  (forall j, (j <= length cs)%nat -> ((exists k, k <= n /\ get_char_pos s (Z.of_N k) = get_codepoint_pos s (Z.of_nat j)) <->
     j = 0%nat \/ j = length cs \/ exists c, nth_error cs j = Some c /\ combining c = false)).
Proof.
  intros s cs n HT HF E. destruct (Chars_exist s cs HT) as (ps & HC & <-). rewrite count_chars_spec in E by assumption. injection E as <-.
  destruct (p_c149_codepoints _ cs HT HF) as [KP KU].
  assert (forall k, (k <= length ps)%nat -> exists j, (k <= j <= length cs)%nat /\ Text (concat (firstn k ps)) (firstn j cs) /\ Text (concat (skipn k ps)) (skipn j cs) /\
    get_codepoint_pos (concat ps) (Z.of_nat j) = Ok (offset_of ps k) /\ count_chars (concat (firstn k ps)) = Ok (N.of_nat k)) as K.
  { intros k Hk. destruct (Chars_Text _ (Chars_firstn ps k HC)) as (us & HU). destruct (KU _ _ us (units_join k ps) HU) as (L1 & L2 & L3).
    exists (length us). pose proof HT as HT'. rewrite (units_join k) in HT'. destruct (Text_app_inv _ _ _ _ HU HT') as (vs & -> & HV).
    assert (Fits (concat (firstn k ps))) as F1. { rewrite (units_join k) in HF. now apply fits_front in HF. }
    assert (count_chars (concat (firstn k ps)) = Ok (N.of_nat k)) as CC.
    { rewrite count_chars_spec by (auto using Chars_firstn). f_equal. f_equal. now apply firstn_length_le. }
    destruct (p_c95_counts _ _ HU F1) as (a & b & E1 & E2 & L & _). rewrite CC in E1. injection E1 as <-. rewrite L2 in E2. injection E2 as <-.
    split; [lia|]. rewrite firstn_app, Nat.sub_diag, firstn_all, skipn_app, Nat.sub_diag, skipn_all. cbn [firstn skipn app]. rewrite app_nil_r.
    split; [exact HU|]. split; [exact HV|]. split; [exact L3|exact CC]. }
  split.
  - intros k Hk. destruct (K (N.to_nat k)) as (j & Hj & H1 & H2 & H3 & H4); [lia|]. exists j, (concat (firstn (N.to_nat k) ps)), (concat (skipn (N.to_nat k) ps)).
    split; [apply units_join|]. rewrite <- N_nat_Z. split; [apply char_pos_at; auto; lia|]. rewrite N2Nat.id in H4. auto.
  - intros j Hj. split.
    + intros (k & Hk & Ek). rewrite <- N_nat_Z, char_pos_at in Ek by (auto; lia). destruct (K (N.to_nat k)) as (i & Hi & H1 & H2 & H3 & _); [lia|].
      assert (i = j) as ->.
      { destruct (Nat.lt_trichotomy i j) as [L|[L|L]]; [|exact L|].
        - destruct (p_c149_order _ cs i j HT HF ltac:(lia)) as (p & q & P & Q & O). rewrite H3 in P. injection P as <-. rewrite <- Ek in Q. injection Q as <-. lia.
        - destruct (p_c149_order _ cs j i HT HF ltac:(lia)) as (p & q & P & Q & O). rewrite H3 in Q. injection Q as <-. rewrite <- Ek in P. injection P as <-. lia. }
      destruct (Nat.eq_dec j 0) as [->|J0]; [now left|]. right. destruct (Nat.eq_dec j (length cs)) as [->|JL]; [now left|]. right.
      assert (N.to_nat k <> 0%nat) as K0. { intros K0. rewrite K0 in H1. cbn [firstn concat] in H1. apply text_empty in H1.
        apply (f_equal (@length N)) in H1. rewrite firstn_length_le in H1 by exact Hj. cbn in H1. lia. }
      destruct (nth_error ps (N.to_nat k)) as [p|] eqn:Ep.
      2:{ apply nth_error_None in Ep. rewrite skipn_all2 in H2 by exact Ep. apply text_empty in H2.
          apply (f_equal (@length N)) in H2. rewrite skipn_length in H2. cbn in H2. lia. }
      assert (starts_unmarked is_mark p) as (g & c & t & -> & Hg & Hc).
      { destruct HC as [_ HC]. rewrite Forall_forall in HC. apply HC. destruct ps as [|q ps]; [now destruct (N.to_nat k)|]. destruct (N.to_nat k) as [|k']; [congruence|].
        cbn [tl]. cbn in Ep. now apply nth_error_In in Ep. }
      apply nth_error_split in Ep. destruct Ep as (a & b & -> & La). rewrite <- La in H2. rewrite skipn_app, Nat.sub_diag, skipn_all in H2. cbn [skipn app concat] in H2.
      rewrite <- app_assoc in H2. apply Text_app_inv with (s := g) (cs := [c]) in H2; [|now apply Text_one]. destruct H2 as (ds & E2 & _).
      exists c. split; [|rewrite <- mark_combining; [exact Hc|now apply uchar_bound in Hg]].
      rewrite <- (firstn_skipn j cs), nth_error_app2; rewrite firstn_length_le by exact Hj; [|lia]. rewrite Nat.sub_diag, E2. reflexivity.
    + intros HJ. destruct (KP j Hj) as (u & v & Es & HU & HV & HP & _). destruct (Chars_exist u _ HU) as (a & HA & Ea). destruct (Chars_exist v _ HV) as (r & HR & Er).
      assert (Chars (a ++ r)) as HAR.
      { destruct HJ as [->|HJ].
        - cbn in HU. inversion HU. subst u. destruct a as [|x a]; [exact HR|]. pose proof (chars_nonempty _ HA) as NA. inversion NA; subst.
          destruct x; [congruence|discriminate].
        - apply (Chars_app a r v HA HR Er). destruct HJ as [->|(c & Ec & Hc)].
          + rewrite skipn_all in HV. inversion HV. now left.
          + right. apply nth_error_split in Ec. destruct Ec as (x & y & -> & <-). rewrite skipn_app, Nat.sub_diag, skipn_all in HV. exists c, y. now split. }
      assert (a ++ r = ps) as <- by (apply Chars_unique; auto; rewrite concat_app, Ea, Er; congruence).
      exists (N.of_nat (length a)). split; [rewrite app_length; lia|]. rewrite HP, nat_N_Z, char_pos_at; [|exact HC|exact HF|rewrite app_length; lia].
      f_equal. rewrite <- position_at by (rewrite app_length; lia). rewrite position_len. now rewrite Ea.
Qed.
Lemma p_c149_chars_inside : forall s cs i, Text s cs -> Fits s -> i < size s -> exists k, (forall l q m, get_char_range s (Z.of_nat l) = Ok (Sub q m) -> q <= i < q + m -> l = k) /\
  exists p n, get_char_range s (Z.of_nat k) = Ok (Sub p n) /\ p <= i < p + n /\ get_char_pos s (Z.of_nat k) = Ok p /\ get_char_pos s (Z.of_nat (S k)) = Ok (p + n).
Proof.
  intros s cs i HT HF Hi. destruct (Chars_exist s cs HT) as (ps & HC & <-). pose proof (chars_nonempty ps HC) as HN.
  destruct (offset_inside ps i HN Hi) as (k & p & Ek & Hk). exists k.
  assert (forall l q, nth_error ps l = Some q -> get_char_range (concat ps) (Z.of_nat l) = Ok (Sub (offset_of ps l) (size q))) as G.
  { intros l q El. destruct (get_char_range_spec ps (Z.of_nat l) HC HF) as (G & _). rewrite Nat2Z.id in G. apply G; auto; lia. }
  assert (k < length ps)%nat as Lk by (apply nth_error_Some; unfold str in *; congruence). split.
  - intros l q m El Hl. destruct (nth_error ps l) as [r|] eqn:Er.
    + rewrite (G l r Er) in El. injection El as <- <-. now apply (offset_inside_fun ps i l r k p).
    + apply nth_error_None in Er. destruct (get_char_range_spec ps (Z.of_nat l) HC HF) as (_ & _ & X & _).
      rewrite X in El by (unfold str in *; lia). injection El as <- <-. lia.
  - exists (offset_of ps k), (size p). split; [now apply G|]. split; [exact Hk|].
    rewrite !char_pos_at by (auto; unfold str in *; lia). split; [reflexivity|]. f_equal. now apply offset_step.
Qed.
