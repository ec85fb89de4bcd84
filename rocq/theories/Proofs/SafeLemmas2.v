(** No function misbehaves on malformed text (continued): searching, positions. *)
From Verif Require Import Base Spec.Utf8Spec Spec.Strings Spec.Safety Model.Decode Model.Encode Model.Subrange Model.Search Model.Split
  Model.CharClass Model.ConvertCase Model.CodepointSet Model.Chars Model.CaseInsensitive
  Proofs.Utf8Lemmas Proofs.DecodeLemmas Proofs.SkipLemmas Proofs.EncodeLemmas Proofs.CodepointLemmas Proofs.Utf8Props Proofs.SearchLemmas Proofs.SafeLemmas.

Ltac rb l := eapply runs_bind; [apply l|cbv beta].

Lemma sub_end_eq s r : Fits s -> sub_offset r + sub_length r <= size s -> sub_end r = sub_offset r + sub_length r.
Proof. unfold Fits, sub_end, add64, W64, PTRDIFF_MAX. intros HF H. apply N.mod_small. lia. Qed.
Lemma sub64_eq a b : b <= a -> a < W64 -> sub64 a b = a - b.
Proof.
  unfold sub64, W64. intros H L. rewrite (N.mod_small b) by lia.
  replace (a + (0x10000000000000000 - b)) with ((a - b) + 1 * 0x10000000000000000) by lia. rewrite N.mod_add by lia. apply N.mod_small. lia.
Qed.

Definition first_inside (s : str) (o : N) (r : subrange) : Prop := inside s r /\ (sub_length r <> 0 -> o <= sub_offset r).
Definition last_inside (s : str) (o : N) (r : subrange) : Prop := inside s r /\ (sub_length r <> 0 -> sub_offset r + sub_length r <= o).

Lemma find_first_runs U s p o : o <= size s -> runs U (first_inside s o) (find_first s p o).
Proof.
  intros Ho. destruct p as [|b p'].
  - unfold find_first. rb (runs_begin U s o Ho). intros i _. cbn [std_search size length]. destruct (Nat.eqb i (length s)); cbn; (split; [apply inside_none|now intros]).
  - set (p := b :: p') in *. assert (Hp : p <> []) by discriminate. clearbody p. assert (Hl : (N.to_nat o <= length s)%nat) by (unfold size in Ho; lia).
    destruct (find_first_spec s p (N.to_nat o) Hp Hl) as [(i & H1 & (u & v & Es & L) & _ & E)|(_ & E)];
    rewrite N2Nat.id in E; rewrite E; cbn [runs].
    + rewrite Es in *. split; [right|intros _]; unfold size; cbn [sub_offset sub_length]; rewrite ?app_length; lia.
    + split; [apply inside_none|now intros].
Qed.
Lemma find_last_runs U s p o : runs U (last_inside s o) (find_last s p o).
Proof.
  destruct p as [|b p'].
  - unfold find_last. cbv zeta. rb (runs_begin U s (N.min o (size s)) ltac:(lia)). intros i _. cbn. split; [apply inside_none|now intros].
  - set (p := b :: p') in *. assert (Hp : p <> []) by discriminate. clearbody p. destruct (find_last_spec s p o Hp) as [(i & (u & v & Es & L) & W & _ & E)|(_ & E)]; rewrite E; cbn [runs].
    + rewrite Es in *. split; [right|intros _]; unfold size; cbn [sub_offset sub_length]; unfold size in W; rewrite ?app_length; lia.
    + split; [apply inside_none|now intros].
Qed.

Definition found_at (s : str) (o : nat) (r : subrange * N) : Prop :=
  r = (sub_at npos, INVALID_CHAR) \/ exists i j c, (o <= i)%nat /\ (i < j)%nat /\ (j <= length s)%nat /\ r = (sub_its 0 i j, c).
Definition found_before (s : str) (o : nat) (r : subrange * N) : Prop :=
  r = (sub_at npos, INVALID_CHAR) \/ exists i j c, (i < j)%nat /\ (j <= o)%nat /\ (j <= length s)%nat /\ r = (sub_its 0 i j, c).
Lemma ffw_runs U s p o : o <= size s -> runs U (found_at s (N.to_nat o)) (find_first_where s p o).
Proof.
  intros Ho. unfold find_first_where. eapply runs_bind; [apply (runs_begin U s o Ho)|cbv beta]. intros b (-> & Hb). revert Hb. generalize (N.to_nat o). intros b Hb.
  cut (forall fuel i, (b <= i)%nat -> (i <= length s)%nat -> (length s - i < fuel)%nat -> runs U (found_at s b) (find_first_where_loop fuel s p i i)); [intros H; apply H; lia|].
  induction fuel as [|fuel IH]; intros i H1 Hi Hf; [lia|]. cbn [find_first_where_loop].
  eapply runs_bind; [apply (safe_next_runs U s i Hi)|cbv beta]. intros [[d j]|] Hj; [|now left].
  destruct (p d); [|apply IH; lia]. right. exists i, j, d. repeat split; lia.
Qed.
Lemma flw_runs s p o : runs (long_run s) (found_before s (N.to_nat (N.min o (size s)))) (find_last_where s p o).
Proof.
  unfold find_last_where. cbv zeta. eapply runs_bind; [apply (runs_begin _ s (N.min o (size s))); lia|cbv beta]. intros b (-> & Hb). revert Hb. generalize (N.to_nat (N.min o (size s))). intros b Hb.
  cut (forall fuel i, (i <= b)%nat -> (i <= length s)%nat -> (i < fuel)%nat -> runs (long_run s) (found_before s b) (find_last_where_loop fuel s p i i)); [intros H; apply H; lia|].
  induction fuel as [|fuel IH]; intros i H1 Hi Hf; [lia|]. cbn [find_last_where_loop].
  eapply runs_bind; [apply (safe_prev_runs s i Hi)|cbv beta]. intros [[d j]|] Hj; [|now left].
  destruct (p d); [|apply IH; lia]. right. exists j, i, d. repeat split; lia.
Qed.
Lemma its_end s i j : Fits s -> (i <= j)%nat -> (j <= length s)%nat -> sub_end (sub_its 0 i j) = N.of_nat j.
Proof. intros HF H1 H2. rewrite (sub_end_eq s) by (auto; unfold size; cbn [sub_its sub_offset sub_length]; lia). cbn [sub_its sub_offset sub_length]. lia. Qed.

Lemma zero_view m after : In 0 after -> exists l, u32view_of_ptr (m ++ after) = Ok l.
Proof.
  intros H. assert (In 0 (m ++ after)) as H' by (apply in_or_app; now right). revert H'. generalize (m ++ after). clear.
  induction l as [|c l IH]; intros H; [destruct H|]. cbn [u32view_of_ptr]. destruct (N.eqb_spec c 0) as [E|E]; [now exists []|].
  destruct H as [H|H]; [congruence|]. destruct (IH H) as [v ->]. now exists (c :: v).
Qed.

Lemma find_first_newline_runs U after s o : In 0 after -> o <= size s -> Fits s -> runs U (first_inside s o) (find_first_newline after s o).
Proof.
  intros HZ Ho HF. unfold find_first_newline. destruct (zero_view NEWLINES after HZ) as [l ->]. cbn [bind]. unfold find_first_of.
  rb (ffw_runs U s (fun c => u32_contains l c) o Ho). intros [r c] [E|(i & j & d & H1 & H2 & H3 & E)].
  - replace r with (sub_at npos) by congruence. replace c with INVALID_CHAR by congruence. cbn. split; [apply inside_none|now intros].
  - replace r with (sub_its 0 i j) by congruence. assert (F : first_inside s o (sub_its 0 i j)) by (split; [apply inside_its; lia|intros _; unfold sub_its; cbn [sub_offset]; lia]).
    destruct (negb (c =? 0x0D)); [exact F|]. rewrite (its_end s i j) by (auto; lia). rb (runs_begin U s (N.of_nat j) ltac:(unfold size; lia)). intros k (-> & Hk). rewrite Nat2N.id in *.
    rb (safe_next_runs U s j Hk). intros [[ch j']|] Hj; [|exact F]. destruct (ch =? 0x0A); [|exact F]. cbn [runs].
    unfold sub_start. cbn [sub_its sub_offset]. rewrite Nat.sub_0_r. unfold Fits, size in HF. rewrite sub64_eq by (unfold W64 in *; unfold PTRDIFF_MAX in *; lia).
    split; [right|intros _]; unfold size; cbn [sub_offset sub_length]; lia.
Qed.
Lemma find_last_newline_runs after s o : In 0 after -> Fits s -> runs (long_run s) (last_inside s o) (find_last_newline after s o).
Proof.
  intros HZ HF. unfold find_last_newline. destruct (zero_view NEWLINES after HZ) as [l ->]. cbn [bind]. unfold find_last_of.
  rb (flw_runs s (fun c => u32_contains l c) o). intros [r c] [E|(i & j & d & H1 & H2 & H3 & E)].
  - replace r with (sub_at npos) by congruence. replace c with INVALID_CHAR by congruence. cbn. split; [apply inside_none|now intros].
  - replace r with (sub_its 0 i j) by congruence. assert (F : forall i', (i' <= j)%nat -> last_inside s o (sub_its 0 i' j)) by (intros i' Hi'; split; [apply inside_its; lia|intros _; unfold sub_its; cbn [sub_offset sub_length]; lia]).
    destruct (negb (c =? 0x0A)); [apply F; lia|]. unfold sub_start at 1. cbn [sub_its sub_offset]. rewrite Nat.sub_0_r.
    rb (runs_begin (long_run s) s (N.of_nat i) ltac:(unfold size; lia)). intros k (-> & Hk). rewrite Nat2N.id in *.
    rb (safe_prev_runs s i Hk). intros [[ch i']|] Hj; [|apply (F i); lia]. destruct (ch =? 0x0D); [|apply (F i); lia].
    rewrite (its_end s i j) by (auto; lia).
    rb (runs_begin (long_run s) s (N.of_nat j) ltac:(unfold size; lia)). intros k (-> & Hk2). rewrite Nat2N.id in *. cbn [runs]. apply F. lia.
Qed.

(** Code point positions *)
Lemma skip_next_n_runs U s : forall fuel p i, (i <= length s)%nat -> (length s - i < fuel)%nat ->
  runs U (fun r => (snd r <= length s)%nat) (skip_next_n fuel s p i).
Proof.
  induction fuel as [|fuel IH]; intros p i Hi Hf; [lia|]. cbn [skip_next_n]. destruct (0 <? p)%Z; [|exact Hi].
  rb (skip_next_runs U s i Hi). intros [j|] Hj; [|exact Hi]. apply IH; lia.
Qed.
Lemma skip_prev_n_runs U s l : forall fuel p i, (i <= length s)%nat -> (i < fuel)%nat ->
  runs U (fun r => (snd r <= i)%nat) (skip_prev_n fuel s l p i).
Proof.
  induction fuel as [|fuel IH]; intros p i Hi Hf; [lia|]. cbn [skip_prev_n]. destruct (p <? l)%Z; [|cbn; lia].
  rb (skip_prev_runs U s i Hi). intros [j|] Hj; [|cbn; lia]. eapply runs_weaken; [apply IH; lia|auto|cbv beta; intros a Ha; lia].
Qed.
Lemma get_codepoint_runs s p : runs (long_run s) (fun r => inside s (fst r)) (get_codepoint s p).
Proof.
  unfold get_codepoint. destruct (0 <=? p)%Z.
  - rb (skip_next_n_runs (long_run s) s (S (length s)) p 0%nat ltac:(lia) ltac:(lia)). intros [q i] Hi. cbn [snd] in Hi.
    rb (safe_next_runs (long_run s) s i Hi). intros [[c j]|] Hj; [|apply inside_none]. cbn [runs fst]. apply inside_its; lia.
  - rb (skip_prev_n_runs (long_run s) s (-1) (S (length s)) p (length s) ltac:(lia) ltac:(lia)). intros [q i] Hi. cbn [snd] in Hi.
    rb (safe_prev_runs s i Hi). intros [[c j]|] Hj; [|apply inside_none]. cbn [runs fst]. apply inside_its; lia.
Qed.
Definition pos_ok (s : str) (n : N) : Prop := n = npos \/ n <= size s.
(** [std::abs] of the most negative index is the only undefined case. *)
Lemma get_codepoint_pos_runs U s p : (PTRDIFF_MIN < p <= PTRDIFF_MAX)%Z -> runs U (pos_ok s) (get_codepoint_pos s p).
Proof.
  intros Hp. unfold get_codepoint_pos, signed. replace (is_ptrdiff (Z.abs p)) with true by (symmetry; unfold is_ptrdiff, PTRDIFF_MIN, PTRDIFF_MAX in *; apply andb_true_iff; split; lia). cbn [bind].
  destruct (Z.of_N (size s) <? Z.abs p)%Z; [now left|]. destruct (0 <=? p)%Z.
  - rb (skip_next_n_runs U s (S (length s)) p 0%nat ltac:(lia) ltac:(lia)). intros [q i] Hi. cbn [snd] in Hi. destruct (q =? 0)%Z; [right; unfold size; lia|now left].
  - rb (skip_prev_n_runs U s 0 (S (length s)) p (length s) ltac:(lia) ltac:(lia)). intros [q i] Hi. cbn [snd] in Hi. destruct (q =? 0)%Z; [right; unfold size; lia|now left].
Qed.
Lemma capped_cp_runs U s p : (PTRDIFF_MIN < p <= PTRDIFF_MAX)%Z -> runs U (fun n => n <= size s) (get_capped_codepoint_pos s p).
Proof.
  intros Hp. unfold get_capped_codepoint_pos. rb (get_codepoint_pos_runs U s p Hp). intros n [->|Hn].
  - cbn. destruct (0 <? p)%Z; lia.
  - destruct (negb (n =? npos)); cbn; [exact Hn|]. destruct (0 <? p)%Z; lia.
Qed.
