(** No function misbehaves on malformed text. *)
From Verif Require Import Base Spec.Utf8Spec Spec.Strings Spec.Safety Model.Decode Model.Encode Model.Subrange Model.Search Model.Split
  Model.CharClass Model.ConvertCase Model.CodepointSet Model.Chars Model.CaseInsensitive
  Proofs.Utf8Lemmas Proofs.DecodeLemmas Proofs.SkipLemmas Proofs.EncodeLemmas Proofs.CodepointLemmas Proofs.Utf8Props Proofs.SearchLemmas.

Lemma runs_bind {A B} U (Q : A -> Prop) (R : B -> Prop) m k : runs U Q m -> (forall a, Q a -> runs U R (k a)) -> runs U R (bind m k).
Proof. destruct m; cbn; intros H K; auto. Qed.
Lemma runs_weaken {A} (U U' : Prop) (Q Q' : A -> Prop) m : runs U Q m -> (U -> U') -> (forall a, Q a -> Q' a) -> runs U' Q' m.
Proof. destruct m; cbn; auto. Qed.
Lemma runs_pure {A} U (Q : A -> Prop) m : runs False Q m -> runs U Q m.
Proof. destruct m; cbn; tauto. Qed.

Lemma runs_deref {A} U (s : list A) i : (i < length s)%nat -> runs U (fun b => nth_error s i = Some b) (deref s i).
Proof. intros H. destruct (deref_lt s i H) as (a & -> & E). exact E. Qed.
Lemma runs_begin U s o : o <= size s -> runs U (fun i => i = N.to_nat o /\ (i <= length s)%nat) (begin_plus s o).
Proof. intros H. unfold begin_plus. replace (o <=? size s) with true by (symmetry; now apply N.leb_le). cbn. unfold size in H. lia. Qed.
Lemma runs_substr U s p n : runs U (fun t => (length t <= length s)%nat) (substr s p n).
Proof. unfold substr. destruct (size s <? p); cbn; [exact I|]. rewrite firstn_length, skipn_length. lia. Qed.

(** The decoders *)
Lemma at_pos {A} (s : list A) i : (i <= length s)%nat -> exists u v, s = u ++ v /\ length u = i.
Proof. intros H. exists (firstn i s), (skipn i s). rewrite firstn_skipn, firstn_length. split; [reflexivity|lia]. Qed.

Lemma decode_next_runs U s i : (i <= length s)%nat ->
  runs U (fun p => (snd p <= length s)%nat /\ (fst p <> INVALID_CHAR -> (i < snd p)%nat) /\ (fst p = INVALID_CHAR -> snd p = i)) (decode_next s i).
Proof.
  intros H. destruct (at_pos s i H) as (pre & r & -> & <-).
  destruct (seq_dec r) as [->|[HM|(g & c & t & Hg & ->)]].
  - rewrite app_nil_r. rewrite decode_next_end. cbn. split; [lia|]. split; congruence.
  - rewrite (decode_next_malformed _ _ HM). cbn. split; [rewrite app_length; lia|]. split; congruence.
  - rewrite (decode_next_uchar _ g c t Hg). cbn.
    apply uchar_nonempty in Hg as Hn. pose proof (INVALID_not_uchar g c Hg) as HI. apply N.eqb_neq in HI. rewrite !app_length.
    destruct g; [contradiction|]. cbn [length] in *. split; [lia|]. split; [lia|congruence].
Qed.

Lemma decode_prev_runs s i : (i <= length s)%nat ->
  runs (long_run s) (fun p => (snd p <= i)%nat /\ (fst p <> INVALID_CHAR -> (snd p < i)%nat)) (decode_prev s i).
Proof.
  intros H. destruct (at_pos s i H) as (r & post & -> & <-).
  destruct (seq_dec_end r) as [->|[HM|(t & g & c & Hg & ->)]].
  - cbn. split; [lia|]. congruence.
  - destruct (long_cont_tail_dec r) as [HL|HL].
    + rewrite (decode_prev_long post r HL). destruct HL as (y & t & -> & Hy & L & F). destruct (exists_last Hy) as (y' & b & ->). exists y', b, t, post. rewrite <- !app_assoc. auto.
    + rewrite (decode_prev_malformed r post HM HL). cbn. split; [lia|]. congruence.
  - rewrite <- app_assoc, app_length. rewrite (decode_prev_uchar t g c post Hg). cbn. apply uchar_nonempty in Hg. destruct g; [contradiction|cbn; lia].
Qed.

Lemma safe_next_runs U s i : (i <= length s)%nat ->
  runs U (fun r => match r with None => i = length s | Some (_, j) => (i < j <= length s)%nat end) (safe_decode_next s i).
Proof.
  intros H. unfold safe_decode_next. destruct (Nat.eqb_spec i (length s)) as [E|E]; [exact E|].
  eapply runs_bind; [apply (decode_next_runs U s i H)|cbv beta]. intros [c j] (H1 & H2 & H3). cbn in *. destruct (N.eqb_spec c INVALID_CHAR) as [E2|E2]; cbn; [exact I|]. auto.
Qed.
Lemma safe_prev_runs s i : (i <= length s)%nat ->
  runs (long_run s) (fun r => match r with None => i = 0%nat | Some (_, j) => (j < i)%nat end) (safe_decode_prev s i).
Proof.
  intros H. unfold safe_decode_prev. destruct (Nat.eqb_spec i 0) as [E|E]; [exact E|].
  eapply runs_bind; [apply (decode_prev_runs s i H)|cbv beta]. intros [c j] (H1 & H2). cbn in *. destruct (N.eqb_spec c INVALID_CHAR) as [E2|E2]; cbn; [exact I|]. auto.
Qed.

Lemma skip_next_loop_runs U s : forall k n i, (i + k = length s)%nat -> runs U (fun j => (i <= j <= length s)%nat) (skip_next_loop s k n i).
Proof.
  induction k as [|k IH]; intros n i H; cbn [skip_next_loop]; [cbn; lia|].
  eapply runs_bind; [apply (runs_deref U s i); lia|cbv beta]. intros b _. destruct (N.land (u8 b) 0xC0 =? 0x80); [|cbn; lia].
  destruct (n =? 0); [cbn; lia|]. eapply runs_weaken; [apply IH; lia|auto|cbv beta; intros j Hj; lia].
Qed.
Lemma skip_next_runs U s i : (i <= length s)%nat ->
  runs U (fun r => match r with None => i = length s | Some j => (i < j <= length s)%nat end) (skip_next s i).
Proof.
  intros H. unfold skip_next. destruct (Nat.eqb_spec i (length s)) as [E|E]; [exact E|].
  eapply runs_bind; [apply (runs_deref U s i); lia|cbv beta]. intros b _. destruct (N.land (u8 b) 0x80 =? 0); [cbn; lia|].
  eapply runs_bind; [apply skip_next_loop_runs; lia|cbv beta]. intros j Hj. cbn. lia.
Qed.
Lemma skip_prev_loop_runs U s : forall i n, (i <= length s)%nat -> (0 < i)%nat ->
  runs U (fun r => match r with inl j => (j < i)%nat | inr (m, j) => (j < i)%nat /\ m <= n + N.of_nat (i - 1 - j) end) (skip_prev_loop s i n).
Proof.
  induction i as [|i IH]; intros n H H0; [lia|]. cbn [skip_prev_loop].
  eapply runs_bind; [apply (runs_deref U s i); lia|cbv beta]. intros b _. destruct (N.land (u8 b) 0xC0 =? 0x80).
  - destruct i as [|i']; [cbn; lia|]. eapply runs_weaken; [apply IH; lia|auto|cbv beta]. intros [j|[m j]] Hj; [lia|].
    assert ((n + 1) mod W32 <= n + 1) by (apply N.mod_le; unfold W32; lia). destruct Hj as [Hj1 Hj2]. split; [lia|].
    lia.
  - cbn. split; lia.
Qed.
Lemma skip_prev_runs U s i : (i <= length s)%nat ->
  runs U (fun r => match r with None => i = 0%nat | Some j => (j < i)%nat end) (skip_prev s i).
Proof.
  intros H. unfold skip_prev. destruct i as [|i']; [reflexivity|]. set (i := S i') in *.
  eapply runs_bind; [apply (skip_prev_loop_runs U s i 0); lia|cbv beta]. intros [j|[n j]] Hj; [exact Hj|]. destruct Hj as [Hj Hn].
  eapply runs_bind; [apply (runs_deref U s j); lia|cbv beta]. intros b _. cbv zeta.
  match goal with |- context [add32 n 1 <=? ?m] => set (mm := m) end.
  destruct (N.leb_spec (add32 n 1) mm) as [L|L]; cbn; [exact Hj|].
  assert (add32 n 1 <= n + 1) by (unfold add32; apply N.mod_le; unfold W32; lia). lia.
Qed.

Definition any {A} (_ : A) : Prop := True.

(** Forward loops *)
Lemma contains_runs U s c : runs U any (contains s c).
Proof.
  unfold contains. cut (forall fuel i, (i <= length s)%nat -> (length s - i < fuel)%nat -> runs U any (contains_loop fuel s c i)); [intros H; apply H; lia|].
  induction fuel as [|fuel IH]; intros i Hi Hf; [lia|]. cbn [contains_loop].
  eapply runs_bind; [apply (safe_next_runs U s i Hi)|cbv beta]. intros [[d j]|] Hj; [|exact I]. destruct (d =? c); [exact I|]. apply IH; lia.
Qed.
Lemma count_codepoints_runs U s : runs U any (count_codepoints s).
Proof.
  unfold count_codepoints. cut (forall fuel i n, (i <= length s)%nat -> (length s - i < fuel)%nat -> runs U any (count_codepoints_loop fuel s i n)); [intros H; apply H; lia|].
  induction fuel as [|fuel IH]; intros i n Hi Hf; [lia|]. cbn [count_codepoints_loop].
  eapply runs_bind; [apply (skip_next_runs U s i Hi)|cbv beta]. intros [j|] Hj; [|exact I]. apply IH; lia.
Qed.
Lemma is_valid_runs U s : runs U any (is_valid_utf8 s).
Proof.
  unfold is_valid_utf8. cut (forall fuel i, (i <= length s)%nat -> (length s - i < fuel)%nat -> runs U any (is_valid_utf8_loop fuel s i)); [intros H; apply H; lia|].
  induction fuel as [|fuel IH]; intros i Hi Hf; [lia|]. cbn [is_valid_utf8_loop]. destruct (Nat.eqb_spec i (length s)); [exact I|].
  eapply runs_bind; [apply (decode_next_runs U s i Hi)|cbv beta]. intros [c j] (H1 & H2 & H3). cbn [fst snd] in *.
  destruct (N.eqb_spec c INVALID_CHAR) as [E|E]; [exact I|]. specialize (H2 E). apply IH; lia.
Qed.
Lemma to_utf32_runs U s : runs U any (to_utf32 s).
Proof.
  unfold to_utf32. cut (forall fuel i r, (i <= length s)%nat -> (length s - i < fuel)%nat -> runs U any (to_utf32_loop fuel s i r)); [intros H; apply H; lia|].
  induction fuel as [|fuel IH]; intros i r Hi Hf; [lia|]. cbn [to_utf32_loop].
  eapply runs_bind; [apply (safe_next_runs U s i Hi)|cbv beta]. intros [[d j]|] Hj; [|exact I]. apply IH; lia.
Qed.
Lemma append_runs U s c : runs U any (append s c).
Proof.
  destruct (N.le_gt_cases c 0x10FFFF) as [L|L].
  - destruct (append_ok s c L) as (g & _ & _ & ->). exact I.
  - now rewrite (proj2 (append_bad s c L)).
Qed.
Lemma to_lower_runs U s : runs U any (to_lower_str s).
Proof.
  unfold to_lower_str. cut (forall fuel i r, (i <= length s)%nat -> (length s - i < fuel)%nat -> runs U any (to_lower_loop fuel s i r)); [intros H; apply H; lia|].
  induction fuel as [|fuel IH]; intros i r Hi Hf; [lia|]. cbn [to_lower_loop].
  eapply runs_bind; [apply (safe_next_runs U s i Hi)|cbv beta]. intros [[d j]|] Hj; [|exact I]. eapply runs_bind; [apply append_runs|]. intros r' _. apply IH; lia.
Qed.
Lemma to_upper_runs U s : runs U any (to_upper_str s).
Proof.
  unfold to_upper_str. cut (forall fuel i r, (i <= length s)%nat -> (length s - i < fuel)%nat -> runs U any (to_upper_loop fuel s i r)); [intros H; apply H; lia|].
  induction fuel as [|fuel IH]; intros i r Hi Hf; [lia|]. cbn [to_upper_loop].
  eapply runs_bind; [apply (safe_next_runs U s i Hi)|cbv beta]. intros [[d j]|] Hj; [|exact I]. destruct (negb (d =? SHARP_S)); [|apply IH; lia].
  eapply runs_bind; [apply append_runs|]. intros r' _. apply IH; lia.
Qed.
Lemma to_title_runs U s : runs U any (to_title_str s).
Proof.
  unfold to_title_str. cut (forall fuel i b r, (i <= length s)%nat -> (length s - i < fuel)%nat -> runs U any (to_title_loop fuel s i b r)); [intros H; apply H; lia|].
  induction fuel as [|fuel IH]; intros i b r Hi Hf; [lia|]. cbn [to_title_loop].
  eapply runs_bind; [apply (safe_next_runs U s i Hi)|cbv beta]. intros [[d j]|] Hj; [|exact I].
  destruct (negb (is_letter d)); [|destruct b; [|destruct (negb (d =? SHARP_S)); [|apply IH; lia]]]; (eapply runs_bind; [apply append_runs|]; intros r' _; apply IH; lia).
Qed.

Lemma inside_its s a b : (a <= b)%nat -> (b <= length s)%nat -> inside s (sub_its 0 a b).
Proof. intros H1 H2. right. unfold sub_its, size. cbn [sub_offset sub_length]. lia. Qed.
Lemma inside_none s o : inside s (Sub o 0).
Proof. now left. Qed.

Lemma find_first_where_runs U s p o : o <= size s ->
  runs U (fun r => inside s (fst r) /\ (sub_length (fst r) <> 0 -> o <= sub_offset (fst r))) (find_first_where s p o).
Proof.
  intros Ho. unfold find_first_where. eapply runs_bind; [apply (runs_begin U s o Ho)|cbv beta]. intros b (-> & Hb). assert (N.of_nat (N.to_nat o) = o) as Eo by lia. revert Hb Eo. generalize (N.to_nat o). intros b Hb Eo.
  cut (forall fuel i, (b <= i)%nat -> (i <= length s)%nat -> (length s - i < fuel)%nat ->
    runs U (fun r => inside s (fst r) /\ (sub_length (fst r) <> 0 -> o <= sub_offset (fst r))) (find_first_where_loop fuel s p i i)); [intros H; apply H; lia|].
  induction fuel as [|fuel IH]; intros i H1 Hi Hf; [lia|]. cbn [find_first_where_loop].
  eapply runs_bind; [apply (safe_next_runs U s i Hi)|cbv beta]. intros [[d j]|] Hj; [|cbn; split; [apply inside_none|now intros]].
  destruct (p d); [|apply IH; lia]. cbn [runs fst]. split; [apply inside_its; lia|]. intros _. unfold sub_its. cbn [sub_offset]. lia.
Qed.
Lemma find_last_where_runs s p o :
  runs (long_run s) (fun r => inside s (fst r) /\ (sub_length (fst r) <> 0 -> sub_offset (fst r) + sub_length (fst r) <= o)) (find_last_where s p o).
Proof.
  unfold find_last_where. cbv zeta. eapply runs_bind; [apply (runs_begin _ s (N.min o (size s))); lia|cbv beta]. intros b (-> & Hb).
  set (b := N.to_nat (N.min o (size s))) in *. assert (N.of_nat b <= o) as Eo by lia.
  cut (forall fuel i, (i <= b)%nat -> (i <= length s)%nat -> (i < fuel)%nat ->
    runs (long_run s) (fun r => inside s (fst r) /\ (sub_length (fst r) <> 0 -> sub_offset (fst r) + sub_length (fst r) <= o)) (find_last_where_loop fuel s p i i)); [intros H; apply H; lia|].
  clearbody b. induction fuel as [|fuel IH]; intros i H1 Hi Hf; [lia|]. cbn [find_last_where_loop].
  eapply runs_bind; [apply (safe_prev_runs s i Hi)|cbv beta]. intros [[d j]|] Hj; [|cbn; split; [apply inside_none|now intros]].
  destruct (p d); [|apply IH; lia]. cbn [runs fst]. split; [apply inside_its; lia|]. intros _. unfold sub_its. cbn [sub_offset sub_length]. lia.
Qed.
