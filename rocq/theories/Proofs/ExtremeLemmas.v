(** C90, C91: special and extreme values of counts, indices and offsets. *)
From Verif Require Import Base Spec.Utf8Spec Spec.Strings Spec.Safety
  Model.Decode Model.Encode Model.Subrange Model.Search Model.Split Model.CharClass Model.ConvertCase Model.Chars Model.CodepointSet Model.CaseInsensitive
  Model.Escape Model.Unescape
  Proofs.Utf8Lemmas Proofs.DecodeLemmas Proofs.EncodeLemmas Proofs.CodepointLemmas Proofs.SearchLemmas Proofs.EscapeScan Proofs.ReplaceLemmas Proofs.ReplaceCpLemmas Proofs.CiReplaceLemmas Proofs.SafeLemmas Proofs.SafeLemmas2 Proofs.SafeLemmas3 Proofs.SafeLemmas4 Proofs.SafeProps.
From Coq Require Import ZifyBool ZifyNat ZifyN.

Lemma begin_beyond s o : size s < o -> begin_plus s o = UB.
Proof. intros H. unfold begin_plus. now replace (o <=? size s) with false by lia. Qed.
Lemma defined_not_UB {A} (m : outcome A) : defined m -> m <> UB.
Proof. intros [[a ->]|[e ->]]; discriminate. Qed.

Lemma p_c91_offset s p f after o : Fits s ->
  (find_first s p o = UB <-> size s < o) /\
  (find_first_where s f o = UB <-> size s < o) /\
  (In 0 after -> (find_first_newline after s o = UB <-> size s < o)) /\
  (get_next_char_range s o = UB <-> size s < o) /\
  (find_first_escapable_char s o = UB <-> size s < o) /\
  (size s < o -> find_first_escaped_char s o = UB /\ get_prev_char_range s o = UB) /\
  (forall g c t, p = g ++ t -> uchar g c -> (ci_find_first s p o = UB <-> size s < o)).
Proof.
  intros HF.
  assert (L : forall (P Q : Prop), (o <= size s -> ~ P) -> (size s < o -> P) -> (P <-> size s < o)).
  { intros P Q H1 H2. split; [|exact H2]. intros HP. destruct (N.lt_ge_cases (size s) o) as [H|H]; [exact H|]. exfalso. now apply (H1 H). }
  split; [|split; [|split; [|split; [|split]]]].
  - apply L; [exact True| |].
    + intros Ho. apply defined_not_UB. apply (p_c80_search s p f after o HF Ho).
    + intros Ho. unfold find_first. now rewrite begin_beyond.
  - apply L; [exact True| |].
    + intros Ho. apply defined_not_UB. apply (p_c80_search s p f after o HF Ho).
    + intros Ho. unfold find_first_where. now rewrite begin_beyond.
  - intros HZ. apply L; [exact True| |].
    + intros Ho. apply defined_not_UB. now apply (p_c80_search s p f after o HF Ho).
    + intros Ho. unfold find_first_newline. destruct (zero_view NEWLINES after HZ) as [l ->]. cbn [bind].
      unfold find_first_of, find_first_where. now rewrite begin_beyond.
  - apply L; [exact True| |].
    + intros Ho. apply defined_not_UB. apply (p_c80_chars s o 0 HF Ho). lia.
    + intros Ho. unfold get_next_char_range. now rewrite begin_beyond.
  - apply L; [exact True| |].
    + intros Ho. unfold find_first_escapable_char, begin_plus. replace (o <=? size s) with true by lia. cbn [bind].
      match goal with |- context [if ?b then _ else _] => destruct b end; discriminate.
    + intros Ho. unfold find_first_escapable_char. now rewrite begin_beyond.
  - split.
    + intros Ho. unfold find_first_escaped_char, get_prev_char_range. rewrite begin_beyond by exact Ho. split; reflexivity.
    + intros g c t -> Hg. apply L; [exact True| |].
      * intros Ho. apply defined_not_UB. apply (p_c80_ignoring_case s (g ++ t) o Ho).
      * intros Ho. unfold ci_find_first. change (safe_decode_next (g ++ t) 0) with (safe_decode_next ([] ++ g ++ t) (length (@nil byte))).
        rewrite (safe_decode_next_uchar [] g c t Hg). cbn [bind]. now rewrite begin_beyond.
Qed.

Lemma pos_min s : get_codepoint_pos s PTRDIFF_MIN = UB.
Proof. reflexivity. Qed.
Lemma capped_min s : get_capped_codepoint_pos s PTRDIFF_MIN = UB.
Proof. reflexivity. Qed.
Lemma p_c91_min (s t from to : str) (a b : N) (i : Z) :
  get_codepoint_pos s PTRDIFF_MIN = UB /\ insert_codepoint s PTRDIFF_MIN a = UB /\ insert_codepoints s PTRDIFF_MIN t = UB /\
  replace s from to PTRDIFF_MIN = UB /\ (a <= 0x10FFFF -> b <= 0x10FFFF -> replace_codepoint s a b PTRDIFF_MIN = UB) /\
  ((0 <= i)%Z -> get_codepoint_substring s PTRDIFF_MIN i = UB /\ replace_codepoints s PTRDIFF_MIN i t = UB).
Proof.
  repeat match goal with |- _ /\ _ => split end; try reflexivity.
  - intros Ha Hb. unfold replace_codepoint. destruct (encode_utf8_buf a 4) as [f fs] eqn:Ef, (encode_utf8_buf b 4) as [g gs] eqn:Eg.
    destruct (encode_buf_ok a Ha) as (f' & n & E1 & _ & Hn), (encode_buf_ok b Hb) as (g' & n' & E2 & _ & Hn').
    rewrite Ef in E1. rewrite Eg in E2. assert (fs = n) as -> by congruence. assert (gs = n') as -> by congruence.
    rewrite (proj2 (N.eqb_neq n 0) Hn), (proj2 (N.eqb_neq n' 0) Hn'). reflexivity.
  - intros Hi. assert (E : get_codepoint_substring_range s PTRDIFF_MIN i = UB).
    { unfold get_codepoint_substring_range.
      assert (E1 : (i <? PTRDIFF_MIN)%Z = false) by (unfold PTRDIFF_MIN; lia). assert (E2 : (i <? 0)%Z = false) by lia.
      change ((0 <=? PTRDIFF_MIN)%Z) with false. change ((PTRDIFF_MIN <? 0)%Z) with true.
      rewrite ?E1, ?E2. cbn [andb]. rewrite ?andb_false_r, ?capped_min, ?E2. reflexivity. }
    unfold get_codepoint_substring, replace_codepoints. rewrite E. split; reflexivity.
Qed.

Lemma p_c91_accepts (s t from to : str) (c : N) (p : Z) : Fits s -> ~ long_run s -> ~ long_run from ->
  defined (get_codepoint s p) /\ defined (get_char_pos s p) /\ defined (get_char_range s p) /\
  defined (insert_char s p c) /\ defined (insert_chars s p t) /\ defined (ci_replace s from to p).
Proof.
  intros HF HL HL'.
  assert (K : forall A (Q : A -> Prop) m, runs (long_run s) Q m -> defined m) by (intros A Q m H; destruct (runs_defined_or _ _ _ H); [contradiction|assumption]).
  split; [eapply K, get_codepoint_runs|]. split; [eapply K, (get_char_pos_runs s p HF)|]. split; [eapply K, (get_char_range_runs s p HF)|].
  split; [eapply K, (insert_char_runs s p c HF)|]. split; [eapply K, (insert_chars_runs s p t HF)|].
  destruct (runs_defined_or _ _ _ (ci_replace_runs s from to p HF)) as [[?|?]|?]; [contradiction|contradiction|assumption].
Qed.
(** C90 *)
Lemma p_c90_zero (s from to : str) (a b : N) : a <= 0x10FFFF -> b <= 0x10FFFF ->
  replace s from to 0 = Ok s /\ ci_replace s from to 0 = Ok s /\ replace_codepoint s a b 0 = Ok s.
Proof.
  intros Ha Hb. split; [apply replace_front_zero|]. split; [apply p_c51_zero|]. unfold replace_codepoint.
  destruct (encode_buf_ok a Ha) as (f & n & -> & _ & Hn), (encode_buf_ok b Hb) as (g & n' & -> & _ & Hn').
  rewrite (proj2 (N.eqb_neq n 0) Hn), (proj2 (N.eqb_neq n' 0) Hn'). apply replace_front_zero.
Qed.

(** Backwards an offset beyond the end means the end. *)
Lemma p_c91_backward (s p : str) (f : N -> bool) (after : list N) (o : N) : size s <= o ->
  find_last s p o = find_last s p (size s) /\ find_last_where s f o = find_last_where s f (size s) /\
  find_last_newline after s o = find_last_newline after s (size s) /\ ci_find_last s p o = ci_find_last s p (size s).
Proof.
  intros H. unfold find_last_newline, find_last_of, find_last, find_last_where, ci_find_last.
  assert (N.min o (size s) = N.min (size s) (size s)) as -> by lia. auto.
Qed.

(** C91, exactly. *)
Lemma deref_no_throw {A} (l : list A) i e : deref l i <> Throw e.
Proof. unfold deref. destruct (nth_error l i); discriminate. Qed.
Lemma skip_next_loop_no_throw s : forall k n i e, skip_next_loop s k n i <> Throw e.
Proof.
  induction k as [|k IH]; intros n i e; cbn [skip_next_loop]; [discriminate|].
  pose proof (deref_no_throw s i) as HD. destruct (deref s i); cbn [bind]; try discriminate; [|intros _; now apply (HD e0)].
  destruct (_ =? _); [|discriminate]. destruct (n =? 0); [discriminate|apply IH].
Qed.
Lemma skip_next_no_throw s i e : skip_next s i <> Throw e.
Proof.
  unfold skip_next. destruct (Nat.eqb i (length s)); [discriminate|].
  pose proof (deref_no_throw s i) as HD. destruct (deref s i) as [b| | |]; cbn [bind]; try discriminate; [|intros _; now apply (HD e0)].
  destruct (_ =? 0); [discriminate|].
  match goal with |- context [skip_next_loop s ?k ?n ?j] => pose proof (skip_next_loop_no_throw s k n j) as HL; destruct (skip_next_loop s k n j) end;
    cbn [bind]; try discriminate. intros _. now apply (HL e0).
Qed.
Lemma skip_next_n_no_throw s e : forall fuel p i, skip_next_n fuel s p i <> Throw e.
Proof.
  induction fuel as [|fuel IH]; intros p i; cbn [skip_next_n]; [discriminate|]. destruct (0 <? p)%Z; [|discriminate].
  pose proof (skip_next_no_throw s i) as HS. destruct (skip_next s i) as [[j|]| | |]; cbn [bind]; try discriminate; [apply IH|].
  intros _. now apply (HS e0).
Qed.
Lemma capped_nonneg_ok s p : (0 <= p <= PTRDIFF_MAX)%Z -> exists n, get_capped_codepoint_pos s p = Ok n /\ n <= size s.
Proof.
  intros Hp. pose proof (capped_cp_runs False s p ltac:(unfold PTRDIFF_MIN; lia)) as H.
  destruct (get_capped_codepoint_pos s p) as [n|e| |] eqn:E; cbn [runs] in H; try contradiction; [now exists n|exfalso].
  revert E. unfold get_capped_codepoint_pos, get_codepoint_pos.
  replace (signed (Z.abs p)) with (Ok (Z.abs p)).
  2:{ unfold signed. replace (is_ptrdiff (Z.abs p)) with true; [reflexivity|]. unfold is_ptrdiff, PTRDIFF_MIN, PTRDIFF_MAX in *. symmetry. apply andb_true_iff. lia. }
  cbn [bind]. destruct (_ <? _)%Z; [cbn [bind]; destruct (negb _); discriminate|].
  replace (0 <=? p)%Z with true by (symmetry; lia).
  pose proof (skip_next_n_no_throw s) as HN. destruct (skip_next_n _ s p 0) as [[q i]| | |] eqn:E; cbn [bind]; try discriminate.
  - destruct (q =? 0)%Z; cbn [bind]; destruct (negb _); discriminate.
  - intros _. now apply (HN e0 (S (length s)) p 0%nat).
Qed.

Definition bad_range (i j : Z) : Prop := ((i = PTRDIFF_MIN /\ (0 <= j \/ j = PTRDIFF_MIN)) \/ (j = PTRDIFF_MIN /\ 0 <= i))%Z.

Lemma bad_range_dec i j : bad_range i j \/ ~ bad_range i j.
Proof. unfold bad_range. lia. Qed.

Lemma cp_range_bad s i j : Fits s -> (i <= PTRDIFF_MAX)%Z -> (j <= PTRDIFF_MAX)%Z -> bad_range i j ->
  get_codepoint_substring_range s i j = UB.
Proof.
  intros HF Hi Hj [(-> & [H| ->])|(-> & H)].
  - unfold get_codepoint_substring_range.
    assert (E1 : (j <? PTRDIFF_MIN)%Z = false) by (unfold PTRDIFF_MIN; lia). assert (E2 : (j <? 0)%Z = false) by lia.
    change ((0 <=? PTRDIFF_MIN)%Z) with false. change ((PTRDIFF_MIN <? 0)%Z) with true.
    rewrite ?E1, ?E2. cbn [andb]. rewrite ?andb_false_r, ?capped_min, ?E2. reflexivity.
  - reflexivity.
  - unfold get_codepoint_substring_range.
    assert (E1 : (PTRDIFF_MIN <? i)%Z = true) by (unfold PTRDIFF_MIN in *; lia). assert (E2 : (0 <=? i)%Z = true) by lia. assert (E3 : (i <? 0)%Z = false) by lia.
    change ((0 <=? PTRDIFF_MIN)%Z) with false. 
    rewrite E1, E2, E3. cbn [andb Bool.eqb].
    change ((0 <=? PTRDIFF_MIN)%Z) with false. change ((PTRDIFF_MIN <? 0)%Z) with true. cbn [andb].
    destruct (capped_nonneg_ok s i ltac:(lia)) as (n & -> & Hn). cbn [bind].
    unfold substr_from, substr. replace (size s <? n) with false by lia. reflexivity.
Qed.

Lemma cp_range_good s i j : Fits s -> (PTRDIFF_MIN <= i <= PTRDIFF_MAX)%Z -> (PTRDIFF_MIN <= j <= PTRDIFF_MAX)%Z -> ~ bad_range i j ->
  runs False (fun _ => True) (get_codepoint_substring_range s i j).
Proof.
  intros HF Hi Hj HB. unfold bad_range in HB.
  destruct (Z.eq_dec i PTRDIFF_MIN) as [->|Ni].
  - assert (PTRDIFF_MIN < j < 0)%Z as Hj' by lia. unfold get_codepoint_substring_range.
    change ((0 <=? PTRDIFF_MIN)%Z) with false. change ((PTRDIFF_MIN <? 0)%Z) with true.
    replace (j <? PTRDIFF_MIN)%Z with false by lia. cbn [andb]. cbv zeta. replace (j <? 0)%Z with true by lia. cbn iota.
    rb (capped_cp_runs False s j ltac:(lia)). intros e He. rb (substr_piece False s 0 e). intros t _.
    rb (signed_runs False (PTRDIFF_MIN - j) ltac:(idx)). intros d ->.
    rb (capped_cp_runs False t (PTRDIFF_MIN - j) ltac:(idx)). intros st Hst. exact I.
  - destruct (Z.eq_dec j PTRDIFF_MIN) as [->|Nj].
    + assert (E : get_codepoint_substring_range s i PTRDIFF_MIN = get_codepoint_substring_range s i i).
      { unfold get_codepoint_substring_range. replace (PTRDIFF_MIN <? i)%Z with true by lia.
        replace (i <? i)%Z with false by lia. replace (0 <=? i)%Z with false by lia. change ((0 <=? PTRDIFF_MIN)%Z) with false. reflexivity. }
      rewrite E. eapply runs_weaken; [apply (cp_range_runs False s i i HF); idx|auto|auto].
    + eapply runs_weaken; [apply (cp_range_runs False s i j HF); idx|auto|auto].
Qed.

Lemma p_c91_exactly (s t from to : str) (c a b : N) (i j : Z) : Fits s ->
  (PTRDIFF_MIN <= i <= PTRDIFF_MAX)%Z -> (PTRDIFF_MIN <= j <= PTRDIFF_MAX)%Z ->
  (get_codepoint_pos s i = UB <-> i = PTRDIFF_MIN) /\
  (insert_codepoint s i c = UB <-> i = PTRDIFF_MIN) /\
  (insert_codepoints s i t = UB <-> i = PTRDIFF_MIN) /\
  (replace s from to i = UB <-> i = PTRDIFF_MIN) /\
  (replace_codepoint s a b i = UB <-> i = PTRDIFF_MIN /\ a <= 0x10FFFF /\ b <= 0x10FFFF) /\
  (get_codepoint_substring s i j = UB <-> (i = PTRDIFF_MIN /\ (0 <= j \/ j = PTRDIFF_MIN)) \/ (j = PTRDIFF_MIN /\ 0 <= i))%Z /\
  (replace_codepoints s i j t = UB <-> (i = PTRDIFF_MIN /\ (0 <= j \/ j = PTRDIFF_MIN)) \/ (j = PTRDIFF_MIN /\ 0 <= i))%Z.
Proof.
  intros HF Hi Hj.
  assert (D : i <> PTRDIFF_MIN -> index i) by (intros; idx).
  destruct (p_c91_min s t from to a b 0) as (M1 & _ & M2 & M3 & M4 & _).
  destruct (p_c91_min s t from to c b 0) as (_ & M5 & _).
  assert (NU : forall A (m : outcome A), defined m -> m = UB -> False) by (intros A m [[x ->]|[x ->]]; discriminate).
  refine (conj _ (conj _ (conj _ (conj _ (conj _ (conj _ _)))))).
  - split; [|intros ->; exact M1]. intros H. destruct (Z.eq_dec i PTRDIFF_MIN) as [E|E]; [exact E|exfalso].
    destruct (p_c80_codepoints s t c i 0 HF (D E) ltac:(idx)) as (K & _). exact (NU _ _ K H).
  - split; [|intros ->; exact M5]. intros H. destruct (Z.eq_dec i PTRDIFF_MIN) as [E|E]; [exact E|exfalso].
    destruct (p_c80_codepoints s t c i 0 HF (D E) ltac:(idx)) as (_ & _ & _ & K & _). exact (NU _ _ K H).
  - split; [|intros ->; exact M2]. intros H. destruct (Z.eq_dec i PTRDIFF_MIN) as [E|E]; [exact E|exfalso].
    destruct (p_c80_codepoints s t c i 0 HF (D E) ltac:(idx)) as (_ & _ & _ & _ & K). exact (NU _ _ K H).
  - split; [|intros ->; exact M3]. intros H. destruct (Z.eq_dec i PTRDIFF_MIN) as [E|E]; [exact E|exfalso].
    destruct (p_c80_replace s from to a b i (D E)) as (K & _). exact (NU _ _ K H).
  - split; [|intros (-> & Ha & Hb); exact (M4 Ha Hb)]. intros H. split; [|].
    + destruct (Z.eq_dec i PTRDIFF_MIN) as [E|E]; [exact E|exfalso].
      destruct (p_c80_replace s from to a b i (D E)) as (_ & K). exact (NU _ _ K H).
    + revert H. destruct (N.le_gt_cases a 0x10FFFF) as [Ha|Ha], (N.le_gt_cases b 0x10FFFF) as [Hb|Hb]; [auto| | |];
        (rewrite replace_codepoint_bad; [discriminate|]); auto.
  - split; [|intros HB; unfold get_codepoint_substring; rewrite (cp_range_bad s i j HF) by (assumption || lia); reflexivity].
    intros H. destruct (bad_range_dec i j) as [HB|HB]; [exact HB|exfalso].
    assert (K : runs False (fun _ => True) (get_codepoint_substring s i j)).
    { unfold get_codepoint_substring. rb (cp_range_good s i j HF Hi Hj HB). intros r _. eapply runs_weaken; [apply (substr_piece False)|auto|auto]. }
    rewrite H in K. exact K.
  - split; [|intros HB; unfold replace_codepoints; rewrite (cp_range_bad s i j HF) by (assumption || lia); reflexivity].
    intros H. destruct (bad_range_dec i j) as [HB|HB]; [exact HB|exfalso].
    assert (K : runs False any (replace_codepoints s i j t)).
    { unfold replace_codepoints. rb (cp_range_good s i j HF Hi Hj HB). intros r _. apply replace_subrange_runs. }
    rewrite H in K. exact K.
Qed.

Lemma p_c90_splits : forall s sep chars after finder ign,
  split_sep s sep 0 ign = Ok [] /\ split_chars s chars 0 ign = Ok [] /\ split_lines after s 0 ign = Ok [] /\
  ci_split_sep s sep 0 ign = Ok [] /\ ci_split_chars s chars 0 ign = Ok [] /\ split_where s finder 0 ign = Ok [].
Proof. repeat split. Qed.

Lemma p_c91_sets (s : str) (chars : u32str) (set : cpset) (o : N) : Fits s ->
  (find_first_of s chars o = UB <-> size s < o) /\ (find_first_of_set s set o = UB <-> size s < o) /\
  (ci_find_first_of s chars o = UB <-> size s < o) /\ (ci_find_first_of_set s set o = UB <-> size s < o).
Proof. intros HF. repeat apply conj; try apply (p_c91_offset s [] _ [] o HF). Qed.
