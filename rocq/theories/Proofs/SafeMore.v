(** More proofs for C80: non-negative indices and escape sequences. *)
From Verif Require Import Base Spec.Utf8Spec Spec.Strings Spec.Safety Spec.Escape Model.Decode Model.Encode Model.Subrange Model.Search Model.Split
  Model.CharClass Model.ConvertCase Model.CodepointSet Model.Chars Model.CaseInsensitive Model.Escape Model.Unescape
  Proofs.Utf8Lemmas Proofs.SearchLemmas Proofs.SafeLemmas Proofs.SafeLemmas2 Proofs.SafeLemmas3 Proofs.SafeLemmas4 Proofs.SafeProps
  Proofs.EscapeScan Proofs.EscapeLemmas Proofs.UnescapeNext.

Lemma get_codepoint_nonneg s p : (0 <= p)%Z -> runs False (fun r => inside s (fst r)) (get_codepoint s p).
Proof.
  intros Hp. unfold get_codepoint. replace (0 <=? p)%Z with true by lia.
  rb (skip_next_n_runs False s (S (length s)) p 0%nat ltac:(lia) ltac:(lia)). intros [q i] Hi. cbn [snd] in Hi.
  rb (safe_next_runs False s i Hi). intros [[c j]|] Hj; [|apply inside_none]. cbn [runs fst]. apply inside_its; lia.
Qed.
Lemma capped_char_nonneg s p : Fits s -> (0 <= p)%Z -> runs False (fun n => n <= size s) (get_capped_char_pos s p).
Proof.
  intros HF Hp. unfold get_capped_char_pos. rb (char_pos_nonneg s p HF Hp). intros n [->|Hn].
  - cbn. destruct (0 <? p)%Z; lia.
  - destruct (negb (n =? npos)); cbn [runs]; [exact Hn|]. destruct (0 <? p)%Z; lia.
Qed.
Lemma ch_range_nonneg s a b : Fits s -> index a -> index b -> (0 <= a)%Z -> (0 <= b)%Z ->
  runs False (fun r => sub_offset r <= size s) (get_char_substring_range s a b).
Proof.
  intros HF Ha Hb Pa Pb. unfold get_char_substring_range.
  cbv zeta. match goal with |- context [if ?c then a else b] => set (b' := if c then a else b) end. assert (Hb' : index b' /\ (a <= b')%Z).
  { unfold b'. destruct (Z.ltb_spec b a); cbn [andb]; [|split; [exact Hb|lia]].
    replace (0 <=? a)%Z with true by lia. replace (0 <=? b)%Z with true by lia. cbn [Bool.eqb]. split; [exact Ha|lia]. }
  clearbody b'. destruct Hb' as (Hb' & Hn). replace (0 <=? a)%Z with true by lia. replace (0 <=? b')%Z with true by lia. cbn [andb].
  rb (capped_char_nonneg s a HF Pa). intros st Hst. rb (substr_from_piece False s st HF). intros t (Ht & Lt). rb (signed_runs False (b' - a) ltac:(idx)). intros d ->.
  rb (capped_char_nonneg t (b' - a)%Z (piece_fits _ _ Ht HF) ltac:(lia)). intros e He. exact Hst.
Qed.
Lemma p_c80_indices : forall (s t : str) (c : N) (p q : Z), Fits s -> (0 <= p <= PTRDIFF_MAX)%Z -> (0 <= q <= PTRDIFF_MAX)%Z ->
  defined (get_codepoint s p) /\
  defined (get_char_substring s p q) /\
  defined (replace_chars s p q t) /\
  defined (insert_char s p c) /\
  defined (insert_chars s p t).
Proof.
  intros s t c p q HF Hp Hq. assert (Ip : index p) by idx. assert (Iq : index q) by idx. repeat split.
  - eapply runs_defined. apply get_codepoint_nonneg. lia.
  - apply (runs_defined any). unfold get_char_substring. rb (ch_range_nonneg s p q HF Ip Iq ltac:(lia) ltac:(lia)). intros r _. apply substr_any.
  - apply (runs_defined any). unfold replace_chars. rb (ch_range_nonneg s p q HF Ip Iq ltac:(lia) ltac:(lia)). intros r _. apply replace_subrange_runs.
  - apply (runs_defined any). unfold insert_char. rb (char_pos_nonneg s p HF ltac:(lia)). intros r _. apply insert_cp_runs.
  - apply (runs_defined any). unfold insert_chars. rb (char_pos_nonneg s p HF ltac:(lia)). intros r _. apply insert_str_runs.
Qed.

Lemma split_at (s : str) (o : N) : o <= size s -> exists pre w, s = pre ++ w /\ size pre = o.
Proof.
  intros H. exists (firstn (N.to_nat o) s), (skipn (N.to_nat o) s). split; [now rewrite firstn_skipn|].
  unfold size in *. rewrite firstn_length. lia.
Qed.
Lemma before_first (P : byte -> Prop) (dec : forall b, P b \/ ~ P b) (w : str) :
  exists lits q, w = lits ++ q /\ Forall (fun b => ~ P b) lits /\ (q = [] \/ exists b q', q = b :: q' /\ P b).
Proof.
  induction w as [|b w IH].
  - exists [], []. repeat split; auto.
  - destruct (dec b) as [Hb|Hb].
    + exists [], (b :: w). repeat split; auto. right. eauto.
    + destruct IH as (l & q & -> & Hl & Hq). exists (b :: l), q. repeat split; auto.
Qed.
Lemma p_c80_escape : forall (s : str) (o : N), Fits s -> o <= size s ->
  defined (escape_json s) /\
  defined (has_escapable_chars s) /\
  defined (find_first_escapable_char s o) /\
  defined (has_escaped_chars s) /\
  defined (find_first_escaped_char s o) /\
  (forall r s' b, unescape_next s = ((r, s'), b) -> defined r).
Proof.
  intros s o HF Ho. split; [|split; [|split; [|split; [|split]]]].
  - destruct (p_c57 s HF) as (e & E & _). left. eauto.
  - destruct (p_c59_has s HF) as (b & E & _). left. eauto.
  - destruct (split_at s o Ho) as (pre & w & -> & <-).
    destruct (before_first must_escape) with (w := w) as (l & q & -> & Hl & Hq).
    { intros b. destruct (p_c59_has [b]) as (x & _ & H & _); [vm_compute; reflexivity|]. destruct x.
      - left. destruct H as [H _]. specialize (H eq_refl). inversion H; subst; [assumption|]. match goal with H : Exists _ [] |- _ => inversion H end.
      - right. intros M. destruct H as [_ H]. discriminate H. now left. }
    destruct (p_c59_find pre l q Hl) as [H1 H2]. destruct Hq as [->|(b & q' & -> & Hb)].
    + left. eexists. now apply H1.
    + left. eexists. now apply (H2 b q').
  - destruct (before_first (eq x5c)) with (w := s) as (l & q & E & Hl & Hq); [intros b; destruct (Byte.byte_eq_dec x5c b); auto|].
    assert (NI : ~ In x5c l) by (intros H; rewrite Forall_forall in Hl; now apply (Hl x5c H)).
    destruct (p_c74_has s HF) as (H1 & H2 & H3). destruct Hq as [->|(b & q' & -> & <-)].
    + rewrite app_nil_r in E. subst. left. exists false. now apply H1.
    + destruct (escape_cases q') as [B|[[n B]|[n B]]].
      * right. exists YstringException. apply H2. eauto 6.
      * left. exists true. apply H3. eauto 8.
      * left. exists true. apply H3. eauto 8.
  - destruct (split_at s o Ho) as (pre & w & -> & <-).
    destruct (before_first (eq x5c)) with (w := w) as (l & q & -> & Hl & Hq); [intros b; destruct (Byte.byte_eq_dec x5c b); auto|].
    assert (NI : ~ In x5c l) by (intros H; rewrite Forall_forall in Hl; now apply (Hl x5c H)).
    destruct (p_c74 pre l q HF NI) as (H1 & H2 & H3 & H4). destruct Hq as [->|(b & q' & -> & <-)].
    + left. eexists. now apply H1.
    + destruct (escape_cases q') as [B|[[n B]|[n B]]].
      * right. eexists. now apply H3.
      * left. eexists. now apply (H2 n B).
      * left. eexists. now apply (H4 n B).
  - intros r s' b E. destruct (p_c63_view s r s' b E) as [(c & -> & _)|[(-> & _)|(-> & _)]]; [left|left|right]; eauto.
Qed.
