(** Replacing a slice by itself, in any string.  C103. *)
From Verif Require Import Base Spec.Utf8Spec Spec.Strings Spec.Safety Model.Decode Model.Encode Model.Subrange Model.Search Model.CharClass Model.Chars
  Proofs.Utf8Lemmas Proofs.SearchLemmas Proofs.SafeLemmas Proofs.SafeLemmas2 Proofs.SafeLemmas3 Proofs.SafeProps.

Definition in_text (s : str) (r : subrange) : Prop := sub_offset r + sub_length r <= size s.
Lemma cp_range_in s a b : Fits s -> index a -> index b -> ~ (a < 0 <= b)%Z -> runs False (in_text s) (get_codepoint_substring_range s a b).
Proof.
  intros HF Ha Hb NX. set (U := False). unfold get_codepoint_substring_range.
  cbv zeta. match goal with |- context [if ?c then a else b] => set (b' := if c then a else b) end.
  assert (Hb' : index b' /\ ((a < 0)%Z -> (b' < 0)%Z /\ (a <= b')%Z) /\ ((0 <= a)%Z -> (0 <= b')%Z -> (a <= b')%Z)).
  { unfold b'. destruct (Z.ltb_spec b a); cbn [andb]; [|split; [exact Hb|split; intros; lia]].
    destruct (Z.leb_spec 0 a), (Z.leb_spec 0 b); cbn [Bool.eqb]; (split; [assumption|split; intros; lia]). }
  clearbody b'. destruct Hb' as (Hb' & Hn & Hp). unfold in_text. destruct (Z.leb_spec 0 a); cbn [andb]; [destruct (Z.leb_spec 0 b'); cbn [andb]|].
  - rb (capped_cp_runs U s a Ha). intros st Hst. rb (substr_from_piece U s st HF). intros t (Ht & Lt). rb (signed_runs U (b' - a) ltac:(idx)). intros d ->.
    rb (capped_cp_runs U t (b' - a) ltac:(idx)). intros e He. cbn [runs sub_offset sub_length]. specialize (Lt Hst). lia.
  - replace ((a <? 0) && (b' <? 0))%Z with false by lia. replace (b' <? 0)%Z with true by lia.
    rb (capped_cp_runs U s a Ha). intros st Hst. rb (substr_from_piece U s st HF). intros t (Ht & Lt).
    rb (capped_cp_runs U t b' Hb'). intros e He. cbn [runs sub_offset sub_length]. specialize (Lt Hst). lia.
  - replace (a <? 0)%Z with true by lia. cbn [andb]. replace (b' <? 0)%Z with true by lia.
    rb (capped_cp_runs U s b' Hb'). intros e He. rb (substr_piece U s 0 e). intros t (Ht & Lt & Lt2). rb (signed_runs U (a - b') ltac:(idx)). intros d ->.
    rb (capped_cp_runs U t (a - b') ltac:(idx)). intros st Hst. cbn [runs sub_offset sub_length].
    rewrite sub64_eq by (try apply (fits_w64 s _ HF); lia). lia.
Qed.
Lemma ch_range_in s a b : Fits s -> index a -> index b -> ~ (b < 0 <= a)%Z -> runs (long_run s) (in_text s) (get_char_substring_range s a b).
Proof.
  intros HF Ha Hb NX. set (U := long_run s). unfold get_char_substring_range.
  cbv zeta. match goal with |- context [if ?c then a else b] => set (b' := if c then a else b) end.
  assert (Hb' : index b' /\ ((a < 0)%Z -> (b' < 0)%Z -> (a <= b')%Z) /\ ((0 <= a)%Z -> (0 <= b')%Z /\ (a <= b')%Z)).
  { unfold b'. destruct (Z.ltb_spec b a); cbn [andb]; [|split; [exact Hb|split; intros; lia]].
    destruct (Z.leb_spec 0 a), (Z.leb_spec 0 b); cbn [Bool.eqb]; (split; [assumption|split; intros; lia]). }
  assert (C : forall t p, piece t s -> runs U (fun n => n <= size t) (get_capped_char_pos t p)).
  { intros t p Ht. eapply runs_weaken; [apply (capped_char_runs t p (piece_fits _ _ Ht HF))|apply (piece_long _ _ Ht)|cbv beta; auto]. }
  pose proof (piece_refl s) as Hs. unfold in_text.
  clearbody b'. destruct Hb' as (Hb' & Hn & Hp). destruct (Z.leb_spec 0 a); cbn [andb].
  - replace (0 <=? b')%Z with true by lia. rb (C s a Hs). intros st Hst. rb (substr_from_piece U s st HF). intros t (Ht & Lt). rb (signed_runs U (b' - a) ltac:(idx)). intros d ->.
    rb (C t (b' - a)%Z Ht). intros e He. cbn [runs sub_offset sub_length]. specialize (Lt Hst). lia.
  - replace (a <? 0)%Z with true by lia. cbn [andb]. destruct (Z.ltb_spec b' 0).
    + rb (C s b' Hs). intros e He. rb (substr_piece U s 0 e). intros t (Ht & Lt & Lt2). rb (signed_runs U (a - b') ltac:(idx)). intros d ->.
      rb (C t (a - b')%Z Ht). intros st Hst. cbn [runs sub_offset sub_length]. rewrite sub64_eq by (try apply (fits_w64 s _ HF); lia). lia.
    + rb (C s a Hs). intros st Hst. rb (C s b' Hs). intros e He. cbn [runs sub_offset sub_length]. destruct (N.ltb_spec st e); [|lia].
      rewrite sub64_eq by (try apply (fits_w64 s _ HF); lia). lia.
Qed.
Lemma self_in_text s r g : Fits s -> in_text s r -> substr s (sub_offset r) (sub_length r) = Ok g -> replace_subrange s r g = Ok s.
Proof.
  intros HF H E. unfold in_text in H. unfold replace_subrange. rewrite (sub_end_eq s r HF H). unfold sub_start.
  destruct r as [o n]. cbn [sub_offset sub_length] in *. unfold substr_from. unfold substr in *.
  assert (SZ : size s < npos). { unfold Fits in HF. unfold npos, SIZE_MAX, W64 in *. lia. }
  replace (size s <? o) with false in E by lia. injection E as <-. rewrite N.sub_0_r.
  replace (size s <? 0) with false by lia. replace (size s <? o + n) with false by lia. cbn [bind].
  f_equal. rewrite (N.min_l o) by lia. rewrite (N.min_l n) by lia. rewrite (N.min_r npos) by lia. change (N.to_nat 0) with 0%nat. cbn [skipn].
  rewrite (firstn_all2 (skipn (N.to_nat (o + n)) s)) by (rewrite skipn_length; unfold size; lia).
  replace (N.to_nat (o + n)) with (N.to_nat n + N.to_nat o)%nat by lia. rewrite <- SearchLemmas.skipn_skipn. now rewrite !firstn_skipn.
Qed.
Lemma p_c103_any s i j g : Fits s -> index i -> index j -> ~ (i < 0 <= j)%Z ->
  get_codepoint_substring s i j = Ok g -> replace_codepoints s i j g = Ok s.
Proof.
  intros HF Hi Hj NX. unfold get_codepoint_substring, replace_codepoints. pose proof (cp_range_in s i j HF Hi Hj NX) as H.
  destruct (get_codepoint_substring_range s i j) as [r| | |]; cbn [bind runs] in *; try discriminate. now apply self_in_text.
Qed.
Lemma p_c103_any_chars s i j g : Fits s -> index i -> index j -> ~ (j < 0 <= i)%Z ->
  get_char_substring s i j = Ok g -> replace_chars s i j g = Ok s.
Proof.
  intros HF Hi Hj NX. unfold get_char_substring, replace_chars. pose proof (ch_range_in s i j HF Hi Hj NX) as H.
  destruct (get_char_substring_range s i j) as [r| | |]; cbn [bind runs] in *; try discriminate. now apply self_in_text.
Qed.
