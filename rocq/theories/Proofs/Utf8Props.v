(** Property lemmas C01-C12 in the form stated in Properties/Utf8.v. *)
From Verif Require Import Base Spec.Utf8Spec Spec.Strings Spec.Boundaries Model.Decode Model.Encode Model.Subrange Model.Search
  Proofs.Utf8Lemmas Proofs.DecodeLemmas Proofs.SkipLemmas Proofs.EncodeLemmas Proofs.CodepointLemmas.
From Coq Require Import ZifyBool ZifyNat ZifyN.
Ltac Zify.zify_post_hook ::= Z.div_mod_to_equations.

Lemma p_c01 cs : Forall (fun c => c <= 0x10FFFF) cs -> to_utf32 (from_utf32 cs) = Ok cs.
Proof. intros H. apply to_utf32_text. now apply from_utf32_Text. Qed.

Lemma p_c02_char c :
  (c <= 0x10FFFF -> encodes (from_utf32_char c) c) /\ (0x10FFFF < c -> from_utf32_char c = []).
Proof.
  split; intros H; [now apply encode_encodes|]. unfold from_utf32_char. now rewrite encode_large.
Qed.

Lemma p_c03 pre rest :
  (forall g c post, rest = g ++ post -> uchar g c ->
     decode_next (pre ++ rest) (length pre) = Ok (c, length (pre ++ g))) /\
  ((forall g c post, uchar g c -> rest <> g ++ post) ->
     decode_next (pre ++ rest) (length pre) = Ok (INVALID_CHAR, length pre)).
Proof.
  split.
  - intros g c post -> Hg. rewrite app_length. now apply decode_next_uchar.
  - intros H. destruct rest as [|b rest].
    + rewrite app_nil_r. apply decode_next_end.
    + apply decode_next_malformed. split; [discriminate|]. intros; eauto.
Qed.

Lemma long_cont_tail_dec s : long_cont_tail s \/ ~ long_cont_tail s.
Proof.
  destruct (Nat.ltb_spec (length s) 8) as [H|H].
  { right. intros (y & t & -> & Hy & Ht & _). rewrite app_length in H. destruct y; [congruence|cbn in H; lia]. }
  pose proof (firstn_skipn (length s - 7) s) as E.
  assert (Hl : length (skipn (length s - 7) s) = 7%nat) by (rewrite skipn_length; lia).
  destruct (Forall_dec cont (fun b => match bool_dec (contb b) true with left e => left (proj1 (contb_cont b) e)
                                      | right n => right (fun h => n (proj2 (contb_cont b) h)) end)
              (skipn (length s - 7) s)) as [F|F].
  - left. exists (firstn (length s - 7) s), (skipn (length s - 7) s).
    repeat split; auto. intros E0. apply (f_equal (@length byte)) in E0.
    rewrite firstn_length in E0. cbn in E0. lia.
  - right. intros (y & t & Es & Hy & Ht & Hc). apply F. rewrite Es.
    replace (length (y ++ t) - 7)%nat with (length y) by (rewrite app_length; lia).
    now rewrite skipn_length_app.
Qed.

Lemma p_c04 before post :
  ~ long_cont_tail before ->
  (forall pre g c, before = pre ++ g -> uchar g c ->
     decode_prev (before ++ post) (length before) = Ok (c, length pre)) /\
  ((forall pre g c, uchar g c -> before <> pre ++ g) ->
     decode_prev (before ++ post) (length before) = Ok (INVALID_CHAR, length before)).
Proof.
  intros HL. split.
  - intros pre g c -> Hg. rewrite app_length, <- app_assoc. now apply decode_prev_uchar.
  - intros H. destruct before as [|b before].
    + apply decode_prev_begin.
    + apply decode_prev_malformed; [|exact HL]. split; [discriminate|]. intros; eauto.
Qed.

Lemma p_c04_back s i c j : (i <= length s)%nat ->
  decode_next s i = Ok (c, j) -> c <> INVALID_CHAR -> decode_prev s j = Ok (c, i).
Proof.
  intros Hi H Hc. rewrite <- (firstn_skipn i s) in H |- *.
  assert (length (firstn i s) = i) as Hl by (rewrite firstn_length; lia).
  rewrite <- Hl in H at 3. rewrite <- Hl at 3.
  destruct (seq_dec (skipn i s)) as [E|[E|(g & d & t & Hg & E)]].
  - rewrite E, app_nil_r, decode_next_end in H. congruence.
  - rewrite decode_next_malformed in H by exact E. congruence.
  - rewrite E in H |- *. rewrite decode_next_uchar with (c := d) in H by exact Hg.
    injection H as <- <-. now apply decode_prev_uchar.
Qed.

Lemma p_c05 before post :
  decode_prev (before ++ post) (length before) = UB <-> long_cont_tail before.
Proof.
  split.
  - intros H. destruct (long_cont_tail_dec before) as [L|L]; [exact L|]. exfalso.
    destruct (seq_dec_end before) as [->|[E|(t & g & c & Hg & ->)]].
    + cbn in H. discriminate.
    + rewrite decode_prev_malformed in H by assumption. discriminate.
    + rewrite app_length, <- app_assoc in H. rewrite decode_prev_uchar with (c := c) in H by exact Hg. discriminate.
  - intros L. now apply decode_prev_long.
Qed.

Lemma p_c06 s :
  (forall cs, Text s cs -> is_valid_utf8 s = Ok true /\ to_utf32 s = Ok cs) /\
  ((forall cs, ~ Text s cs) -> is_valid_utf8 s = Ok false /\ to_utf32 s = Throw YstringException).
Proof.
  split.
  - intros cs H. split; [now apply is_valid_text with cs|now apply to_utf32_text].
  - intros H. destruct (not_Text_inv s H) as (u & cs & r & -> & HT & Hr).
    split; [now apply is_valid_malformed with cs|now apply to_utf32_malformed with cs].
Qed.

Lemma p_c07_refuted :
  (* an overlong form, an encoded surrogate, and a value above U+10FFFF *)
  Forall (fun s => is_valid_utf8 s = Ok true /\ ~ rfc3629_valid s)
    [ [xc0; x80]; [xed; xa0; x80]; [xf4; x90; x80; x80] ].
Proof.
  repeat constructor; try (vm_compute; reflexivity).
  - apply valid_not_rfc with [0].
    + change [xc0; x80] with ([xc0; x80] ++ []). constructor; [|constructor].
      change 0 with ((u8 xc0 - 0xC0) * 64 + (u8 x80 - 0x80)). constructor; unfold cont; cbn; lia.
    + left. vm_compute. discriminate.
  - apply valid_not_rfc with [0xD800].
    + change [xed; xa0; x80] with ([xed; xa0; x80] ++ []). constructor; [|constructor].
      change 0xD800 with ((u8 xed - 0xE0) * 4096 + (u8 xa0 - 0x80) * 64 + (u8 x80 - 0x80)).
      constructor; unfold cont; cbn; lia.
    + right. intros F. apply Forall_inv in F. destruct F as [_ F]. apply F. lia.
  - apply valid_not_rfc with [0x110000].
    + change [xf4; x90; x80; x80] with ([xf4; x90; x80; x80] ++ []). constructor; [|constructor].
      change 0x110000 with ((u8 xf4 - 0xF0) * 262144 + (u8 x90 - 0x80) * 4096 + (u8 x80 - 0x80) * 64 + (u8 x80 - 0x80)).
      constructor; unfold cont; cbn; lia.
    + right. intros F. apply Forall_inv in F. destruct F as [F _]. lia.
Qed.

Lemma p_c07_partial s :
  (rfc3629_valid s -> is_valid_utf8 s = Ok true) /\
  (rfc3629_valid s <-> exists cs, to_utf32 s = Ok cs /\ Forall scalar cs /\ from_utf32 cs = s).
Proof.
  split; [|apply rfc3629_check].
  intros H. destruct (rfc3629_Text s H) as [cs HT]. now apply is_valid_text with cs.
Qed.

Lemma p_c09_throw s e : count_codepoints s <> Throw e.
Proof.
  unfold count_codepoints. generalize (S (length s)) as fuel, 0%nat as it, 0 as n.
  induction fuel as [|fuel IH]; intros it n; cbn [count_codepoints_loop]; [discriminate|].
  assert (forall e, skip_next s it <> Throw e) as Hs.
  { intros e'. unfold skip_next. destruct (Nat.eqb it (length s)); [discriminate|].
    unfold deref. destruct (nth_error s it); [|discriminate]. cbn [bind]. cbv zeta.
    destruct (_ =? 0); [discriminate|].
    assert (forall k m jt e, skip_next_loop s k m jt <> Throw e) as Hl.
    { induction k as [|k IHk]; intros m jt e0; cbn [skip_next_loop]; [discriminate|].
      unfold deref. destruct (nth_error s jt); [|discriminate]. cbn [bind].
      destruct (_ =? 0x80); [|discriminate]. destruct (m =? 0); [discriminate|]. apply IHk. }
    match goal with |- bind ?x _ <> _ => destruct x eqn:E end; cbn [bind]; try discriminate.
    intros _. exact (Hl _ _ _ _ E). }
  destruct (skip_next s it) as [[it'|]|e'| |]; cbn [bind]; try discriminate; [apply IH|].
  destruct (Hs e'); reflexivity.
Qed.

Lemma p_c11_pop s :
  (pop_utf8_codepoint [] = Ok (None, []) /\ pop_last_utf8_codepoint [] = Ok (None, [])) /\
  (forall g c t, s = g ++ t -> uchar g c -> pop_utf8_codepoint s = Ok (Some c, t)) /\
  (forall t g c, s = t ++ g -> uchar g c -> pop_last_utf8_codepoint s = Ok (Some c, t)) /\
  (s <> [] -> (forall g c t, uchar g c -> s <> g ++ t) -> pop_utf8_codepoint s = Throw YstringException) /\
  (s <> [] -> (forall g c t, uchar g c -> s <> t ++ g) -> ~ long_cont_tail s ->
     pop_last_utf8_codepoint s = Throw YstringException).
Proof.
  repeat split.
  - intros g c t -> H. now apply pop_first_ok.
  - intros t g c -> H. now apply pop_last_ok.
  - intros H1 H2. apply pop_first_malformed. now split.
  - intros H1 H2 H3. apply pop_last_malformed; [now split|assumption].
Qed.

Lemma p_c11_pop_all s :
  (pop_utf8_codepoint [] = Ok (None, []) /\ pop_last_utf8_codepoint [] = Ok (None, [])) /\
  (forall g c t, s = g ++ t -> uchar g c -> pop_utf8_codepoint s = Ok (Some c, t)) /\
  (forall t g c, s = t ++ g -> uchar g c -> pop_last_utf8_codepoint s = Ok (Some c, t)) /\
  (s <> [] -> (forall g c t, uchar g c -> s <> g ++ t) -> pop_utf8_codepoint s = Throw YstringException) /\
  (s <> [] -> (forall g c t, uchar g c -> s <> t ++ g) -> ~ long_cont_tail s ->
     pop_last_utf8_codepoint s = Throw YstringException) /\
  (long_cont_tail s -> pop_last_utf8_codepoint s = UB).
Proof.
  destruct (p_c11_pop s) as (H1 & H2 & H3 & H4 & H5). repeat (split; [assumption|]).
  intros H. unfold pop_last_utf8_codepoint. rewrite <- (app_nil_r s) at 1. now rewrite safe_decode_prev_long.
Qed.

Lemma p_c11_remove s :
  (remove_utf8_codepoint [] = Ok (false, []) /\ remove_last_utf8_codepoint [] = Ok (false, [])) /\
  (forall g c t, s = g ++ t -> uchar g c -> remove_utf8_codepoint s = Ok (true, t)) /\
  (forall t g c, s = t ++ g -> uchar g c -> remove_last_utf8_codepoint s = Ok (true, t)).
Proof.
  repeat split.
  - intros g c t -> H. now apply remove_first_ok with c.
  - intros t g c -> H. now apply remove_last_ok with c.
Qed.

Lemma p_c12 u cs r c : Text u cs -> (r = [] \/ Malformed r) ->
  (In c cs -> contains (u ++ r) c = Ok true) /\
  (~ In c cs -> r = [] -> contains (u ++ r) c = Ok false) /\
  (~ In c cs -> r <> [] -> contains (u ++ r) c = Throw YstringException).
Proof.
  intros HT Hr. rewrite contains_spec with (cs := cs) by assumption.
  assert (In c cs <-> existsb (N.eqb c) cs = true) as Hin.
  { rewrite existsb_exists. split.
    - intros H. exists c. split; [exact H|apply N.eqb_refl].
    - intros (x & Hx & E). apply N.eqb_eq in E. now subst. }
  destruct (existsb (N.eqb c) cs) eqn:E.
  - repeat split; intros H; try reflexivity; destruct H; tauto.
  - repeat split; intros H.
    + apply Hin in H. discriminate.
    + now intros ->.
    + intros H2. destruct r; [congruence|reflexivity].
Qed.

Lemma p_not_text_ff cs : ~ Text [xff] cs.
Proof.
  intros H. pose proof (to_utf32_text _ _ H) as E. vm_compute in E. discriminate.
Qed.

Lemma p_c12_division : forall s, exists u cs r, s = u ++ r /\ Text u cs /\ (r = [] \/ Malformed r) /\
  forall u' cs' r', s = u' ++ r' -> Text u' cs' -> (r' = [] \/ Malformed r') -> u' = u /\ cs' = cs /\ r' = r.
Proof.
  intros s. destruct (text_prefix s) as (u & cs & r & -> & T & R). exists u, cs, r. split; [reflexivity|split; [exact T|split; [exact R|]]].
  intros u' cs' r' E T' R'. exact (text_prefix_unique u' cs' r' u cs r T' T R' R (eq_sym E)).
Qed.
