(** C113: the messages of exceptions. *)
From Coq Require Import String.
From Verif Require Import Base Model.Decode Model.Encode Model.Subrange Model.Search Model.Unescape Model.Print Model.Messages.
From Verif Require Import Spec.Utf8Spec Spec.Strings Spec.Escape Spec.Print Spec.Messages Spec.Boundaries Spec.Slices.
From Verif Require Import Proofs.Utf8Lemmas Proofs.DecodeLemmas Proofs.EncodeLemmas Proofs.CodepointLemmas Proofs.SearchLemmas Proofs.NumeralLemmas
  Proofs.PrintLemmas Proofs.EscapeScan Proofs.UnescapeLemmas Proofs.UnescapeStep Proofs.UnescapeLoop Proofs.UnescapeNext Proofs.Utf8Props
  Proofs.ReplaceCpLemmas Proofs.SliceLemmas Proofs.CharCross.
From Coq Require Import ZifyBool ZifyNat ZifyN.

(** ** Forgetting the message *)
Lemma erase_lift {A} (m : outcome A) : erase (mlift m) = m.
Proof. now destruct m. Qed.
Lemma erase_bind {A B} (m : mout A) (k : A -> mout B) : erase (mbind m k) = bind (erase m) (fun a => erase (k a)).
Proof. now destruct m. Qed.
Lemma bind_ext {A B} (m : outcome A) (k k' : A -> outcome B) : (forall a, k a = k' a) -> bind m k = bind m k'.
Proof. intros H. destruct m; cbn; [apply H|reflexivity..]. Qed.
Lemma erase_ok {A} (m : mout A) a : erase m = Ok a -> m = MOk a.
Proof. destruct m; cbn; congruence. Qed.

Create HintDb er discriminated.
Ltac er := repeat (cbn zeta; match goal with
  | |- erase (mbind _ _) = _ => rewrite erase_bind; first [rewrite erase_lift | autorewrite with er]; apply bind_ext; intros ?
  | |- erase (if ?b then _ else _) = _ => destruct b
  | |- erase (let (_, _) := ?p in _) = _ => destruct p
  | |- erase (match ?p with None => _ | Some _ => _ end) = _ => destruct p
  | |- _ => first [reflexivity | rewrite erase_lift; reflexivity | autorewrite with er; reflexivity]
  end).

Section Files.
Context (file : source -> str).

Lemma erase_hex s : erase (parse_escaped_hex_char_m file s) = parse_escaped_hex_char s.
Proof.
  unfold parse_escaped_hex_char_m, parse_escaped_hex_char. destruct (Nat.ltb (length s) 2); [reflexivity|].
  destruct (from_chars 16 (skipn 2 s)) as [[|n] [v|]]; reflexivity.
Qed.
Lemma erase_oct s : erase (parse_escaped_oct_char_m file s) = parse_escaped_oct_char s.
Proof.
  unfold parse_escaped_oct_char_m, parse_escaped_oct_char. destruct (Nat.ltb (length s) 1); [reflexivity|].
  destruct (from_chars 8 (skipn 1 s)) as [[|n] [v|]]; reflexivity.
Qed.
Lemma erase_classify s n c : erase (classify_escape_m file s n c) = classify_escape s n c.
Proof. unfold classify_escape_m, classify_escape. er. Qed.
Hint Rewrite erase_hex erase_oct erase_classify : er.
Lemma erase_find s o : erase (find_first_escaped_char_m file s o) = find_first_escaped_char s o.
Proof. unfold find_first_escaped_char_m, find_first_escaped_char. er. Qed.
Hint Rewrite erase_find : er.
Lemma erase_has s : erase (has_escaped_chars_m file s) = has_escaped_chars s.
Proof. unfold has_escaped_chars_m, has_escaped_chars. er. Qed.
Lemma erase_utf16 s sub : erase (parse_utf16_m file s sub) = parse_utf16 s sub.
Proof. unfold parse_utf16_m, parse_utf16. er. Qed.
Hint Rewrite erase_utf16 : er.
Lemma erase_one s sub : erase (unescape_one_m file s sub) = unescape_one s sub.
Proof. unfold unescape_one_m, unescape_one. er. Qed.
Hint Rewrite erase_one : er.
Lemma erase_loop fuel : forall buf from to, erase (unescape_loop_m file fuel buf from to) = unescape_loop fuel buf from to.
Proof.
  induction fuel as [|fuel IH]; intros buf from to; [reflexivity|]. cbn [unescape_loop_m unescape_loop]. er. apply IH.
Qed.
Lemma erase_buf s : erase (unescape_buf_m file s) = unescape_buf s.
Proof. apply erase_loop. Qed.
Hint Rewrite erase_buf : er.
Lemma erase_unescape s : erase (unescape_m file s) = unescape s.
Proof. unfold unescape_m, unescape. er. Qed.

(** With a view that is changed. *)
Definition erase2 {A} (p : mout A * str) : outcome A * str := (erase (fst p), snd p).
Lemma erase_extract_hex s lo hi : erase2 (extract_hex_char_m file s lo hi) = extract_hex_char s lo hi.
Proof.
  unfold extract_hex_char_m, extract_hex_char. cbn zeta. destruct (from_chars 16 _) as [n [v|]]; destruct (Nat.ltb n lo); reflexivity.
Qed.
Lemma erase_extract_oct s : erase2 (extract_oct_char_m file s) = extract_oct_char s.
Proof.
  unfold extract_oct_char_m, extract_oct_char. cbn zeta. destruct (from_chars 8 _) as [n [v|]]; destruct (Nat.eqb n 0); reflexivity.
Qed.
Lemma erase_extract_utf16 s : erase2 (extract_utf16_char_m file s) = extract_utf16_char s.
Proof.
  unfold extract_utf16_char_m, extract_utf16_char. rewrite <- erase_extract_hex.
  destruct (extract_hex_char_m file s 4 4) as [[ch| | | |] s']; try reflexivity. unfold erase2 at 2. cbn [fst snd erase].
  destruct ((ch <? 0xD800) || (0xDBFF <? ch)); [reflexivity|]. cbn zeta.
  destruct (Nat.ltb _ 6); [reflexivity|]. destruct (_ || _); [reflexivity|].
  rewrite <- (erase_extract_hex (skipn 2 (firstn 6 s')) 4 4).
  destruct (extract_hex_char_m file (skipn 2 (firstn 6 s')) 4 4) as [[ch2| | | |] s2]; try reflexivity.
  unfold erase2 at 2. cbn [fst snd erase]. destruct (_ || _); reflexivity.
Qed.
Lemma erase_safe_next s it : erase (safe_decode_next_m file s it) = safe_decode_next s it.
Proof. unfold safe_decode_next_m, safe_decode_next. er. Qed.
Lemma erase_safe_prev s it : erase (safe_decode_prev_m file s it) = safe_decode_prev s it.
Proof. unfold safe_decode_prev_m, safe_decode_prev. er. Qed.
Hint Rewrite erase_safe_next erase_safe_prev : er.
Lemma erase_pop s : erase (pop_utf8_codepoint_m file s) = pop_utf8_codepoint s.
Proof. unfold pop_utf8_codepoint_m, pop_utf8_codepoint. er. Qed.
Lemma erase_pop_last s : erase (pop_last_utf8_codepoint_m file s) = pop_last_utf8_codepoint s.
Proof. unfold pop_last_utf8_codepoint_m, pop_last_utf8_codepoint. er. Qed.
Lemma erase_pop_view s : erase2 (pop_view_m file s) = pop_view s.
Proof.
  unfold pop_view_m, pop_view. rewrite <- erase_pop. destruct (pop_utf8_codepoint_m file s) as [[c s']| | | |]; reflexivity.
Qed.
Lemma erase_some p : erase2 (some_char_m p) = some_char (erase2 p).
Proof. destruct p as [[] ]; reflexivity. Qed.
Lemma erase_switch b c s : erase2 (unescape_switch_m file b c s) = unescape_switch b c s.
Proof.
  unfold unescape_switch_m, unescape_switch. cbn zeta.
  repeat (match goal with |- erase2 (if ?x then _ else _) = _ => destruct x end; try reflexivity);
  rewrite ?erase_some, ?erase_extract_hex, ?erase_extract_utf16, ?erase_extract_oct, ?erase_pop_view; reflexivity.
Qed.

Definition no_std {A} (p : mout A * str) : Prop := forall e, fst p <> MStd e.
Lemma no_std_some p : no_std p -> no_std (some_char_m p).
Proof. intros H e. destruct p as [[a|w|e'| |] s]; cbn; try discriminate. intros _. now apply (H e'). Qed.
Lemma no_std_hex s lo hi : no_std (extract_hex_char_m file s lo hi).
Proof.
  intros e. unfold extract_hex_char_m. cbn zeta. destruct (from_chars 16 _) as [n [v|]]; destruct (Nat.ltb n lo); discriminate.
Qed.
Lemma no_std_oct s : no_std (extract_oct_char_m file s).
Proof.
  intros e. unfold extract_oct_char_m. cbn zeta. destruct (from_chars 8 _) as [n [v|]]; destruct (Nat.eqb n 0); discriminate.
Qed.
Lemma no_std_utf16 s : no_std (extract_utf16_char_m file s).
Proof.
  intros e. unfold extract_utf16_char_m. pose proof (no_std_hex s 4 4) as H.
  destruct (extract_hex_char_m file s 4 4) as [[ch|w|e'| |] s']; try discriminate; [|intros _; now apply (H e')].
  destruct (_ || _); [discriminate|]. cbn zeta. destruct (Nat.ltb _ 6); [discriminate|]. destruct (_ || _); [discriminate|].
  pose proof (no_std_hex (skipn 2 (firstn 6 s')) 4 4) as H2.
  destruct (extract_hex_char_m file (skipn 2 (firstn 6 s')) 4 4) as [[ch2|w|e'| |] s2]; try discriminate; [|intros _; now apply (H2 e')].
  destruct (_ || _); discriminate.
Qed.
Lemma no_std_pop s : no_std (pop_view_m file s).
Proof.
  intros e. unfold pop_view_m, pop_utf8_codepoint_m, safe_decode_next_m.
  destruct (seq_dec s) as [->|[HM|(g & c & t & Hg & ->)]].
  - discriminate.
  - pose proof (decode_next_malformed [] s HM) as E. cbn [app length] in E. rewrite E.
    destruct s; [destruct HM; congruence|]. cbn. discriminate.
  - pose proof (decode_next_uchar [] g c t Hg) as E. cbn [app length] in E. rewrite E.
    pose proof (uchar_length g c Hg) as L. destruct g; [cbn in L; lia|].
    cbn [app length Nat.eqb mlift mbind]. destruct (c =? INVALID_CHAR); discriminate.
Qed.
Lemma no_std_switch b c s : no_std (unescape_switch_m file b c s).
Proof.
  unfold unescape_switch_m. cbn zeta.
  repeat (match goal with |- no_std (if ?x then _ else _) => destruct x end; try (intros e; discriminate));
  try apply no_std_some; auto using no_std_hex, no_std_oct, no_std_utf16, no_std_pop.
Qed.
Lemma erase_next s : (let '(p, b) := unescape_next_m file s in (erase2 p, b)) = unescape_next s.
Proof.
  unfold unescape_next_m, unescape_next. cbn zeta. destruct (skip_escaped_newlines s) as [|a s1]; [reflexivity|].
  destruct (negb (byte_eqb a x5c)); [now rewrite erase_pop_view|]. destruct s1 as [|c s2]; [reflexivity|].
  rewrite <- erase_switch. pose proof (no_std_switch (a :: c :: s2) c s2) as H.
  destruct (unescape_switch_m file (a :: c :: s2) c s2) as [[o|w|e| |] s']; try reflexivity.
  now elim (H e).
Qed.

Lemma erase_next' s : forall r s' b, unescape_next_m file s = ((r, s'), b) -> unescape_next s = ((erase r, s'), b).
Proof. intros r s' b E. rewrite <- erase_next, E. reflexivity. Qed.

Lemma erase_append_to s c : erase (fst (append_to_m file s c)) = fst (append_to s c) /\ snd (append_to_m file s c) = snd (append_to s c).
Proof. unfold append_to_m, append_to. destruct (encode_utf8 c) as [b n]. cbn zeta. destruct (n =? 0); split; reflexivity. Qed.
Lemma erase_append s c : erase (append_m file s c) = append s c.
Proof.
  unfold append_m, append. destruct (erase_append_to s c) as [E1 E2].
  destruct (append_to_m file s c) as [r s'], (append_to s c) as [r0 s0]. cbn [fst snd] in *. subst. now rewrite erase_bind.
Qed.
Hint Rewrite erase_append : er.
Lemma erase_insert_str s o t : erase (insert_at_offset_str_m file s o t) = insert_at_offset_str s o t.
Proof. unfold insert_at_offset_str_m, insert_at_offset_str. destruct t; [reflexivity|]. er. Qed.
Lemma erase_insert_cp s o c : erase (insert_at_offset_cp_m file s o c) = insert_at_offset_cp s o c.
Proof. unfold insert_at_offset_cp_m, insert_at_offset_cp. er. Qed.
Hint Rewrite erase_insert_str erase_insert_cp : er.
Lemma erase_insert_codepoint s k c : erase (insert_codepoint_m file s k c) = insert_codepoint s k c.
Proof. unfold insert_codepoint_m, insert_codepoint. er. Qed.
Lemma erase_insert_codepoints s k t : erase (insert_codepoints_m file s k t) = insert_codepoints s k t.
Proof. unfold insert_codepoints_m, insert_codepoints. er. Qed.
Lemma erase_replace_codepoint s f t m : erase (replace_codepoint_m file s f t m) = replace_codepoint s f t m.
Proof. unfold replace_codepoint_m, replace_codepoint. er. Qed.

(** ** What the messages are *)
Lemma located f line text : Located (file f) (ystring_throw file f line text) text.
Proof. exists line, (print_decimal line). split; [apply print_decimal_ok|reflexivity]. Qed.

Lemma ffe_lone_m pre lits : ~ In x5c lits ->
  find_first_escaped_char_m file (pre ++ lits ++ [x5c]) (size pre)
  = MWhat (ystring_throw file Unescape_cpp 122 (lit "Incomplete escape sequence at offset " ++ print_decimal (size (pre ++ lits)))).
Proof.
  intros H. unfold find_first_escaped_char_m. rewrite begin_plus_size. cbn [mlift mbind].
  unfold std_find_if. rewrite skipn_length_app.
  rewrite find_if_skip by now apply not_in_forall. cbn [find_if_from]. rewrite byte_eqb_refl.
  replace (Nat.eqb (length pre + length lits) (length (pre ++ lits ++ [x5c]))) with false by (rewrite !app_length; cbn [length]; lia).
  replace (Nat.eqb (S (length pre + length lits)) (length (pre ++ lits ++ [x5c]))) with true by (rewrite !app_length; cbn [length]; lia).
  unfold size. now rewrite app_length.
Qed.
Lemma ffe_at_m pre lits c q : ~ In x5c lits ->
  find_first_escaped_char_m file (pre ++ lits ++ x5c :: c :: q) (size pre)
  = classify_escape_m file ((pre ++ lits) ++ x5c :: c :: q) (size (pre ++ lits)) c.
Proof.
  intros H. unfold find_first_escaped_char_m. rewrite begin_plus_size. cbn [mlift mbind].
  unfold std_find_if. rewrite skipn_length_app.
  rewrite find_if_skip by now apply not_in_forall. cbn [find_if_from]. rewrite byte_eqb_refl.
  replace (Nat.eqb (length pre + length lits) (length (pre ++ lits ++ x5c :: c :: q))) with false by (rewrite !app_length; cbn [length]; lia).
  replace (Nat.eqb (S (length pre + length lits)) (length (pre ++ lits ++ x5c :: c :: q))) with false by (rewrite !app_length; cbn [length]; lia).
  rewrite app_assoc. change (x5c :: c :: q) with ([x5c] ++ c :: q). rewrite (app_assoc (pre ++ lits) [x5c]).
  rewrite (deref_at _ ((pre ++ lits) ++ [x5c]) c q); [|reflexivity|rewrite !app_length; cbn [length]; lia].
  cbn [mlift mbind]. unfold size. now rewrite app_length.
Qed.
Lemma classify_what s n c w : classify_escape_m file s n c = MWhat w ->
  exists line, w = ystring_throw file Unescape_cpp line (lit "Invalid escape sequence at offset " ++ print_decimal n).
Proof.
  assert (K : forall m k, (forall e, m <> Throw e) -> (let! e := mlift m in
     if sub64 e n <? k then MWhat (ystring_throw file Unescape_cpp 161 (lit "Invalid escape sequence at offset " ++ print_decimal n))
     else MOk (Sub n (sub64 e n))) = MWhat w -> exists line, w = ystring_throw file Unescape_cpp line (lit "Invalid escape sequence at offset " ++ print_decimal n)).
  { intros [a|e| |] k Hm; cbn; try discriminate. destruct (_ <? _); [|discriminate]. intros E. injection E as <-. eauto. }
  assert (U : forall p k i e x, uf_find_loop s p k i e <> Throw x).
  { intros p k. induction k as [|k IH]; intros i e x; cbn; [discriminate|]. unfold deref. destruct (nth_error s i); cbn; [|discriminate].
    destruct (p b); [discriminate|apply IH]. }
  unfold classify_escape_m. cbn zeta.
  destruct (_ || _); [apply K; intros; apply U|]. destruct (byte_eqb c x75); [apply K; intros; apply U|].
  destruct (byte_eqb c x55); [apply K; intros; apply U|]. destruct (is_oct_digit_char c); [apply K; intros; apply U|].
  destruct (_ =? 0); [discriminate|]. intros E. injection E as <-. eauto.
Qed.
Lemma ffe_what pre lits w : Fits (pre ++ lits ++ w) -> ~ In x5c lits -> BadEscape w ->
  exists msg text, find_first_escaped_char_m file (pre ++ lits ++ w) (size pre) = MWhat msg /\
    EscapeComplaint (size (pre ++ lits)) w text /\ Located (file Unescape_cpp) msg text.
Proof.
  intros HF HL HB. pose proof (ffe_bad pre lits w HF HL HB) as E. rewrite <- erase_find in E.
  assert (w = [x5c] \/ exists c q, w = x5c :: c :: q) as [->|(c & q & ->)].
  { destruct HB; cbn [app]; eauto. }
  - rewrite ffe_lone_m by exact HL. do 2 eexists. split; [reflexivity|]. split; [|apply located].
    constructor. apply print_decimal_ok.
  - rewrite ffe_at_m in * by exact HL.
    destruct (classify_escape_m file _ _ c) as [a|msg|e| |] eqn:EC; try discriminate E.
    + destruct (classify_what _ _ _ _ EC) as [line ->]. do 2 eexists. split; [reflexivity|]. split; [|apply located].
      constructor; [exact HB|discriminate|apply print_decimal_ok].
    + exfalso. clear E. revert EC. clear.
      assert (U : forall s p k i e x, uf_find_loop s p k i e <> Throw x).
      { intros s p k. induction k as [|k IH]; intros i e' x; cbn; [discriminate|]. unfold deref. destruct (nth_error s i); cbn; [|discriminate].
        destruct (p b); [discriminate|apply IH]. }
      assert (K : forall m n k, (forall e, m <> Throw e) -> (let! e := mlift m in
        if sub64 e n <? k then MWhat (ystring_throw file Unescape_cpp 161 (lit "Invalid escape sequence at offset " ++ print_decimal n))
        else MOk (Sub n (sub64 e n))) = MStd e -> False).
      { intros [a|e'| |] n k Hm; cbn; try discriminate; [destruct (_ <? _); discriminate|]. intros _. now apply (Hm e'). }
      unfold classify_escape_m. cbn zeta.
      destruct (_ || _); [apply K; intros; apply U|]. destruct (byte_eqb c x75); [apply K; intros; apply U|].
      destruct (byte_eqb c x55); [apply K; intros; apply U|]. destruct (is_oct_digit_char c); [apply K; intros; apply U|].
      destruct (_ =? 0); discriminate.
Qed.

(** One step of the loop. *)
Lemma loop_step_m fuel out mid lits w n : Fits (out ++ mid ++ lits ++ w) -> n <> 0 ->
  find_first_escaped_char (out ++ mid ++ lits ++ w) (size (out ++ mid)) = Ok (Sub (size (out ++ mid ++ lits)) n) ->
  unescape_loop_m file (S fuel) (out ++ mid ++ lits ++ w) (size (out ++ mid)) (size out)
  = let buf := (out ++ lits) ++ shifted mid lits ++ w in
      let! p := unescape_one_m file buf (Sub (size ((out ++ lits) ++ shifted mid lits)) n) in
      let (ch, sub) := p in
      let (bytes, k) := encode_utf8 ch in
      let! buf := mlift (write_at buf (size (out ++ lits)) bytes) in
      unescape_loop_m file fuel buf (sub_end sub) (add64 (size (out ++ lits)) k).
Proof.
  intros HF Hn HE. cbn [unescape_loop_m]. rewrite (erase_ok _ _ (eq_trans (erase_find _ _) HE)). cbn [mbind sub_start sub_offset].
  rewrite copy_step by exact HF. cbn [mlift mbind].
  replace (add64 (size out) (sub64 (size (out ++ mid ++ lits)) (size (out ++ mid)))) with (size (out ++ lits)).
  2:{ rewrite sub64_small by sz. rewrite add64_small by sz. sz. }
  unfold sub_bool. cbn [sub_length]. rewrite negb_involutive. rewrite (proj2 (N.eqb_neq n 0) Hn).
  replace (size (out ++ mid ++ lits)) with (size ((out ++ lits) ++ shifted mid lits)).
  2:{ unfold size. rewrite !app_length, shifted_length. lia. }
  fold (shifted mid lits). rewrite <- !app_assoc. reflexivity.
Qed.

Lemma loop_what n : forall w, (length w <= n)%nat -> forall out mid fuel r t,
  (length w < fuel)%nat -> Fits (out ++ mid ++ w) -> Reads handled w r t -> Rejected r ->
  exists a msg, w = a ++ r /\
    unescape_loop_m file fuel (out ++ mid ++ w) (size (out ++ mid)) (size out) = MWhat msg /\
    ((BadEscape r /\ exists text, EscapeComplaint (size (out ++ mid ++ a)) r text /\ Located (file Unescape_cpp) msg text) \/
     (exists P k, Fits (P ++ r) /\ (Extent r k \/ Overhang r k) /\ unescape_one_m file (P ++ r) (Sub (size P) k) = MWhat msg)).
Proof.
  induction n as [n IH] using lt_wf_ind. intros w Hn out mid fuel r t Hf HF HR HU.
  destruct fuel as [|fuel]; [lia|].
  destruct (Rejected_bs _ HU) as [qr Hqr].
  destruct (backslash_cut w) as [NB|(lits & q & -> & NB)].
  { exfalso. rewrite <- (app_nil_r w) in HR. destruct (Reads_lits handled [] r (or_intror (ex_intro _ qr Hqr)) w t NB HR) as (t' & -> & _ & HR').
    apply Reads_nil in HR' as [-> _]. discriminate. }
  destruct (Reads_lits handled (x5c :: q) r (or_intror (ex_intro _ qr Hqr)) lits t NB HR) as (t' & -> & _ & HR').
  set (P := (out ++ lits) ++ shifted mid lits).
  assert (HP : forall m, P ++ m = (out ++ lits) ++ shifted mid lits ++ m) by (intros m; unfold P; now rewrite <- app_assoc).
  assert (LP : length P = length (out ++ mid ++ lits)) by (unfold P; rewrite !app_length, shifted_length; lia).
  assert (HFP : Fits (P ++ x5c :: q)) by (unfold Fits, size in *; rewrite !app_length in *; rewrite ?LP, ?app_length; lia).
  remember (x5c :: q) as w eqn:Ew.
  destruct HR' as [s|c s r t' Hc HR'|e v b s r t' HD Hok Hw HR'].
  - exists lits. destruct (one_rejected s HU) as [HB|(k & HE & HO)].
    + destruct (ffe_what (out ++ mid) lits s) as (msg & text & E & HC & HL); [now rewrite <- app_assoc|exact NB|exact HB|].
      exists msg. split; [reflexivity|]. split.
      * cbn [unescape_loop_m]. rewrite app_assoc. now rewrite E.
      * left. split; [exact HB|]. exists text. now rewrite app_assoc.
    + specialize (HO P HFP). rewrite <- (erase_one) in HO.
      destruct (unescape_one_m file (P ++ s) (Sub (size P) k)) as [a|msg|e| |] eqn:EO; try discriminate HO.
      2:{ exfalso. cbn in HO. injection HO as ->. revert EO. unfold unescape_one_m.
          assert (D : forall A (m : outcome A), (forall e, m <> Throw e) \/ m = Throw StdOutOfRange -> mlift m <> MStd YstringException)
            by (intros A [a|e'| |] [D|D]; cbn; try discriminate; [now elim (D e')|injection D as ->; discriminate]).
          assert (DD : forall (x : str) i, mlift (deref x i) <> MStd YstringException)
            by (intros x i; apply D; left; intros e; unfold deref; destruct (nth_error x i); discriminate).
          assert (DS : forall (x : str) i j, mlift (substr x i j) <> MStd YstringException).
          { intros x i j. apply D. unfold substr. destruct (_ <? _); [now right|left; discriminate]. }
          assert (DH : forall x, parse_escaped_hex_char_m file x <> MStd YstringException).
          { intros x. unfold parse_escaped_hex_char_m. destruct (Nat.ltb _ _); [discriminate|]. destruct (from_chars _ _) as [[|?] [?|]]; discriminate. }
          assert (DO : forall x, parse_escaped_oct_char_m file x <> MStd YstringException).
          { intros x. unfold parse_escaped_oct_char_m. destruct (Nat.ltb _ _); [discriminate|]. destruct (from_chars _ _) as [[|?] [?|]]; discriminate. }
          assert (U : forall s p k i e x, uf_find_loop s p k i e <> Throw x).
          { intros s0 p k0. induction k0 as [|k0 IHk]; intros i e' x; cbn; [discriminate|]. unfold deref. destruct (nth_error s0 i); cbn; [|discriminate].
            destruct (p b); [discriminate|apply IHk]. }
          assert (DU : forall x a b p, mlift (uf_find x a b p) <> MStd YstringException) by (intros; apply D; left; intros; apply U).
          assert (B : forall A B (m : mout A) (g : A -> mout B), m <> MStd YstringException -> (forall a, g a <> MStd YstringException) -> mbind m g <> MStd YstringException).
          { intros A B [a|w|e| |] g H1 H2; cbn; try discriminate; [apply H2|intros E; injection E as ->; now apply H1]. }
          assert (DC : forall x m c, classify_escape_m file x m c <> MStd YstringException).
          { intros x m c. unfold classify_escape_m. cbn zeta.
            repeat match goal with |- (if ?b then _ else _) <> _ => destruct b end; try discriminate;
            (apply B; [apply DU|intros a; destruct (_ <? _); discriminate]). }
          assert (DF : forall x o, find_first_escaped_char_m file x o <> MStd YstringException).
          { intros x o. unfold find_first_escaped_char_m. apply B; [apply D; left; unfold begin_plus; destruct (_ <=? _); discriminate|].
            intros a. cbn zeta. destruct (Nat.eqb _ _); [discriminate|]. destruct (Nat.eqb _ _); [discriminate|].
            apply B; [apply DD|intros; apply DC]. }
          assert (DP : forall x u, parse_utf16_m file x u <> MStd YstringException).
          { intros x u. unfold parse_utf16_m.
            repeat first [apply B; [first [apply DS|apply DH|apply DF|apply DD]|intros ?] | match goal with |- (if ?b then _ else _) <> _ => destruct b end | discriminate]. }
          apply B; [apply DD|]. intros c.
          repeat first [apply DP | apply B; [first [apply DS|apply DH|apply DO]|intros ?] | match goal with |- (if ?b then _ else _) <> _ => destruct b end | discriminate]. }
      exists msg. split; [reflexivity|]. split; [|right; exists P, k; auto].
      rewrite (loop_step_m fuel out mid lits s k); [|exact HF| |].
      2:{ destruct HE as [HE|HE]; [apply Extent_pos in HE|apply Overhang_pos in HE]; lia. }
      2:{ rewrite app_assoc. destruct HE as [HE|HE];
          [rewrite (ffe_extent (out ++ mid) lits s k)|rewrite (ffe_overhang (out ++ mid) lits s k)];
          try (now rewrite <- app_assoc); assumption. }
      cbn zeta. fold P. rewrite <- HP. now rewrite EO.
  - injection Ew as -> _. congruence.
  - destruct (one_denotes e s v HD Hok) as (k & HE & HO).
    destruct (Denotes_bs _ _ _ HD) as (c1 & q1 & Ee).
    pose proof (Denotes_shorter e s v b HD Hw) as Lb.
    assert (Le : (2 <= length e)%nat) by (rewrite Ee; cbn [length]; lia).
    rewrite (loop_step_m fuel out mid lits (e ++ s) k); [|exact HF| |].
    2:{ apply Extent_pos in HE; lia. }
    2:{ rewrite app_assoc. rewrite (ffe_extent (out ++ mid) lits (e ++ s) k); [now rewrite <- app_assoc|now rewrite <- app_assoc|exact NB|exact HE]. }
    cbn zeta. fold P. rewrite <- HP. rewrite (erase_ok _ _ (eq_trans (erase_one _ _) (HO P HFP))). cbn [mbind]. rewrite (written_spec v b Hw).
    rewrite HP. rewrite write_at_app by (rewrite !app_length; lia). cbn [mlift mbind].
    assert (S1 : skipn (length b) (shifted mid lits ++ e ++ s) = skipn (length b) (shifted mid lits ++ e) ++ s).
    { rewrite (app_assoc _ e s), skipn_app. replace (length b - length (shifted mid lits ++ e))%nat with 0%nat by (rewrite app_length; lia). reflexivity. }
    rewrite S1. set (mid' := skipn (length b) (shifted mid lits ++ e)) in *.
    assert (Lm : (length mid' = length mid + length e - length b)%nat).
    { unfold mid'. rewrite skipn_length, app_length, shifted_length. lia. }
    replace ((out ++ lits) ++ b ++ mid' ++ s) with (((out ++ lits) ++ b) ++ mid' ++ s) by now rewrite <- !app_assoc.
    assert (HF1 : Fits (((out ++ lits) ++ b) ++ mid' ++ s)) by (unfold Fits, size in *; rewrite !app_length in *; lia).
    replace (sub_end (Sub (size P) (size e))) with (size (((out ++ lits) ++ b) ++ mid')).
    2:{ unfold sub_end. cbn [sub_offset sub_length].
        rewrite add64_small by (unfold Fits, size, W64 in *; rewrite !app_length in *; lia).
        unfold size. rewrite !app_length, LP, !app_length, Lm. lia. }
    replace (add64 (size (out ++ lits)) (size b)) with (size ((out ++ lits) ++ b)).
    2:{ rewrite add64_small by (unfold Fits, size, W64 in *; rewrite !app_length in *; lia). now rewrite (size_app (out ++ lits)). }
    rewrite !app_length in Hn, Hf.
    assert (Ls : (length s < n)%nat) by lia.
    assert (Lf : (length s < fuel)%nat) by lia.
    destruct (IH (length s) Ls s (le_n _) ((out ++ lits) ++ b) mid' fuel r t' Lf HF1 HR' HU) as (a & msg & Es & ET & HC).
    exists (lits ++ e ++ a), msg. split; [rewrite Es; now rewrite <- !app_assoc|]. split; [exact ET|].
    destruct HC as [(HB & text & HC & HL)|HC]; [left|now right]. split; [exact HB|]. exists text. split; [|exact HL].
    replace (size (out ++ mid ++ lits ++ e ++ a)) with (size (((out ++ lits) ++ b) ++ mid' ++ a)); [exact HC|].
    unfold size. rewrite !app_length, Lm. lia.
Qed.

(** The step on texts that are rejected for other reasons. *)
Lemma hex_none_m a x : parse_escaped_hex_char_m file [a; x]
  = MWhat (ystring_throw file Unescape_cpp 65 (lit "Cannot parse escaped char: " ++ [a; x])).
Proof. reflexivity. Qed.


Lemma one_no_digits_m P x k : x = x75 \/ x = x55 -> Fits (P ++ [x5c; x]) -> 2 <= k ->
  unescape_one_m file (P ++ [x5c; x]) (Sub (size P) k)
  = MWhat (ystring_throw file Unescape_cpp 65 (lit "Cannot parse escaped char: " ++ [x5c; x])).
Proof.
  intros Hx HF Hk. unfold unescape_one_m. cbn [sub_start sub_offset sub_length]. rewrite deref_second by exact HF. cbn [mlift mbind].
  destruct Hx as [-> | ->].
  - cbn [byte_eqb Byte.eqb]. change (byte_eqb x75 x78 || byte_eqb x75 x58 || byte_eqb x75 x55) with false.
    change (byte_eqb x75 x75) with true. unfold parse_utf16_m. cbn [sub_offset sub_length].
    rewrite substr_rest by (unfold size; cbn [length]; lia). cbn [mlift mbind]. now rewrite hex_none_m.
  - change (byte_eqb x55 x78 || byte_eqb x55 x58 || byte_eqb x55 x55) with true.
    rewrite substr_rest by (unfold size; cbn [length]; lia). cbn [mlift mbind]. now rewrite hex_none_m.
Qed.

Lemma one_half_m P ds v r msg k : Fits (P ++ (x5c :: x75 :: ds) ++ r) -> length ds = 4%nat -> Hex ds v -> high_surrogate v ->
  (Extent ((x5c :: x75 :: ds) ++ r) k \/ Overhang ((x5c :: x75 :: ds) ++ r) k) ->
  find_first_escaped_char_m file (firstn 6 r) 0 = MWhat msg ->
  unescape_one_m file (P ++ (x5c :: x75 :: ds) ++ r) (Sub (size P) k) = MWhat msg.
Proof.
  intros HF L H HS HK HM.
  assert (k = 6) as ->.
  { pose proof (ext_u ds v r L H) as HE6. cbn [app] in HE6, HK.
    pose proof (classify_extent P x75 (ds ++ r) 6 HF HE6) as E6.
    destruct HK as [HK|HK].
    - rewrite (classify_extent P x75 (ds ++ r) k HF HK) in E6. congruence.
    - rewrite (classify_overhang P x75 (ds ++ r) k HF HK) in E6. congruence. }
  unfold unescape_one_m. cbn [sub_start sub_offset sub_length]. cbn [app]. rewrite deref_second by exact HF. cbn [mlift mbind].
  change (byte_eqb x75 x78 || byte_eqb x75 x58 || byte_eqb x75 x55) with false.
  change (byte_eqb x75 x75) with true. cbn iota.
  unfold parse_utf16_m. cbn [sub_offset sub_length].
  pose proof (substr_mid P (x5c :: x75 :: ds) r (size P) 6) as SM. cbn [app] in SM. rewrite SM by sz. clear SM. cbn [mlift mbind].
  rewrite (erase_ok _ _ (eq_trans (erase_hex _) (parse_hex_ok x5c x75 ds v H (len_cons2 _ _ L) ltac:(pose proof (hex4_lt _ _ L H); lia)))).
  cbn [mbind]. replace ((v <? 0xD800) || (0xDBFF <? v)) with false by (unfold high_surrogate in HS; lia).
  assert (E : sub_end (Sub (size P) 6) = size (P ++ x5c :: x75 :: ds)).
  { unfold sub_end. cbn [sub_offset sub_length]. cbn [app] in HF. rewrite add64_small by sz. sz. }
  rewrite E. change (x5c :: x75 :: ds ++ r) with ((x5c :: x75 :: ds) ++ r). rewrite app_assoc. change 6 with (N.of_nat 6) at 1. rewrite substr_rest_firstn. cbn [mlift mbind].
  now rewrite HM.
Qed.

Lemma one_half_end_m P ds v k : Fits (P ++ (x5c :: x75 :: ds) ++ [x5c; x75]) -> length ds = 4%nat -> Hex ds v -> high_surrogate v ->
  (Extent ((x5c :: x75 :: ds) ++ [x5c; x75]) k \/ Overhang ((x5c :: x75 :: ds) ++ [x5c; x75]) k) ->
  unescape_one_m file (P ++ (x5c :: x75 :: ds) ++ [x5c; x75]) (Sub (size P) k)
  = MWhat (ystring_throw file Unescape_cpp 65 (lit "Cannot parse escaped char: " ++ [x5c; x75])).
Proof.
  intros HF L H HS HK.
  assert (k = 6) as ->.
  { pose proof (ext_u ds v [x5c; x75] L H) as HE6. cbn [app] in HE6, HK.
    pose proof (classify_extent P x75 (ds ++ [x5c; x75]) 6 HF HE6) as E6.
    destruct HK as [HK|HK].
    - rewrite (classify_extent P x75 (ds ++ [x5c; x75]) k HF HK) in E6. congruence.
    - rewrite (classify_overhang P x75 (ds ++ [x5c; x75]) k HF HK) in E6. congruence. }
  unfold unescape_one_m. cbn [sub_start sub_offset sub_length]. cbn [app]. rewrite deref_second by exact HF. cbn [mlift mbind].
  change (byte_eqb x75 x78 || byte_eqb x75 x58 || byte_eqb x75 x55) with false.
  change (byte_eqb x75 x75) with true. cbn iota.
  unfold parse_utf16_m. cbn [sub_offset sub_length].
  pose proof (substr_mid P (x5c :: x75 :: ds) [x5c; x75] (size P) 6) as SM. cbn [app] in SM. rewrite SM by sz. clear SM. cbn [mlift mbind].
  rewrite (erase_ok _ _ (eq_trans (erase_hex _) (parse_hex_ok x5c x75 ds v H (len_cons2 _ _ L) ltac:(pose proof (hex4_lt _ _ L H); lia)))).
  cbn [mbind]. replace ((v <? 0xD800) || (0xDBFF <? v)) with false by (unfold high_surrogate in HS; lia).
  assert (E : sub_end (Sub (size P) 6) = size (P ++ x5c :: x75 :: ds)).
  { unfold sub_end. cbn [sub_offset sub_length]. cbn [app] in HF. rewrite add64_small by sz. sz. }
  rewrite E. change (x5c :: x75 :: ds ++ [x5c; x75]) with ((x5c :: x75 :: ds) ++ [x5c; x75]). rewrite app_assoc. change 6 with (N.of_nat 6) at 1. rewrite substr_rest_firstn. cbn [mlift mbind firstn].
  pose proof (ffe_overhang [] [] [x5c; x75] 6) as FE. cbn [app size length N.of_nat] in FE.
  rewrite (erase_ok _ _ (eq_trans (erase_find _ _) (FE ltac:(clear; sz) (fun x => x) (over_u [] 0 ltac:(cbn; lia) (num_nil _ _))))).
  cbn [mbind sub_bool sub_length sub_offset N.eqb negb orb Pos.eqb].
  rewrite add64_small by (cbn [app] in HF; sz).
  replace (N.to_nat (size (P ++ x5c :: x75 :: ds) + 1)) with (length (P ++ x5c :: x75 :: ds) + 1)%nat by (unfold size; lia).
  rewrite deref_app_r. cbn [deref nth_error mlift mbind]. change (byte_eqb x75 x75) with true. cbn [negb]. now rewrite hex_none_m.
Qed.

Lemma unescape_what s r t p : Fits s -> Reads handled s r t -> Rejected r -> s = p ++ r ->
  exists msg, unescape_m file s = MWhat msg /\ unescape_buf_m file s = MWhat msg /\
    ((BadEscape r /\ exists text, EscapeComplaint (size p) r text /\ Located (file Unescape_cpp) msg text) \/
     (exists P k, Fits (P ++ r) /\ (Extent r k \/ Overhang r k) /\ unescape_one_m file (P ++ r) (Sub (size P) k) = MWhat msg)).
Proof.
  intros HF HR HU Es.
  destruct (loop_what (length s) s (le_n _) [] [] (S (length s)) r t (Nat.lt_succ_diag_r _) HF HR HU) as (a & msg & Ea & E & HC).
  cbn [app] in *. assert (a = p) as -> by (apply (app_inv_tail r); congruence).
  exists msg. change (size []) with 0 in E. split; [|split; [exact E|exact HC]].
  unfold unescape_m, unescape_buf_m. now rewrite E.
Qed.

Lemma p_c113_find pre lits w : Fits (pre ++ lits ++ w) -> ~ In x5c lits -> BadEscape w ->
  exists msg text, find_first_escaped_char_m file (pre ++ lits ++ w) (size pre) = MWhat msg /\
    EscapeComplaint (size (pre ++ lits)) w text /\ Located (file Unescape_cpp) msg text.
Proof. apply ffe_what. Qed.
Lemma p_c113_has lits w : Fits (lits ++ w) -> ~ In x5c lits -> BadEscape w ->
  exists msg text, has_escaped_chars_m file (lits ++ w) = MWhat msg /\
    EscapeComplaint (size lits) w text /\ Located (file Unescape_cpp) msg text.
Proof.
  intros HF HL HB. destruct (ffe_what [] lits w HF HL HB) as (msg & text & E & H). exists msg, text. split; [|exact H].
  unfold has_escaped_chars_m. cbn [app] in E. change (size []) with 0 in E. now rewrite E.
Qed.
Lemma p_c113_unescape p r t : Fits (p ++ r) -> Reads handled (p ++ r) r t -> BadEscape r ->
  exists msg text, unescape_m file (p ++ r) = MWhat msg /\ EscapeComplaint (size p) r text /\ Located (file Unescape_cpp) msg text.
Proof.
  intros HF HR HB. destruct (unescape_what (p ++ r) r t p HF HR (rej_bad r HB) eq_refl) as (msg & E & _ & [(_ & text & HC)|(P & k & HP & HK & _)]).
  - exists msg, text. split; [exact E|exact HC].
  - exfalso. destruct (BadEscape_bs _ HB) as [q ->]. assert (NB : ~ In x5c []) by (intros []).
    pose proof (ffe_bad P [] (x5c :: q) HP NB HB) as E1.
    destruct HK as [HK|HK];
      [pose proof (ffe_extent P [] (x5c :: q) k HP NB HK) as E2|pose proof (ffe_overhang P [] (x5c :: q) k HP NB HK) as E2]; congruence.
Qed.
Lemma p_c113_no_digits p x t : x = x75 \/ x = x55 -> Fits (p ++ [x5c; x]) -> Reads handled (p ++ [x5c; x]) [x5c; x] t ->
  exists msg, unescape_m file (p ++ [x5c; x]) = MWhat msg /\ Located (file Unescape_cpp) msg (lit "Cannot parse escaped char: " ++ [x5c; x]).
Proof.
  intros Hx HF HR. destruct (unescape_what _ [x5c; x] t p HF HR (rej_no_digits x Hx) eq_refl) as (msg & E & _ & [(HB & _)|(P & k & HP & HK & EO)]).
  - exfalso. assert (HO : exists k, Overhang [x5c; x] k).
    { destruct Hx as [-> | ->]; [exists 6; apply (over_u [] 0)|exists 10; apply (over_U [] 0)]; (cbn; lia) || constructor. }
    destruct HO as [k HO]. assert (NB : ~ In x5c []) by (intros []).
    pose proof (ffe_bad p [] [x5c; x] HF NB HB) as E1. pose proof (ffe_overhang p [] [x5c; x] k HF NB HO) as E2. congruence.
  - exists msg. split; [exact E|]. rewrite one_no_digits_m in EO; [|exact Hx|exact HP|].
    + injection EO as <-. apply located.
    + destruct HK as [HK|HK]; [apply Extent_pos in HK|apply Overhang_pos in HK]; lia.
Qed.
Lemma p_c113_half p ds v r lits w t : Fits (p ++ (x5c :: x75 :: ds) ++ r) -> length ds = 4%nat -> Hex ds v -> high_surrogate v ->
  Reads handled (p ++ (x5c :: x75 :: ds) ++ r) ((x5c :: x75 :: ds) ++ r) t -> firstn 6 r = lits ++ w -> ~ In x5c lits -> BadEscape w ->
  exists msg text, unescape_m file (p ++ (x5c :: x75 :: ds) ++ r) = MWhat msg /\
    EscapeComplaint (size lits) w text /\ Located (file Unescape_cpp) msg text.
Proof.
  intros HF L H HS HR E6 HL HB.
  assert (HO : Obstructed r) by (left; eauto).
  destruct (unescape_what _ _ t p HF HR (rej_obstructed ds v r L H HS HO) eq_refl) as (msg & E & _ & [(HB2 & _)|(P & k & HP & HK & EO)]).
  - exfalso. assert (NB : ~ In x5c []) by (intros []).
    pose proof (ffe_bad p [] _ HF NB HB2) as E1. pose proof (ffe_extent p [] _ 6 HF NB (ext_u ds v r L H)) as E2. congruence.
  - assert (HFL : Fits ([] ++ lits ++ w)) by (cbn [app]; rewrite <- E6; pose proof (firstn_le_length 6 r); sz).
    destruct (ffe_what [] lits w HFL HL HB) as (msg' & text & EF & HC & HLoc).
    cbn [app] in *. change (size []) with 0 in EF. rewrite <- E6 in EF.
    pose proof (one_half_m P ds v r msg' k HP L H HS HK EF) as EO'. cbn [app] in EO'. rewrite EO' in EO. injection EO as <-.
    exists msg', text. auto.
Qed.
Lemma p_c113_half_end p ds v t : Fits (p ++ (x5c :: x75 :: ds) ++ [x5c; x75]) -> length ds = 4%nat -> Hex ds v -> high_surrogate v ->
  Reads handled (p ++ (x5c :: x75 :: ds) ++ [x5c; x75]) ((x5c :: x75 :: ds) ++ [x5c; x75]) t ->
  exists msg, unescape_m file (p ++ (x5c :: x75 :: ds) ++ [x5c; x75]) = MWhat msg /\ Located (file Unescape_cpp) msg (lit "Cannot parse escaped char: " ++ [x5c; x75]).
Proof.
  intros HF L H HS HR.
  destruct (unescape_what _ _ t p HF HR (rej_obstructed ds v _ L H HS (or_intror eq_refl)) eq_refl) as (msg & E & _ & [(HB2 & _)|(P & k & HP & HK & EO)]).
  - exfalso. assert (NB : ~ In x5c []) by (intros []).
    pose proof (ffe_bad p [] _ HF NB HB2) as E1. pose proof (ffe_extent p [] _ 6 HF NB (ext_u ds v _ L H)) as E2. congruence.
  - exists msg. split; [exact E|]. rewrite (one_half_end_m P ds v k HP L H HS HK) in EO. injection EO as <-. apply located.
Qed.

(** ** One character at a time *)
Lemma next_skip_m k r : ~ starts_newline r -> unescape_next_m file (newlines k ++ r) = unescape_next_m file r.
Proof. intros H. unfold unescape_next_m. now rewrite skip_newlines, skip_none by exact H. Qed.
Lemma next_what_m c q w s' : c <> x0a -> unescape_switch_m file (x5c :: c :: q) c q = (MWhat w, s') ->
  unescape_next_m file (x5c :: c :: q) = ((MWhat w, x5c :: c :: q), Some true).
Proof.
  intros Hc E. unfold unescape_next_m. rewrite skip_none.
  2:{ intros [t Et]. cbn [escaped_newline app] in Et. injection Et as -> _. congruence. }
  rewrite byte_eqb_refl. cbn [negb]. now rewrite E.
Qed.
Lemma extract_hex_few_m ds v r lo hi : Hex ds v -> (length ds < lo)%nat -> (lo <= hi)%nat -> stops hex_digit r ->
  exists msg text, extract_hex_char_m file (ds ++ r) lo hi = (MWhat msg, ds ++ r) /\
    few_digits (N.of_nat lo) (size ds) text /\ Located (file Unescape_cpp) msg text.
Proof.
  intros H L1 L2 HS. unfold extract_hex_char_m. cbn zeta. rewrite firstn_min.
  destruct (firstn_hex ds r hi) as (r' & -> & Hr'); [lia|now right|].
  assert (E : exists v', from_chars 16 (ds ++ r') = (length ds, v')).
  { destruct ds as [|c ds].
    - cbn [app]. rewrite from_chars_none_hex by exact Hr'. eauto.
    - rewrite (from_chars_hex (c :: ds) v r' H Hr') by discriminate. eauto. }
  destruct E as [v' ->]. replace (Nat.ltb (length ds) lo) with true by lia.
  do 2 eexists. split; [reflexivity|]. split; [|apply located].
  do 2 eexists. split; [apply print_decimal_ok|]. split; [apply print_decimal_ok|]. reflexivity.
Qed.
Lemma pop_view_bad_m r : Malformed r -> exists msg, pop_view_m file r = (MWhat msg, r) /\ Located (file DecodeUtf8_hpp) msg (lit "Invalid UTF-8 string.").
Proof.
  intros HM. unfold pop_view_m, pop_utf8_codepoint_m, safe_decode_next_m.
  pose proof (decode_next_malformed [] r HM) as E. cbn [app length] in E. rewrite E.
  destruct r as [|a r]; [destruct HM; congruence|]. cbn [length Nat.eqb mlift mbind]. eexists. split; [reflexivity|apply located].
Qed.
Lemma switch_self_m c q : ~ In c numeric_letters -> (forall v, ~ In (c, v) letters) -> unescape_switch_m file (x5c :: c :: q) c q = pop_view_m file (c :: q).
Proof.
  intros H1 H2. unfold unescape_switch_m. destruct c; try reflexivity; exfalso; first [apply H1; cbn; tauto | eapply H2; cbn; eauto 20].
Qed.
Lemma switch_x_m b c q : c = x78 \/ c = x58 -> unescape_switch_m file b c q = some_char_m (extract_hex_char_m file q 1 8).
Proof. intros [-> | ->]; reflexivity. Qed.

Definition next_ends (r : str) : Prop :=
  exists b msg text src, unescape_next_m file r = ((MWhat msg, r), b) /\ NextComplaint r text /\ Located (file src) msg text.

Lemma next_what r : ~ starts_newline r -> r <> [] -> (exists c r' b, NextChar r c r' b) \/ next_ends r.
Proof.
  intros HN HE. destruct r as [|a r]; [congruence|]. clear HE.
  destruct (Byte.byte_eq_dec a x5c) as [->|Ha].
  2:{ destruct (seq_dec (a :: r)) as [E|[HM|(g & c & t & Hg & E)]]; [discriminate E| |].
      - right. destruct (pop_view_bad_m _ HM) as (msg & EP & HL). exists (Some false), msg, (lit "Invalid UTF-8 string."), DecodeUtf8_hpp.
        split; [|split; [now apply nextc_plain|exact HL]]. unfold unescape_next_m. rewrite skip_none by exact HN.
        replace (byte_eqb a x5c) with false by (symmetry; destruct (byte_eqb a x5c) eqn:E; [apply byte_eqb_eq in E; congruence|reflexivity]).
        cbn [negb]. now rewrite EP.
      - left. exists c, t, false. rewrite E. constructor; [exact Hg|]. intros g' ->. cbn [app] in E. injection E as E _. congruence. }
  destruct r as [|c q].
  { right. do 3 eexists. exists Unescape_cpp. split; [reflexivity|]. split; [constructor|apply located]. }
  assert (Hc : c <> x0a) by (intros ->; apply HN; now exists q).
  assert (HX : c = x78 \/ c = x58 -> (exists c0 r' b, NextChar (x5c :: c :: q) c0 r' b) \/ next_ends (x5c :: c :: q)).
  { intros Hx. destruct (run_upto hex_digit 16 8 q hex_digit_dec) as (ds & r & -> & [v Hv] & Hl & Hr).
    destruct ds as [|d0 ds].
    - right. cbn [app]. destruct Hr as [Hr|Hr]; [discriminate Hr|].
      destruct (extract_hex_few_m [] v r 1 8 Hv ltac:(cbn; lia) ltac:(lia) Hr) as (msg & text & E & HT & HL). cbn [app] in E.
      exists (Some true), msg, text, Unescape_cpp. split; [|split; [now apply nextc_x|exact HL]].
      apply (next_what_m c r msg r Hc). rewrite switch_x_m by exact Hx. now rewrite E.
    - left. exists v, r, true. apply (nc_x c (d0 :: ds) v r); [exact Hx|cbn [length] in *; lia|exact Hv|exact Hr]. }
  destruct (in_dec Byte.byte_eq_dec c numeric_letters) as [D|D].
  - cbn [numeric_letters In] in D. destruct D as [D|[D|[D|[D|D]]]].
    + apply HX. auto.
    + apply HX. auto.
    + clear HX. subst c. destruct (run_upto hex_digit 16 4 q hex_digit_dec) as (ds & r & -> & [v Hv] & Hl & Hr).
      destruct (Nat.eq_dec (length ds) 4) as [L|L].
      * assert (DS : high_surrogate v \/ ~ high_surrogate v) by (unfold high_surrogate; lia).
        destruct DS as [DS|DS]; [|left; exists v, r, true; now apply (nc_u ds v r)].
        destruct (starts_low_dec r) as [(ds2 & lo & r' & -> & L2 & H2 & S2)|NL].
        { left. exists (0x10000 + (v - 0xD800) * 0x400 + (lo - 0xDC00)), r', true. now apply (nc_pair ds v ds2 lo r'). }
        assert (DB : (forall b r', r = [x5c; x75] ++ b ++ r' -> length b = 4%nat -> exists w, Hex b w) \/
                     exists ds2 w r2, r = [x5c; x75] ++ ds2 ++ r2 /\ Hex ds2 w /\ (length ds2 < 4)%nat /\ stops hex_digit r2 /\ (4 <= length (ds2 ++ r2))%nat).
        { destruct (Nat.lt_ge_cases (length r) 6) as [L6|L6].
          { left. intros b r' -> Lb. rewrite !app_length in L6. cbn [length] in L6. lia. }
          destruct r as [|a1 [|a2 r]]; [cbn in L6; lia|cbn in L6; lia|]. cbn [length] in L6.
          destruct (Byte.byte_eq_dec a1 x5c) as [->|N1]; [|left; intros b r' E; cbn [app] in E; injection E as E _; congruence].
          destruct (Byte.byte_eq_dec a2 x75) as [->|N2]; [|left; intros b r' E; cbn [app] in E; injection E as E _; congruence].
          destruct (run_upto hex_digit 16 4 r hex_digit_dec) as (ds' & r'' & -> & [w Hw] & Hl' & Hr'').
          destruct (Nat.eq_dec (length ds') 4) as [L4|L4].
          - left. intros b r' E Lb. cbn [app] in E. apply cons_eq in E as [_ E]. apply cons_eq in E as [_ E].
            destruct (app_inj_len ds' b r'' r') as [<- _]; [lia|exact E|]. eauto.
          - right. destruct Hr'' as [Hr''|Hr'']; [congruence|]. exists ds', w, r''. repeat split; [exact Hw|lia|exact Hr''|lia]. }
        destruct DB as [DB|(ds2 & w & r2 & -> & Hw & L2 & Hr2 & L4)].
        { left. exists v, r, true. now apply (nc_lone ds v r). }
        right.
        assert (EX : exists msg text s2, extract_utf16_char_m file (ds ++ [x5c; x75] ++ ds2 ++ r2) = (MWhat msg, s2) /\
                  few_digits 4 (size ds2) text /\ Located (file Unescape_cpp) msg text).
        { unfold extract_utf16_char_m.
          pose proof (extract_hex_ok ds v ([x5c; x75] ++ ds2 ++ r2) 4 4 Hv ltac:(lia) ltac:(lia) ltac:(lia) (or_introl L)) as EH.
          rewrite <- erase_extract_hex in EH. destruct (extract_hex_char_m file (ds ++ [x5c; x75] ++ ds2 ++ r2) 4 4) as [o s1].
          unfold erase2 in EH. cbn [fst snd] in EH. apply pair_equal_spec in EH as [EH ->]. apply erase_ok in EH as ->.
          replace ((v <? 0xD800) || (0xDBFF <? v)) with false by (unfold high_surrogate in DS; lia). cbn zeta.
          set (b := firstn 4 (ds2 ++ r2)).
          assert (Lb : length b = 4%nat) by (unfold b; rewrite firstn_length; lia).
          assert (Eb : firstn 6 ([x5c; x75] ++ ds2 ++ r2) = [x5c; x75] ++ b) by reflexivity.
          rewrite Eb. replace (Nat.ltb (length ([x5c; x75] ++ b)) 6) with false by (rewrite app_length; cbn [length]; lia).
          cbn [app nth]. rewrite !byte_eqb_refl. cbn [negb orb skipn].
          assert (E2 : exists r3, b = ds2 ++ r3 /\ stops hex_digit r3).
          { unfold b. rewrite firstn_app. exists (firstn (4 - length ds2) r2). split; [now rewrite firstn_all2 by lia|].
            destruct r2 as [|x r2]; [now rewrite firstn_nil|]. replace (4 - length ds2)%nat with (S (3 - length ds2)) by lia. exact Hr2. }
          destruct E2 as (r3 & -> & Hr3).
          destruct (extract_hex_few_m ds2 w r3 4 4 Hw L2 ltac:(lia) Hr3) as (msg & text & -> & HT & HL).
          exists msg, text. eexists. split; [reflexivity|]. split; [exact HT|exact HL]. }
        destruct EX as (msg & text & s2 & EX & HT & HL).
        exists (Some true), msg, text, Unescape_cpp. split; [|split; [|exact HL]].
        -- apply (next_what_m x75 _ msg s2); [discriminate|]. change (unescape_switch_m file (x5c :: x75 :: ds ++ [x5c; x75] ++ ds2 ++ r2) x75 (ds ++ [x5c; x75] ++ ds2 ++ r2)) with (some_char_m (extract_utf16_char_m file (ds ++ [x5c; x75] ++ ds2 ++ r2))). now rewrite EX.
        -- exact (nextc_pair ds v ds2 w r2 text Hv L DS Hw L2 Hr2 L4 HT).
      * destruct Hr as [Hr|Hr]; [congruence|]. right.
        destruct (extract_hex_few_m ds v r 4 4 Hv ltac:(lia) ltac:(lia) Hr) as (msg & text & E & HT & HL).
        exists (Some true), msg, text, Unescape_cpp. split; [|split; [|exact HL]].
        -- apply (next_what_m x75 _ msg (ds ++ r)); [discriminate|].
           change (unescape_switch_m file (x5c :: x75 :: ds ++ r) x75 (ds ++ r)) with (some_char_m (extract_utf16_char_m file (ds ++ r))).
           unfold extract_utf16_char_m. now rewrite E.
        -- exact (nextc_u ds v r text Hv ltac:(lia) Hr HT).
    + clear HX. subst c. destruct (run_upto hex_digit 16 8 q hex_digit_dec) as (ds & r & -> & [v Hv] & Hl & Hr).
      destruct (Nat.eq_dec (length ds) 8) as [L|L].
      * left. exists v, r, true. now apply (nc_U ds v r).
      * destruct Hr as [Hr|Hr]; [congruence|]. right.
        destruct (extract_hex_few_m ds v r 8 8 Hv ltac:(lia) ltac:(lia) Hr) as (msg & text & E & HT & HL).
        exists (Some true), msg, text, Unescape_cpp. split; [|split; [|exact HL]].
        -- apply (next_what_m x55 _ msg (ds ++ r)); [discriminate|].
           change (unescape_switch_m file (x5c :: x55 :: ds ++ r) x55 (ds ++ r)) with (some_char_m (extract_hex_char_m file (ds ++ r) 8 8)).
           now rewrite E.
        -- exact (nextc_U ds v r text Hv ltac:(lia) Hr HT).
    + clear HX. assert (exists d, oct_digit c d) as [d Hd].
      { destruct D as [<-|[<-|[<-|[<-|[<-|[<-|[<-|[<-|[]]]]]]]]];
        [exists 0|exists 1|exists 2|exists 3|exists 4|exists 5|exists 6|exists 7]; split; reflexivity. }
      destruct (run_upto oct_digit 8 3 (c :: q) oct_digit_dec) as (ds & r & E & [v Hv] & Hl & Hr). rewrite E.
      left. exists v, r, true. apply (nc_oct ds v r); [|exact Hv|exact Hr].
      destruct ds; [|cbn [length] in *; lia]. cbn [app] in E. subst r. destruct Hr as [Hr|Hr]; [discriminate|]. now elim (Hr d).
  - clear HX. assert (DL : (exists v, In (c, v) letters) \/ (forall v, ~ In (c, v) letters)).
    { cbn [letters In]. clear. destruct c; first [left; eexists; tauto | right; intros v Hv; intuition discriminate]. }
    destruct DL as [[v Hv]|DL]; [left; exists v, q, true; now apply (nc_letter c v q)|].
    destruct (seq_dec (c :: q)) as [E|[HM|(g & c0 & t & Hg & E)]]; [discriminate E| |].
    + right. destruct (pop_view_bad_m _ HM) as (msg & EP & HL).
      exists (Some true), msg, (lit "Invalid UTF-8 string."), DecodeUtf8_hpp. split; [|split; [now apply nextc_self|exact HL]].
      apply (next_what_m c q msg (c :: q) Hc). now rewrite switch_self_m.
    + left. exists c0, t, true. rewrite E. apply nc_self; [exact Hg| |].
      * intros b ->. cbn [app] in E. injection E as -> _. auto.
      * intros ->. cbn [app] in E. injection E as -> _. congruence.
Qed.

Lemma p_c113_next k r : ~ starts_newline r -> r <> [] -> (forall c r' b, ~ NextChar r c r' b) ->
  exists b msg text src, unescape_next_m file (concat (repeat escaped_newline k) ++ r) = ((MWhat msg, r), b) /\
    NextComplaint r text /\ Located (file src) msg text.
Proof.
  intros HN HE HC. rewrite <- newlines_app. rewrite next_skip_m by exact HN.
  destruct (next_what r HN HE) as [(c & r' & b & H)|H]; [now elim (HC c r' b)|exact H].
Qed.

(** ** The others *)
Lemma p_c113_pop s : Malformed s ->
  exists msg, pop_utf8_codepoint_m file s = MWhat msg /\ Located (file DecodeUtf8_hpp) msg (lit "Invalid UTF-8 string.").
Proof.
  intros HM. unfold pop_utf8_codepoint_m, safe_decode_next_m.
  pose proof (decode_next_malformed [] s HM) as E. cbn [app length] in E. rewrite E.
  destruct s as [|a s]; [destruct HM; congruence|]. cbn [length Nat.eqb mlift mbind]. eexists. split; [reflexivity|apply located].
Qed.
Lemma p_c113_append s c : 0x10FFFF < c ->
  exists msg ds, append_m file s c = MWhat msg /\ Decimal ds c /\ Located (file Algorithms_cpp) msg (lit "Invalid code point: " ++ ds).
Proof.
  intros H. unfold append_m, append_to_m. rewrite (encode_large c H). cbn [N.eqb mbind].
  do 2 eexists. split; [reflexivity|]. split; [apply print_decimal_ok|apply located].
Qed.
Lemma p_c113_replace s f t m :
  (0x10FFFF < f -> exists msg ds, replace_codepoint_m file s f t m = MWhat msg /\ Decimal ds f /\
     Located (file Algorithms_cpp) msg (lit "Invalid from-code point: " ++ ds)) /\
  (f <= 0x10FFFF -> 0x10FFFF < t -> exists msg ds, replace_codepoint_m file s f t m = MWhat msg /\ Decimal ds t /\
     Located (file Algorithms_cpp) msg (lit "Invalid to-code point: " ++ ds)).
Proof.
  unfold replace_codepoint_m. split.
  - intros H. rewrite (encode_buf_large f H). destruct (encode_utf8_buf t 4) as [t' n']. cbn [N.eqb].
    do 2 eexists. split; [reflexivity|]. split; [apply print_decimal_ok|apply located].
  - intros Hf H. rewrite (encode_buf_large t H). destruct (encode_buf_ok f Hf) as (g & n & -> & _ & Hn).
    rewrite (proj2 (N.eqb_neq n 0) Hn). cbn [N.eqb].
    do 2 eexists. split; [reflexivity|]. split; [apply print_decimal_ok|apply located].
Qed.
Lemma p_c113_insert_out ps k c t : CodeUnits ps -> Fits (concat ps) -> cp_ok k -> (Z.of_nat (length ps) < Z.abs k)%Z ->
  (exists msg, insert_codepoint_m file (concat ps) k c = MWhat msg /\ Located (file AlgorithmUtilities_cpp) msg (lit "string position is out of bounds")) /\
  (t <> [] -> exists msg, insert_codepoints_m file (concat ps) k t = MWhat msg /\ Located (file AlgorithmUtilities_cpp) msg (lit "string position is out of bounds")).
Proof.
  intros HC HF Hk Hn. unfold insert_codepoint_m, insert_codepoints_m. rewrite get_codepoint_pos_spec by assumption. cbn [mlift mbind].
  unfold position. replace (_ <? _)%Z with true by lia. split.
  - eexists. split; [reflexivity|apply located].
  - intros Ht. destruct t; [congruence|]. eexists. split; [reflexivity|apply located].
Qed.
Lemma p_c113_insert_cp ps k c : CodeUnits ps -> Fits (concat ps) -> cp_ok k -> (Z.abs k <= Z.of_nat (length ps))%Z -> 0x10FFFF < c ->
  exists msg ds, insert_codepoint_m file (concat ps) k c = MWhat msg /\ Decimal ds c /\ Located (file Algorithms_cpp) msg (lit "Invalid code point: " ++ ds).
Proof.
  intros HC HF Hk Hn Hc. unfold insert_codepoint_m. rewrite get_codepoint_pos_spec by assumption. cbn [mlift mbind].
  unfold position. replace (_ <? _)%Z with false by lia. unfold insert_at_offset_cp_m.
  pose proof (offset_le ps (resolve (length ps) k)) as L.
  replace (offset_of ps (resolve (length ps) k) =? npos) with false by (unfold Fits, npos, SIZE_MAX in *; lia).
  unfold substr. replace (size (concat ps) <? 0) with false by lia. cbn [mlift mbind].
  destruct (p_c113_append (firstn (N.to_nat (N.min (offset_of ps (resolve (length ps) k)) (size (concat ps) - 0))) (skipn (N.to_nat 0) (concat ps))) c Hc) as (msg & ds & -> & HD & HL).
  exists msg, ds. cbn [mbind]. auto.
Qed.
End Files.
