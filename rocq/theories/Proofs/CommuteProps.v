(** C114 and C115, in the form of the theorems. *)
From Verif Require Import Base Spec.Category Spec.UnicodeData Spec.Utf8Spec Spec.Strings Spec.Newline Spec.Slices Spec.Split Spec.Case Spec.Counts Spec.Normalization Spec.Commute
  Model.Decode Model.Encode Model.Subrange Model.Search Model.Split Model.CharClass Model.ConvertCase Model.Chars Model.Normalize Tables.UnicodeDataTables
  Proofs.Utf8Lemmas Proofs.EncodeLemmas Proofs.CodepointLemmas Proofs.SplitLemmas Proofs.CaseStringLemmas Proofs.CommuteLemmas Proofs.CommuteChars Proofs.CommuteSep Proofs.CommuteCase Proofs.SearchLemmas Proofs.NewlineLemmas Proofs.ConcatLemmas Proofs.SliceLemmas Proofs.CharLemmas Proofs.PositionProps Proofs.UnicodeProps.
From Verif Require Proofs.CommuteNorm.
From Coq Require Import ZifyBool ZifyNat ZifyN.
Ltac Zify.zify_post_hook ::= Z.div_mod_to_equations.

Lemma converted s : (exists cs, Text s cs /\ Forall uni cs) \/
  to_lower_str s = Throw YstringException /\ to_upper_str s = Throw YstringException /\ to_title_str s = Throw YstringException.
Proof.
  destruct (Text_dec s) as [[cs HT]|HN].
  - destruct (inrange_dec cs) as [HR|HE]; [left; eauto|]. right. apply case_all_bad. intros cs' HT'. now rewrite (Text_fun _ _ _ HT' HT).
  - right. apply case_all_bad. intros cs HT. destruct (HN cs HT).
Qed.
Lemma conv_text F f s t : case_conversion F f -> F s = Ok t -> exists cs, Text s cs /\ Forall uni cs.
Proof. intros HC E. destruct (converted s) as [H|(H1 & H2 & H3)]; [exact H|]. destruct HC; congruence. Qed.
Lemma title_text s t : to_title_str s = Ok t -> exists cs, Text s cs /\ Forall uni cs.
Proof. intros E. destruct (converted s) as [H|(H1 & H2 & H3)]; [exact H|]. congruence. Qed.

Lemma q_split_chars F f s t chars n ign : case_conversion F f -> respects f chars -> F s = Ok t -> Fits s -> Fits t ->
  exists ps qs, split_chars s chars n ign = Ok ps /\ split_chars t chars n ign = Ok qs /\ each F ps qs.
Proof.
  intros HC HR E HF HF'. destruct (conv_text F f s t HC E) as (cs & HT & HU).
  destruct (p_c114_split_chars F f s cs chars n ign HC HR HT HU HF) as (t' & ps & qs & E' & H). rewrite E in E'. injection E' as <-. eauto.
Qed.
Lemma q_title_split s t chars n ign : Forall (fun c => is_letter c = false) chars -> to_title_str s = Ok t -> Fits s -> Fits t ->
  exists ps qs, split_chars s chars n ign = Ok ps /\ split_chars t chars n ign = Ok qs /\ each to_title_str ps qs.
Proof.
  intros HL E HF HF'. destruct (title_text s t E) as (cs & HT & HU).
  destruct (p_title_split chars HL s cs n ign HT HU HF) as (t' & ps & qs & E' & H). rewrite E in E'. injection E' as <-. eauto.
Qed.
Lemma q_trim F f s t chars : case_conversion F f -> respects f chars -> F s = Ok t -> Fits s -> Fits t ->
  swaps F (fun x => trim_start x chars) s t /\ swaps F (fun x => trim_end x chars) s t /\ swaps F (fun x => trim x chars) s t.
Proof.
  intros HC HR E HF HF'. destruct (conv_text F f s t HC E) as (cs & HT & HU).
  destruct (p_c114_trim F f s cs chars HC HR HT HU HF) as (t' & a & b & c & a' & b' & c' & E' & H). rewrite E in E'. injection E' as <-.
  destruct (H HF') as (H1 & H2 & H3 & H4 & H5 & H6 & H7 & H8 & H9). split; [exists a, a'|split; [exists b, b'|exists c, c']]; auto.
Qed.
Lemma q_title_trim s t chars : Forall (fun c => is_letter c = false) chars -> to_title_str s = Ok t -> Fits s -> Fits t ->
  swaps to_title_str (fun x => trim_start x chars) s t /\ swaps to_title_str (fun x => trim_end x chars) s t /\ swaps to_title_str (fun x => trim x chars) s t.
Proof.
  intros HL E HF HF'. destruct (title_text s t E) as (cs & HT & HU).
  destruct (p_title_trim chars HL s cs HT HU HF) as (t' & a & b & c & a' & b' & c' & E' & H). rewrite E in E'. injection E' as <-.
  destruct (H HF') as (H1 & H2 & H3 & H4 & H5 & H6 & H7 & H8 & H9). split; [exists a, a'|split; [exists b, b'|exists c, c']]; auto.
Qed.
Lemma q_lines F f after s t n ign : case_conversion F f -> F s = Ok t -> Fits s -> Fits t ->
  exists ps qs, split_lines (0 :: after) s n ign = Ok ps /\ split_lines (0 :: after) t n ign = Ok qs /\ each F ps qs.
Proof.
  intros HC E HF HF'. destruct (conv_text F f s t HC E) as (cs & HT & HU).
  destruct (p_c114_lines F f after s cs n ign HC HT HU HF) as (t' & ps & qs & E' & H). rewrite E in E'. injection E' as <-. eauto.
Qed.
Lemma conv_enc F f : case_conversion F f -> forall s cs r, Encoded s cs -> Forall uni cs -> F s = Ok r -> Encoded r (flat_map f cs).
Proof.
  intros HC s cs r HS HU E. pose proof (Encoded_Text _ _ HS HU) as HT. destruct HC.
  - destruct (to_lower_str_ok s cs HT HU) as (r' & E' & Hr). rewrite E in E'. injection E' as <-. now rewrite <- lower_flat.
  - destruct (to_upper_str_ok s cs HT HU) as (r' & E' & Hr). rewrite E in E'. injection E' as <-. exact Hr.
Qed.
Lemma conv_uni F f : case_conversion F f -> forall c, uni c -> Forall uni (f c).
Proof.
  intros HC c Hc. assert (Forall uni [c]) as H by (constructor; [exact Hc|constructor]). destruct HC.
  - exact (lower_cps_range [c] H).
  - pose proof (upper_cps_range [c] H) as H'. rewrite upper_flat in H'. cbn [flat_map] in H'. now rewrite app_nil_r in H'.
Qed.
Lemma q_split_sep F f s cs t sep seps n ign : case_conversion F f -> Encoded s cs -> Forall uni cs -> F s = Ok t ->
  Forall caseless seps -> Encoded sep seps -> Forall uni seps -> sep <> [] ->
  Fits s -> Fits t -> exists ps qs, split_sep s sep n ign = Ok ps /\ split_sep t sep n ign = Ok qs /\ each F ps qs.
Proof.
  intros HC HE HU E HL HS HSU HN HF HF'.
  pose proof (caseless_respects F f seps HC HL) as HR.
  destruct (split_sep_conv F f uni (conv_ok F f HC) (conv_enc F f HC) (conv_app F f HC) (conv_ne F f HC)) with (sep := sep) (seps := seps) (s := s) (cs := cs) (n := n) (ign := ign)
    as (s' & ps & qs & E' & H); auto.
  - now apply (conv_uni F f HC).
  - intros c Hc. rewrite Forall_forall in HL. destruct (HL c Hc) as (E1 & E2 & E3). destruct HC; unfold lower_of, upper_of; [now rewrite E1|].
    destruct (N.eqb_spec c 0xDF) as [->|_]; [|now rewrite E2]. exfalso. specialize (E3 0x1E9E). vm_compute in E3. discriminate E3. now left.
  - intros c Dc Hc. now apply (HR c).
  - rewrite E in E'. injection E' as <-. eauto.
Qed.
Lemma q_join F f l l' d d' : case_conversion F f -> each F l l' -> F d = Ok d' -> F (join l d) = Ok (join l' d').
Proof.
  intros HC HE Ed. destruct (conv_text F f d d' HC Ed) as (ds & HD & UD).
  assert (exists lss, Forall2 Text l lss /\ Forall (Forall uni) lss) as (lss & HL & HU).
  { clear -HC HE. induction HE as [|p q l l' Hp HE (lss & HL & HU)]; [exists []; split; constructor|].
    destruct (conv_text F f p q HC Hp) as (us & H1 & H2). exists (us :: lss). split; constructor; auto. }
  destruct (p_c114_join F f l lss d ds HC HL HU HD UD) as (l2 & d2 & HE2 & Ed2 & H). rewrite Ed in Ed2. injection Ed2 as <-.
  assert (l2 = l') as <-; [|exact H]. clear -HE HE2. revert l2 HE2. induction HE as [|p q l l' Hp HE IH]; intros l2 HE2; inversion HE2; subst; [reflexivity|].
  f_equal; [congruence|auto].
Qed.
Lemma q_lower s t : to_lower_str s = Ok t -> Fits s -> Fits t -> swaps to_lower_str reverse s t /\
  (forall i j, char_range i j -> swaps to_lower_str (fun x => get_char_substring x i j) s t) /\
  forall i j, codepoint_range i j -> swaps to_lower_str (fun x => get_codepoint_substring x i j) s t.
Proof.
  intros E HF HF'. destruct (conv_text _ _ s t lower_conversion E) as (cs & HT & HD).
  destruct (chars_commute to_lower_str lower_of uni (conv_ok _ _ lower_conversion) (conv_app _ _ lower_conversion) s cs HT HD) as (s1 & E1 & H1); [|exact HF|].
  { apply Forall_forall. intros c _. exists (simple_lower c), []. split; [reflexivity|]. split; [apply CountLemmas.lower_combining|constructor]. }
  destruct (cps_commute to_lower_str lower_of uni (conv_ok _ _ lower_conversion) (conv_app _ _ lower_conversion) s cs HT HD) as (s2 & E2 & H2); [|exact HF|].
  { apply Forall_forall. intros c _. now exists (simple_lower c). }
  rewrite E in E1, E2. injection E1 as <-. injection E2 as <-. destruct (H1 HF') as (_ & HR & HS). split; [exact HR|].
  unfold char_range, codepoint_range, index. split; intros i j (Hi & Hj & HC); [apply HS; [lia|lia|exact HC]|now apply (H2 HF')].
Qed.
Lemma q_upper s cs t : to_upper_str s = Ok t -> Text s cs -> ~ In 0xDF cs -> Fits s -> Fits t ->
  (~ In 0x345 cs -> swaps to_upper_str reverse s t /\ forall i j, char_range i j -> swaps to_upper_str (fun x => get_char_substring x i j) s t) /\
  forall i j, codepoint_range i j -> swaps to_upper_str (fun x => get_codepoint_substring x i j) s t.
Proof.
  intros E HT HX HF HF'. destruct (conv_text _ _ s t upper_conversion E) as (cs' & HT' & HD). rewrite (Text_fun _ _ _ HT' HT) in HD. clear HT' cs'.
  assert (forall c, In c cs -> upper_of c = [simple_upper c]) as HU.
  { intros c Hc. unfold upper_of. destruct (N.eqb_spec c 0xDF) as [->|_]; [contradiction|reflexivity]. }
  unfold char_range, codepoint_range, index. split.
  - intros H345. destruct (chars_commute to_upper_str upper_of uni (conv_ok _ _ upper_conversion) (conv_app _ _ upper_conversion) s cs HT HD) as (s2 & E2 & H); [|exact HF|].
    + apply Forall_forall. intros c Hc. exists (simple_upper c), []. split; [now apply HU|]. split; [|constructor]. apply CountLemmas.upper_combining. intros ->. contradiction.
    + rewrite E in E2. injection E2 as <-. destruct (H HF') as (_ & A & B). split; [exact A|]. intros i j (Hi & Hj & HC). apply B; [lia|lia|exact HC].
  - destruct (cps_commute to_upper_str upper_of uni (conv_ok _ _ upper_conversion) (conv_app _ _ upper_conversion) s cs HT HD) as (s' & E2 & H2); [|exact HF|].
    + apply Forall_forall. intros c Hc. exists (simple_upper c). now apply HU.
    + rewrite E in E2. injection E2 as <-. intros i j (Hi & Hj & HC). now apply (H2 HF').
Qed.
Lemma q_norm_trim inner s t chars : undecomposed chars -> to_decomposed inner s = Ok t -> Fits s -> Fits t ->
  swaps (to_decomposed inner) (fun x => trim_start x chars) s t /\ swaps (to_decomposed inner) (fun x => trim_end x chars) s t /\
  swaps (to_decomposed inner) (fun x => trim x chars) s t.
Proof.
  intros HU E HF HF'. destruct (CommuteNorm.p_c115_trim inner s t chars HU E HF HF') as (a & b & c & a' & b' & c' & H1 & H2 & H3 & H4 & H5 & H6 & H7 & H8 & H9).
  split; [exists a, a'|split; [exists b, b'|exists c, c']]; auto.
Qed.
Lemma q_norm_join inner l l' d d' : each (to_decomposed inner) l l' -> to_decomposed inner d = Ok d' -> to_decomposed inner (join l d) = Ok (join l' d').
Proof.
  intros HE Ed. rewrite !join_spec. induction HE as [|p q l l' Hp HE IH]; [reflexivity|]. destruct HE as [|p2 q2 l l' Hp2 HE]; [exact Hp|].
  cbn [interleave] in *. apply CommuteNorm.p_c115_concat; [exact Hp|]. now apply CommuteNorm.p_c115_concat.
Qed.
Lemma q_norm_chars inner s cs t : Text s cs -> Forall (fun c => ~ several c) cs -> to_decomposed inner s = Ok t -> Fits s -> Fits t ->
  swaps (to_decomposed inner) reverse s t /\ forall i j, char_range i j -> swaps (to_decomposed inner) (fun x => get_char_substring x i j) s t.
Proof.
  intros HT HS E HF HF'. destruct (CommuteNorm.p_c115_chars inner s cs t HT HS E HF HF') as (_ & A & B). split; [exact A|].
  unfold char_range, index. intros i j (Hi & Hj & HC). apply B; [lia|lia|exact HC].
Qed.
