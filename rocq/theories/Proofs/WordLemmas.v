(** C141: the words of a text. *)
From Verif Require Import Base Spec.Utf8Spec Spec.Strings Spec.Split Spec.Words
  Model.Decode Model.Encode Model.Subrange Model.Search Model.Split
  Proofs.Utf8Lemmas Proofs.EncodeLemmas Proofs.CodepointLemmas Proofs.SearchLemmas Proofs.SplitLemmas Proofs.TrimLemmas Proofs.CiMalformed.
From Coq Require Import ZifyBool ZifyNat ZifyN.

Section Chars.
Context (chars : list N).
Local Notation Gap := (Gap chars).
Local Notation Word := (Word chars).
Local Notation Words := (Words chars).
Lemma gap_nil : Gap [].
Proof. exists []. split; constructor. Qed.
Lemma gap_app g h : Gap g -> Gap h -> Gap (g ++ h).
Proof. intros (gs & H1 & H2) (hs & H3 & H4). exists (gs ++ hs). split; [now apply Text_app|now apply Forall_app]. Qed.
Lemma gap_one g c : uchar g c -> In c chars -> Gap g.
Proof. intros Hg Hc. exists [c]. split; [now apply Text_one|now repeat constructor]. Qed.
Lemma word_one g c : uchar g c -> ~ In c chars -> Word g.
Proof. intros Hg Hc. split; [exact (uchar_nonempty g c Hg)|]. exists [c]. split; [now apply Text_one|now repeat constructor]. Qed.
Lemma word_app g c w : uchar g c -> ~ In c chars -> Word w -> Word (g ++ w).
Proof.
  intros Hg Hc (Hne & us & H1 & H2). split; [intros E; apply app_eq_nil in E; tauto|]. exists (c :: us). split; [now constructor|now constructor].
Qed.
Lemma words_gap g s ws : Gap g -> Words s ws -> Words (g ++ s) ws.
Proof.
  intros HG HW. destruct HW as [h Hh|h w Hh Hw|h w k r ws Hh Hw Hk Hne Hr].
  - constructor. now apply gap_app.
  - rewrite app_assoc. constructor; [now apply gap_app|exact Hw].
  - rewrite app_assoc. constructor; [now apply gap_app|exact Hw|exact Hk|exact Hne|exact Hr].
Qed.
Lemma words_exist s cs : Text s cs -> exists ws, Words s ws.
Proof.
  induction 1 as [|g c s cs Hg HT [ws IH]]; [exists []; constructor; apply gap_nil|].
  destruct (in_dec N.eq_dec c chars) as [HI|HN].
  - exists ws. apply words_gap; [now apply (gap_one g c)|exact IH].
  - destruct IH as [h Hh|h w Hh Hw|h w k r ws Hh Hw Hk Hne Hr].
    + destruct h as [|b h]; [exists [g]; rewrite app_nil_r; apply (words_last chars [] g gap_nil); now apply (word_one g c)|].
      exists [g]. pose proof (words_more chars [] g (b :: h) [] [] gap_nil (word_one g c Hg HN) Hh ltac:(discriminate) (words_none chars [] gap_nil)) as K.
      cbn [app] in K. now rewrite app_nil_r in K.
    + destruct h as [|b h]; [exists [g ++ w]; cbn [app]; apply (words_last chars [] _ gap_nil); now apply (word_app g c)|].
      exists (g :: [w]). apply (words_more chars [] g (b :: h) w [w] gap_nil (word_one g c Hg HN) Hh ltac:(discriminate)).
      apply (words_last chars [] w gap_nil Hw).
    + destruct h as [|b h].
      * exists ((g ++ w) :: ws). cbn [app]. rewrite app_assoc. apply (words_more chars [] (g ++ w) k r ws gap_nil); auto. now apply (word_app g c).
      * exists (g :: w :: ws). apply (words_more chars [] g (b :: h) (w ++ k ++ r) (w :: ws) gap_nil (word_one g c Hg HN) Hh ltac:(discriminate)).
        now apply (words_more chars [] w k r ws gap_nil).
Qed.
Lemma words_text s ws : Words s ws -> exists cs, Text s cs.
Proof.
  induction 1 as [g (gs & H & _)|g w (gs & H & _) (_ & us & Hu & _)|g w h r ws (gs & H & _) (_ & us & Hu & _) (hs & Hh & _) _ _ [rs IH]]; [eauto| |].
  - exists (gs ++ us). now apply Text_app.
  - exists (gs ++ us ++ hs ++ rs). auto using Text_app.
Qed.

(** Splitting. *)
Definition pieces (s : str) (ws : list str) : Prop :=
  exists cuts rest, Cuts (first_char chars) s cuts rest /\ no_char chars rest /\ filter non_empty (map fst cuts ++ [rest]) = ws.
Lemma pieces_word w : (w = [] \/ Word w) -> exists us, Text w us /\ Forall (fun c => ~ In c chars) us.
Proof. intros [->|(_ & us & H)]; [exists []; split; constructor|eauto]. Qed.
Lemma filter_one w : (w = [] \/ Word w) -> forall l, filter non_empty (w :: l) = (match w with [] => [] | _ => [w] end) ++ filter non_empty l.
Proof. intros _ l. now destruct w. Qed.
Lemma pieces_gap g s ws : Gap g -> pieces s ws -> pieces (g ++ s) ws.
Proof.
  intros (gs & HT & HF) (cuts & rest & HC & HN & E). revert HF. induction HT as [|g c u us Hg HT IH]; intros HF; [exists cuts, rest; auto|].
  inversion HF as [|x l Hx HF']; subst x l. destruct (IH HF') as (cuts' & rest' & HC' & HN' & E').
  exists (([], g) :: cuts'), rest'. split; [|split; [exact HN'|exact E']]. rewrite <- app_assoc.
  change (g ++ u ++ s) with ([] ++ g ++ (u ++ s)). constructor; [|exact HC']. exists [], c. split; [constructor|]. split; [constructor|auto].
Qed.
Lemma pieces_word_gap w g s ws : Word w -> Gap g -> g <> [] -> pieces s ws -> pieces (w ++ g ++ s) (w :: ws).
Proof.
  intros (Hw & us & HU & HF) (gs & HT & HG) Hne HP. destruct HT as [|g c u ts Hg HT]; [congruence|]. inversion HG as [|x l Hx HG']; subst x l.
  destruct (pieces_gap u s ws) as (cuts & rest & HC & HN & E); [exists ts; auto|exact HP|].
  exists ((w, g) :: cuts), rest. split; [|split; [exact HN|]].
  - rewrite <- app_assoc. constructor; [|exact HC]. exists us, c. auto.
  - cbn [map fst app filter]. destruct w as [|b w]; [congruence|]. cbn [non_empty]. now f_equal.
Qed.
Lemma words_pieces s ws : Words s ws -> pieces s ws.
Proof.
  induction 1 as [g HG|g w HG HW|g w h r ws HG HW HH Hne HR IH].
  - rewrite <- (app_nil_r g). apply pieces_gap; [exact HG|]. exists [], []. split; [constructor|]. split; [exists []; split; constructor|reflexivity].
  - apply pieces_gap; [exact HG|]. exists [], w. split; [constructor|]. destruct HW as (Hw & us & HU & HF). split; [exists us; auto|]. now destruct w.
  - apply pieces_gap; [exact HG|]. now apply pieces_word_gap.
Qed.
Lemma words_split s ws : Fits s -> Words s ws -> split_chars s chars SIZE_MAX true = Ok ws.
Proof.
  intros HF HW. destruct (words_pieces s ws HW) as (cuts & rest & HC & HN & E). rewrite <- E.
  apply (p_c37 s chars SIZE_MAX true cuts rest HF HC). left. split; [|exact HN]. eapply kept_lt_max; eauto using first_char_ne.
Qed.
Lemma p_c141_words s ws : Fits s -> (split_chars s chars SIZE_MAX true = Ok ws <-> Words s ws).
Proof.
  intros HF. split; [|now apply words_split]. intros E. destruct (Text_dec s) as [[cs HT]|HN]; [|rewrite (p_c37_malformed s chars HN HF) in E; discriminate].
  destruct (words_exist s cs HT) as [ws' HW]. rewrite (words_split s ws' HF HW) in E. now injection E as ->.
Qed.

(** Concatenation. *)
Lemma words_app a g b ws wt : Words a ws -> Gap g -> g <> [] -> Words b wt -> Words (a ++ g ++ b) (ws ++ wt).
Proof.
  intros HA HG Hne HB. induction HA as [h Hh|h w Hh Hw|h w k r ws Hh Hw Hk Hkn Hr IH]; cbn [app].
  - apply words_gap; [exact Hh|]. now apply words_gap.
  - rewrite <- app_assoc. now constructor.
  - rewrite <- !app_assoc. now constructor.
Qed.
Lemma fits_parts a b : Fits (a ++ b) -> Fits a /\ Fits b.
Proof. unfold Fits, size. rewrite app_length. lia. Qed.
Lemma p_c141_concat a g b ws wt : Fits (a ++ g ++ b) -> Gap g -> g <> [] ->
  split_chars a chars SIZE_MAX true = Ok ws -> split_chars b chars SIZE_MAX true = Ok wt -> split_chars (a ++ g ++ b) chars SIZE_MAX true = Ok (ws ++ wt).
Proof.
  intros HF HG Hne HA HB. destruct (fits_parts _ _ HF) as [FA F2]. destruct (fits_parts _ _ F2) as [_ FB].
  apply p_c141_words in HA, HB; auto. apply words_split; [exact HF|]. now apply words_app.
Qed.

(** Trimming. *)
Lemma words_trail s g ws : Words s ws -> Gap g -> Words (s ++ g) ws.
Proof.
  intros HW HG. destruct g as [|b g]; [now rewrite app_nil_r|]. pose proof (words_app s (b :: g) [] ws [] HW HG ltac:(discriminate) (words_none chars [] gap_nil)) as K.
  now rewrite !app_nil_r in K.
Qed.
Lemma gap_of u us : Text u us -> Forall (fun c => u32_contains chars c = true) us -> Gap u.
Proof. intros HT HF. exists us. split; [exact HT|]. revert HF. apply Forall_impl. intros c. apply u32_contains_spec. Qed.
Lemma split_between u t w : Fits (u ++ t ++ w) -> Gap u -> Gap w -> split_chars t chars SIZE_MAX true = split_chars (u ++ t ++ w) chars SIZE_MAX true.
Proof.
  intros HF Hu Hw. destruct (fits_parts _ _ HF) as [_ F2]. destruct (fits_parts _ _ F2) as [FT _].
  destruct (Text_dec t) as [[cs HT]|HN].
  - destruct (words_exist t cs HT) as [ws HW]. rewrite (words_split t ws FT HW). symmetry. apply words_split; [exact HF|].
    apply words_gap; [exact Hu|]. now apply words_trail.
  - rewrite (p_c37_malformed t chars HN FT). symmetry. apply p_c37_malformed; [|exact HF]. intros cs HT.
    destruct Hu as (us & HU & _). destruct Hw as (ws & HW & _). destruct (Text_app_inv _ _ _ _ HU HT) as (ds & _ & HD).
    destruct (Text_suffix_inv w ws HW t ds HD) as [ts Hts]. exact (HN ts Hts).
Qed.
Lemma p_c141_trim s t : Fits s -> trim s chars = Ok t \/ trim_start s chars = Ok t \/ trim_end s chars = Ok t ->
  split_chars t chars SIZE_MAX true = split_chars s chars SIZE_MAX true.
Proof.
  intros HF [E|[E|E]].
  - destruct (trim_inv (fun c => u32_contains chars c) s t HF E) as (u & us & w & ws & -> & HT & HA & HW & HB & _). apply split_between; [exact HF|eapply gap_of; eauto|eapply gap_of; eauto].
  - destruct (start_inv (fun c => u32_contains chars c) s t HF E) as (u & us & -> & HT & HA & _).
    pose proof (split_between u t []) as K. rewrite app_nil_r in K. apply K; [exact HF|eapply gap_of; eauto|apply gap_nil].
  - destruct (end_inv (fun c => u32_contains chars c) s t HF E) as (u & us & -> & HT & HA & _).
    apply (split_between [] t u); [exact HF|apply gap_nil|eapply gap_of; eauto].
Qed.

(** Joining. *)
Lemma words_words s ws : Words s ws -> Forall Word ws.
Proof. induction 1; repeat constructor; auto; apply H0. Qed.
Lemma joined_words d ws : Gap d -> d <> [] -> Forall Word ws -> Words (interleave d ws) ws.
Proof.
  intros Hd Hne. induction 1 as [|w ws Hw HF IH]; [constructor; apply gap_nil|]. destruct ws as [|w' ws]; [exact (words_last chars [] w gap_nil Hw)|].
  exact (words_more chars [] w d _ _ gap_nil Hw Hd Hne IH).
Qed.
Lemma p_c141_uniform s ws d : Fits s -> Gap d -> d <> [] -> split_chars s chars SIZE_MAX true = Ok ws -> Fits (join ws d) ->
  split_chars (join ws d) chars SIZE_MAX true = Ok ws /\ trim (join ws d) chars = Ok (join ws d).
Proof.
  intros HF Hd Hne E HJ. apply p_c141_words in E; [|exact HF]. pose proof (words_words s ws E) as HW. rewrite join_spec in *.
  split; [apply words_split; [exact HJ|now apply joined_words]|].
  assert (first : interleave d ws = [] \/ exists g c v, interleave d ws = g ++ v /\ uchar g c /\ u32_contains chars c = false).
  { destruct HW as [|w ws (Hw & us & HT & HN) HW]; [now left|]. right. destruct HT as [|g c u us Hg HT]; [congruence|].
    inversion HN as [|x l Hx _]; subst x l. assert (u32_contains chars c = false) by (apply not_true_iff_false; now rewrite u32_contains_spec).
    destruct ws as [|w' ws]; [exists g, c, u; auto|]. cbn [interleave]. exists g, c. eexists. split; [symmetry; apply app_assoc|auto]. }
  assert (last : interleave d ws = [] \/ exists g c v, interleave d ws = v ++ g /\ uchar g c /\ u32_contains chars c = false).
  { clear - HW. induction HW as [|w ws (Hw & us & HT & HN) HW IH]; [now left|]. right. destruct ws as [|w' ws].
    - cbn [interleave]. destruct us as [|c us] using rev_ind; [apply Text_nil_inv in HT; congruence|]. clear IHus.
      apply Text_split in HT as (a & b & -> & _ & Hb). apply Forall_app in HN as [_ HN]. inversion HN as [|x l Hx _]; subst x l.
      apply Text_cons_inv in Hb as (g & s' & -> & Hg & Hs). apply Text_nil_inv in Hs as ->. rewrite app_nil_r. exists g, c, a. split; [reflexivity|]. split; [exact Hg|].
      apply not_true_iff_false. now rewrite u32_contains_spec.
    - cbn [interleave]. destruct IH as [IH|(g & c & v & IH & Hg & Hc)].
      + exfalso. inversion HW as [|x l (Hx & _) _]; subst x l. destruct w' as [|b w']; [congruence|]. destruct ws; discriminate IH.
      + exists g, c. exists (w ++ d ++ v). split; [|auto]. change (interleave d (w' :: ws)) with (interleave d (w' :: ws)) in IH. cbn [interleave] in IH |- *. rewrite IH. now rewrite <- !app_assoc. }
  unfold trim. assert (K : trim_start (interleave d ws) chars = Ok (interleave d ws)) by exact (start_kept _ _ HJ first). rewrite K. cbn [bind]. exact (end_kept _ _ HJ last).
Qed.
Lemma p_c141_same s t ws wt d : Fits s -> Fits t -> Gap d -> d <> [] ->
  split_chars s chars SIZE_MAX true = Ok ws -> split_chars t chars SIZE_MAX true = Ok wt -> Fits (join ws d) ->
  (join ws d = join wt d <-> ws = wt).
Proof.
  intros HS HT Hd Hne E1 E2 HJ. split; [|now intros ->]. intros E.
  destruct (p_c141_uniform s ws d HS Hd Hne E1 HJ) as [K _]. rewrite E in HJ, K. destruct (p_c141_uniform t wt d HT Hd Hne E2 HJ) as [K' _]. congruence.
Qed.
End Chars.
