(** C83, the converse for characters and lines. *)
From Verif Require Import Base Spec.Utf8Spec Spec.Strings Spec.Newline Spec.Split Model.Decode Model.Subrange Model.Search Model.Split
  Proofs.SearchLemmas Proofs.SplitLemmas Proofs.StrayLemmas Proofs.TokenLemmas Proofs.AlgebraLemmas.
From Coq Require Import ZifyBool ZifyNat ZifyN.

Lemma stopped_max (first : str -> str -> str -> Prop) stop s cuts rest : (forall u g v, first u g v -> g <> []) -> Fits s -> Cuts first s cuts rest ->
  stopped stop false SIZE_MAX cuts rest -> stop rest.
Proof.
  intros Hn HF HC [[_ H]|(c & u & g & _ & _ & H)]; [exact H|]. pose proof (kept_lt_max first false s cuts rest Hn HF HC). lia.
Qed.
Lemma p_c83_chars_iff : forall l d c chars, uchar d c -> In c chars -> Fits (join l d) ->
  (split_chars (join l d) chars SIZE_MAX false = Ok l <->
   l <> [] /\ exists lss, Forall2 Text l lss /\ Forall (Forall (fun x => ~ In x chars)) lss).
Proof.
  intros l d c chars Hd Hc HF. split.
  - intros E. destruct (p_c37_all (join l d) chars SIZE_MAX false HF ltac:(vm_compute; congruence)) as (cuts & rest & HC & [[HS E']|(_ & _ & E')]); rewrite E' in E; [|discriminate E].
    injection E as <-. cbn [kept]. split; [destruct (map fst cuts); discriminate|].
    apply (stopped_max _ _ _ _ _ (first_char_ne chars) HF HC) in HS. destruct HS as (us & HU & HN).
    clear -HC HU HN. revert HU HN. induction HC as [s|u g v cuts rest (ws & c & HW & HA & _) HC IH]; intros HU HN.
    + exists [us]. split; [constructor; [exact HU|constructor]|constructor; [exact HN|constructor]].
    + destruct (IH HU HN) as (lss & H1 & H2). exists (ws :: lss). split; cbn [map fst app]; constructor; assumption.
  - intros (Hl & lss & HT & HN). now apply (p_c83_chars l lss d c chars).
Qed.
Lemma p_c83_lines_iff : forall after extra l d, followed_by after extra -> one_newline d -> Fits (join l d) ->
  (split_lines after (join l d) SIZE_MAX false = Ok l <->
   l <> [] /\ exists lss, Forall2 Text l lss /\ Forall (no_line_ends extra) lss).
Proof.
  intros after extra l d Ha Hd HF. split.
  - intros E. destruct (p_c38_every after extra (join l d) SIZE_MAX false Ha HF ltac:(vm_compute; congruence)) as (cuts & rest & HC & [[HS E']|(_ & _ & E')]); rewrite E' in E; [|discriminate E].
    injection E as <-. cbn [kept]. split; [destruct (map fst cuts); discriminate|].
    apply (stopped_max _ _ _ _ _ (x_first_line_ne extra) HF HC) in HS. destruct HS as (us & HU & HN).
    clear -HC HU HN. revert HU HN. induction HC as [s|u g v cuts rest (ws & HW & HA & _) HC IH]; intros HU HN.
    + exists [us]. split; [constructor; [exact HU|constructor]|constructor; [exact HN|constructor]].
    + destruct (IH HU HN) as (lss & H1 & H2). exists (ws :: lss). split; cbn [map fst app]; constructor; assumption.
  - intros (Hl & lss & HT & HN). now apply (p_c83_lines after extra l lss d).
Qed.
