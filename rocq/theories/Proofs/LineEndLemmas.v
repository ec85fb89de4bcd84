(** C138: making line ends uniform. *)
From Verif Require Import Base Spec.Utf8Spec Spec.Strings Spec.Newline Spec.Split Spec.Visits Spec.LineEnds
  Model.Decode Model.Encode Model.Subrange Model.Search Model.Split
  Proofs.UnescapeStep Proofs.Utf8Lemmas Proofs.EncodeLemmas Proofs.CodepointLemmas Proofs.SearchLemmas Proofs.NewlineLemmas Proofs.StrayLemmas Proofs.SplitLemmas
  Proofs.AlgebraLemmas Proofs.JoinSplitLemmas Proofs.VisitLemmas.
From Coq Require Import ZifyBool ZifyNat ZifyN.

(** Joined lines are cut at the joints. *)
Lemma joined_cuts extra l lss d : Forall2 Text l lss -> l <> [] -> Forall (no_line_ends extra) lss -> one_newline d ->
  exists cuts rest, l = map fst cuts ++ [rest] /\ Forall (fun p => snd p = d) cuts /\
    Cuts (first_line_end_of extra) (interleave d l) cuts rest /\ no_line_end_of extra rest.
Proof.
  intros HT Hl HN HD. induction HT as [|x xs l lss Hx HT IH]; [congruence|]. apply Forall_cons_iff in HN as [HX HN]. destruct HT as [|y ys l lss Hy HT].
  - exists [], x. split; [reflexivity|]. split; [constructor|]. split; [constructor|]. exists xs. now split.
  - destruct IH as (cuts & rest & E & HS & HC & Hr); [discriminate|assumption|]. exists ((x, d) :: cuts), rest. rewrite E. split; [reflexivity|].
    split; [now constructor|]. split; [|exact Hr].
    rewrite <- E. change (interleave d (x :: y :: l)) with (x ++ d ++ interleave d (y :: l)). constructor; [|exact HC].
    exists xs. split; [exact Hx|]. split; [assumption|]. destruct HD as [(c & Hd & Hc)|HD]; [left|now right].
    exists c. split; [exact Hd|]. split; [now left|]. destruct (N.eq_dec c 0x0D) as [->|Hc']; [right|now left].
    destruct Hy as [|g e y ys Hg Hy].
    + destruct l as [|z l]; [now left|]. right. exists 0x0D, (interleave d (z :: l)). split; [discriminate|]. exists d. split; [reflexivity|exact Hd].
    + right. exists e. apply Forall_cons_iff in HN as [HN _]. apply Forall_cons_iff in HN as [HN _].
      destruct l as [|z l].
      * exists y. split; [intros ->; apply HN; left; now left|]. exists g. split; [reflexivity|exact Hg].
      * exists (y ++ d ++ interleave d (z :: l)). split; [intros ->; apply HN; left; now left|]. exists g. split; [|exact Hg].
        change (interleave d ((g ++ y) :: z :: l)) with ((g ++ y) ++ d ++ interleave d (z :: l)). now rewrite <- app_assoc.
Qed.
Lemma cuts_lines extra s cuts rest : Cuts (first_line_end_of extra) s cuts rest -> no_line_end_of extra rest ->
  exists lss, Forall2 Text (map fst cuts ++ [rest]) lss /\ Forall (no_line_ends extra) lss.
Proof.
  intros HC (us & HU & HN). revert HU HN. induction HC as [s|u g v cuts rest (ws & HW & HA & _) HC IH]; intros HU HN.
  - exists [us]. split; [constructor; [exact HU|constructor]|constructor; [exact HN|constructor]].
  - destruct (IH HU HN) as (lss & H1 & H2). exists (ws :: lss). split; cbn [map fst app]; constructor; assumption.
Qed.
Lemma line_cuts after extra s ls : followed_by after extra -> Fits s -> split_lines after s SIZE_MAX false = Ok ls ->
  exists cuts rest, Cuts (first_line_end_of extra) s cuts rest /\ no_line_end_of extra rest /\ ls = map fst cuts ++ [rest].
Proof.
  intros Ha HF E. destruct (p_c38_every after extra s SIZE_MAX false Ha HF ltac:(vm_compute; congruence)) as (cuts & rest & HC & [[HS E']|(_ & _ & E')]); rewrite E' in E; [|discriminate E].
  injection E as <-. exists cuts, rest. split; [exact HC|]. split; [|reflexivity].
  exact (stopped_max _ _ _ _ _ (x_first_line_ne extra) HF HC HS).
Qed.
(** The ranges and the separators. *)
Lemma ranges_cover first s cuts rest d : Cuts first s cuts rest -> forall p,
  Forall (fun x => covers (p ++ s) x d) (cut_ranges (size p) cuts) <-> Forall (fun q => snd q = d) cuts.
Proof.
  induction 1 as [s|u g v cuts rest HF HC IH]; intros p; [cbn [cut_ranges]; split; intros _; constructor|]. cbn [cut_ranges].
  replace (size p + size u + size g) with (size (p ++ u ++ g)) by (unfold size; rewrite !app_length; lia).
  replace (p ++ u ++ g ++ v) with ((p ++ u ++ g) ++ v) by (rewrite <- !app_assoc; reflexivity).
  rewrite !Forall_cons_iff, IH. cbn [snd]. split; intros [H1 H2]; split; auto.
  - destruct H1 as (a & b & E & S1 & S2). unfold sub_start in *. cbn [sub_offset sub_length] in *.
    rewrite <- !app_assoc in E. rewrite app_assoc in E.
    assert (L : length (p ++ u) = length a) by (unfold size in S1; rewrite app_length; lia).
    destruct (app_inj_len _ _ _ _ L E) as [_ E1].
    assert (L2 : length g = length d) by (unfold size in S2; lia).
    destruct (app_inj_len _ _ _ _ L2 E1) as [E2 _]. exact E2.
  - subst g. exists (p ++ u), v. split; [rewrite <- !app_assoc; reflexivity|]. unfold sub_start. cbn [sub_offset sub_length]. unfold size. rewrite app_length. split; lia.
Qed.
Lemma same_separator first s cuts rest d : Cuts first s cuts rest -> Forall (fun q => snd q = d) cuts -> interleave d (map fst cuts ++ [rest]) = s.
Proof.
  induction 1 as [s|u g v cuts rest HF HC IH]; intros HS; [reflexivity|]. apply Forall_cons_iff in HS as [E HS]. cbn [snd] in E. subst g.
  cbn [map fst app]. rewrite interleave_cons by (destruct (map fst cuts); discriminate). now rewrite IH.
Qed.
Lemma ranges_length cuts : forall o, length (cut_ranges o cuts) = length cuts.
Proof. induction cuts as [|[u g] cuts IH]; intros o; [reflexivity|]. cbn [cut_ranges length]. now rewrite IH. Qed.

Lemma p_c138_uniform after extra s ls d : followed_by after extra -> one_newline d -> Fits s -> split_lines after s SIZE_MAX false = Ok ls -> Fits (join ls d) ->
  split_lines after (join ls d) SIZE_MAX false = Ok ls /\
  exists rs, Visits (find_first_newline after (join ls d)) sub_end 0 rs /\ (length rs + 1 = length ls)%nat /\ Forall (fun x => covers (join ls d) x d) rs.
Proof.
  intros Ha Hd HF E HJ. destruct (line_cuts after extra s ls Ha HF E) as (cuts & rest & HC & HN & ->).
  destruct (cuts_lines extra s cuts rest HC HN) as (lss & HT & HL).
  assert (NE : map fst cuts ++ [rest] <> []) by (destruct (map fst cuts); discriminate).
  split; [now apply (p_c83_lines after extra _ lss d)|].
  destruct (joined_cuts extra _ lss d HT NE HL Hd) as (cuts2 & rest2 & E2 & HS & HC2 & HN2).
  rewrite join_spec in *. exists (cut_ranges 0 cuts2). split; [now apply (visits_first_line extra after Ha _ cuts2 rest2)|].
  split; [rewrite ranges_length, E2, app_length, map_length; cbn; lia|].
  apply (ranges_cover _ _ _ _ d HC2 []). exact HS.
Qed.
Lemma p_c138_unchanged after extra s ls d rs : followed_by after extra -> one_newline d -> Fits s -> split_lines after s SIZE_MAX false = Ok ls ->
  Visits (find_first_newline after s) sub_end 0 rs -> (join ls d = s <-> Forall (fun x => covers s x d) rs).
Proof.
  intros Ha Hd HF E HV. destruct (line_cuts after extra s ls Ha HF E) as (cuts & rest & HC & HN & ->).
  pose proof (visits_first_line extra after Ha s cuts rest HC HN HF) as HV1. rewrite (visits_fun _ _ _ _ HV _ HV1). rewrite join_spec.
  split.
  - intros EJ. destruct (cuts_lines extra s cuts rest HC HN) as (lss & HT & HL).
    assert (NE : map fst cuts ++ [rest] <> []) by (destruct (map fst cuts); discriminate).
    destruct (joined_cuts extra _ lss d HT NE HL Hd) as (cuts2 & rest2 & E2 & HS & HC2 & HN2). rewrite EJ in HC2.
    pose proof (visits_first_line extra after Ha s cuts2 rest2 HC2 HN2 HF) as HV2. rewrite (visits_fun _ _ _ _ HV1 _ HV2).
    apply (ranges_cover _ _ _ _ d HC2 []). exact HS.
  - intros HS. apply (ranges_cover _ _ _ _ d HC []) in HS. now apply (same_separator _ s cuts rest d HC).
Qed.
Lemma p_c138_same after extra s t ls lt d : followed_by after extra -> one_newline d -> Fits s -> Fits t ->
  split_lines after s SIZE_MAX false = Ok ls -> split_lines after t SIZE_MAX false = Ok lt -> Fits (join ls d) ->
  (join ls d = join lt d <-> ls = lt).
Proof.
  intros Ha Hd HS HT E1 E2 HJ. split; [|now intros ->]. intros EJ.
  destruct (p_c138_uniform after extra s ls d Ha Hd HS E1 HJ) as [U1 _]. rewrite EJ in HJ, U1.
  destruct (p_c138_uniform after extra t lt d Ha Hd HT E2 HJ) as [U2 _]. rewrite U1 in U2. now injection U2.
Qed.
