(** C96: repeated searches. *)
From Verif Require Import Base Spec.Utf8Spec Spec.Strings Spec.Slices Spec.Newline Spec.Split Spec.CaseFold Spec.Visits
  Model.Decode Model.Encode Model.Subrange Model.Search Model.Split Model.CharClass Model.Chars Model.CodepointSet Model.ConvertCase Model.CaseInsensitive
  Proofs.Utf8Lemmas Proofs.EncodeLemmas Proofs.CodepointLemmas Proofs.Utf8Props Proofs.SearchLemmas
  Proofs.NewlineLemmas Proofs.StrayLemmas Proofs.SliceLemmas Proofs.CharLemmas Proofs.PositionProps Proofs.SplitLemmas
  Proofs.CiFindLemmas Proofs.CiReplaceLemmas Proofs.CiLemmas.
From Coq Require Import ZifyBool ZifyNat ZifyN.
Ltac Zify.zify_post_hook ::= Z.div_mod_to_equations.

Lemma visits_fun search next o l : Visits search next o l -> forall l', Visits search next o l' -> l = l'.
Proof.
  induction 1 as [o r E Z|o r rs E Z H IH]; intros l' H'; inversion H' as [o' r' E' Z'|o' r' rs' E' Z' H2]; subst; rewrite E in E'; injection E' as <-; try congruence.
  f_equal. now apply IH.
Qed.
Lemma size_nz (g : str) : g <> [] -> size g <> 0.
Proof. unfold size. destruct g; [congruence|cbn [length]; lia]. Qed.

Section Forward.
Variable (search : str -> N -> outcome subrange) (first : str -> str -> str -> Prop) (stop : str -> Prop).
Hypothesis first_ne : forall u g v, first u g v -> g <> [].
Hypothesis first_ok : forall pre u g v, Fits (pre ++ u ++ g ++ v) -> first u g v ->
  search (pre ++ u ++ g ++ v) (size pre) = Ok (Sub (size (pre ++ u)) (size g)).
Hypothesis stop_ok : forall pre t, Fits (pre ++ t) -> stop t -> exists o, search (pre ++ t) (size pre) = Ok (Sub o 0).
Lemma visits_forward s cuts rest : Cuts first s cuts rest -> stop rest -> forall pre, Fits (pre ++ s) ->
  Visits (search (pre ++ s)) sub_end (size pre) (cut_ranges (size pre) cuts).
Proof using All.
  intros HC HS. induction HC as [s|u g v cuts rest F HC IH]; intros pre HF; cbn [cut_ranges].
  - destruct (stop_ok pre s HF HS) as [o E]. eapply visits_end; [exact E|reflexivity].
  - rewrite <- size_app. eapply visits_step.
    + now apply first_ok.
    + cbn [sub_length]. apply size_nz. eauto.
    + rewrite sub_end_small by (rewrite !app_assoc in HF; now apply Fits_l in HF).
      rewrite <- size_app. specialize (IH HS ((pre ++ u) ++ g)).
      replace (pre ++ u ++ g ++ v) with (((pre ++ u) ++ g) ++ v) in HF |- * by (repeat rewrite <- app_assoc; reflexivity).
      now apply IH.
Qed.
Lemma visits_from_start s cuts rest : Cuts first s cuts rest -> stop rest -> Fits s ->
  Visits (search s) sub_end 0 (cut_ranges 0 cuts).
Proof using All. intros HC HS HF. exact (visits_forward s cuts rest HC HS [] HF). Qed.
End Forward.

Lemma cut_ranges_snoc cuts u g : forall o,
  cut_ranges o (cuts ++ [(u, g)]) = cut_ranges o cuts ++ [Sub (o + size (concat (map (fun p => fst p ++ snd p) cuts)) + size u) (size g)].
Proof.
  induction cuts as [|[u' g'] cuts IH]; intros o; cbn [app cut_ranges map concat fst snd].
  - change (size []) with 0. now rewrite N.add_0_r.
  - rewrite IH. do 2 f_equal. rewrite !size_app. f_equal. f_equal. lia.
Qed.

Section Backward.
Variable (search : str -> N -> outcome subrange) (first : str -> str -> str -> Prop) (stop : str -> Prop).
Hypothesis first_ne : forall u g v, first u g v -> g <> [].
Hypothesis first_stop : forall u g v, first u g v -> stop u.
Hypothesis first_cut : forall u g v w, first u g (v ++ w) -> (exists vs, Text v vs) -> first u g v.
Hypothesis first_text : forall u g v, first u g v -> exists us gs, Text u us /\ Text g gs.
Hypothesis stop_text : forall t, stop t -> exists ts, Text t ts.
(* the last cut is found *)
Hypothesis last_ok : forall cuts s u g rest post o, Cuts first (s ++ g ++ rest) cuts (u ++ g ++ rest) -> stop rest -> first u g rest ->
  Fits (s ++ g ++ rest ++ post) -> N.min o (size (s ++ g ++ rest ++ post)) = size (s ++ g ++ rest) ->
  search (s ++ g ++ rest ++ post) o = Ok (Sub (size s) (size g)).
Hypothesis stop_ok : forall t post o, Fits (t ++ post) -> stop t -> N.min o (size (t ++ post)) = size t ->
  exists e, search (t ++ post) o = Ok (Sub e 0).

Lemma cuts_prefix (u : str) (us : list N) w rest : Text u us -> forall cuts s, Cuts first s cuts rest -> rest = u ++ w ->
  exists s', s = s' ++ w /\ Cuts first s' cuts u /\ exists ts, Text s' ts.
Proof using first_cut first_text.
  intros HU cuts s HC. induction HC as [s|a g v cuts rest F HC IH]; intros ->.
  - exists u. split; [reflexivity|]. split; [constructor|eauto].
  - destruct (IH eq_refl) as (s' & -> & HC' & ts & HT). destruct (first_text _ _ _ F) as (us1 & gs & H1 & H2).
    exists (a ++ g ++ s'). split; [now rewrite <- !app_assoc|]. split.
    + constructor; [|exact HC']. eapply first_cut; eauto.
    + exists (us1 ++ gs ++ ts). repeat apply Text_app; auto.
Qed.
Lemma visits_backward cuts : forall s rest, Cuts first s cuts rest -> stop rest -> forall post o, Fits (s ++ post) ->
  N.min o (size (s ++ post)) = size s ->
  Visits (search (s ++ post)) sub_start o (rev (cut_ranges 0 cuts)).
Proof using All.
  induction cuts as [|[u g] cuts IH] using rev_ind; intros s rest HC HS post o HF Ho.
  - inversion HC; subst. destruct (stop_ok rest post o HF HS Ho) as [e E]. eapply visits_end; [exact E|reflexivity].
  - apply Cuts_split in HC. destruct HC as (m & HC & Hm). inversion Hm as [|? ? v ? ? F HR]; subst. inversion HR; subst.
    destruct (first_text _ _ _ F) as (us & gs & HU & HG).
    destruct (cuts_prefix u us (g ++ rest) _ HU cuts s HC eq_refl) as (s' & -> & HC' & _).
    rewrite cut_ranges_snoc, rev_app_distr. cbn [rev app].
    replace (0 + _ + size u) with (size s') by (rewrite (Cuts_concat _ _ _ _ HC') at 1; rewrite size_app; lia).
    rewrite <- !app_assoc in HF, Ho |- *.
    eapply visits_step.
    + eapply last_ok; eauto.
    + cbn [sub_length]. apply size_nz. eauto.
    + cbn [sub_start sub_offset]. eapply IH; eauto.
      rewrite !size_app. lia.
Qed.
Lemma visits_from_end s cuts rest : Cuts first s cuts rest -> stop rest -> Fits s ->
  Visits (search s) sub_start npos (rev (cut_ranges 0 cuts)).
Proof using All.
  intros HC HS HF. pose proof (visits_backward cuts s rest HC HS [] npos) as H. rewrite app_nil_r in H. apply H; [exact HF|].
  unfold Fits in HF. unfold npos, SIZE_MAX. lia.
Qed.
End Backward.

(** *** Strings *)
Lemma occ_shift p pre t j : occurs_at p t j -> occurs_at p (pre ++ t) (length pre + j).
Proof. intros (u & v & -> & <-). exists (pre ++ u), v. split; [now rewrite <- app_assoc|now rewrite app_length]. Qed.
Lemma occ_unshift p pre t j : occurs_at p (pre ++ t) (length pre + j) -> occurs_at p t j.
Proof.
  intros (u & v & E & L). assert (exists w, u = pre ++ w) as [w ->].
  { exists (skipn (length pre) u). pose proof (f_equal (firstn (length pre)) E) as K.
    rewrite firstn_app, Nat.sub_diag, firstn_all, firstn_O, app_nil_r in K.
    rewrite firstn_app in K. replace (length pre - length u)%nat with 0%nat in K by lia. rewrite firstn_O, app_nil_r in K.
    rewrite K at 1. symmetry. apply firstn_skipn. }
  rewrite <- app_assoc in E. apply app_inv_head in E. exists w, v. split; [exact E|]. rewrite app_length in L. lia.
Qed.
Lemma find_first_at sep pre u g v : sep <> [] -> first_sep sep u g v ->
  find_first (pre ++ u ++ g ++ v) sep (size pre) = Ok (Sub (size (pre ++ u)) (size g)).
Proof.
  intros Hs [-> H]. set (s := pre ++ u ++ sep ++ v).
  destruct (find_first_spec s sep (length pre) Hs ltac:(unfold s; rewrite app_length; lia)) as [(i & Hi & Ho & Hb & E)|[Hn E]]; unfold size at 1; rewrite E.
  - assert (i = length (pre ++ u)) as ->; [|reflexivity]. rewrite app_length.
    assert (occurs_at sep s (length pre + length u)) as Hu by (apply occ_shift; exists u, v; auto).
    destruct (Nat.lt_trichotomy i (length pre + length u)) as [L|[->|L]]; [|reflexivity|].
    + exfalso. apply (H (i - length pre)%nat ltac:(lia)). apply (occ_unshift sep pre). now replace (length pre + (i - length pre))%nat with i by lia.
    + exfalso. apply (Hb (length pre + length u)%nat); [lia|exact Hu].
  - exfalso. apply (Hn (length pre + length u)%nat); [lia|]. apply occ_shift. exists u, v. auto.
Qed.
Lemma find_first_none sep pre t : sep <> [] -> (forall i, ~ occurs_at sep t i) -> find_first (pre ++ t) sep (size pre) = Ok (Sub (size (pre ++ t)) 0).
Proof.
  intros Hs H. destruct (find_first_spec (pre ++ t) sep (length pre) Hs ltac:(rewrite app_length; lia)) as [(i & Hi & Ho & Hb & E)|[Hn E]]; unfold size at 1; rewrite E; [exfalso|reflexivity].
  apply (H (i - length pre)%nat). apply (occ_unshift sep pre). now replace (length pre + (i - length pre))%nat with i by lia.
Qed.
Lemma unlimited ign (cuts : list (str * str)) (first : str -> str -> str -> Prop) s rest (stop : str -> Prop) : (forall u g v, first u g v -> g <> []) ->
  Cuts first s cuts rest -> Fits s -> stop rest -> stopped stop ign SIZE_MAX cuts rest.
Proof.
  intros Hne HC HF HS. left. split; [|exact HS].
  assert (length cuts <= length s)%nat as L.
  { clear HF HS. induction HC as [|u g v cuts rest F HC IH]; [cbn; lia|]. apply Hne in F. destruct g; [congruence|]. rewrite !app_length. cbn [length]. lia. }
  assert (length (kept ign (map fst cuts)) <= length cuts)%nat.
  { rewrite <- (map_length fst cuts). apply kept_length. }
  unfold Fits, size in HF. unfold SIZE_MAX. lia.
Qed.
Lemma p_c96_sep s p : p <> [] -> Fits s -> exists cuts rest, Cuts (first_sep p) s cuts rest /\ (forall i, ~ occurs_at p rest i) /\
  Visits (find_first s p) sub_end 0 (cut_ranges 0 cuts) /\ split_sep s p SIZE_MAX false = Ok (map fst cuts ++ [rest]).
Proof.
  intros Hp HF. assert (forall u g v, first_sep p u g v -> g <> []) as Hne by (intros u g v [-> _]; exact Hp).
  destruct (cuts_exist (first_sep p) _ Hne (fun t => sep_cases p t Hp) s) as (cuts & rest & HC & HS).
  exists cuts, rest. split; [exact HC|]. split; [exact HS|]. split.
  - refine (visits_from_start (fun s o => find_first s p o) (first_sep p) (fun t => forall i, ~ occurs_at p t i) Hne _ _ s cuts rest HC HS HF).
    + intros. now apply find_first_at.
    + intros pre t _ Ht. eexists. now apply find_first_none.
  - change (map fst cuts ++ [rest]) with (kept false (map fst cuts ++ [rest])).
    apply p_c39_limit; auto. exact (unlimited false cuts (first_sep p) s rest _ Hne HC HF HS).
Qed.

(** *** Code points *)
Lemma first_match_ne f u g v : first_match f u g v -> g <> [].
Proof. intros (us & c & _ & _ & Hg & _) ->. inversion Hg. Qed.
Lemma match_cuts f s cs : Text s cs -> exists cuts rest, Cuts (first_match f) s cuts rest /\ no_match f rest.
Proof.
  intros HT.
  destruct (cuts_exist (first_match f) (fun t => no_match f t \/ exists u us r, t = u ++ r /\ Text u us /\ Forall (fun x => f x = false) us /\ Malformed r)
    (first_match_ne f)) with (s := s) as (cuts & rest & HC & HS).
  { intros t. destruct (first_where_cases f t) as [(u & us & g & c & v & -> & H)|[(us & H)|(u & us & r & -> & H)]].
    - left. exists u, g, v. split; [reflexivity|]. now exists us, c.
    - right. left. now exists us.
    - right. right. now exists u, us, r. }
  exists cuts, rest. split; [exact HC|]. destruct HS as [HS|(u & us & r & -> & HU & _ & HM)]; [exact HS|exfalso].
  destruct (Cuts_text (first_match f) s cuts (u ++ r)) with (cs := cs) as (rs & HR); auto.
  { intros u' g v (us' & c & H1 & _ & H2 & _). exists us', [c]. split; [exact H1|]. rewrite <- (app_nil_r g). constructor; [exact H2|constructor]. }
  destruct (Text_app_inv u us r rs HU HR) as (vs & _ & HV). destruct HM as [Hr Hm].
  inversion HV as [|g c s' cs' Hg _ E]; subst; [congruence|]. exact (Hm _ _ _ Hg eq_refl).
Qed.
Lemma visits_first_where f s cuts rest : Cuts (first_match f) s cuts rest -> no_match f rest -> Fits s ->
  Visits (fun o => omap fst (find_first_where s f o)) sub_end 0 (cut_ranges 0 cuts).
Proof.
  apply (visits_from_start (fun s o => omap fst (find_first_where s f o)) (first_match f) (no_match f)).
  - apply first_match_ne.
  - intros pre u g v _ (us & c & H1 & H2 & H3 & H4). rewrite (proj1 (p_c16 f pre) u us g c v H1 H2 H3 H4). reflexivity.
  - intros pre t _ (us & H1 & H2). rewrite (proj1 (proj2 (p_c16 f pre)) t us H1 H2). now exists npos.
Qed.
Lemma visits_last_where f s cuts rest : Cuts (first_match f) s cuts rest -> no_match f rest -> Fits s ->
  Visits (fun o => omap fst (find_last_where s f o)) sub_start npos (rev (cut_ranges 0 cuts)).
Proof.
  apply (visits_from_end (fun s o => omap fst (find_last_where s f o)) (first_match f) (no_match f)).
  - apply first_match_ne.
  - intros u g v (us & c & H1 & H2 & _). now exists us.
  - intros u g v w (us & c & H) _. now exists us, c.
  - intros u g v (us & c & H1 & _ & H2 & _). exists us, [c]. split; [exact H1|]. rewrite <- (app_nil_r g). constructor; [exact H2|constructor].
  - intros t (us & H & _). now exists us.
  - intros cuts0 s0 u g rest0 post o HC (rs & HR & Hr) (us & c & H1 & H2 & H3 & H4) HF Ho.
    rewrite (proj1 (p_c17 f post o) s0 rest0 rs g c Ho HR Hr H3 H4). reflexivity.
  - intros t post o HF (us & H1 & H2) Ho. rewrite (proj1 (proj2 (p_c17 f post o)) t us Ho H1 H2). now exists npos.
Qed.
Lemma p_c96_where f s cs : Text s cs -> Fits s -> exists cuts rest, Cuts (first_match f) s cuts rest /\ no_match f rest /\
  Visits (fun o => omap fst (find_first_where s f o)) sub_end 0 (cut_ranges 0 cuts) /\
  Visits (fun o => omap fst (find_last_where s f o)) sub_start npos (rev (cut_ranges 0 cuts)).
Proof.
  intros HT HF. destruct (match_cuts f s cs HT) as (cuts & rest & HC & HS). exists cuts, rest.
  repeat split; auto; [eapply visits_first_where|eapply visits_last_where]; eauto.
Qed.
Lemma p_c96_chars chars s cs : Text s cs -> Fits s -> exists cuts rest, Cuts (first_char chars) s cuts rest /\ no_char chars rest /\
  Visits (fun o => omap fst (find_first_of s chars o)) sub_end 0 (cut_ranges 0 cuts) /\
  Visits (fun o => omap fst (find_last_of s chars o)) sub_start npos (rev (cut_ranges 0 cuts)) /\
  split_chars s chars SIZE_MAX false = Ok (map fst cuts ++ [rest]).
Proof.
  intros HT HF. destruct (p_c96_where (fun c => u32_contains chars c) s cs HT HF) as (cuts & rest & HC & HS & V1 & V2).
  assert (Cuts (first_char chars) s cuts rest) as HC'.
  { revert HC. apply Cuts_impl. intros u g v (us & c & H1 & H2 & H3 & H4). exists us, c. apply set_nonep in H2. apply u32_contains_spec in H4. auto. }
  assert (no_char chars rest) as HS'.
  { destruct HS as (us & H1 & H2). exists us. apply set_nonep in H2. auto. }
  exists cuts, rest. repeat split; auto.
  change (map fst cuts ++ [rest]) with (kept false (map fst cuts ++ [rest])). apply p_c37; auto. exact (unlimited false cuts (first_char chars) s rest _ (first_char_ne chars) HC' HF HS').
Qed.

Lemma stopped_unlimited ign (first : str -> str -> str -> Prop) s cuts rest stop : (forall u g v, first u g v -> g <> []) ->
  Cuts first s cuts rest -> Fits s -> stopped stop ign SIZE_MAX cuts rest -> stop rest.
Proof.
  intros Hne HC HF [[_ HS]|(c & u & g & _ & _ & E)]; [exact HS|exfalso].
  pose proof (kept_lt_max _ ign _ _ _ Hne HF HC) as L. rewrite E in L. lia.
Qed.

(** *** Newlines *)
Section Lines.
Variables (extra after : list N).
Hypothesis Hafter : followed_by after extra.
Notation first := (first_line_end_of extra).
Notation stop := (no_line_end_of extra).
Lemma lines_cut u g v w : first u g (v ++ w) -> (exists vs, Text v vs) -> first u g v.
Proof using.
  intros (us & H1 & H2 & [(c & Hg & Hc & Hv)|H]) (vs & HV); exists us; split; auto; split; auto. left. exists c. split; auto. split; auto.
  destruct Hv as [Hv|[Hv|(d & z & Hd & (g' & E & Hg'))]]; [now left| |].
  - apply app_eq_nil in Hv. right. left. apply Hv.
  - inversion HV as [|g2 c2 s2 cs2 Hg2 H3]; subst; [right; left; reflexivity|]. right. right.
    rewrite <- app_assoc in E. destruct (uchar_prefix_unique _ _ _ _ _ _ Hg2 Hg' E) as (-> & -> & _).
    exists d, s2. split; [exact Hd|]. now exists g'.
Qed.
Lemma visits_first_line s cuts rest : Cuts first s cuts rest -> stop rest -> Fits s ->
  Visits (find_first_newline after s) sub_end 0 (cut_ranges 0 cuts).
Proof using All.
  apply (visits_from_start (find_first_newline after) first stop).
  - apply x_first_line_ne.
  - intros pre u g v HF (us & Hu & Hus & [(c & Hg & Hc & Hv)|(cr & lf & -> & Hcr & Hlf)]); destruct (proj2 (p_c18_all after pre) extra Hafter) as (H1 & H2 & _).
    + now apply H1 with (us := us) (c := c).
    + rewrite <- app_assoc in HF |- *. now apply H2 with (us := us).
  - intros pre t _ (us & H1 & H2). exists npos. destruct (proj2 (p_c18_all after pre) extra Hafter) as (_ & _ & H & _). now apply H with us.
Qed.
Lemma not_cr_before cuts s u lf rest : Cuts first (s ++ lf ++ rest) cuts (u ++ lf ++ rest) -> first u lf rest -> uchar lf 0x0A ->
  s = [] \/ exists d w, d <> 0x0D /\ ends_with_codepoint s d w.
Proof using.
  intros HC (us & HU & Hus & _) Hlf.
  assert (s = concat (map (fun p => fst p ++ snd p) cuts) ++ u) as Es.
  { pose proof (Cuts_concat _ _ _ _ HC) as E. rewrite (app_assoc _ u) in E. now apply app_inv_tail in E. }
  destruct us as [|d us _] using rev_ind.
  - apply Text_nil_inv in HU. subst u. rewrite app_nil_r in Es. destruct cuts as [|[u' g'] cuts _] using rev_ind; [now left|right].
    apply Cuts_split in HC. destruct HC as (m & _ & Hm). inversion Hm as [|? ? v ? ? F HR]; subst. inversion HR; subst.
    rewrite map_app, concat_app. cbn [map concat fst snd]. rewrite app_nil_r. set (X := concat _).
    destruct F as (us' & _ & _ & [(c & Hg & _ & Hv)|(cr & lf' & -> & _ & Hlf')]).
    + exists c, (X ++ u'). split; [|exists g'; split; [now rewrite <- app_assoc|exact Hg]]. cbn [app] in Hv.
      destruct Hv as [Hv|[Hv|(d & w & Hd & (g2 & E & Hg2))]]; [exact Hv| |].
      * apply app_eq_nil in Hv. destruct Hv as [-> _]. inversion Hlf.
      * destruct (uchar_prefix_unique _ _ _ _ _ _ Hlf Hg2 E) as (_ & <- & _). congruence.
    + exists 0x0A, (X ++ u' ++ cr). split; [discriminate|]. exists lf'. split; [now rewrite <- !app_assoc|exact Hlf'].
  - right. destruct (Text_cut _ _ _ HU) as (a & b & -> & HA & HB). apply Text_cons_inv in HB. destruct HB as (g & w & -> & Hg & HW).
    apply Text_nil_inv in HW. subst w. rewrite app_nil_r in *. exists d. eexists. split.
    + intros ->. apply Forall_app in Hus. destruct Hus as [_ Hd]. apply Forall_inv in Hd. apply Hd. left. unfold newline. auto.
    + exists g. split; [|exact Hg]. rewrite Es, app_assoc. reflexivity.
Qed.
Lemma visits_last_line s cuts rest : Cuts first s cuts rest -> stop rest -> Fits s ->
  Visits (find_last_newline after s) sub_start npos (rev (cut_ranges 0 cuts)).
Proof using All.
  apply (visits_from_end (find_last_newline after) first stop).
  - apply x_first_line_ne.
  - intros u g v (us & H1 & H2 & _). now exists us.
  - exact lines_cut.
  - apply x_first_line_text.
  - intros t (us & H & _). now exists us.
  - intros cuts0 s0 u g rest0 post o HC (rs & HR & Hr) F HF Ho.
    destruct (proj2 (p_c19_all after post o) extra Hafter) as (H1 & H2 & _).
    pose proof F as (us & HU & Hus & [(c & Hg & Hc & Hv)|(cr & lf & -> & Hcr & Hlf)]).
    + apply H1 with (c := c) (us := rs); auto. destruct (N.eq_dec c 0x0A) as [->|Hn]; [|now left]. right.
      eapply not_cr_before; eauto.
    + rewrite <- (app_assoc cr lf (rest0 ++ post)) in HF, Ho |- *. rewrite <- (app_assoc cr lf rest0) in Ho. now apply H2 with (us := rs).
  - intros t post o HF (us & H1 & H2) Ho. exists npos. destruct (proj2 (p_c19_all after post o) extra Hafter) as (_ & _ & H & _). now apply H with us.
Qed.
Lemma p_c96_lines s cs : Text s cs -> Fits s -> exists cuts rest, Cuts first s cuts rest /\ stop rest /\
  Visits (find_first_newline after s) sub_end 0 (cut_ranges 0 cuts) /\
  Visits (find_last_newline after s) sub_start npos (rev (cut_ranges 0 cuts)) /\
  split_lines after s SIZE_MAX false = Ok (map fst cuts ++ [rest]).
Proof using All.
  intros HT HF. destruct (p_c38_cuts extra s cs SIZE_MAX false HT ltac:(unfold SIZE_MAX; lia)) as (cuts & rest & HC & HS).
  exists cuts, rest. pose proof (stopped_unlimited false first s cuts rest stop (x_first_line_ne extra) HC HF HS) as HR.
  repeat split; auto.
  - now apply visits_first_line with rest.
  - now apply visits_last_line with rest.
  - exact (proj1 (proj2 (proj2 (p_c38_all after) extra Hafter)) s SIZE_MAX false cuts rest HF HC HS).
Qed.
End Lines.

(** *** Ignoring case *)
Lemma p_c96_ci_sep ps sep s cs : ps <> [] -> Text sep ps -> Text s cs -> Fits s -> exists cuts rest, Cuts (first_ci ps) s cuts rest /\ no_ci ps rest /\
  Visits (ci_find_first s sep) sub_end 0 (cut_ranges 0 cuts) /\ ci_split_sep s sep SIZE_MAX false = Ok (map fst cuts ++ [rest]).
Proof.
  intros Hne Hp HT HF. destruct (p_c52_exists ps sep Hne Hp s cs SIZE_MAX false HT ltac:(unfold SIZE_MAX; lia)) as (cuts & rest & HC & HS).
  assert (forall u g v, first_ci ps u g v -> g <> []) as Hfn by (intros u g v; now apply first_ci_ne).
  exists cuts, rest. pose proof (stopped_unlimited false (first_ci ps) s cuts rest (no_ci ps) Hfn HC HF HS) as HR.
  repeat split; auto.
  - refine (visits_from_start (fun s o => ci_find_first s sep o) (first_ci ps) (no_ci ps) Hfn _ _ s cuts rest HC HR HF).
    + intros pre u g v _ F. now apply (proj1 (p_c50_first ps sep pre Hne Hp)).
    + intros pre t _ Ht. exists npos. now apply (proj1 (proj2 (p_c50_first ps sep pre Hne Hp))).
  - exact (p_c52 ps sep Hne Hp s SIZE_MAX false cuts rest HF HC HS).
Qed.
Lemma p_c96_ci_chars chars s cs : Forall (fun d => d < 0x100000000) chars -> Text s cs -> Fits s ->
  exists cuts rest, Cuts (first_ci_char chars) s cuts rest /\ no_ci_char chars rest /\
  Visits (fun o => omap fst (ci_find_first_of s chars o)) sub_end 0 (cut_ranges 0 cuts) /\
  Visits (fun o => omap fst (ci_find_last_of s chars o)) sub_start npos (rev (cut_ranges 0 cuts)) /\
  ci_split_chars s chars SIZE_MAX false = Ok (map fst cuts ++ [rest]).
Proof.
  intros HX HT HF. destruct (p_c96_where (fun c => u32_ci_contains chars c) s cs HT HF) as (cuts & rest & HC & HS & V1 & V2).
  assert (Cuts (first_ci_char chars) s cuts rest) as HC'.
  { revert HC. apply Cuts_impl. intros u g v (us & c & H1 & H2 & H3 & H4). exists us, c. apply (u32_ci_nonep chars HX u us H1) in H2.
    split; [exact H1|]. split; [exact H2|]. split; [exact H3|]. apply u32_ci_spec; auto. now apply uchar_W32 in H3. }
  assert (no_ci_char chars rest) as HS'.
  { destruct HS as (us & H1 & H2). exists us. apply (u32_ci_nonep chars HX rest us H1) in H2. auto. }
  exists cuts, rest. repeat split; auto.
  change (map fst cuts ++ [rest]) with (kept false (map fst cuts ++ [rest])). apply p_c52_chars; auto.
  exact (unlimited false cuts (first_ci_char chars) s rest _ (first_ci_char_ne chars HX) HC' HF HS').
Qed.

(** *** Characters *)
Lemma unit_ranges_snoc ps p : forall o, unit_ranges o (ps ++ [p]) = unit_ranges o ps ++ [Sub (o + size (concat ps)) (size p)].
Proof.
  induction ps as [|q ps IH]; intros o; cbn [app unit_ranges concat].
  - change (size []) with 0. now rewrite N.add_0_r.
  - rewrite IH. do 2 f_equal. rewrite size_app. f_equal. f_equal. lia.
Qed.
Lemma visits_next_char (ps : list str) : Chars ps -> forall pre, Fits (pre ++ concat ps) ->
  Visits (get_next_char_range (pre ++ concat ps)) sub_end (size pre) (unit_ranges (size pre) ps).
Proof.
  induction ps as [|p ps IH]; intros HC pre HF; cbn [unit_ranges concat] in *.
  - rewrite app_nil_r. eapply visits_end; [apply next_range_end|reflexivity].
  - apply Chars_cons in HC. destruct HC as (Hp & He & HC). pose proof (one_char_length _ Hp). eapply visits_step.
    + now apply next_range_spec.
    + cbn [sub_length]. unfold size. lia.
    + rewrite app_assoc in HF |- *. rewrite sub_end_small by (now apply Fits_l in HF). rewrite <- size_app. now apply IH.
Qed.
Lemma visits_prev_char (ps : list str) : Chars ps -> forall post, Fits (concat ps ++ post) ->
  Visits (get_prev_char_range (concat ps ++ post)) sub_start (size (concat ps)) (rev (unit_ranges 0 ps)).
Proof.
  induction ps as [|p ps IH] using rev_ind; intros HC post HF.
  - eapply visits_end; [apply prev_range_begin|reflexivity].
  - apply Chars_snoc in HC. destruct HC as (HC & Hp & He). pose proof (one_char_length _ Hp).
    rewrite unit_ranges_snoc, rev_app_distr. cbn [rev app]. rewrite concat_app in *. cbn [concat] in *. rewrite app_nil_r in *.
    rewrite <- app_assoc in HF |- *. rewrite N.add_0_l. eapply visits_step.
    + now apply prev_range_spec.
    + cbn [sub_length]. unfold size. lia.
    + cbn [sub_start sub_offset]. now apply IH.
Qed.
Lemma p_c96_characters ps : Chars ps -> Fits (concat ps) ->
  Visits (get_next_char_range (concat ps)) sub_end 0 (unit_ranges 0 ps) /\
  Visits (get_prev_char_range (concat ps)) sub_start (size (concat ps)) (rev (unit_ranges 0 ps)).
Proof.
  intros HC HF. split; [exact (visits_next_char ps HC [] HF)|].
  pose proof (visits_prev_char ps HC []) as H. rewrite app_nil_r in H. now apply H.
Qed.

(** *** Taking code points off *)
Lemma p_c96_pop s cs : Text s cs -> Pops pop_utf8_codepoint s cs /\ Pops pop_last_utf8_codepoint s (rev cs).
Proof.
  split.
  - induction H as [|g c s cs Hg HT IH].
    + eapply pops_end. exact (proj1 (proj1 (p_c11_pop_all []))).
    + eapply pops_step; [|exact IH]. now apply (proj1 (proj2 (p_c11_pop_all (g ++ s)))) with (g := g).
  - induction H as [|g c s cs Hg HT IH] using Text_rev_ind.
    + eapply pops_end. exact (proj2 (proj1 (p_c11_pop_all []))).
    + rewrite rev_app_distr. cbn [rev app]. eapply pops_step; [|exact IH].
      now apply (proj1 (proj2 (proj2 (p_c11_pop_all (s ++ g))))) with (g := g).
Qed.
Lemma pops_fun pop s l : Pops pop s l -> forall l', Pops pop s l' -> l = l'.
Proof.
  induction 1 as [s t E|s c t cs E H IH]; intros l' H'; inversion H' as [s' t' E'|s' c' t' cs' E' H2]; subst; rewrite E in E'; injection E' as; try congruence.
  subst. f_equal. now apply IH.
Qed.
