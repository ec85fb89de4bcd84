(** C139: case-insensitive replace, split and join. *)
From Verif Require Import Base Model.Decode Model.Encode Model.Subrange Model.Search Model.Split Model.ConvertCase Model.CodepointSet Model.CaseInsensitive
  Spec.Utf8Spec Spec.Strings Spec.UnicodeData Spec.CaseFold Spec.Split
  Proofs.Utf8Lemmas Proofs.EncodeLemmas Proofs.CodepointLemmas Proofs.SearchLemmas Proofs.SplitLemmas Proofs.AlgebraLemmas Proofs.JoinSplitLemmas
  Proofs.CiLemmas Proofs.CiFindLemmas Proofs.CiFindLastLemmas Proofs.CiReplaceLemmas Proofs.CiTotal Proofs.CiTotal2 Proofs.CiMalformed Proofs.CiSimLemmas.
From Coq Require Import ZifyBool ZifyNat ZifyN.

(** Cutting everywhere. *)
Lemma ci_cuts_front ps to s cuts rest : Cuts (first_ci ps) s cuts rest -> no_ci ps rest ->
  forall n, N.of_nat (length cuts) <= n -> CiReplaceFront ps to n s (interleave to (map fst cuts ++ [rest])).
Proof.
  induction 1 as [s|u g v cuts rest F H IH]; intros Hr n Hn; [now constructor|]. cbn [map fst app length] in *.
  rewrite interleave_cons by (destruct (map fst cuts); discriminate).
  replace n with ((n - 1) + 1) by lia. constructor; [exact F|]. apply IH; [exact Hr|lia].
Qed.
Lemma ci_cuts_stuck ps s cuts rest : Cuts (first_ci ps) s cuts rest ->
  forall n u us r, rest = u ++ r -> Text u us -> Malformed r -> only_at_end ps us -> N.of_nat (length cuts) < n -> CiStuckFront ps n s.
Proof.
  induction 1 as [s|u g v cuts rest F H IH]; intros n w ws r E HW HM HO Hn; cbn [length] in *.
  - subst s. apply sf_here with ws; auto. lia.
  - replace n with ((n - 1) + 1) by lia. constructor; [exact F|]. apply (IH _ w ws r); auto. lia.
Qed.
Lemma cuts_short (first : str -> str -> str -> Prop) s cuts rest : (forall u g v, first u g v -> g <> []) -> Cuts first s cuts rest -> (length cuts + length rest <= length s)%nat.
Proof.
  intros Hn. induction 1 as [s|u g v cuts rest F H IH]; [cbn; lia|]. cbn [length]. rewrite !app_length. specialize (Hn _ _ _ F). destruct g; [congruence|]. cbn [length]. lia.
Qed.
Lemma p_c139_replace s from ps to m : ps <> [] -> Text from ps -> Fits s -> (Z.of_N (size s) <= m)%Z ->
  ci_replace s from to m = let* parts := ci_split_sep s from SIZE_MAX false in Ok (join parts to).
Proof.
  intros Hne HT HF Hm. assert (H1 : 1 <= SIZE_MAX) by (vm_compute; congruence).
  destruct (p_c52_all ps s SIZE_MAX false Hne H1) as (cuts & rest & HC & [HS|(HL & u & us & r & -> & HU & HM & HO)]).
  - pose proof (stopped_max _ _ _ _ _ (fun u g v => first_ci_ne ps u g v Hne) HF HC HS) as HN.
    rewrite (p_c52 ps from Hne HT s SIZE_MAX false cuts rest HF HC HS). cbn [bind kept]. rewrite join_spec.
    apply (p_c51_front s from ps to m); auto; [unfold size in Hm; lia|]. apply ci_cuts_front; auto.
    pose proof (cuts_short _ _ _ _ (fun u g v => first_ci_ne ps u g v Hne) HC). unfold size in Hm. lia.
  - rewrite (p_c52_throw ps from Hne HT s SIZE_MAX false cuts u us r HF HC HU HM HO HL). cbn [bind].
    apply (p_c51_front_stuck s from ps to m); auto; [unfold size in Hm; lia|]. apply (ci_cuts_stuck ps s cuts (u ++ r) HC _ u us r); auto.
    pose proof (cuts_short _ _ _ _ (fun u g v => first_ci_ne ps u g v Hne) HC) as L. rewrite app_length in L.
    assert (r <> []) by (intros ->; exact (Malformed_not_Text _ _ HM Text_nil)). destruct r; [congruence|]. cbn [length] in L. unfold size in Hm. lia.
Qed.

(** Replacing by something equal but for case. *)
Lemma ci_front_same ps q qs : Text q qs -> fold_case qs = fold_case ps -> forall n s r, CiReplaceFront ps q n s r -> forall cs, Text s cs ->
  exists rs, Text r rs /\ fold_case rs = fold_case cs.
Proof.
  intros HQ E n s r. induction 1 as [s|n s _|n u g v r (us & gs & HU & HG & EG & _) H IH]; intros cs HS; [eauto|eauto|].
  destruct (Text_app_inv _ _ _ _ HU HS) as (ds & -> & HS'). destruct (Text_app_inv _ _ _ _ HG HS') as (es & -> & HV).
  destruct (IH es HV) as (rs & HR & ER). exists (us ++ qs ++ rs). split; [repeat apply Text_app; auto|].
  unfold fold_case in *. rewrite !map_app. now rewrite E, ER, EG.
Qed.
Lemma ci_back_same ps q qs : Text q qs -> fold_case qs = fold_case ps -> forall n s r, CiReplaceBack ps q n s r -> forall cs, Text s cs ->
  exists rs, Text r rs /\ fold_case rs = fold_case cs.
Proof.
  intros HQ E n s r. induction 1 as [s|n s _|n u g v r (gs & vs & HV & HG & EG & _) H IH]; intros cs HS; [eauto|eauto|].
  assert (HU : exists us, Text u us) by (apply (Text_suffix_inv (g ++ v) (gs ++ vs)) with cs; [now apply Text_app|exact HS]).
  destruct HU as (us & HU). destruct (Text_app_inv _ _ _ _ HU HS) as (ds & -> & HS'). destruct (Text_app_inv _ _ _ _ HG HS') as (es & -> & HV').
  pose proof (Text_fun _ _ _ HV HV') as <-.
  destruct (IH us HU) as (rs & HR & ER). exists (rs ++ qs ++ vs). split; [repeat apply Text_app; auto|].
  unfold fold_case in *. rewrite !map_app. now rewrite E, ER, EG.
Qed.

Lemma p_c139_same s cs p q m : p <> [] -> ci_equal p q = Ok true -> Text s cs -> Fits s -> exists r, ci_replace s p q m = Ok r /\ ci_equal s r = Ok true.
Proof.
  intros Hp HE HS HF. apply alike_iff in HE. destruct HE as (ps & qs & HP & HQ & E).
  assert (Hne : ps <> []) by (intros ->; apply Text_nil_inv in HP; contradiction).
  destruct (Z_lt_le_dec m 0) as [Hm|Hm].
  - destruct (p_c51_back_exists s cs ps q Hne HS (Z.to_N (- m))) as [r HR]. exists r. split; [now apply (p_c51_back s p ps q m r)|].
    destruct (ci_back_same ps q qs HQ (eq_sym E) _ _ _ HR cs HS) as (rs & H1 & H2). apply alike_iff. exists cs, rs. auto.
  - destruct (p_c51_front_exists s cs ps q Hne HS (Z.to_N m)) as [r HR]. exists r. split; [now apply (p_c51_front s p ps q m r)|].
    destruct (ci_front_same ps q qs HQ (eq_sym E) _ _ _ HR cs HS) as (rs & H1 & H2). apply alike_iff. exists cs, rs. auto.
Qed.

(** Making the separators uniform. *)
Lemma fold_pieces a b x y z : fold_case a = fold_case b -> b = x ++ y ++ z -> exists x' y' z', a = x' ++ y' ++ z' /\ fold_case x' = fold_case x /\ fold_case y' = fold_case y /\ fold_case z' = fold_case z.
Proof.
  intros E ->. unfold fold_case in *. rewrite !map_app in E. apply map_eq_app in E as (x' & w & -> & E1 & E). apply map_eq_app in E as (y' & z' & -> & E2 & E3).
  exists x', y', z'. auto.
Qed.
Lemma fold_nil a : fold_case a = fold_case [] -> a = [].
Proof. destruct a; [reflexivity|discriminate]. Qed.
Lemma only_at_end_fold ps a b : fold_case a = fold_case b -> only_at_end ps a -> only_at_end ps b.
Proof.
  intros E H x y z Eb Ey. destruct (fold_pieces a b x y z E Eb) as (x' & y' & z' & Ea & _ & E2 & E3). rewrite Ey in E2.
  specialize (H x' y' z' Ea E2). subst z'. apply fold_nil. now symmetry.
Qed.
Lemma no_ci_text ps t : no_ci ps t -> exists cs, Text t cs.
Proof. intros (cs & H & _). eauto. Qed.
Lemma uniform_cuts ps q qs s cuts rest : Text q qs -> fold_case qs = fold_case ps -> Cuts (first_ci ps) s cuts rest -> no_ci ps rest ->
  Cuts (first_ci ps) (interleave q (map fst cuts ++ [rest])) (map (fun c => (fst c, q)) cuts) rest /\ exists cs, Text (interleave q (map fst cuts ++ [rest])) cs.
Proof.
  intros HQ E HC HN. induction HC as [s|u g v cuts rest (us & gs & HU & HG & EG & HO & _) HC IH]; cbn [map fst app].
  - split; [constructor|]. now apply (no_ci_text ps).
  - destruct (IH HN) as [H (cs & HT)]. rewrite interleave_cons by (destruct (map fst cuts); discriminate).
    split; [|exists (us ++ qs ++ cs); repeat apply Text_app; auto].
    constructor; [|exact H]. exists us, qs. split; [exact HU|]. split; [exact HQ|]. split; [exact E|]. split.
    + change (only_at_end ps (us ++ qs)). apply (only_at_end_fold ps (us ++ gs)); [|exact HO]. unfold fold_case in *. rewrite !map_app. now rewrite EG, E.
    + intros HM. exact (Malformed_not_Text _ _ HM HT).
Qed.
Lemma ci_line_cuts ps p s parts : ps <> [] -> Text p ps -> Fits s -> ci_split_sep s p SIZE_MAX false = Ok parts ->
  exists cuts rest, Cuts (first_ci ps) s cuts rest /\ no_ci ps rest /\ parts = map fst cuts ++ [rest].
Proof.
  intros Hne HP HF E. assert (H1 : 1 <= SIZE_MAX) by (vm_compute; congruence).
  destruct (p_c52_all ps s SIZE_MAX false Hne H1) as (cuts & rest & HC & [HS|(HL & u & us & r & -> & HU & HM & HO)]).
  - rewrite (p_c52 ps p Hne HP s SIZE_MAX false cuts rest HF HC HS) in E. injection E as <-. exists cuts, rest. split; [exact HC|]. split; [|reflexivity].
    exact (stopped_max _ _ _ _ _ (fun u g v => first_ci_ne ps u g v Hne) HF HC HS).
  - rewrite (p_c52_throw ps p Hne HP s SIZE_MAX false cuts u us r HF HC HU HM HO HL) in E. discriminate E.
Qed.
Lemma p_c139_uniform s p q parts : p <> [] -> ci_equal p q = Ok true -> Fits s -> ci_split_sep s p SIZE_MAX false = Ok parts -> Fits (join parts q) ->
  ci_split_sep (join parts q) p SIZE_MAX false = Ok parts /\ ci_equal s (join parts q) = Ok true.
Proof.
  intros Hp HE HF E HJ. pose proof HE as HE'. apply alike_iff in HE'. destruct HE' as (ps & qs & HP & HQ & EQ).
  assert (Hne : ps <> []) by (intros ->; apply Text_nil_inv in HP; contradiction).
  destruct (ci_line_cuts ps p s parts Hne HP HF E) as (cuts & rest & HC & HN & EP).
  destruct (uniform_cuts ps q qs s cuts rest HQ (eq_sym EQ) HC HN) as [HC' (cs & HT)]. rewrite <- EP in HC', HT. rewrite <- join_spec in HC', HT.
  split.
  - rewrite (p_c52 ps p Hne HP _ SIZE_MAX false _ rest HJ HC').
    + cbn [kept]. rewrite map_map. cbn [fst]. now rewrite EP.
    + left. cbn [kept]. split; [|exact HN]. pose proof (cuts_short _ _ _ _ (fun u g v => first_ci_ne ps u g v Hne) HC') as L.
      rewrite map_length. unfold Fits, size, SIZE_MAX in *. lia.
  - assert (HSn : exists ss, Text s ss).
    { clear -HC HN. induction HC as [s|u g v cuts rest (us & gs & HU & HG & _) HC IH]; [now apply (no_ci_text ps)|]. destruct (IH HN) as [vs HV]. exists (us ++ gs ++ vs). repeat apply Text_app; auto. }
    destruct HSn as [ss HSs]. destruct (p_c139_same s ss p q (Z.of_N (size s)) Hp HE HSs HF) as (r & ER & EE).
    rewrite (p_c139_replace s p ps q (Z.of_N (size s)) Hne HP HF ltac:(lia)), E in ER. cbn [bind] in ER. injection ER as <-. exact EE.
Qed.

(** Texts equal but for case come apart alike. *)
Lemma alike_app_inv u us v s' : Text u us -> alike (u ++ v) s' -> exists u' v', s' = u' ++ v' /\ alike u u' /\ alike v v'.
Proof.
  intros HU (cs & ds & HC & HD & E). destruct (Text_app_inv _ _ _ _ HU HC) as (vs & -> & HV).
  unfold fold_case in E. rewrite map_app in E. symmetry in E. apply map_eq_app in E as (us' & vs' & -> & E1 & E2).
  destruct (Text_split _ _ _ HD) as (u' & v' & -> & HU' & HV'). exists u', v'. split; [reflexivity|].
  split; [exists us, us'|exists vs, vs']; unfold fold_case; auto.
Qed.
Lemma alike_text s s' : alike s s' -> exists cs, Text s cs.
Proof. intros (cs & ds & H & _). eauto. Qed.
Lemma alike_app a a' b b' : alike a a' -> alike b b' -> alike (a ++ b) (a' ++ b').
Proof.
  intros (x & x' & H1 & H2 & H3) (y & y' & H4 & H5 & H6). exists (x ++ y), (x' ++ y'). split; [now apply Text_app|]. split; [now apply Text_app|].
  unfold fold_case in *. rewrite !map_app. now rewrite H3, H6.
Qed.
Lemma alike_no_ci ps s s' : alike s s' -> no_ci ps s -> no_ci ps s'.
Proof.
  intros (cs & ds & HC & HD & E) (cs' & HC' & HN). pose proof (Text_fun _ _ _ HC HC') as <-. exists ds. split; [exact HD|].
  intros x y z Ed Ey. destruct (fold_pieces cs ds x y z E Ed) as (x' & y' & z' & Ea & _ & E2 & _). apply (HN x' y' z' Ea). now rewrite E2.
Qed.
Lemma alike_first ps u g v s' : first_ci ps u g v -> alike (u ++ g ++ v) s' ->
  exists u' g' v', s' = u' ++ g' ++ v' /\ first_ci ps u' g' v' /\ alike u u' /\ alike g g' /\ alike v v'.
Proof.
  intros (us & gs & HU & HG & EG & HO & _) HA. destruct (alike_app_inv u us _ s' HU HA) as (u' & w' & -> & AU & AW).
  destruct (alike_app_inv g gs _ w' HG AW) as (g' & v' & -> & AG & AV). exists u', g', v'. split; [reflexivity|]. split; [|auto].
  destruct AU as (us1 & us' & HU1 & HU' & EU). pose proof (Text_fun _ _ _ HU HU1) as <-. destruct AG as (gs1 & gs' & HG1 & HG' & EG'). pose proof (Text_fun _ _ _ HG HG1) as <-.
  exists us', gs'. split; [exact HU'|]. split; [exact HG'|]. split; [congruence|]. split.
  - change (only_at_end ps (us' ++ gs')). apply (only_at_end_fold ps (us ++ gs)); [|exact HO]. unfold fold_case in *. rewrite !map_app. now rewrite EU, EG'.
  - destruct AV as (_ & vs' & _ & HV & _). intros HM. exact (Malformed_not_Text _ _ HM HV).
Qed.
Lemma alike_last_ci ps u g v s' : last_ci ps u g v -> alike (u ++ g ++ v) s' ->
  exists u' g' v', s' = u' ++ g' ++ v' /\ last_ci ps u' g' v' /\ alike u u' /\ alike g g' /\ alike v v'.
Proof.
  intros (gs & vs & HV & HG & EG & HO & _) HA.
  assert (HU : exists us, Text u us) by (destruct (alike_text _ _ HA) as [cs HC]; apply (Text_suffix_inv (g ++ v) (gs ++ vs)) with cs; [now apply Text_app|exact HC]).
  destruct HU as [us HU]. destruct (alike_app_inv u us _ s' HU HA) as (u' & w' & -> & AU & AW).
  destruct (alike_app_inv g gs _ w' HG AW) as (g' & v' & -> & AG & AV). exists u', g', v'. split; [reflexivity|]. split; [|auto].
  destruct AV as (vs1 & vs' & HV1 & HV' & EV). pose proof (Text_fun _ _ _ HV HV1) as <-. destruct AG as (gs1 & gs' & HG1 & HG' & EG'). pose proof (Text_fun _ _ _ HG HG1) as <-.
  exists gs', vs'. split; [exact HV'|]. split; [exact HG'|]. split; [congruence|]. split.
  - intros x y z Eb Ey. assert (EF : fold_case (gs ++ vs) = fold_case (gs' ++ vs')) by (unfold fold_case in *; rewrite !map_app; now rewrite EV, EG').
    destruct (fold_pieces _ _ x y z EF Eb) as (x' & y' & z' & Ea & E1 & E2 & _). rewrite Ey in E2. specialize (HO x' y' z' Ea E2). subst x'. apply fold_nil. now symmetry.
  - destruct AU as (_ & us' & _ & HU' & _). intros HM. exact (Text_end_ok _ _ HU' HM).
Qed.
Lemma alike_cuts ps s cuts rest : Cuts (first_ci ps) s cuts rest -> forall s', alike s s' ->
  exists cuts' rest', Cuts (first_ci ps) s' cuts' rest' /\ Forall2 (fun c c' => alike (fst c) (fst c')) cuts cuts' /\ alike rest rest'.
Proof.
  induction 1 as [s|u g v cuts rest F H IH]; intros s' HA; [exists [], s'; split; [constructor|auto]|].
  destruct (alike_first ps u g v s' F HA) as (u' & g' & v' & -> & F' & AU & _ & AV). destruct (IH v' AV) as (cuts' & rest' & HC & H2 & AR).
  exists ((u', g') :: cuts'), rest'. split; [now constructor|]. split; [constructor; auto|exact AR].
Qed.
Lemma alike_nil u u' : alike u u' -> non_empty u = non_empty u'.
Proof.
  intros (cs & ds & HC & HD & E). destruct u, u'; cbn; try reflexivity.
  - assert (cs = []) by (eapply Text_fun; [exact HC|constructor]). subst cs. symmetry in E. apply fold_nil in E. subst ds. apply Text_nil_inv in HD. discriminate.
  - assert (ds = []) by (eapply Text_fun; [exact HD|constructor]). subst ds. apply fold_nil in E. subst cs. apply Text_nil_inv in HC. discriminate.
Qed.
Lemma alike_kept ign l l' : Forall2 alike l l' -> Forall2 alike (kept ign l) (kept ign l').
Proof.
  intros H. destruct ign; [|exact H]. cbn [kept]. induction H as [|x y l l' A H IH]; [constructor|]. cbn [filter]. rewrite <- (alike_nil _ _ A). destruct (non_empty x); [now constructor|exact IH].
Qed.
Lemma alike_length l l' : Forall2 alike l l' -> length l = length l'.
Proof. induction 1; cbn; congruence. Qed.
Lemma alike_fst cuts cuts' : Forall2 (fun c c' : str * str => alike (fst c) (fst c')) cuts cuts' -> Forall2 alike (map fst cuts) (map fst cuts').
Proof. induction 1; cbn; constructor; auto. Qed.
Lemma alike_stopped ps ign n cuts rest cuts' rest' : Forall2 (fun c c' => alike (fst c) (fst c')) cuts cuts' -> alike rest rest' ->
  stopped (no_ci ps) ign n cuts rest -> stopped (no_ci ps) ign n cuts' rest'.
Proof.
  assert (K : forall a b : list (str * str), Forall2 (fun c c' => alike (fst c) (fst c')) a b -> length (kept ign (map fst a)) = length (kept ign (map fst b))).
  { intros a b H. apply alike_fst, (alike_kept ign), alike_length in H. exact H. }
  intros H HR [[H1 H2]|(c & u & g & -> & H1 & H2)].
  - left. rewrite <- (K _ _ H). split; [exact H1|now apply (alike_no_ci ps rest)].
  - right. rewrite (K _ _ H) in H2. apply Forall2_app_inv_l in H as (c' & x & H3 & H4 & ->). inversion H4 as [|a [u' g'] b b' H5 H6 E1 E2]. subst. inversion H6; subst.
    exists c', u', g'. split; [reflexivity|]. rewrite <- (K _ _ H3). auto.
Qed.
Lemma p_c139_alike_split s s' p ps n ign : ps <> [] -> Text p ps -> ci_equal s s' = Ok true -> Fits s -> Fits s' -> 1 <= n ->
  exists l l', ci_split_sep s p n ign = Ok l /\ ci_split_sep s' p n ign = Ok l' /\ Forall2 (fun a b => ci_equal a b = Ok true) l l'.
Proof.
  intros Hne HP HE HF HF' Hn. apply alike_iff in HE. destruct (alike_text _ _ HE) as [cs HC].
  destruct (p_c52_exists ps p Hne HP s cs n ign HC Hn) as (cuts & rest & H1 & H2). destruct (alike_cuts ps s cuts rest H1 s' HE) as (cuts' & rest' & H1' & H3 & H4).
  pose proof (alike_stopped ps ign n cuts rest cuts' rest' H3 H4 H2) as H2'. eexists; eexists. split; [exact (p_c52 ps p Hne HP s n ign cuts rest HF H1 H2)|].
  split; [exact (p_c52 ps p Hne HP s' n ign cuts' rest' HF' H1' H2')|].
  assert (G : Forall2 alike (kept ign (map fst cuts ++ [rest])) (kept ign (map fst cuts' ++ [rest']))) by (apply alike_kept, Forall2_app; [now apply alike_fst|constructor; auto]).
  induction G; constructor; auto. now apply alike_iff.
Qed.
Lemma alike_front ps to n s r : forall ts, Text to ts -> CiReplaceFront ps to n s r -> forall s', alike s s' -> exists r', CiReplaceFront ps to n s' r' /\ alike r r'.
Proof.
  intros ts HT. induction 1 as [s|n s HN|n u g v r F H IH]; intros s' HA.
  - exists s'. split; [constructor|exact HA].
  - exists s'. split; [constructor; now apply (alike_no_ci ps s)|exact HA].
  - destruct (alike_first ps u g v s' F HA) as (u' & g' & v' & -> & F' & AU & _ & AV). destruct (IH v' AV) as (r' & H' & AR). exists (u' ++ to ++ r'). split; [now constructor|].
    apply alike_app; [exact AU|]. apply alike_app; [exists ts, ts; auto|exact AR].
Qed.
Lemma alike_back ps to n s r : forall ts, Text to ts -> CiReplaceBack ps to n s r -> forall s', alike s s' -> exists r', CiReplaceBack ps to n s' r' /\ alike r r'.
Proof.
  intros ts HT. induction 1 as [s|n s HN|n u g v r F H IH]; intros s' HA.
  - exists s'. split; [constructor|exact HA].
  - exists s'. split; [constructor; now apply (alike_no_ci ps s)|exact HA].
  - destruct (alike_last_ci ps u g v s' F HA) as (u' & g' & v' & -> & F' & AU & _ & AV). destruct (IH u' AU) as (r' & H' & AR). exists (r' ++ to ++ v'). split; [now constructor|].
    apply alike_app; [exact AR|]. apply alike_app; [exists ts, ts; auto|exact AV].
Qed.
Lemma p_c139_alike_replace s s' p ps to ts m : ps <> [] -> Text p ps -> Text to ts -> ci_equal s s' = Ok true -> Fits s -> Fits s' ->
  exists r r', ci_replace s p to m = Ok r /\ ci_replace s' p to m = Ok r' /\ ci_equal r r' = Ok true.
Proof.
  intros Hne HP HT HE HF HF'. apply alike_iff in HE. destruct (alike_text _ _ HE) as [cs HC]. destruct (Z_lt_le_dec m 0) as [Hm|Hm].
  - destruct (p_c51_back_exists s cs ps to Hne HC (Z.to_N (- m))) as [r HR]. destruct (alike_back ps to _ s r ts HT HR s' HE) as (r' & HR' & A). exists r, r'.
    split; [now apply (p_c51_back s p ps to m r)|]. split; [now apply (p_c51_back s' p ps to m r')|now apply alike_iff].
  - destruct (p_c51_front_exists s cs ps to Hne HC (Z.to_N m)) as [r HR]. destruct (alike_front ps to _ s r ts HT HR s' HE) as (r' & HR' & A). exists r, r'.
    split; [now apply (p_c51_front s p ps to m r)|]. split; [now apply (p_c51_front s' p ps to m r')|now apply alike_iff].
Qed.
