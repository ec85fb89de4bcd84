(** Case-insensitive functions on malformed text, and malformed patterns in
    replacement and splitting: C50-C52, C101. *)
From Verif Require Import Base Model.Decode Model.Encode Model.Subrange Model.Search Model.Split Model.CharClass Model.ConvertCase
  Model.CodepointSet Model.CaseInsensitive Spec.Utf8Spec Spec.Strings Spec.UnicodeData Spec.CaseFold Spec.Split
  Proofs.Utf8Lemmas Proofs.DecodeLemmas Proofs.EncodeLemmas Proofs.CodepointLemmas Proofs.SearchLemmas Proofs.CaseLemmas Proofs.CaseStringLemmas Proofs.Utf8Props
  Proofs.CiLemmas Proofs.CiFindLemmas Proofs.CiFindLastLemmas Proofs.SplitLemmas Proofs.NewlineLemmas Proofs.CiReplaceLemmas Proofs.CiMalformed.
Require Import Lia ZifyBool ZifyNat ZifyN.

(** *** C50: the backward cases are exhaustive *)
Lemma last_ci_all ps t : ps <> [] ->
  (exists u g v, t = u ++ g ++ v /\ last_ci ps u g v) \/ no_ci ps t \/
  (exists r u us, t = r ++ u /\ Text u us /\ MalformedEnd r /\ only_at_start ps us).
Proof.
  intros Hne. destruct (text_suffix _ t (le_n _)) as (r & u & us & -> & Hu & Hr).
  destruct (last_match ps us Hne) as [(x & y & z & -> & E & H)|Hn].
  - destruct (Text_cut _ _ _ Hu) as (u1 & u2 & -> & H1 & H2). destruct (Text_cut _ _ _ H2) as (u3 & u4 & -> & H3 & H4).
    destruct Hr as [->|Hr]; [left; exists u1, u3, u4; split; [reflexivity|]; exists y, z; repeat split; auto; now apply Text_end_ok with x|].
    destruct x as [|c x _] using rev_ind.
    + apply Text_nil_inv in H1. subst u1. right. right. exists r, (u3 ++ u4), (y ++ z). repeat split; auto; apply Hr.
    + left. exists (r ++ u1), u3, u4. split; [now rewrite <- !app_assoc|]. exists y, z. repeat split; auto.
      apply Text_last in H1. destruct H1 as (k & g & -> & _ & Hg). intros [_ M]. apply (M g c (r ++ k) Hg). now rewrite <- app_assoc.
  - destruct Hr as [->|Hr].
    + right. left. exists us. auto.
    + right. right. exists r, u, us. repeat split; auto; try apply Hr. intros x y z E F. exfalso. exact (Hn x y z E F).
Qed.

(** *** C51 *)
Lemma ci_front_stuck ps from to n s : ps <> [] -> Text from ps -> CiStuckFront ps n s -> Fits s ->
  forall fuel acc, (length s < fuel)%nat -> ci_replace_front_loop fuel s from to (Z.of_N n) acc = Throw YstringException.
Proof.
  intros Hne Hp H. induction H as [n u us r Hn Hu Hr HO|n u g v F H IH]; intros HF fuel acc Hf; (destruct fuel as [|fuel]; [lia|]); cbn [ci_replace_front_loop];
    rewrite (proj2 (Z.ltb_lt _ _)) by lia.
  - pose proof (proj2 (proj2 (p_c50_first ps from [] Hne Hp)) u us r Hu Hr HO) as K. cbn [app] in K. change (size []) with 0 in K. now rewrite K.
  - rewrite (ffirst ps from u g v Hne Hp F). cbn [bind].
    pose proof (first_ci_ne _ _ _ _ Hne F) as Hg. rewrite sub_bool_ne by exact Hg. cbn [negb sub_start sub_offset].
    rewrite substr_prefix by reflexivity. cbn [bind].
    rewrite (sub_end_fits u g v HF), app_assoc, substr_from_app; [|reflexivity|now rewrite <- app_assoc]. cbn [bind].
    replace (Z.of_N (n + 1) - 1)%Z with (Z.of_N n) by lia.
    apply IH; [exact (Fits_app_r (u ++ g) v ltac:(now rewrite <- app_assoc))|].
    rewrite !app_length in Hf. destruct g; [congruence|]. cbn [length] in Hf. lia.
Qed.
Lemma p_c51_front_stuck s from ps to m : ps <> [] -> Text from ps -> Fits s -> (0 <= m)%Z ->
  CiStuckFront ps (Z.to_N m) s -> ci_replace s from to m = Throw YstringException.
Proof.
  intros Hne Hp HF Hm H. unfold ci_replace. rewrite (proj2 (Z.leb_le _ _)) by exact Hm.
  pose proof (ci_front_stuck ps from to _ s Hne Hp H HF (S (length s)) [] ltac:(lia)) as E. rewrite Z2N.id in E by exact Hm. now rewrite E.
Qed.
Lemma p_c51_front_all s ps to : ps <> [] -> forall n, (exists r, CiReplaceFront ps to n s r) \/ CiStuckFront ps n s.
Proof.
  intros Hne. remember (length s) as k eqn:Ek. revert s Ek.
  induction k as [k IH] using lt_wf_ind. intros s -> n.
  destruct (N.eq_0_gt_0_cases n) as [->|Hn]; [left; exists s; constructor|].
  destruct (first_ci_cases ps s Hne) as [(u & g & v & -> & F)|[H|(u & us & r & -> & Hu & Hr & HO)]].
  - pose proof (first_ci_ne _ _ _ _ Hne F) as Hg. replace n with (n - 1 + 1) by lia.
    destruct (IH (length v)) with (s := v) (n := n - 1) as [[r Hr]|Hr]; auto.
    + rewrite !app_length. destruct g; [congruence|]. cbn [length]. lia.
    + left. exists (u ++ to ++ r). now constructor.
    + right. now constructor.
  - left. exists s. now constructor.
  - right. apply sf_here with us; auto. lia.
Qed.

Lemma ci_back_stuck ps from n s r : ps <> [] -> Text from ps -> CiStuckBack ps n s r -> Fits s ->
  forall fuel acc b, ltail r (Some b) -> (length s < fuel)%nat -> ci_collect_last fuel s from (- Z.of_N n) acc = stuck b.
Proof.
  intros Hne Hp H. induction H as [n r u us Hn Hu Hr HO|n u g v r F H IH]; intros HF fuel acc b Hb Hf; (destruct fuel as [|fuel]; [lia|]); cbn [ci_collect_last];
    rewrite (proj2 (Z.ltb_lt _ _)) by lia.
  - destruct (p_c50_last ps from [] npos Hne Hp) as (_ & _ & K). specialize (K r u us). rewrite app_nil_r in K.
    specialize (K (min_npos _ HF) Hu Hr HO). destruct b; destruct Hb as [_ Hb]; [rewrite (proj2 K Hb)|rewrite (proj1 K Hb)]; reflexivity.
  - rewrite (flast ps from u g v Hne Hp HF F). cbn [bind].
    pose proof (last_ci_ne _ _ _ _ Hne F) as Hg. rewrite sub_bool_ne by exact Hg. cbn [negb sub_start sub_offset].
    rewrite substr_prefix by reflexivity. cbn [bind].
    replace (- Z.of_N (n + 1) + 1)%Z with (- Z.of_N n)%Z by lia.
    apply IH; [exact (Fits_app_l u (g ++ v) HF)|exact Hb|].
    rewrite !app_length in Hf. destruct g; [congruence|]. cbn [length] in Hf. lia.
Qed.
Lemma p_c51_back_stuck s from ps to m r : ps <> [] -> Text from ps -> Fits s -> (m < 0)%Z -> CiStuckBack ps (Z.to_N (- m)) s r ->
  (~ long_cont_tail r -> ci_replace s from to m = Throw YstringException) /\ (long_cont_tail r -> ci_replace s from to m = UB).
Proof.
  intros Hne Hp HF Hm H. unfold ci_replace. rewrite (proj2 (Z.leb_gt _ _)) by exact Hm.
  assert (ME : MalformedEnd r) by (clear -H; induction H; auto).
  assert (K : forall b, ltail r (Some b) -> ci_collect_last (S (length s)) s from m [] = stuck b).
  { intros b Hb. pose proof (ci_back_stuck ps from _ s r Hne Hp H HF (S (length s)) [] b Hb ltac:(lia)) as E.
    rewrite Z2N.id, Z.opp_involutive in E by lia. exact E. }
  split; intros L; [rewrite (K false)|rewrite (K true)]; try reflexivity; now split.
Qed.
Lemma p_c51_back_all s ps to : ps <> [] -> forall n, (exists r, CiReplaceBack ps to n s r) \/ exists r, CiStuckBack ps n s r.
Proof.
  intros Hne. remember (length s) as k eqn:Ek. revert s Ek.
  induction k as [k IH] using lt_wf_ind. intros s -> n.
  destruct (N.eq_0_gt_0_cases n) as [->|Hn]; [left; exists s; constructor|].
  destruct (last_ci_all ps s Hne) as [(u & g & v & -> & F)|[H|(r & u & us & -> & Hu & Hr & HO)]].
  - pose proof (last_ci_ne _ _ _ _ Hne F) as Hg. replace n with (n - 1 + 1) by lia.
    destruct (IH (length u)) with (s := u) (n := n - 1) as [[r Hr]|[r Hr]]; auto.
    + rewrite !app_length. destruct g; [congruence|]. cbn [length]. lia.
    + left. exists (r ++ to ++ v). now constructor.
    + right. exists r. now constructor.
  - left. exists s. now constructor.
  - right. exists r. apply sb_here with us; auto. lia.
Qed.

(** *** C52 *)
Lemma p_c52_all ps s n ign : ps <> [] -> 1 <= n ->
  exists cuts rest, Cuts (first_ci ps) s cuts rest /\
    (stopped (no_ci ps) ign n cuts rest \/
     (N.of_nat (length (kept ign (map fst cuts))) < n /\ exists u us r, rest = u ++ r /\ Text u us /\ Malformed r /\ only_at_end ps us)).
Proof.
  intros Hne Hn.
  destruct (cuts_limited (first_ci ps) (fun t => no_ci ps t \/ exists u us r, t = u ++ r /\ Text u us /\ Malformed r /\ only_at_end ps us) ign n s Hn) as (cuts & rest & HC & HS).
  - intros u g v. now apply first_ci_ne.
  - intros t. destruct (first_ci_cases ps t Hne) as [H|[H|H]]; auto.
  - exists cuts, rest. split; [exact HC|]. destruct HS as [[L [S|S]]|H]; [left; left; auto|right; auto|left; right; exact H].
Qed.

(** *** C101: malformed patterns *)
Lemma not_text_front p : ~ (exists ps, Text p ps) -> exists v vs w, p = v ++ w /\ Text v vs /\ Malformed w.
Proof.
  intros H. destruct (text_prefix p) as (v & vs & w & -> & Hv & [->|Hw]); [exfalso; apply H; exists vs; now rewrite app_nil_r|].
  exists v, vs, w. auto.
Qed.
Lemma not_text_back p : ~ (exists ps, Text p ps) -> exists w k v vs, p = w ++ v /\ Text v vs /\ ltail w (Some k).
Proof.
  intros H. destruct (text_suffix _ p (le_n _)) as (w & v & vs & -> & Hv & [->|Hw]); [exfalso; apply H; exists vs; auto|].
  destruct (ltail_of w (or_intror Hw)) as [[k|] Ht]; [exists w, k, v, vs; auto|]. cbn in Ht. subst w. destruct Hw as [K _]. congruence.
Qed.

Lemma begin_plus_cases s o : (exists pre t, s = pre ++ t /\ o = size pre) \/ begin_plus s o = UB.
Proof.
  destruct (N.le_gt_cases o (size s)) as [L|L].
  - left. exists (firstn (N.to_nat o) s), (skipn (N.to_nat o) s). split; [symmetry; apply firstn_skipn|].
    unfold size in *. rewrite firstn_length. lia.
  - right. unfold begin_plus. rewrite (proj2 (N.leb_gt _ _) L). reflexivity.
Qed.

Lemma never_first s p o r : ~ (exists ps, Text p ps) -> ci_find_first s p o = Ok r -> r = Sub npos 0.
Proof.
  intros H E. destruct (not_text_front p H) as (v & vs & w & -> & Hv & Hw). destruct vs as [|d vs].
  - apply Text_nil_inv in Hv. subst v. cbn [app] in E. rewrite p_c101_first_throws in E by exact Hw. discriminate E.
  - destruct (begin_plus_cases s o) as [(pre & t & -> & ->)|B].
    + destruct (p_c101_first_none pre t v (d :: vs) w ltac:(discriminate) Hv Hw) as [K1 K2].
      destruct (decoded t) as (u & us & r' & tb & Et & Hu & Hr).
      unfold ci_find_first in E. apply Text_cons_inv in Hv as Hv'. destruct Hv' as (h & v' & -> & Hh & Hv'). rewrite <- (app_assoc h) in *.
      assert (D : safe_decode_next (h ++ v' ++ w) 0 = Ok (Some (d, length h))) by (exact (safe_decode_next_uchar [] h d (v' ++ w) Hh)).
      rewrite D in E. cbn [bind] in E. unfold size in E. rewrite begin_plus_ok in E by (rewrite app_length; lia). cbn [bind] in E. subst t.
      destruct (ffm h v' w d vs Hh Hv' Hw us pre u r' tb (S (length (pre ++ u ++ r'))) Hu Hr) as [(H1 & _)|(H1 & _)].
      * apply Text_length in Hu. rewrite !app_length. lia.
      * rewrite H1 in E. now injection E as <-.
      * rewrite H1 in E. discriminate E.
    + exfalso. unfold ci_find_first in E. destruct (safe_decode_next (v ++ w) 0) as [[[c i]|]| | |] eqn:D; cbn [bind] in E; try discriminate E.
      * rewrite B in E. discriminate E.
      * clear E. apply Text_cons_inv in Hv as Hv'. destruct Hv' as (h & v' & -> & Hh & Hv'). rewrite <- (app_assoc h) in *.
        pose proof (safe_decode_next_uchar [] h d (v' ++ w) Hh) as D'. cbn [app length] in D'. rewrite D' in D. discriminate D.
Qed.
Lemma stuck_not_ok {A} b (x : A) : stuck b <> Ok x.
Proof. destruct b; discriminate. Qed.
Lemma never_last s p o r : ~ (exists ps, Text p ps) -> ci_find_last s p o = Ok r -> r = Sub npos 0.
Proof.
  intros H E. destruct (not_text_back p H) as (w & k & v & vs & -> & Hv & Hw). destruct vs as [|d vs _] using rev_ind.
  - apply Text_nil_inv in Hv. subst v. rewrite app_nil_r in E. rewrite (p_c101_last_throws s w k o Hw) in E. exfalso. exact (stuck_not_ok _ _ E).
  - apply Text_last in Hv. destruct Hv as (v' & h & -> & Hv & Hh).
    assert (D : safe_decode_prev (w ++ v' ++ h) (length (w ++ v' ++ h)) = Ok (Some (d, length w + length v')%nat)).
    { rewrite (dprev _ (w ++ v') h d []) by (rewrite ?app_length, ?app_nil_r, <- ?app_assoc; auto; lia). now rewrite app_length. }
    unfold ci_find_last in E. rewrite D in E. cbn [bind] in E.
    assert (X : exists t post, s = t ++ post /\ N.min o (size s) = size t).
    { exists (firstn (N.to_nat (N.min o (size s))) s), (skipn (N.to_nat (N.min o (size s))) s). split; [symmetry; apply firstn_skipn|].
      unfold size. rewrite firstn_length. lia. }
    destruct X as (t & post & -> & Ho). rewrite Ho in E. unfold size in E. rewrite begin_plus_ok in E by (rewrite app_length; lia). cbn [bind] in E.
    destruct (decoded_back t) as (r' & tb & u & us & -> & Hu & Hr). rewrite <- (app_assoc r') in E.
    destruct (flm h v' w d k vs Hh Hv Hw us (r' ++ u ++ post) r' tb u post (length (r' ++ u)) (S (length (r' ++ u ++ post))) eq_refl) as [(H1 & _)|(b & H1 & _)]; auto.
    + apply app_length.
    + apply Text_length in Hu. rewrite !app_length. lia.
    + rewrite H1 in E. now injection E as <-.
    + rewrite H1 in E. exfalso. exact (stuck_not_ok _ _ E).
Qed.
Lemma never_starts s p : ~ (exists ps, Text p ps) -> ci_starts_with s p <> Ok true.
Proof.
  intros H E. destruct (not_text_front p H) as (v & vs & w & -> & Hv & Hw). destruct (decoded s) as (u & us & r & t & -> & Hu & Hr).
  unfold ci_starts_with in E.
  destruct (mis_mal [] u us r t [] v vs w (S (length (u ++ r))) Hu Hr Hv Hw) as [(K & _)|(a & b & K & Hb & _)];
    [apply Text_length in Hu; rewrite app_length; lia| |]; cbn [app length] in K; rewrite K in E; cbn [bind snd] in E; [discriminate E|].
  apply Nat.eqb_neq in Hb. cbn [app] in Hb. rewrite Hb in E. discriminate E.
Qed.
Lemma never_ends s p : ~ (exists ps, Text p ps) -> ci_ends_with s p <> Ok true.
Proof.
  intros H E. destruct (not_text_back p H) as (w & k & v & vs & -> & Hv & Hw). destruct (decoded_back s) as (r & t & u & us & -> & Hu & Hr).
  unfold ci_ends_with in E.
  destruct (pmis_mal (r ++ u) (w ++ v) r t u us [] w k v vs [] (length (r ++ u)) (length (w ++ v)) (S (length (r ++ u)))) as [(b & K & _)|(a & b & K & Hb & _)];
    rewrite ?app_nil_r; auto; try apply app_length; [apply Text_length in Hu; rewrite app_length; lia| |]; rewrite K in E.
  - destruct b; discriminate E.
  - cbn [bind snd] in E. apply Nat.eqb_neq in Hb. rewrite Hb in E. discriminate E.
Qed.
Lemma cmp_pure_bad us : forall t vs, cmp_pure us t vs true <> Some 0%Z.
Proof.
  induction us as [|c us IH]; intros t [|d vs]; cbn [cmp_pure].
  - destruct t; discriminate.
  - destruct t; cbn; discriminate.
  - cbn. discriminate.
  - destruct (Z.eqb_spec (Z.of_N (up c) - Z.of_N (up d)) 0) as [E|E]; [apply IH|]. intros K. injection K as K. contradiction.
Qed.
Lemma never_equal s p : ~ (exists ps, Text p ps) -> ci_equal s p <> Ok true /\ ci_equal p s <> Ok true /\ ci_compare s p <> Ok 0%Z /\ ci_compare p s <> Ok 0%Z.
Proof.
  intros H. destruct (not_text_front p H) as (v & vs & w & -> & Hv & Hw). destruct (decoded s) as (u & us & r & t & -> & Hu & Hr).
  assert (C : ci_compare (u ++ r) (v ++ w) <> Ok 0%Z).
  { rewrite (ci_compare_pure u us r t v vs w true) by assumption. pose proof (cmp_pure_bad us t vs) as K.
    destruct (cmp_pure us t vs true) as [z|]; cbn; [congruence|discriminate]. }
  assert (C' : ci_compare (v ++ w) (u ++ r) <> Ok 0%Z).
  { rewrite p_c46_opp. destruct (ci_compare (u ++ r) (v ++ w)) as [z| | |]; cbn; try discriminate. intros K. injection K as K.
    apply C. f_equal. lia. }
  rewrite !p_c47. repeat split; auto; [destruct (ci_compare (u ++ r) (v ++ w)) as [z| | |]|destruct (ci_compare (v ++ w) (u ++ r)) as [z| | |]]; cbn; try discriminate;
    intros K; injection K as K; apply Z.eqb_eq in K; congruence.
Qed.
Lemma never_replaces s p to m r : ~ (exists ps, Text p ps) -> Fits s -> ci_replace s p to m = Ok r -> r = s.
Proof.
  intros H HF. unfold ci_replace. destruct (0 <=? m)%Z eqn:M.
  - cbn [ci_replace_front_loop]. destruct (0 <? m)%Z; [|destruct s; cbn; congruence].
    destruct (ci_find_first s p 0) as [x| | |] eqn:E; cbn [bind]; try discriminate. apply (never_first s p 0 x H) in E. subst x.
    change (sub_bool (Sub npos 0)) with false. cbn [negb bind]. destruct s; cbn; congruence.
  - cbn [ci_collect_last]. rewrite (proj2 (Z.ltb_lt _ _)) by lia.
    destruct (ci_find_last s p npos) as [x| | |] eqn:E; cbn [bind]; try discriminate. apply (never_last s p npos x H) in E. subst x.
    change (sub_bool (Sub npos 0)) with false. cbn [negb bind rev ci_replace_back_loop].
    destruct (N.eqb_spec 0 (size s)) as [Z|Z]; cbn [negb].
    + destruct s; [congruence|]. unfold size in Z. cbn [length] in Z. lia.
    + pose proof (substr_from_app [] s 0 eq_refl HF) as X. cbn [app] in X. rewrite X. cbn [bind app]. congruence.
Qed.
Lemma never_splits s p n ign l : ~ (exists ps, Text p ps) -> Fits s -> 1 <= n -> ci_split_sep s p n ign = Ok l -> l = kept ign [s].
Proof.
  intros H HF Hn E. destruct (ci_find_first s p 0) as [x| | |] eqn:F.
  - apply (never_first s p 0 x H) in F as Fx. subst x. unfold ci_split_sep in E.
    rewrite (split_stopped (fun t => ci_find_first t p 0) (fun _ _ _ => False) (fun t => t = s) (fun _ _ _ F => match F with end) (fun _ _ _ _ F => match F with end)) with (cuts := []) (rest := s) in E; auto.
    + now injection E as <-.
    + intros t ->. exists npos. exact F.
    + constructor.
    + left. split; [|reflexivity]. destruct ign; cbn; lia.
  - exfalso. unfold ci_split_sep, split_where in E. cbn [split_loop length] in E. rewrite (proj2 (N.ltb_lt _ _)) in E by (cbn; lia).
    unfold ti_next in E. cbn in E. rewrite F in E. discriminate E.
  - exfalso. unfold ci_split_sep, split_where in E. cbn [split_loop length] in E. rewrite (proj2 (N.ltb_lt _ _)) in E by (cbn; lia).
    unfold ti_next in E. cbn in E. rewrite F in E. discriminate E.
  - exfalso. unfold ci_split_sep, split_where in E. cbn [split_loop length] in E. rewrite (proj2 (N.ltb_lt _ _)) in E by (cbn; lia).
    unfold ti_next in E. cbn in E. rewrite F in E. discriminate E.
Qed.
