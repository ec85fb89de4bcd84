(** Case-insensitive searching, forwards. *)
From Verif Require Import Base Model.Decode Model.Encode Model.Subrange Model.Search Model.Split Model.CharClass Model.ConvertCase
  Model.CodepointSet Model.CaseInsensitive Spec.Utf8Spec Spec.Strings Spec.UnicodeData Spec.CaseFold
  Proofs.Utf8Lemmas Proofs.DecodeLemmas Proofs.EncodeLemmas Proofs.CodepointLemmas Proofs.SearchLemmas Proofs.CaseLemmas Proofs.CaseStringLemmas
  Proofs.CiLemmas.
Require Import Lia ZifyBool ZifyNat ZifyN.

Lemma fold_len a b : fold_case a = fold_case b -> length a = length b.
Proof. intros H. apply (f_equal (@length N)) in H. unfold fold_case in H. now rewrite !map_length in H. Qed.
Lemma fold_app a b : fold_case (a ++ b) = fold_case a ++ fold_case b.
Proof. apply map_app. Qed.

(** The common prefix. *)
Lemma common us : forall vs, exists p x q y, us = p ++ x /\ vs = q ++ y /\ fold_case p = fold_case q /\
  (x = [] \/ y = [] \/ exists c x' d y', x = c :: x' /\ y = d :: y' /\ up c <> up d).
Proof.
  induction us as [|c us IH]; intros vs.
  - exists [], [], [], vs. repeat split; auto.
  - destruct vs as [|d vs].
    + exists [], (c :: us), [], []. repeat split; auto.
    + destruct (N.eq_dec (up c) (up d)) as [E|E].
      * destruct (IH vs) as (p & x & q & y & -> & -> & H1 & H2). exists (c :: p), x, (d :: q), y.
        repeat split; auto. cbn [fold_case map]. f_equal; assumption.
      * exists [], (c :: us), [], (d :: vs). repeat split; auto. right. right. exists c, us, d, vs. auto.
Qed.

Lemma mis_loop us : forall vs pre u r pre' v w fuel, Text u us -> Text v vs -> fold_case us = fold_case vs ->
  next_ci_mismatch (length us + fuel) (pre ++ u ++ r) (pre' ++ v ++ w) (length pre) (length pre')
  = next_ci_mismatch fuel ((pre ++ u) ++ r) ((pre' ++ v) ++ w) (length (pre ++ u)) (length (pre' ++ v)).
Proof.
  induction us as [|c us IH]; intros [|d vs] pre u r pre' v w fuel Hu Hv E; try discriminate.
  - apply Text_nil_inv in Hu. apply Text_nil_inv in Hv. subst. now rewrite !app_nil_r.
  - apply Text_cons_inv in Hu. destruct Hu as (g & u' & -> & Hg & Hu).
    apply Text_cons_inv in Hv. destruct Hv as (h & v' & -> & Hh & Hv).
    cbn [fold_case map] in E. injection E as E1 E2. cbn [length plus next_ci_mismatch].
    rewrite <- (app_assoc g), <- (app_assoc h).
    rewrite (safe_decode_next_uchar _ _ _ _ Hg). cbn [bind]. rewrite (safe_decode_next_uchar _ _ _ _ Hh). cbn [bind].
    rewrite (ci_eq_spec _ _ _ _ Hg Hh), E1, N.eqb_refl. cbn [negb].
    rewrite (app_assoc pre), (app_assoc pre'), <- !app_length. rewrite (IH vs) by assumption.
    rewrite <- !app_assoc. reflexivity.
Qed.

(** Matching the pattern's tail [v] against what follows in the string. *)
Definition head_match (ps us : list N) : Prop := exists x y, us = x ++ y /\ fold_case x = fold_case ps.

Lemma Text_cut a b s : Text s (a ++ b) -> exists u v, s = u ++ v /\ Text u a /\ Text v b.
Proof. intros H. apply Text_split in H. destruct H as (u & v & H). exists u, v. tauto. Qed.

Lemma mis_match pre x xs w pre' v vs fuel : Text x xs -> Text v vs -> fold_case xs = fold_case vs ->
  (length xs < fuel)%nat -> ~ Malformed w ->
  next_ci_mismatch fuel (pre ++ x ++ w) (pre' ++ v) (length pre) (length pre') = Ok (length (pre ++ x), length (pre' ++ v)).
Proof.
  intros Hx Hv E Hf Hw. replace fuel with (length xs + S (fuel - length xs - 1))%nat by lia.
  rewrite <- (app_nil_r v) at 1. rewrite (mis_loop xs vs) by assumption. cbn [next_ci_mismatch].
  destruct (decoded w) as (u & us & r & t & -> & Hu & Hr). destruct us as [|c us].
  - apply Text_nil_inv in Hu. subst u. cbn [app] in *. destruct t; [contradiction|].
    rewrite (decode_tail _ _ _ Hr). reflexivity.
  - apply Text_cons_inv in Hu. destruct Hu as (g & u' & -> & Hg & Hu). rewrite <- (app_assoc g).
    rewrite (safe_decode_next_uchar _ _ _ _ Hg). cbn [bind]. rewrite app_nil_r, safe_decode_next_end. reflexivity.
Qed.

Lemma mis_match_bad pre x xs w pre' v vs fuel : Text x xs -> Text v vs -> fold_case xs = fold_case vs ->
  (length xs < fuel)%nat -> Malformed w ->
  next_ci_mismatch fuel (pre ++ x ++ w) (pre' ++ v) (length pre) (length pre') = Throw YstringException.
Proof.
  intros Hx Hv E Hf Hw. replace fuel with (length xs + S (fuel - length xs - 1))%nat by lia.
  rewrite <- (app_nil_r v) at 1. rewrite (mis_loop xs vs) by assumption. cbn [next_ci_mismatch].
  rewrite safe_decode_next_malformed by exact Hw. reflexivity.
Qed.

Lemma mis_none pre u us r t pre' v vs fuel : Text u us -> tail r t -> Text v vs -> ~ head_match vs us ->
  (length us < fuel)%nat ->
  (exists a b, next_ci_mismatch fuel (pre ++ u ++ r) (pre' ++ v) (length pre) (length pre') = Ok (a, b) /\ b <> length (pre' ++ v))
  \/ (t = true /\ (length us < length vs)%nat /\
      next_ci_mismatch fuel (pre ++ u ++ r) (pre' ++ v) (length pre) (length pre') = Throw YstringException).
Proof.
  intros Hu Hr Hv Hn Hf. destruct (common us vs) as (p & x & q & y & -> & -> & E & H).
  destruct (Text_cut _ _ _ Hu) as (u1 & u2 & -> & Hp & Hx). destruct (Text_cut _ _ _ Hv) as (v1 & v2 & -> & Hq & Hy).
  rewrite app_length in Hf. replace fuel with (length p + S (fuel - length p - 1))%nat by lia.
  rewrite <- (app_assoc u1). rewrite (mis_loop p q) by assumption. cbn [next_ci_mismatch].
  destruct y as [|d y]; [exfalso; apply Hn; exists p, x; split; [reflexivity|now rewrite app_nil_r]|].
  apply Text_cons_inv in Hy. destruct Hy as (h & v' & -> & Hh & Hy).
  assert (Hl : (length (pre' ++ v1) <> length (pre' ++ v1 ++ h ++ v'))%nat).
  { pose proof (uchar_length _ _ Hh). rewrite !app_length. lia. }
  destruct x as [|c x].
  - apply Text_nil_inv in Hx. subst u2. cbn [app]. rewrite (decode_tail _ _ _ Hr).
    destruct t; cbn [bind].
    + right. split; [reflexivity|]. split; [|reflexivity]. apply fold_len in E. rewrite !app_length. cbn [length]. lia.
    + left. eauto.
  - apply Text_cons_inv in Hx. destruct Hx as (g & u' & -> & Hg & Hx). rewrite <- (app_assoc g).
    rewrite (safe_decode_next_uchar _ _ _ _ Hg). cbn [bind]. rewrite (safe_decode_next_uchar _ _ _ _ Hh). cbn [bind].
    destruct H as [H|[H|(c' & x' & d' & y' & H1 & H2 & H3)]]; try discriminate.
    injection H1 as -> ->. injection H2 as -> ->.
    rewrite (ci_eq_spec _ _ _ _ Hg Hh). apply N.eqb_neq in H3. rewrite H3. cbn [negb]. left. eauto.
Qed.

(** *** C49 starts_with *)
Lemma head_match_dec ps us : head_match ps us \/ ~ head_match ps us.
Proof.
  destruct (list_eq_dec N.eq_dec (fold_case (firstn (length ps) us)) (fold_case ps)) as [E|E].
  - left. exists (firstn (length ps) us), (skipn (length ps) us). split; [symmetry; apply firstn_skipn|exact E].
  - right. intros (x & y & -> & H). apply E. rewrite <- (fold_len _ _ H). rewrite firstn_app, firstn_all, Nat.sub_diag.
    cbn [firstn]. now rewrite app_nil_r.
Qed.

Lemma p_c49_starts s cs p ps : Text s cs -> Text p ps ->
  exists b, ci_starts_with s p = Ok b /\ (b = true <-> exists x y, cs = x ++ y /\ fold_case x = fold_case ps).
Proof.
  intros Hs Hp. unfold ci_starts_with. pose proof (Text_length _ _ Hs) as L.
  destruct (head_match_dec ps cs) as [(x & y & -> & E)|Hn].
  - destruct (Text_cut _ _ _ Hs) as (u & v & -> & Hx & Hy).
    pose proof (mis_match [] u x v [] p ps (S (length (u ++ v))) Hx Hp E) as H. cbn [app length] in H. rewrite H.
    + cbn [bind snd]. rewrite Nat.eqb_refl. exists true. split; [reflexivity|]. split; eauto.
    + rewrite app_length in L. lia.
    + intros Hm. apply (Malformed_not_Text _ _ Hm Hy).
  - exists false. split; [|split; [discriminate|]; intros H; contradiction].
    destruct (mis_none [] s cs [] false [] p ps (S (length s)) Hs eq_refl Hp Hn ltac:(lia)) as [(a & b & H & Hb)|[H _]]; [|discriminate].
    cbn [app length] in *. rewrite app_nil_r in H. rewrite H. cbn [bind snd]. apply Nat.eqb_neq in Hb. now rewrite Hb.
Qed.

Lemma p_c49_starts_any u us w p ps : Text u us -> Text p ps -> fold_case us = fold_case ps ->
  (Malformed w -> ci_starts_with (u ++ w) p = Throw YstringException) /\
  (~ Malformed w -> ci_starts_with (u ++ w) p = Ok true).
Proof.
  intros Hu Hp E. unfold ci_starts_with. pose proof (Text_length _ _ Hu) as L. split; intros Hw.
  - pose proof (mis_match_bad [] u us w [] p ps (S (length (u ++ w))) Hu Hp E) as H. cbn [app length] in H. rewrite H; auto.
    rewrite app_length. lia.
  - pose proof (mis_match [] u us w [] p ps (S (length (u ++ w))) Hu Hp E) as H. cbn [app length] in H. rewrite H; auto.
    + cbn [bind snd]. now rewrite Nat.eqb_refl.
    + rewrite app_length. lia.
Qed.

(** *** C50 find_first *)
Section FindFirst.
Variables (h v : str) (d : N) (vs : list N).
Hypothesis Hh : uchar h d.
Hypothesis Hv : Text v vs.
Notation cmp := (h ++ v).
Notation ps := (d :: vs).
Notation loop fuel s i := (ci_find_first_loop fuel s cmp d (length h) i i).

Lemma ff_step_none pre g c u us r t fuel : uchar g c -> Text u us -> tail r t -> ~ head_match ps (c :: us) ->
  loop (S fuel) (pre ++ g ++ u ++ r) (length pre) = loop fuel ((pre ++ g) ++ u ++ r) (length (pre ++ g))
  \/ (t = true /\ (length us < length vs)%nat /\ loop (S fuel) (pre ++ g ++ u ++ r) (length pre) = Throw YstringException).
Proof using Hh Hv.
  intros Hg Hu Hr Hn. cbn [ci_find_first_loop].
  rewrite (safe_decode_next_uchar _ _ _ _ Hg). cbn [bind]. rewrite (ci_eq_spec _ _ _ _ Hg Hh).
  rewrite <- app_length.
  destruct (N.eqb_spec (up c) (up d)) as [E|E]; [|left; now rewrite app_assoc].
  assert (Hn' : ~ head_match vs us).
  { intros (x & y & -> & E'). apply Hn. exists (c :: x), y. split; [reflexivity|]. cbn [fold_case map]. f_equal; assumption. }
  rewrite (app_assoc pre g).
  destruct (mis_none (pre ++ g) u us r t h v vs (S (length ((pre ++ g) ++ u ++ r))) Hu Hr Hv Hn') as [(a & b & H & Hb)|(-> & L & H)].
  - apply Text_length in Hu. rewrite !app_length. lia.
  - rewrite H. cbn [bind]. apply Nat.eqb_neq in Hb. rewrite Hb. left. reflexivity.
  - rewrite H. cbn [bind]. right. auto.
Qed.

Lemma ff_step_match pre x xs w fuel : Text x xs -> fold_case xs = fold_case ps -> ~ Malformed w ->
  loop (S fuel) (pre ++ x ++ w) (length pre) = Ok (Sub (size pre) (size x)).
Proof using Hh Hv.
  intros Hx E Hw. destruct xs as [|c xs]; [discriminate|].
  apply Text_cons_inv in Hx. destruct Hx as (g & x' & -> & Hg & Hx).
  cbn [fold_case map] in E. injection E as E1 E2. cbn [ci_find_first_loop]. rewrite <- (app_assoc g).
  rewrite (safe_decode_next_uchar _ _ _ _ Hg). cbn [bind]. rewrite (ci_eq_spec _ _ _ _ Hg Hh), E1, N.eqb_refl.
  rewrite <- app_length, (app_assoc pre g).
  rewrite (mis_match (pre ++ g) x' xs w h v vs _ Hx Hv E2); [|apply Text_length in Hx; rewrite !app_length; lia|exact Hw].
  cbn [bind]. rewrite Nat.eqb_refl. unfold sub_its, size. rewrite !app_length. do 2 f_equal; lia.
Qed.

Lemma ff_step_bad pre x xs w fuel : Text x xs -> fold_case xs = fold_case ps -> Malformed w ->
  loop (S fuel) (pre ++ x ++ w) (length pre) = Throw YstringException.
Proof using Hh Hv.
  intros Hx E Hw. destruct xs as [|c xs]; [discriminate|].
  apply Text_cons_inv in Hx. destruct Hx as (g & x' & -> & Hg & Hx).
  cbn [fold_case map] in E. injection E as E1 E2. cbn [ci_find_first_loop]. rewrite <- (app_assoc g).
  rewrite (safe_decode_next_uchar _ _ _ _ Hg). cbn [bind]. rewrite (ci_eq_spec _ _ _ _ Hg Hh), E1, N.eqb_refl.
  rewrite <- app_length, (app_assoc pre g).
  rewrite (mis_match_bad (pre ++ g) x' xs w h v vs _ Hx Hv E2); [reflexivity|apply Text_length in Hx; rewrite !app_length; lia|exact Hw].
Qed.

Lemma ff_found us : forall pre u x xs w fuel, Text u us -> Text x xs -> fold_case xs = fold_case ps -> ~ Malformed w ->
  (forall a y z, us ++ xs = a ++ y ++ z -> fold_case y = fold_case ps -> z = []) ->
  (length us < fuel)%nat ->
  loop fuel (pre ++ u ++ x ++ w) (length pre) = Ok (Sub (size (pre ++ u)) (size x)).
Proof using Hh Hv.
  induction us as [|c us IH]; intros pre u x xs w fuel Hu Hx E Hw Hn Hf; (destruct fuel as [|fuel]; [lia|]).
  - apply Text_nil_inv in Hu. subst u. rewrite app_nil_r. change ([] ++ x ++ w) with (x ++ w). now apply ff_step_match with xs.
  - apply Text_cons_inv in Hu. destruct Hu as (g & u' & -> & Hg & Hu). rewrite <- (app_assoc g).
    destruct (decoded w) as (k & ks & r & t & -> & Hk & Hr).
    assert (HT : Text (u' ++ x ++ k) (us ++ xs ++ ks)) by (apply Text_app; [|apply Text_app]; assumption).
    replace (pre ++ g ++ u' ++ x ++ k ++ r) with (pre ++ g ++ (u' ++ x ++ k) ++ r) by now rewrite <- !app_assoc.
    destruct (ff_step_none pre g c _ _ r t fuel Hg HT Hr) as [H|(-> & L & _)].
    + intros (a & y & E1 & E2).
      assert (La := fold_len _ _ E2). assert (Lx := fold_len _ _ E). 
      assert (P : exists z, c :: us ++ xs = a ++ z).
      { exists (firstn (length (c :: us ++ xs) - length a) y).
        apply (f_equal (firstn (length (c :: us ++ xs)))) in E1.
        rewrite firstn_app in E1. rewrite (firstn_all2 a) in E1; [|cbn [length] in *; rewrite app_length in *; lia].
        rewrite <- E1. change (c :: us ++ xs ++ ks) with ((c :: us) ++ xs ++ ks).
        change (c :: us ++ xs) with ((c :: us) ++ xs). rewrite app_assoc, firstn_app, firstn_all, Nat.sub_diag.
        cbn [firstn]. now rewrite app_nil_r. }
      destruct P as [z P]. assert (Z : z = []) by (apply (Hn [] a z); assumption). subst z.
      apply (f_equal (@length N)) in P. cbn [length] in *. rewrite !app_length in P. cbn [length] in P. lia.
    + rewrite H.
      replace ((pre ++ g) ++ (u' ++ x ++ k) ++ r) with ((pre ++ g) ++ u' ++ x ++ k ++ r) by now rewrite <- !app_assoc.
      rewrite (IH (pre ++ g) u' x xs (k ++ r) fuel); auto.
      * now rewrite <- !app_assoc.
      * intros a y z E1 E2. apply (Hn (c :: a) y z); [|exact E2]. cbn [app]. now rewrite E1.
      * cbn [length] in Hf. lia.
    + apply fold_len in E. cbn [length] in E. rewrite !app_length in L. lia.
Qed.

Lemma ff_none us : forall pre u fuel, Text u us ->
  (forall a y z, us = a ++ y ++ z -> fold_case y <> fold_case ps) ->
  (length us < fuel)%nat -> loop fuel (pre ++ u) (length pre) = Ok sub_default.
Proof using Hh Hv.
  induction us as [|c us IH]; intros pre u fuel Hu Hn Hf; (destruct fuel as [|fuel]; [lia|]).
  - apply Text_nil_inv in Hu. subst u. cbn [ci_find_first_loop]. rewrite app_nil_r, safe_decode_next_end. reflexivity.
  - apply Text_cons_inv in Hu. destruct Hu as (g & u' & -> & Hg & Hu).
    rewrite <- (app_nil_r (g ++ u')), <- app_assoc.
    destruct (ff_step_none pre g c u' us [] false fuel Hg Hu eq_refl) as [H|(H & _)]; [|rewrite H|discriminate].
    + intros (a & y & E1 & E2). exact (Hn [] a y E1 E2).
    + rewrite app_nil_r. apply IH; auto; [|cbn [length] in Hf; lia].
      intros a y z E1 E2. apply (Hn (c :: a) y z); [|exact E2]. cbn [app]. now rewrite E1.
Qed.

Lemma ff_bad us : forall pre u r fuel, Text u us -> Malformed r ->
  (forall a y z, us = a ++ y ++ z -> fold_case y = fold_case ps -> z = []) ->
  (length us < fuel)%nat -> loop fuel (pre ++ u ++ r) (length pre) = Throw YstringException.
Proof using Hh Hv.
  induction us as [|c us IH]; intros pre u r fuel Hu Hr Hn Hf; (destruct fuel as [|fuel]; [lia|]).
  - apply Text_nil_inv in Hu. subst u. cbn [ci_find_first_loop app].
    rewrite safe_decode_next_malformed by exact Hr. reflexivity.
  - destruct (head_match_dec ps (c :: us)) as [(x & y & E1 & E2)|Hm].
    + assert (y = []) by (apply (Hn [] x y); assumption). subst y. rewrite app_nil_r in E1. subst x.
      now apply ff_step_bad with (c :: us).
    + apply Text_cons_inv in Hu. destruct Hu as (g & u' & -> & Hg & Hu).
      rewrite <- app_assoc.
      destruct (ff_step_none pre g c u' us r true fuel Hg Hu Hr Hm) as [H|(_ & _ & H)]; rewrite H; [|reflexivity].
      apply IH; auto; [|cbn [length] in Hf; lia].
      intros a y z E1 E2. apply (Hn (c :: a) y z); [|exact E2]. cbn [app]. now rewrite E1.
Qed.
End FindFirst.

Lemma p_c50_first ps p pre : ps <> [] -> Text p ps ->
  (forall u g v, first_ci ps u g v -> ci_find_first (pre ++ u ++ g ++ v) p (size pre) = Ok (Sub (size (pre ++ u)) (size g))) /\
  (forall t, no_ci ps t -> ci_find_first (pre ++ t) p (size pre) = Ok (Sub npos 0)) /\
  (forall u us r, Text u us -> Malformed r ->
     (forall x y z, us = x ++ y ++ z -> fold_case y = fold_case ps -> z = []) ->
     ci_find_first (pre ++ u ++ r) p (size pre) = Throw YstringException).
Proof.
  intros Hne Hp. destruct ps as [|d vs]; [congruence|].
  apply Text_cons_inv in Hp. destruct Hp as (h & v' & -> & Hh & Hv).
  assert (D : safe_decode_next (h ++ v') 0 = Ok (Some (d, length h))) by (exact (safe_decode_next_uchar [] h d v' Hh)).
  unfold ci_find_first. rewrite D. cbn [bind].
  repeat split.
  - intros u g v (us & gs & Hu & Hg & E & Hn & Hm). unfold size at 1. rewrite begin_plus_ok by (rewrite app_length; lia). cbn [bind].
    rewrite (ff_found h v' d vs Hh Hv us pre u g gs v _ Hu Hg E Hm Hn); [reflexivity|].
    apply Text_length in Hu. rewrite !app_length. lia.
  - intros t (cs & Ht & Hn). unfold size. rewrite begin_plus_ok by (rewrite app_length; lia). cbn [bind].
    rewrite (ff_none h v' d vs Hh Hv cs pre t _ Ht Hn); [reflexivity|].
    apply Text_length in Ht. rewrite !app_length. lia.
  - intros u us r Hu Hr Hn. unfold size. rewrite begin_plus_ok by (rewrite app_length; lia). cbn [bind].
    rewrite (ff_bad h v' d vs Hh Hv us pre u r _ Hu Hr Hn); [reflexivity|].
    apply Text_length in Hu. rewrite !app_length. lia.
Qed.

(** Every text falls into one of the three cases. *)
Lemma first_ci_cases ps t : ps <> [] ->
  (exists u g v, t = u ++ g ++ v /\ first_ci ps u g v) \/ no_ci ps t \/
  (exists u us r, t = u ++ r /\ Text u us /\ Malformed r /\
     (forall x y z, us = x ++ y ++ z -> fold_case y = fold_case ps -> z = [])).
Proof.
  intros Hne. destruct (decoded t) as (u & us & r & tb & -> & Hu & Hr).
  (* the first match in [us] *)
  assert (P : (exists x y z, us = x ++ y ++ z /\ fold_case y = fold_case ps /\
      (forall a b c, x ++ y = a ++ b ++ c -> fold_case b = fold_case ps -> c = []))
    \/ forall x y z, us = x ++ y ++ z -> fold_case y <> fold_case ps).
  { clear u r tb Hu Hr. induction us as [|c us IH] using rev_ind.
    - right. intros x y z E H. destruct x; [|discriminate]. destruct y; [|discriminate].
      apply fold_len in H. destruct ps; [congruence|discriminate].
    - destruct IH as [(x & y & z & -> & E & H)|Hn].
      + left. exists x, y, (z ++ [c]). rewrite <- !app_assoc. auto.
      + (* a match can only be a suffix *)
        destruct (Nat.le_gt_cases (length ps) (length (us ++ [c]))) as [L|L].
        2:{ right. intros x y z E H. apply fold_len in H. apply (f_equal (@length N)) in E. rewrite !app_length in E. rewrite app_length in L. lia. }
        set (k := (length (us ++ [c]) - length ps)%nat).
        assert (S : forall x y z, us ++ [c] = x ++ y ++ z -> fold_case y = fold_case ps -> z = []).
        { intros x y z E H. destruct z as [|e z _] using rev_ind; [reflexivity|].
          rewrite !app_assoc in E. apply app_inj_tail in E. destruct E as [E _]. rewrite <- app_assoc in E.
          exfalso. exact (Hn _ _ _ E H). }
        destruct (list_eq_dec N.eq_dec (fold_case (skipn k (us ++ [c]))) (fold_case ps)) as [E|E].
        * left. exists (firstn k (us ++ [c])), (skipn k (us ++ [c])), []. rewrite app_nil_r, firstn_skipn. auto.
        * right. intros x y z E1 E2. assert (z = []) by (eapply S; eauto). subst z. rewrite app_nil_r in E1.
          apply E. rewrite E1. apply fold_len in E2 as L2. unfold k. rewrite E1, app_length, <- L2, Nat.add_sub.
          rewrite skipn_app, skipn_all, Nat.sub_diag. exact E2. }
  destruct P as [(x & y & z & -> & E & H)|Hn].
  - destruct (Text_cut _ _ _ Hu) as (u1 & u2 & -> & H1 & H2). destruct (Text_cut _ _ _ H2) as (u3 & u4 & -> & H3 & H4).
    destruct z as [|c z].
    + apply Text_nil_inv in H4. subst u4. destruct tb.
      * right. right. exists (u1 ++ u3), (x ++ y), r. rewrite app_nil_r. repeat split; auto; try apply Hr.
        now apply Text_app.
      * cbn in Hr. subst r. left. exists u1, u3, []. rewrite !app_nil_r. split; [reflexivity|].
        exists x, y. repeat split; auto. intros [M _]. congruence.
    + left. exists u1, u3, (u4 ++ r). rewrite <- !app_assoc. split; [reflexivity|].
      exists x, y. repeat split; auto. apply Text_cons_inv in H4. destruct H4 as (g & w & -> & Hg & _).
      intros [_ M]. apply (M g c (w ++ r) Hg). now rewrite <- app_assoc.
  - destruct tb; cbn in Hr.
    + right. right. exists u, us, r. repeat split; auto; try apply Hr. intros x y z E1 E2. exfalso. eapply Hn; eauto.
    + right. left. subst r. rewrite app_nil_r. exists us. auto.
Qed.
