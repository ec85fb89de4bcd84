(** More of the case-insensitive functions on arbitrary bytes: C46, C49, C52. *)
From Verif Require Import Base Model.Decode Model.Encode Model.Subrange Model.Search Model.Split Model.CharClass Model.ConvertCase
  Model.CodepointSet Model.CaseInsensitive Spec.Utf8Spec Spec.Strings Spec.UnicodeData Spec.CaseFold Spec.Split
  Proofs.Utf8Lemmas Proofs.DecodeLemmas Proofs.EncodeLemmas Proofs.CodepointLemmas Proofs.SearchLemmas Proofs.CaseLemmas Proofs.CaseStringLemmas Proofs.Utf8Props
  Proofs.CiLemmas Proofs.CiFindLemmas Proofs.CiFindLastLemmas Proofs.SplitLemmas Proofs.NewlineLemmas Proofs.CiReplaceLemmas Proofs.CiMalformed Proofs.CiTotal.
Require Import Lia ZifyBool ZifyNat ZifyN.

(** *** C46 *)
Lemma Text_snoc u us g c : Text u us -> uchar g c -> Text (u ++ g) (us ++ [c]).
Proof. intros Hu Hg. apply Text_app; [exact Hu|now apply Text_one]. Qed.

Lemma p_c46_differ u us g c r v vs h d w : Text u us -> uchar g c -> Text v vs -> uchar h d -> fold_case us = fold_case vs ->
  simple_upper c <> simple_upper d ->
  exists z, ci_compare (u ++ g ++ r) (v ++ h ++ w) = Ok z /\ (z ?= 0)%Z = (simple_upper c ?= simple_upper d).
Proof.
  intros Hu Hg Hv Hh E ND.
  destruct (decoded r) as (r1 & rs & r2 & t & -> & Hr & Ht). destruct (decoded w) as (w1 & ws & w2 & t' & -> & Hw & Ht').
  replace (u ++ g ++ r1 ++ r2) with ((u ++ g ++ r1) ++ r2) by now rewrite <- !app_assoc.
  replace (v ++ h ++ w1 ++ w2) with ((v ++ h ++ w1) ++ w2) by now rewrite <- !app_assoc.
  assert (T1 : Text (u ++ g ++ r1) (us ++ c :: rs)) by (apply Text_app; [assumption|]; exact (Text_app _ [c] _ _ (Text_one _ _ Hg) Hr)).
  assert (T2 : Text (v ++ h ++ w1) (vs ++ d :: ws)) by (apply Text_app; [assumption|]; exact (Text_app _ [d] _ _ (Text_one _ _ Hh) Hw)).
  rewrite (ci_compare_pure (u ++ g ++ r1) (us ++ c :: rs) r2 t (v ++ h ++ w1) (vs ++ d :: ws) w2 t') by assumption.
  rewrite cmp_pure_common by exact E. cbn [cmp_pure]. fold (up c). fold (up d).
  destruct (Z.eqb_spec (Z.of_N (up c) - Z.of_N (up d)) 0) as [K|K]; [exfalso; apply ND; fold (up c) (up d); lia|].
  cbn [to_outcome]. eexists. split; [reflexivity|]. fold (up c) (up d) in ND.
  destruct (N.compare_spec (up c) (up d)); [congruence|apply Z.compare_lt_iff; lia|apply Z.compare_gt_iff; lia].
Qed.
Lemma p_c46_longer u us g c r v vs : Text u us -> uchar g c -> Text v vs -> fold_case us = fold_case vs ->
  ci_compare (u ++ g ++ r) v = Ok 1%Z /\ ci_compare v (u ++ g ++ r) = Ok (-1)%Z.
Proof.
  intros Hu Hg Hv E.
  assert (K : ci_compare (u ++ g ++ r) v = Ok 1%Z).
  { destruct (decoded r) as (r1 & rs & r2 & t & -> & Hr & Ht).
    replace (u ++ g ++ r1 ++ r2) with ((u ++ g ++ r1) ++ r2) by now rewrite <- !app_assoc.
    rewrite <- (app_nil_r v).
    rewrite (ci_compare_pure (u ++ g ++ r1) (us ++ c :: rs) r2 t v vs [] false); auto; [|apply Text_app; [assumption|]; now apply (Text_app _ [_] _ _ (Text_one _ _ Hg))|reflexivity].
    rewrite <- (app_nil_r vs), cmp_pure_common by exact E. reflexivity. }
  split; [exact K|]. rewrite p_c46_opp, K. reflexivity.
Qed.
Lemma p_c46_all a b : exists u us r v vs w, a = u ++ r /\ b = v ++ w /\ Text u us /\ Text v vs /\ fold_case us = fold_case vs /\
  ((r = [] /\ w = []) \/ Malformed r \/ Malformed w \/
   (r = [] /\ exists h d w', w = h ++ w' /\ uchar h d) \/
   (w = [] /\ exists g c r', r = g ++ r' /\ uchar g c) \/
   (exists g c r' h d w', r = g ++ r' /\ w = h ++ w' /\ uchar g c /\ uchar h d /\ simple_upper c <> simple_upper d)).
Proof.
  destruct (decoded a) as (u & us & r & t & -> & Hu & Hr). destruct (decoded b) as (v & vs & w & t' & -> & Hv & Hw).
  destruct (common us vs) as (p & x & q & y & -> & -> & E & H).
  destruct (Text_cut _ _ _ Hu) as (u1 & u2 & -> & Hp & Hx). destruct (Text_cut _ _ _ Hv) as (v1 & v2 & -> & Hq & Hy).
  exists u1, p, (u2 ++ r), v1, q, (v2 ++ w). rewrite <- !app_assoc. do 5 (split; [auto|]).
  destruct x as [|c x]; destruct y as [|d y].
  - apply Text_nil_inv in Hx, Hy. subst. cbn [app]. destruct t; [right; left; exact Hr|]. destruct t'; [right; right; left; exact Hw|]. left. auto.
  - apply Text_nil_inv in Hx. subst u2. cbn [app]. destruct t; [right; left; exact Hr|]. cbn in Hr. subst r.
    apply Text_cons_inv in Hy. destruct Hy as (h & v' & -> & Hh & _). right. right. right. left. split; [reflexivity|].
    exists h, d, (v' ++ w). split; [now rewrite <- app_assoc|exact Hh].
  - apply Text_nil_inv in Hy. subst v2. cbn [app]. destruct t'; [right; right; left; exact Hw|]. cbn in Hw. subst w.
    apply Text_cons_inv in Hx. destruct Hx as (g & u' & -> & Hg & _). right. right. right. right. left. split; [reflexivity|].
    exists g, c, (u' ++ r). split; [now rewrite <- app_assoc|exact Hg].
  - destruct H as [H|[H|(c' & x' & d' & y' & H1 & H2 & H3)]]; try discriminate.
    apply cons_eq in H1. destruct H1 as [<- <-]. apply cons_eq in H2. destruct H2 as [<- <-].
    apply Text_cons_inv in Hx. destruct Hx as (g & u' & -> & Hg & _). apply Text_cons_inv in Hy. destruct Hy as (h & v' & -> & Hh & _).
    do 5 right. exists g, c, (u' ++ r), h, d, (v' ++ w). rewrite <- !app_assoc. auto.
Qed.

(** *** C49 *)
Lemma p_c49_starts_differ u us g c r p vs d ps : Text u us -> uchar g c -> fold_case us = fold_case vs -> simple_upper c <> simple_upper d ->
  Text p (vs ++ d :: ps) -> ci_starts_with (u ++ g ++ r) p = Ok false.
Proof.
  intros Hu Hg E ND Hp. destruct (Text_cut _ _ _ Hp) as (v1 & v2 & -> & Hv & H2).
  apply Text_cons_inv in H2. destruct H2 as (h & v' & -> & Hh & Hv').
  unfold ci_starts_with. pose proof (Text_length _ _ Hu) as L.
  replace (S (length (u ++ g ++ r))) with (length us + S (length (u ++ g ++ r) - length us))%nat by (rewrite app_length; lia).
  pose proof (mis_loop us vs [] u (g ++ r) [] v1 (h ++ v') (S (length (u ++ g ++ r) - length us)) Hu Hv E) as K. cbn [app length] in K. rewrite K.
  cbn [next_ci_mismatch]. rewrite (safe_decode_next_uchar _ _ _ _ Hg). cbn [bind]. rewrite (safe_decode_next_uchar _ _ _ _ Hh). cbn [bind].
  rewrite (ci_eq_spec _ _ _ _ Hg Hh). fold (up c) (up d) in ND. apply N.eqb_neq in ND. rewrite ND. cbn [negb bind snd].
  pose proof (uchar_length _ _ Hh). rewrite (proj2 (Nat.eqb_neq _ _)); [reflexivity|]. rewrite !app_length. lia.
Qed.
Lemma p_c49_starts_stuck u us r p vs ps : Text u us -> Malformed r -> fold_case us = fold_case vs -> Text p (vs ++ ps) ->
  ci_starts_with (u ++ r) p = Throw YstringException.
Proof.
  intros Hu Hr E Hp. destruct (Text_cut _ _ _ Hp) as (v1 & v2 & -> & Hv & H2).
  unfold ci_starts_with. pose proof (Text_length _ _ Hu) as L.
  replace (S (length (u ++ r))) with (length us + S (length (u ++ r) - length us))%nat by (rewrite app_length; lia).
  pose proof (mis_loop us vs [] u r [] v1 v2 (S (length (u ++ r) - length us)) Hu Hv E) as K. cbn [app length] in K. rewrite K.
  cbn [next_ci_mismatch]. rewrite safe_decode_next_malformed by exact Hr. reflexivity.
Qed.
Lemma p_c49_starts_all s p ps : Text p ps ->
  (exists u us w, s = u ++ w /\ Text u us /\ fold_case us = fold_case ps) \/
  (exists us, Text s us /\ forall x y, us = x ++ y -> fold_case x <> fold_case ps) \/
  (exists u us g c r vs d qs, s = u ++ g ++ r /\ Text u us /\ uchar g c /\ fold_case us = fold_case vs /\ simple_upper c <> simple_upper d /\ ps = vs ++ d :: qs) \/
  (exists u us r vs qs, s = u ++ r /\ Text u us /\ Malformed r /\ fold_case us = fold_case vs /\ ps = vs ++ qs).
Proof.
  intros Hp. destruct (decoded s) as (u & us & r & t & -> & Hu & Hr).
  destruct (common us ps) as (x & x' & y & y' & -> & -> & E & H).
  destruct (Text_cut _ _ _ Hu) as (u1 & u2 & -> & Hx & Hx').
  destruct y' as [|d y']; [left; exists u1, x, (u2 ++ r); rewrite app_nil_r, <- app_assoc; auto|].
  destruct x' as [|c x'].
  - apply Text_nil_inv in Hx'. subst u2. rewrite !app_nil_r. destruct t.
    + right. right. right. exists u1, x, r, y, (d :: y'). auto.
    + right. left. cbn in Hr. subst r. rewrite app_nil_r. exists x. split; [exact Hx|]. intros a b -> F.
      apply fold_len in E. apply fold_len in F. rewrite app_length in E, F. cbn [length] in F. lia.
  - destruct H as [H|[H|(c' & x'' & d' & y'' & H1 & H2 & H3)]]; try discriminate.
    apply cons_eq in H1. destruct H1 as [<- <-]. apply cons_eq in H2. destruct H2 as [<- <-].
    apply Text_cons_inv in Hx'. destruct Hx' as (g & u' & -> & Hg & _). right. right. left.
    exists u1, x, g, c, (u' ++ r), y, d, y'. rewrite <- !app_assoc. repeat split; auto.
Qed.

Lemma p_c49_ends_differ r g c u us p ps d vs : Text u us -> uchar g c -> fold_case us = fold_case vs -> simple_upper c <> simple_upper d ->
  Text p (ps ++ d :: vs) -> ci_ends_with (r ++ g ++ u) p = Ok false.
Proof.
  intros Hu Hg E ND Hp. change (d :: vs) with ([d] ++ vs) in Hp. rewrite app_assoc in Hp. destruct (Text_cut _ _ _ Hp) as (v2 & v1 & -> & H2 & Hv).
  apply Text_last in H2. destruct H2 as (v' & h & -> & Hv' & Hh).
  unfold ci_ends_with. pose proof (Text_length _ _ Hu) as L.
  replace (S (length (r ++ g ++ u))) with (length us + S (length (r ++ g ++ u) - length us))%nat by (rewrite !app_length; lia).
  rewrite (pmis_loop us vs _ _ (r ++ g) u [] (v' ++ h) v1 []) by (rewrite ?app_length, ?app_nil_r, <- ?app_assoc; auto; lia).
  cbn [prev_ci_mismatch].
  rewrite (dprev _ r g c u) by (rewrite ?app_length, <- ?app_assoc; auto; lia). cbn [bind].
  rewrite (dprev _ v' h d v1) by (rewrite ?app_length, <- ?app_assoc; auto; lia). cbn [bind].
  rewrite (ci_eq_spec _ _ _ _ Hg Hh). fold (up c) (up d) in ND. apply N.eqb_neq in ND. rewrite ND. cbn [negb bind snd].
  pose proof (uchar_length _ _ Hh). rewrite (proj2 (Nat.eqb_neq _ _)); [reflexivity|]. rewrite !app_length. lia.
Qed.
Lemma p_c49_ends_stuck r u us p ps vs : Text u us -> MalformedEnd r -> fold_case us = fold_case vs -> Text p (ps ++ vs) ->
  (~ long_cont_tail r -> ci_ends_with (r ++ u) p = Throw YstringException) /\ (long_cont_tail r -> ci_ends_with (r ++ u) p = UB).
Proof.
  intros Hu Hr E Hp. destruct (Text_cut _ _ _ Hp) as (v2 & v1 & -> & H2 & Hv). pose proof (Text_length _ _ Hu) as L.
  assert (K : forall b, ltail r (Some b) -> ci_ends_with (r ++ u) (v2 ++ v1) = stuck b).
  { intros b Hb. unfold ci_ends_with.
    replace (S (length (r ++ u))) with (length us + S (length (r ++ u) - length us))%nat by (rewrite !app_length; lia).
    rewrite (pmis_loop us vs _ _ r u [] v2 v1 []) by (rewrite ?app_length, ?app_nil_r, <- ?app_assoc; auto; lia).
    cbn [prev_ci_mismatch]. rewrite (dprev_tail _ r (Some b) u) by auto. destruct b; reflexivity. }
  split; intros H; [apply (K false)|apply (K true)]; now split.
Qed.
Lemma p_c49_ends_all s p ps : Text p ps ->
  (exists w u us, s = w ++ u /\ Text u us /\ fold_case us = fold_case ps) \/
  (exists us, Text s us /\ forall x y, us = x ++ y -> fold_case y <> fold_case ps) \/
  (exists r g c u us qs d vs, s = r ++ g ++ u /\ Text u us /\ uchar g c /\ fold_case us = fold_case vs /\ simple_upper c <> simple_upper d /\ ps = qs ++ d :: vs) \/
  (exists r u us qs vs, s = r ++ u /\ Text u us /\ MalformedEnd r /\ fold_case us = fold_case vs /\ ps = qs ++ vs).
Proof.
  intros Hp. destruct (text_suffix _ s (le_n _)) as (r & u & us & -> & Hu & Hr).
  destruct (common_end us ps) as (x & x' & y & y' & -> & -> & E & H).
  destruct (Text_cut _ _ _ Hu) as (u2 & u1 & -> & Hx' & Hx).
  destruct y' as [|d y' _] using rev_ind; [left; exists (r ++ u2), u1, x; cbn [app]; rewrite <- app_assoc; auto|].
  destruct x' as [|c x' _] using rev_ind.
  - apply Text_nil_inv in Hx'. subst u2. cbn [app]. destruct Hr as [->|Hr].
    + right. left. exists x. split; [exact Hx|]. intros a b -> F.
      apply fold_len in E. apply fold_len in F. rewrite !app_length in *. cbn [length] in F. lia.
    + right. right. right. exists r, u1, x, (y' ++ [d]), y. auto.
  - destruct H as [H|[H|(c' & x'' & d' & y'' & H1 & H2 & H3)]]; try (destruct x'; discriminate); try (destruct y'; discriminate).
    apply app_inj_tail in H1. destruct H1 as [<- <-]. apply app_inj_tail in H2. destruct H2 as [<- <-].
    apply Text_last in Hx'. destruct Hx' as (u' & g & -> & _ & Hg). right. right. left.
    exists (r ++ u'), g, c, u1, x, y', d, y. rewrite <- !app_assoc. repeat split; auto.
Qed.

(** *** C52: characters *)
Lemma p_c52_chars_throw chars s n ign cuts u us r : Forall (fun d => d < 0x100000000) chars -> Fits s ->
  Cuts (first_ci_char chars) s cuts (u ++ r) -> Text u us -> Forall (fun x => ~ ci_in chars x) us -> Malformed r ->
  N.of_nat (length (kept ign (map fst cuts))) < n ->
  ci_split_chars s chars n ign = Throw YstringException.
Proof.
  intros HF HFs HC Hu Hn Hr Hm. unfold ci_split_chars. destruct (p_ci_first_of chars HF []) as (H1 & H2 & H3).
  apply (split_throw (fun t => let* p := ci_find_first_of t chars 0 in Ok (fst p)) (first_ci_char chars)) with cuts (u ++ r); auto.
  - exact (first_ci_char_ne chars HF).
  - intros a g v _ (bs & c & Ha & Hb & Hg & Hc). pose proof (H1 a bs g c v Ha Hb Hg Hc) as H. cbn [app] in H.
    change (size []) with 0 in H. now rewrite H.
  - pose proof (H3 u us r Hu Hn Hr) as H. cbn [app] in H. change (size []) with 0 in H. now rewrite H.
Qed.
Lemma ci_char_cases chars t : Forall (fun d => d < 0x100000000) chars ->
  (exists u g v, t = u ++ g ++ v /\ first_ci_char chars u g v) \/ no_ci_char chars t \/
  (exists u us r, t = u ++ r /\ Text u us /\ Forall (fun x => ~ ci_in chars x) us /\ Malformed r).
Proof.
  intros HF. destruct (first_where_cases (fun c => u32_ci_contains chars c) t)
    as [(u & vs & g & c & v & -> & H1 & H2 & H3 & H4)|[(vs & H1 & H2)|(u & vs & r & -> & H1 & H2 & H3)]].
  - left. exists u, g, v. split; [reflexivity|]. exists vs, c. split; [exact H1|]. split; [now apply (u32_ci_nonep chars HF u vs)|].
    split; [exact H3|]. apply (u32_ci_spec chars HF c); eauto using uchar_W32.
  - right. left. exists vs. split; [exact H1|now apply (u32_ci_nonep chars HF t vs)].
  - right. right. exists u, vs, r. repeat split; auto; try apply H3. now apply (u32_ci_nonep chars HF u vs).
Qed.
Lemma p_c52_chars_all chars s n ign : Forall (fun d => d < 0x100000000) chars -> 1 <= n ->
  exists cuts rest, Cuts (first_ci_char chars) s cuts rest /\
    (stopped (no_ci_char chars) ign n cuts rest \/
     (N.of_nat (length (kept ign (map fst cuts))) < n /\
      exists u us r, rest = u ++ r /\ Text u us /\ Forall (fun x => ~ ci_in chars x) us /\ Malformed r)).
Proof.
  intros HF Hn.
  destruct (cuts_limited (first_ci_char chars) (fun t => no_ci_char chars t \/ exists u us r, t = u ++ r /\ Text u us /\ Forall (fun x => ~ ci_in chars x) us /\ Malformed r) ign n s Hn) as (cuts & rest & HC & HS).
  - exact (first_ci_char_ne chars HF).
  - intros t. destruct (ci_char_cases chars t HF) as [H|[H|H]]; auto.
  - exists cuts, rest. split; [exact HC|]. destruct HS as [[L [S|S]]|H]; [left; left; auto|right; auto|left; right; exact H].
Qed.

(** *** C101: backwards, without long runs of continuation bytes *)
Lemma p_c101_ends_exact r bad u us w v vs : Text u us -> (if bad : bool then MalformedEnd r else r = []) -> Text v vs -> MalformedEnd w ->
  ~ long_cont_tail r -> ~ long_cont_tail w ->
  (~ reads_back us bad vs -> ci_ends_with (r ++ u) (w ++ v) = Ok false) /\
  (reads_back us bad vs -> ci_ends_with (r ++ u) (w ++ v) = Throw YstringException).
Proof.
  intros Hu Hr Hv Hw Lr Lw.
  assert (T : exists t, ltail r t /\ negb (none t) = bad /\ t <> Some true).
  { destruct bad; [exists (Some false); repeat split; auto; try apply Hr; discriminate|exists None; repeat split; auto; discriminate]. }
  destruct T as (t & Ht & Eb & Nt).
  destruct (p_c101_ends r t u us w false v vs Hu Ht Hv (conj Hw Lw)) as [H1 H2]. rewrite Eb in *. split; [exact H1|].
  intros K. destruct (H2 K) as (b & E & [-> | ->]); [exact E|]. destruct b; [congruence|exact E].
Qed.
Lemma p_c101_last_exact t post o w v vs : vs <> [] -> Text v vs -> MalformedEnd w -> N.min o (size (t ++ post)) = size t ->
  ~ long_cont_tail w -> (forall r u us, t = r ++ u -> Text u us -> ~ long_cont_tail r) ->
  ((exists cs, Text t cs /\ only_at_start vs cs) -> ci_find_last (t ++ post) (w ++ v) o = Ok (Sub npos 0)) /\
  (~ (exists cs, Text t cs /\ only_at_start vs cs) -> ci_find_last (t ++ post) (w ++ v) o = Throw YstringException).
Proof.
  intros Hne Hv Hw Ho Lw Lt. destruct (p_c101_last t post o w false v vs Hne Hv (conj Hw Lw) Ho) as [H1 H2]. split; [exact H1|].
  intros K. destruct (H2 K) as (b & E & [->|(r & u & us & -> & Hu & Hr)]); [exact E|]. destruct b; [|exact E].
  exfalso. destruct Hr as [_ Hr]. exact (Lt r u us eq_refl Hu Hr).
Qed.
Lemma p_c101_last_malformed s w o : MalformedEnd w -> (~ long_cont_tail w -> ci_find_last s w o = Throw YstringException) /\ (long_cont_tail w -> ci_find_last s w o = UB).
Proof. intros Hw. split; intros L; [apply (p_c101_last_throws s w false)|apply (p_c101_last_throws s w true)]; now split. Qed.
