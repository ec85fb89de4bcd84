(** Case-insensitive searching, backwards. *)
From Verif Require Import Base Model.Decode Model.Encode Model.Subrange Model.Search Model.Split Model.CharClass Model.ConvertCase
  Model.CodepointSet Model.CaseInsensitive Spec.Utf8Spec Spec.Strings Spec.UnicodeData Spec.CaseFold
  Proofs.Utf8Lemmas Proofs.DecodeLemmas Proofs.EncodeLemmas Proofs.CodepointLemmas Proofs.SearchLemmas Proofs.CaseLemmas Proofs.CaseStringLemmas Proofs.Utf8Props
  Proofs.CiLemmas Proofs.CiFindLemmas.
Require Import Lia ZifyBool ZifyNat ZifyN.

Lemma dprev s pre g c post n : s = pre ++ g ++ post -> n = (length pre + length g)%nat -> uchar g c ->
  safe_decode_prev s n = Ok (Some (c, length pre)).
Proof. intros -> -> H. now apply safe_decode_prev_uchar. Qed.

(** What stops decoding at the left end of [r]: its start, a malformed sequence, or undefined behaviour. *)
Definition ltail (r : str) (t : option bool) : Prop :=
  match t with
  | None => r = []
  | Some false => MalformedEnd r /\ ~ long_cont_tail r
  | Some true => MalformedEnd r /\ long_cont_tail r
  end.
Definition stuck {A} (b : bool) : outcome A := if b then UB else Throw YstringException.

Lemma dprev_tail s r t post n : s = r ++ post -> n = length r -> ltail r t ->
  safe_decode_prev s n = match t with None => Ok None | Some b => stuck b end.
Proof.
  intros -> ->. destruct t as [[|]|]; cbn.
  - intros [_ H]. now apply safe_decode_prev_long.
  - intros [H1 H2]. now apply safe_decode_prev_malformed.
  - intros ->. reflexivity.
Qed.

Lemma Text_last s cs c : Text s (cs ++ [c]) -> exists t g, s = t ++ g /\ Text t cs /\ uchar g c.
Proof.
  intros H. destruct (Text_cut _ _ _ H) as (u & v & -> & H1 & H2). apply Text_cons_inv in H2.
  destruct H2 as (g & w & -> & Hg & H2). apply Text_nil_inv in H2. subst w. rewrite app_nil_r. eauto.
Qed.

Lemma Text_end_ok u us : Text u us -> ~ MalformedEnd u.
Proof.
  intros Hu [H1 H2]. destruct us as [|c us _] using rev_ind; [now apply Text_nil_inv in Hu|].
  apply Text_last in Hu. destruct Hu as (t & g & -> & _ & Hg). eapply H2; eauto.
Qed.

Lemma fold_snoc us c vs d : fold_case (us ++ [c]) = fold_case (vs ++ [d]) -> fold_case us = fold_case vs /\ up c = up d.
Proof. rewrite !fold_app. intros H. apply app_inj_tail in H. exact H. Qed.
Lemma fold_snoc_nil us c : fold_case (us ++ [c]) <> [].
Proof. rewrite fold_app. destruct (fold_case us); discriminate. Qed.

Lemma pmis_loop us : forall vs s1 s2 pre u post pre' v post' n1 n2 fuel, s1 = pre ++ u ++ post -> s2 = pre' ++ v ++ post' ->
  n1 = (length pre + length u)%nat -> n2 = (length pre' + length v)%nat ->
  Text u us -> Text v vs -> fold_case us = fold_case vs ->
  prev_ci_mismatch (length us + fuel) s1 s2 n1 n2 = prev_ci_mismatch fuel s1 s2 (length pre) (length pre').
Proof.
  induction us as [|c us IH] using rev_ind; intros vs s1 s2 pre u post pre' v post' n1 n2 fuel -> -> -> -> Hu Hv E.
  - apply fold_len in E. destruct vs; [|discriminate]. apply Text_nil_inv in Hu. apply Text_nil_inv in Hv. subst.
    cbn [length]. now rewrite !Nat.add_0_r.
  - destruct vs as [|d vs _] using rev_ind; [apply fold_snoc_nil in E; contradiction|].
    apply fold_snoc in E. destruct E as [E Ec].
    apply Text_last in Hu. destruct Hu as (u' & g & -> & Hu & Hg).
    apply Text_last in Hv. destruct Hv as (v' & h & -> & Hv & Hh).
    rewrite app_length. replace (length us + length [c] + fuel)%nat with (S (length us + fuel)) by (cbn [length]; lia).
    cbn [prev_ci_mismatch].
    rewrite (dprev _ (pre ++ u') g c post) by (rewrite ?app_length, <- ?app_assoc; auto; lia). cbn [bind].
    rewrite (dprev _ (pre' ++ v') h d post') by (rewrite ?app_length, <- ?app_assoc; auto; lia). cbn [bind].
    rewrite (ci_eq_spec _ _ _ _ Hg Hh), Ec, N.eqb_refl. cbn [negb].
    apply (IH vs _ _ pre u' (g ++ post) pre' v' (h ++ post')); rewrite ?app_length, <- ?app_assoc; auto.
Qed.

Definition end_match (ps us : list N) : Prop := exists x y, us = x ++ y /\ fold_case y = fold_case ps.

Lemma fold_rev a : fold_case (rev a) = rev (fold_case a).
Proof. apply map_rev. Qed.
Lemma fold_rev_eq a b : fold_case a = fold_case b <-> fold_case (rev a) = fold_case (rev b).
Proof. rewrite !fold_rev. split; [congruence|]. intros H. apply (f_equal (@rev N)) in H. now rewrite !rev_involutive in H. Qed.

Lemma end_match_dec ps us : end_match ps us \/ ~ end_match ps us.
Proof.
  destruct (head_match_dec (rev ps) (rev us)) as [(x & y & E & F)|H].
  - left. exists (rev y), (rev x). split.
    + now rewrite <- rev_app_distr, <- E, rev_involutive.
    + apply fold_rev_eq. now rewrite rev_involutive.
  - right. intros (x & y & -> & F). apply H. exists (rev y), (rev x). split; [apply rev_app_distr|]. now apply fold_rev_eq in F.
Qed.

Lemma common_end us vs : exists p x q y, us = x ++ p /\ vs = y ++ q /\ fold_case p = fold_case q /\
  (x = [] \/ y = [] \/ exists c x' d y', x = x' ++ [c] /\ y = y' ++ [d] /\ up c <> up d).
Proof.
  destruct (common (rev us) (rev vs)) as (p & x & q & y & E1 & E2 & F & H).
  exists (rev p), (rev x), (rev q), (rev y).
  rewrite <- !rev_app_distr, <- E1, <- E2, !rev_involutive. repeat split.
  - now apply fold_rev_eq in F.
  - destruct H as [->|[->|(c & x' & d & y' & -> & -> & H)]]; auto.
    right. right. exists c, (rev x'), d, (rev y'). auto.
Qed.

(** [r ++ x] before the position in [s1], [v] in [s2]. *)
Lemma pmis_match s1 s2 w x xs post v vs post' n1 n2 fuel : s1 = w ++ x ++ post -> s2 = v ++ post' ->
  n1 = (length w + length x)%nat -> n2 = length v -> Text x xs -> Text v vs -> fold_case xs = fold_case vs ->
  (length xs < fuel)%nat -> ~ MalformedEnd w ->
  prev_ci_mismatch fuel s1 s2 n1 n2 = Ok (length w, 0%nat).
Proof.
  intros -> -> -> -> Hx Hv E Hf Hw. replace fuel with (length xs + S (fuel - length xs - 1))%nat by lia.
  rewrite (pmis_loop xs vs _ _ w x post [] v post') by (auto; lia). cbn [prev_ci_mismatch length].
  destruct (seq_dec_end w) as [->|[H|(t & g & c & Hg & ->)]].
  - reflexivity.
  - contradiction.
  - rewrite (dprev _ t g c (x ++ post)) by (rewrite ?app_length, <- ?app_assoc; auto). reflexivity.
Qed.

Lemma pmis_match_bad s1 s2 w b x xs post v vs post' n1 n2 fuel : s1 = w ++ x ++ post -> s2 = v ++ post' ->
  n1 = (length w + length x)%nat -> n2 = length v -> Text x xs -> Text v vs -> fold_case xs = fold_case vs ->
  (length xs < fuel)%nat -> ltail w (Some b) ->
  prev_ci_mismatch fuel s1 s2 n1 n2 = stuck b.
Proof.
  intros -> -> -> -> Hx Hv E Hf Hw. replace fuel with (length xs + S (fuel - length xs - 1))%nat by lia.
  rewrite (pmis_loop xs vs _ _ w x post [] v post') by (auto; lia). cbn [prev_ci_mismatch].
  rewrite (dprev_tail _ w (Some b) (x ++ post)) by auto. destruct b; reflexivity.
Qed.

Lemma pmis_none s1 s2 r t u us post v vs post' n1 n2 fuel : s1 = r ++ u ++ post -> s2 = v ++ post' ->
  n1 = (length r + length u)%nat -> n2 = length v -> Text u us -> ltail r t -> Text v vs -> ~ end_match vs us ->
  (length us < fuel)%nat ->
  (exists a b, prev_ci_mismatch fuel s1 s2 n1 n2 = Ok (a, b) /\ b <> 0%nat)
  \/ (exists b, t = Some b /\ (length us < length vs)%nat /\ prev_ci_mismatch fuel s1 s2 n1 n2 = stuck b).
Proof.
  intros -> -> -> -> Hu Hr Hv Hn Hf. destruct (common_end us vs) as (p & x & q & y & -> & -> & E & H).
  destruct (Text_cut _ _ _ Hu) as (u2 & u1 & -> & Hx & Hp). destruct (Text_cut _ _ _ Hv) as (v2 & v1 & -> & Hy & Hq).
  rewrite app_length in Hf. replace fuel with (length p + S (fuel - length p - 1))%nat by lia.
  rewrite (pmis_loop p q _ _ (r ++ u2) u1 post v2 v1 post') by (rewrite ?app_length, <- ?app_assoc; auto; lia).
  cbn [prev_ci_mismatch].
  destruct y as [|d y _] using rev_ind; [exfalso; apply Hn; exists x, p; split; [reflexivity|exact E]|].
  apply Text_last in Hy. destruct Hy as (v' & h & -> & Hy & Hh).
  pose proof (uchar_length _ _ Hh) as Lh.
  assert (Hl : length (v' ++ h) <> 0%nat) by (rewrite app_length; lia).
  destruct x as [|c x _] using rev_ind.
  - apply Text_nil_inv in Hx. subst u2. rewrite (dprev_tail _ r t (u1 ++ post)) by (rewrite ?app_nil_r; auto).
    destruct t as [b|]; cbn [bind].
    + right. exists b. split; [reflexivity|]. split; [|destruct b; reflexivity]. apply fold_len in E. rewrite !app_length. cbn [length]. lia.
    + left. eauto.
  - apply Text_last in Hx. destruct Hx as (u' & g & -> & Hx & Hg).
    rewrite (dprev _ (r ++ u') g c (u1 ++ post)) by (rewrite ?app_length, <- ?app_assoc; auto; lia). cbn [bind].
    rewrite (dprev _ v' h d (v1 ++ post')) by (rewrite ?app_length, <- ?app_assoc; auto; lia). cbn [bind].
    destruct H as [H|[H|(c' & x' & d' & y' & H1 & H2 & H3)]]; [destruct x; discriminate|destruct y; discriminate|].
    apply app_inj_tail in H1. destruct H1 as [-> ->]. apply app_inj_tail in H2. destruct H2 as [-> ->].
    rewrite (ci_eq_spec _ _ _ _ Hg Hh). apply N.eqb_neq in H3. rewrite H3. cbn [negb]. left. eauto.
Qed.

(** *** C49 ends_with *)
Lemma p_c49_ends s cs p ps : Text s cs -> Text p ps ->
  exists b, ci_ends_with s p = Ok b /\ (b = true <-> exists x y, cs = x ++ y /\ fold_case y = fold_case ps).
Proof.
  intros Hs Hp. unfold ci_ends_with. pose proof (Text_length _ _ Hs) as L.
  destruct (end_match_dec ps cs) as [(x & y & -> & E)|Hn].
  - destruct (Text_cut _ _ _ Hs) as (u & v & -> & Hx & Hy).
    rewrite (pmis_match _ _ u v y [] p ps []); rewrite ?app_nil_r, ?app_length in *; auto; [|lia|now apply Text_end_ok with x].
    exists true. split; [reflexivity|]. split; eauto.
  - exists false. split; [|split; [discriminate|]; intros H; contradiction].
    destruct (pmis_none s p [] None s cs [] p ps [] (length s) (length p) (S (length s))) as [(a & b & H & Hb)|(b & H & _)];
      rewrite ?app_nil_r; auto; try reflexivity; try lia; try discriminate.
    rewrite H. cbn [bind snd]. apply Nat.eqb_neq in Hb. now rewrite Hb.
Qed.

Lemma p_c49_ends_any u us w p ps : Text u us -> Text p ps -> fold_case us = fold_case ps ->
  (MalformedEnd w -> ~ long_cont_tail w -> ci_ends_with (w ++ u) p = Throw YstringException) /\
  (MalformedEnd w -> long_cont_tail w -> ci_ends_with (w ++ u) p = UB) /\
  (~ MalformedEnd w -> ci_ends_with (w ++ u) p = Ok true).
Proof.
  intros Hu Hp E. unfold ci_ends_with. pose proof (Text_length _ _ Hu) as L. repeat split; intros Hw.
  - intros Hl. rewrite (pmis_match_bad _ _ w false u us [] p ps []); rewrite ?app_nil_r, ?app_length; auto; [lia|now split].
  - intros Hl. rewrite (pmis_match_bad _ _ w true u us [] p ps []); rewrite ?app_nil_r, ?app_length; auto; [lia|now split].
  - rewrite (pmis_match _ _ w u us [] p ps []); rewrite ?app_nil_r, ?app_length; auto. lia.
Qed.

(** *** C50 find_last *)
Section FindLast.
Variables (h v : str) (d : N) (vs : list N).
Hypothesis Hh : uchar h d.
Hypothesis Hv : Text v vs.
Notation cmp := (v ++ h).
Notation ps := (vs ++ [d]).
Notation loop fuel s i := (ci_find_last_loop fuel s cmp d (length v) i i).

Lemma fl_step_none s r t u us g c post n fuel : s = r ++ u ++ g ++ post -> n = (length r + length u + length g)%nat ->
  uchar g c -> Text u us -> ltail r t -> ~ end_match ps (us ++ [c]) ->
  loop (S fuel) s n = loop fuel s (length r + length u)%nat
  \/ (exists b, t = Some b /\ (length us < length vs)%nat /\ loop (S fuel) s n = stuck b).
Proof using Hh Hv.
  intros Es -> Hg Hu Hr Hn. cbn [ci_find_last_loop].
  rewrite (dprev _ (r ++ u) g c post) by (rewrite ?app_length, <- ?app_assoc; auto). cbn [bind]. rewrite (ci_eq_spec _ _ _ _ Hg Hh).
  rewrite app_length.
  destruct (N.eqb_spec (up c) (up d)) as [E|E]; [|left; reflexivity].
  assert (Hn' : ~ end_match vs us).
  { intros (x & y & -> & E'). apply Hn. exists x, (y ++ [c]). split; [now rewrite app_assoc|].
    rewrite !fold_app, E'. cbn [fold_case map]. now rewrite E. }
  destruct (pmis_none s cmp r t u us (g ++ post) v vs h (length r + length u)%nat (length v) (S (length s)))
    as [(a & b & H & Hb)|(b & -> & L & H)]; auto.
  - apply Text_length in Hu. rewrite Es, !app_length. lia.
  - rewrite H. cbn [bind]. apply Nat.eqb_neq in Hb. rewrite Hb. left. reflexivity.
  - rewrite H. right. exists b. split; [reflexivity|]. split; [exact L|]. destruct b; reflexivity.
Qed.

Lemma fl_step_match s w x xs post n fuel : s = w ++ x ++ post -> n = (length w + length x)%nat ->
  Text x xs -> fold_case xs = fold_case ps -> ~ MalformedEnd w ->
  loop (S fuel) s n = Ok (Sub (size w) (size x)).
Proof using Hh Hv.
  intros Es -> Hx E Hw. destruct xs as [|c xs _] using rev_ind; [symmetry in E; apply fold_snoc_nil in E; contradiction|].
  apply Text_last in Hx. destruct Hx as (x' & g & -> & Hx & Hg).
  apply fold_snoc in E. destruct E as [E2 E1]. cbn [ci_find_last_loop]. rewrite app_length.
  rewrite (dprev _ (w ++ x') g c post) by (rewrite ?app_length, <- ?app_assoc in *; auto; lia). cbn [bind].
  rewrite (ci_eq_spec _ _ _ _ Hg Hh), E1, N.eqb_refl. rewrite app_length.
  rewrite (pmis_match s cmp w x' xs (g ++ post) v vs h); auto.
  - cbn [bind Nat.eqb]. unfold sub_its, size. rewrite !app_length. do 2 f_equal; lia.
  - now rewrite Es, <- !app_assoc.
  - apply Text_length in Hx. rewrite Es, !app_length. lia.
Qed.

Lemma fl_step_bad s w b x xs post n fuel : s = w ++ x ++ post -> n = (length w + length x)%nat ->
  Text x xs -> fold_case xs = fold_case ps -> ltail w (Some b) ->
  loop (S fuel) s n = stuck b.
Proof using Hh Hv.
  intros Es -> Hx E Hw. destruct xs as [|c xs _] using rev_ind; [symmetry in E; apply fold_snoc_nil in E; contradiction|].
  apply Text_last in Hx. destruct Hx as (x' & g & -> & Hx & Hg).
  apply fold_snoc in E. destruct E as [E2 E1]. cbn [ci_find_last_loop]. rewrite app_length.
  rewrite (dprev _ (w ++ x') g c post) by (rewrite ?app_length, <- ?app_assoc in *; auto; lia). cbn [bind].
  rewrite (ci_eq_spec _ _ _ _ Hg Hh), E1, N.eqb_refl. rewrite app_length.
  rewrite (pmis_match_bad s cmp w b x' xs (g ++ post) v vs h); auto.
  - destruct b; reflexivity.
  - now rewrite Es, <- !app_assoc.
  - apply Text_length in Hx. rewrite Es, !app_length. lia.
Qed.

Lemma fl_found us : forall s w x xs u post n fuel, s = w ++ x ++ u ++ post -> n = (length w + length x + length u)%nat ->
  Text u us -> Text x xs -> fold_case xs = fold_case ps -> ~ MalformedEnd w ->
  (forall a y z, xs ++ us = a ++ y ++ z -> fold_case y = fold_case ps -> a = []) ->
  (length us < fuel)%nat ->
  loop fuel s n = Ok (Sub (size w) (size x)).
Proof using Hh Hv.
  induction us as [|c us IH] using rev_ind; intros s w x xs u post n fuel Es En Hu Hx E Hw Hn Hf; (destruct fuel as [|fuel]; [lia|]).
  - apply Text_nil_inv in Hu. subst u. cbn [length] in En. apply fl_step_match with xs post; auto. lia.
  - apply Text_last in Hu. destruct Hu as (u' & g & -> & Hu & Hg).
    assert (D : exists r k ks t, w = r ++ k /\ Text k ks /\ ltail r t).
    { destruct (text_suffix _ w (le_n _)) as (r & k & ks & -> & Hk & [->|Hr]).
      - exists [], k, ks, None. repeat split; auto.
      - destruct ks as [|e ks _] using rev_ind.
        + apply Text_nil_inv in Hk. subst k. rewrite app_nil_r in Hw. contradiction.
        + destruct (long_cont_tail_dec r) as [L|L]; [exists r, k, (ks ++ [e]), (Some true)|exists r, k, (ks ++ [e]), (Some false)];
            repeat split; auto; apply Hr. }
    destruct D as (r & k & ks & t & -> & Hk & Hr).
    assert (HT : Text (k ++ x ++ u') (ks ++ xs ++ us)) by (apply Text_app; [|apply Text_app]; assumption).
    destruct (fl_step_none s r t (k ++ x ++ u') (ks ++ xs ++ us) g c post n fuel) as [H|(b & -> & L & _)]; auto.
    + now rewrite Es, <- !app_assoc.
    + rewrite En, !app_length. lia.
    + intros (y & a & E1 & E2).
      assert (La := fold_len _ _ E2). assert (Lx := fold_len _ _ E).
      assert (P : exists z, xs ++ us ++ [c] = z ++ a).
      { exists (skipn (length ks) y). rewrite <- !app_assoc in E1.
        apply (f_equal (skipn (length ks))) in E1. rewrite skipn_app, skipn_all, Nat.sub_diag in E1. cbn [skipn app] in E1.
        rewrite E1, skipn_app.
        replace (length ks - length y)%nat with 0%nat; [reflexivity|].
        apply (f_equal (@length N)) in E1. rewrite skipn_length, !app_length in E1. rewrite La, <- Lx in E1. cbn [length] in E1. lia. }
      destruct P as [z P]. assert (Z : z = []) by (apply (Hn z a []); [rewrite app_nil_r|]; assumption). subst z.
      apply (f_equal (@length N)) in P. cbn [length app] in P. rewrite !app_length in P. cbn [length] in P. lia.
    + rewrite H. apply (IH s (r ++ k) x xs u' (g ++ post)); auto.
      * now rewrite Es, <- !app_assoc.
      * rewrite !app_length. lia.
      * intros a y z E1 E2. apply (Hn a y (z ++ [c])); [|exact E2]. rewrite app_assoc, E1, <- !app_assoc. reflexivity.
      * rewrite app_length in Hf. cbn [length] in Hf. lia.
    + exfalso. apply fold_len in E. rewrite !app_length in L. rewrite app_length in E. cbn [length] in E. lia.
Qed.

Lemma fl_none us : forall s u post n fuel, s = u ++ post -> n = length u -> Text u us ->
  (forall a y z, us = a ++ y ++ z -> fold_case y <> fold_case ps) ->
  (length us < fuel)%nat -> loop fuel s n = Ok sub_default.
Proof using Hh Hv.
  induction us as [|c us IH] using rev_ind; intros s u post n fuel Es En Hu Hn Hf; (destruct fuel as [|fuel]; [lia|]).
  - apply Text_nil_inv in Hu. subst u n. reflexivity.
  - apply Text_last in Hu. destruct Hu as (u' & g & -> & Hu & Hg).
    destruct (fl_step_none s [] None u' us g c post n fuel) as [H|(b & H & _)]; auto; try discriminate; try reflexivity.
    + now rewrite Es, <- app_assoc.
    + rewrite En, app_length. reflexivity.
    + intros (a & y & E1 & E2). apply (Hn a y []); [now rewrite app_nil_r|exact E2].
    + rewrite H. apply (IH s u' (g ++ post)); auto.
      * now rewrite Es, <- app_assoc.
      * intros a y z E1 E2. apply (Hn a y (z ++ [c])); [|exact E2]. rewrite E1, <- !app_assoc. reflexivity.
      * rewrite app_length in Hf. cbn [length] in Hf. lia.
Qed.

Lemma fl_bad b us : forall s r u post n fuel, s = r ++ u ++ post -> n = (length r + length u)%nat -> Text u us -> ltail r (Some b) ->
  (forall a y z, us = a ++ y ++ z -> fold_case y = fold_case ps -> a = []) ->
  (length us < fuel)%nat -> loop fuel s n = stuck b.
Proof using Hh Hv.
  induction us as [|c us IH] using rev_ind; intros s r u post n fuel Es En Hu Hr Hn Hf; (destruct fuel as [|fuel]; [lia|]).
  - apply Text_nil_inv in Hu. subst u. cbn [ci_find_last_loop].
    rewrite (dprev_tail s r (Some b) post) by (auto; cbn [length] in En; lia). destruct b; reflexivity.
  - destruct (end_match_dec ps (us ++ [c])) as [(x & y & E1 & E2)|Hm].
    + assert (x = []) by (apply (Hn x y []); [rewrite app_nil_r|]; assumption). subst x. cbn [app] in E1. subst y.
      now apply fl_step_bad with r u (us ++ [c]) post.
    + apply Text_last in Hu. destruct Hu as (u' & g & -> & Hu & Hg). rewrite app_length in En.
      destruct (fl_step_none s r (Some b) u' us g c post n fuel) as [H|(b' & Eb & _ & H)]; auto; try lia.
      * now rewrite Es, <- app_assoc.
      * rewrite H. apply (IH s r u' (g ++ post)); auto.
        -- now rewrite Es, <- app_assoc.
        -- intros a y z E1 E2. apply (Hn a y (z ++ [c])); [|exact E2]. rewrite E1, <- !app_assoc. reflexivity.
        -- rewrite app_length in Hf. cbn [length] in Hf. lia.
      * injection Eb as <-. exact H.
Qed.
End FindLast.

Lemma p_c50_last ps p post o : ps <> [] -> Text p ps ->
  (forall u g v, last_ci ps u g v -> N.min o (size (u ++ g ++ v ++ post)) = size (u ++ g ++ v) ->
     ci_find_last (u ++ g ++ v ++ post) p o = Ok (Sub (size u) (size g))) /\
  (forall t, no_ci ps t -> N.min o (size (t ++ post)) = size t -> ci_find_last (t ++ post) p o = Ok (Sub npos 0)) /\
  (forall r u us, N.min o (size (r ++ u ++ post)) = size (r ++ u) -> Text u us -> MalformedEnd r ->
     (forall x y z, us = x ++ y ++ z -> fold_case y = fold_case ps -> x = []) ->
     (~ long_cont_tail r -> ci_find_last (r ++ u ++ post) p o = Throw YstringException) /\
     (long_cont_tail r -> ci_find_last (r ++ u ++ post) p o = UB)).
Proof.
  intros Hne Hp. destruct ps as [|d vs _] using rev_ind; [congruence|].
  apply Text_last in Hp. destruct Hp as (v' & h & -> & Hv & Hh).
  assert (D : safe_decode_prev (v' ++ h) (length (v' ++ h)) = Ok (Some (d, length v'))).
  { rewrite app_length, <- (app_nil_r h) at 1. now apply safe_decode_prev_uchar. }
  unfold ci_find_last. rewrite D. cbn [bind].
  repeat split.
  - intros u g v (gs & us & Hu & Hg & E & Hn & Hm) Ho. rewrite Ho. unfold size at 1.
    rewrite begin_plus_ok by (rewrite !app_length; lia). cbn [bind].
    rewrite (fl_found h v' d vs Hh Hv us _ u g gs v post); auto.
    + rewrite !app_length. lia.
    + apply Text_length in Hu. rewrite !app_length. lia.
  - intros t (cs & Ht & Hn) Ho. rewrite Ho. unfold size. rewrite begin_plus_ok by (rewrite app_length; lia). cbn [bind].
    rewrite (fl_none h v' d vs Hh Hv cs _ t post); auto.
    apply Text_length in Ht. rewrite !app_length. lia.
  - intros Hl. rewrite H. unfold size. rewrite begin_plus_ok by (rewrite !app_length; lia). cbn [bind].
    rewrite (fl_bad h v' d vs Hh Hv false us _ r u post); auto.
    + rewrite app_length. reflexivity.
    + now split.
    + apply Text_length in H0. rewrite !app_length. lia.
  - intros Hl. rewrite H. unfold size. rewrite begin_plus_ok by (rewrite !app_length; lia). cbn [bind].
    rewrite (fl_bad h v' d vs Hh Hv true us _ r u post); auto.
    + rewrite app_length. reflexivity.
    + now split.
    + apply Text_length in H0. rewrite !app_length. lia.
Qed.

(** The last match in a list. *)
Lemma last_match ps us : ps <> [] ->
  (exists x y z, us = x ++ y ++ z /\ fold_case y = fold_case ps /\
      (forall a b c, y ++ z = a ++ b ++ c -> fold_case b = fold_case ps -> a = []))
    \/ forall x y z, us = x ++ y ++ z -> fold_case y <> fold_case ps.
Proof.
  intros Hne. induction us as [|c us IH].
  - right. intros x y z E H. destruct x; [|discriminate]. destruct y; [|discriminate].
    apply fold_len in H. destruct ps; [congruence|discriminate].
  - destruct IH as [(x & y & z & -> & E & H)|Hn].
    + left. exists (c :: x), y, z. auto.
    + assert (S : forall x y z, c :: us = x ++ y ++ z -> fold_case y = fold_case ps -> x = []).
      { intros x y z E H. destruct x as [|e x]; [reflexivity|]. cbn [app] in E. injection E as _ E.
        exfalso. exact (Hn _ _ _ E H). }
      destruct (head_match_dec ps (c :: us)) as [(x & y & E1 & E2)|Hm].
      * left. exists [], x, y. repeat split; auto. intros a b e E3 E4. rewrite <- E1 in E3. eapply S; eauto.
      * right. intros x y z E1 E2. assert (x = []) by (eapply S; eauto). subst x. apply Hm. exists y, z. auto.
Qed.

Lemma last_ci_cases ps t cs : ps <> [] -> Text t cs ->
  (exists u g v, t = u ++ g ++ v /\ last_ci ps u g v) \/ no_ci ps t.
Proof.
  intros Hne Ht. destruct (last_match ps cs Hne) as [(x & y & z & -> & E & H)|Hn].
  - destruct (Text_cut _ _ _ Ht) as (u1 & u2 & -> & H1 & H2). destruct (Text_cut _ _ _ H2) as (u3 & u4 & -> & H3 & H4).
    left. exists u1, u3, u4. split; [reflexivity|]. exists y, z. repeat split; auto. now apply Text_end_ok with x.
  - right. exists cs. auto.
Qed.

Lemma first_ci_text ps t cs : ps <> [] -> Text t cs ->
  (exists u g v, t = u ++ g ++ v /\ first_ci ps u g v) \/ no_ci ps t.
Proof.
  intros Hne Ht. destruct (first_ci_cases ps t Hne) as [H|[H|(u & us & r & -> & H1 & H2 & _)]]; auto.
  exfalso. destruct (Text_app_inv _ _ _ _ H1 Ht) as (ds & _ & H). exact (Malformed_not_Text _ _ H2 H).
Qed.
