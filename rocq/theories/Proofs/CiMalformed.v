(** C101: malformed patterns in the case-insensitive functions. *)
From Verif Require Import Base Model.Decode Model.Encode Model.Subrange Model.Search Model.Split Model.CharClass Model.ConvertCase
  Model.CodepointSet Model.CaseInsensitive Spec.Utf8Spec Spec.Strings Spec.UnicodeData Spec.CaseFold
  Proofs.Utf8Lemmas Proofs.DecodeLemmas Proofs.EncodeLemmas Proofs.CodepointLemmas Proofs.SearchLemmas Proofs.CaseLemmas Proofs.CaseStringLemmas Proofs.Utf8Props
  Proofs.CiLemmas Proofs.CiFindLemmas Proofs.CiFindLastLemmas.
Require Import Lia ZifyBool ZifyNat ZifyN.

Definition none {A} (t : option A) : bool := match t with None => true | _ => false end.

Lemma differ_no_prefix p c x q d y : fold_case p = fold_case q -> up c <> up d ->
  (forall a b, p ++ c :: x = a ++ b -> fold_case a <> fold_case (q ++ d :: y)) /\
  (forall a b, q ++ d :: y = a ++ b -> fold_case (p ++ c :: x) <> fold_case a).
Proof.
  intros E ND.
  assert (K : forall (l1 l2 m1 m2 : list N) (e f : N), length l1 = length l2 -> l1 ++ e :: m1 = l2 ++ f :: m2 -> e = f).
  { induction l1 as [|a l1 IH]; intros [|b l2] m1 m2 e f L H; try discriminate; cbn [app] in H; apply cons_eq in H; destruct H as [H1 H2]; [exact H1|].
    apply (IH l2 m1 m2); [now injection L|exact H2]. }
  assert (L : length (fold_case p) = length (fold_case q)) by now rewrite E.
  split; intros a b H F.
  - apply (f_equal fold_case) in H. rewrite !fold_app, F, fold_app in H. unfold fold_case in H at 2 5. cbn [map] in H. rewrite <- app_assoc in H. cbn [app] in H.
    apply ND. exact (K _ _ _ _ _ _ L H).
  - apply (f_equal fold_case) in H. rewrite !fold_app, <- F, fold_app in H. unfold fold_case in H at 2 4. cbn [map] in H. rewrite <- app_assoc in H. cbn [app] in H.
    apply ND. symmetry. exact (K _ _ _ _ _ _ (eq_sym L) H).
Qed.

Lemma mis_mal pre u us r t pre' v vs w fuel : Text u us -> tail r t -> Text v vs -> Malformed w -> (length us < fuel)%nat ->
  (next_ci_mismatch fuel (pre ++ u ++ r) (pre' ++ v ++ w) (length pre) (length pre') = Throw YstringException /\ reads us t vs)
  \/ (exists a b, next_ci_mismatch fuel (pre ++ u ++ r) (pre' ++ v ++ w) (length pre) (length pre') = Ok (a, b) /\
        b <> length (pre' ++ v ++ w) /\ ~ reads us t vs).
Proof.
  intros Hu Hr Hv Hw Hf. destruct (common us vs) as (p & x & q & y & -> & -> & E & H).
  assert (Lw : w <> []) by (destruct Hw; assumption).
  destruct (Text_cut _ _ _ Hu) as (u1 & u2 & -> & Hp & Hx). destruct (Text_cut _ _ _ Hv) as (v1 & v2 & -> & Hq & Hy).
  rewrite app_length in Hf. replace fuel with (length p + S (fuel - length p - 1))%nat by lia.
  rewrite <- (app_assoc u1), <- (app_assoc v1). rewrite (mis_loop p q) by assumption. cbn [next_ci_mismatch].
  assert (Hl : (length (pre' ++ v1) <> length (pre' ++ v1 ++ v2 ++ w))%nat) by (rewrite !app_length; destruct w; [congruence|cbn [length]; lia]).
  pose proof (fold_len _ _ E) as LE.
  destruct x as [|c x].
  - apply Text_nil_inv in Hx. subst u2. cbn [app]. rewrite (decode_tail _ _ _ Hr). destruct t; cbn [bind].
    + left. split; [reflexivity|]. right. split; [reflexivity|]. exists q, y. rewrite app_nil_r. auto.
    + right. exists (length (pre ++ u1)), (length (pre' ++ v1)). split; [reflexivity|]. split; [exact Hl|].
      intros [(x & c & z & E1 & E2)|[E1 _]]; [|discriminate]. apply fold_len in E2. apply (f_equal (@length N)) in E1.
      rewrite !app_length in *. cbn [length] in *. lia.
  - apply Text_cons_inv in Hx. destruct Hx as (g & u' & -> & Hg & Hx). rewrite <- (app_assoc g).
    rewrite (safe_decode_next_uchar _ _ _ _ Hg). cbn [bind]. destruct y as [|d y].
    + apply Text_nil_inv in Hy. subst v2. cbn [app]. rewrite safe_decode_next_malformed by exact Hw. cbn [bind].
      left. split; [reflexivity|]. left. exists p, c, x. rewrite app_nil_r. auto.
    + apply Text_cons_inv in Hy. destruct Hy as (h & v' & -> & Hh & Hy). rewrite <- (app_assoc h) in *.
      rewrite (safe_decode_next_uchar _ _ _ _ Hh). cbn [bind].
      destruct H as [H|[H|(c' & x' & d' & y' & H1 & H2 & H3)]]; try discriminate.
      apply cons_eq in H1. destruct H1 as [<- <-]. apply cons_eq in H2. destruct H2 as [<- <-].
      rewrite (ci_eq_spec _ _ _ _ Hg Hh). pose proof H3 as H4. apply N.eqb_neq in H3. rewrite H3. cbn [negb].
      right. exists (length (pre ++ u1)), (length (pre' ++ v1)). split; [reflexivity|]. split; [exact Hl|].
      destruct (differ_no_prefix p c x q d y E H4) as [D1 D2].
      intros [(a & e & b & E1 & E2)|(_ & a & b & E1 & E2)]; [exact (D1 _ _ E1 E2)|exact (D2 _ _ E1 E2)].
Qed.

(** *** starts_with *)
Lemma p_c101_starts s u us r t v vs w : s = u ++ r -> Text u us -> tail r t -> Text v vs -> Malformed w ->
  (reads us t vs -> ci_starts_with s (v ++ w) = Throw YstringException) /\ (~ reads us t vs -> ci_starts_with s (v ++ w) = Ok false).
Proof.
  intros -> Hu Hr Hv Hw. unfold ci_starts_with. pose proof (Text_length _ _ Hu) as L.
  destruct (mis_mal [] u us r t [] v vs w (S (length (u ++ r))) Hu Hr Hv Hw) as [(H & R)|(a & b & H & Hb & R)]; [rewrite app_length; lia| |];
    cbn [app length] in H; rewrite H; cbn [bind snd]; (split; intros K; [|]); try contradiction; [reflexivity|].
  apply Nat.eqb_neq in Hb. cbn [app] in Hb. now rewrite Hb.
Qed.

(** *** find_first *)

Section FindFirst.
Variables (h v w : str) (d : N) (vs : list N).
Hypothesis Hh : uchar h d.
Hypothesis Hv : Text v vs.
Hypothesis Hw : Malformed w.
Notation cmp := (h ++ v ++ w).
Notation ps := (d :: vs).
Notation loop fuel s i := (ci_find_first_loop fuel s cmp d (length h) i i).

Lemma ffm us : forall pre u r t fuel, Text u us -> tail r t -> (length us < fuel)%nat ->
  (loop fuel (pre ++ u ++ r) (length pre) = Ok sub_default /\ t = false /\ only_at_end ps us) \/
  (loop fuel (pre ++ u ++ r) (length pre) = Throw YstringException /\ ~ (t = false /\ only_at_end ps us)).
Proof using Hh Hv Hw.
  induction us as [|c us IH]; intros pre u r t fuel Hu Hr Hf; (destruct fuel as [|fuel]; [lia|]).
  - apply Text_nil_inv in Hu. subst u. cbn [app ci_find_first_loop]. rewrite (decode_tail _ _ _ Hr). destruct t; cbn [bind].
    + right. split; [reflexivity|]. intros [H _]. discriminate H.
    + left. split; [reflexivity|]. split; [reflexivity|]. intros x y z E F. destruct x; [|discriminate]. destruct y; [|discriminate]. now destruct z.
  - apply Text_cons_inv in Hu. destruct Hu as (g & u' & -> & Hg & Hu). rewrite <- (app_assoc g). cbn [ci_find_first_loop].
    rewrite (safe_decode_next_uchar _ _ _ _ Hg). cbn [bind]. rewrite (ci_eq_spec _ _ _ _ Hg Hh), <- app_length, (app_assoc pre g).
    assert (NEXT : ~ (up c = up d /\ exists x e y, us = x ++ e :: y /\ fold_case x = fold_case vs) ->
      (loop fuel ((pre ++ g) ++ u' ++ r) (length (pre ++ g)) = Ok sub_default /\ t = false /\ only_at_end ps (c :: us)) \/
      (loop fuel ((pre ++ g) ++ u' ++ r) (length (pre ++ g)) = Throw YstringException /\ ~ (t = false /\ only_at_end ps (c :: us)))).
    { intros ND. destruct (IH (pre ++ g) u' r t fuel Hu Hr ltac:(cbn [length] in Hf; lia)) as [(H1 & H2 & H3)|(H1 & H2)]; [left|right]; (split; [exact H1|]).
      - split; [exact H2|]. intros [|e x] y z E F.
        + destruct y as [|e y]; [discriminate F|]. cbn [app] in E. apply cons_eq in E. destruct E as [<- E].
          cbn [fold_case map] in F. apply cons_eq in F. destruct F as [F1 F2].
          destruct z as [|f z]; [reflexivity|]. exfalso. apply ND. split; [exact F1|]. exists y, f, z. auto.
        + cbn [app] in E. apply cons_eq in E. destruct E as [_ E]. exact (H3 x y z E F).
      - intros [K1 K2]. apply H2. split; [exact K1|]. intros x y z E F. apply (K2 (c :: x) y z); [cbn [app]; now rewrite E|exact F]. }
    destruct (N.eqb_spec (up c) (up d)) as [E|E]; [|apply NEXT; tauto].
    destruct (mis_mal (pre ++ g) u' us r t h v vs w (S (length ((pre ++ g) ++ u' ++ r))) Hu Hr Hv Hw) as [(H & R)|(a & b & H & Hb & R)].
    + apply Text_length in Hu. rewrite !app_length. lia.
    + rewrite H. cbn [bind]. right. split; [reflexivity|]. intros [-> K]. destruct R as [(x & e & y & -> & F)|[R _]]; [|discriminate].
      specialize (K [] (c :: x) (e :: y) eq_refl). cbn [fold_case map] in K. discriminate K. f_equal; assumption.
    + rewrite H. cbn [bind]. apply Nat.eqb_neq in Hb. rewrite Hb. apply NEXT. intros [_ K]. apply R. now left.
Qed.
End FindFirst.

Lemma p_c101_first_none pre t v vs w : vs <> [] -> Text v vs -> Malformed w ->
  ((exists cs, Text t cs /\ only_at_end vs cs) -> ci_find_first (pre ++ t) (v ++ w) (size pre) = Ok (Sub npos 0)) /\
  (~ (exists cs, Text t cs /\ only_at_end vs cs) -> ci_find_first (pre ++ t) (v ++ w) (size pre) = Throw YstringException).
Proof.
  intros Hne Hp Hw. destruct vs as [|d vs]; [congruence|].
  apply Text_cons_inv in Hp. destruct Hp as (h & v' & -> & Hh & Hv). rewrite <- (app_assoc h).
  assert (D : safe_decode_next (h ++ v' ++ w) 0 = Ok (Some (d, length h))) by (exact (safe_decode_next_uchar [] h d (v' ++ w) Hh)).
  unfold ci_find_first. rewrite D. cbn [bind]. unfold size. rewrite begin_plus_ok by (rewrite app_length; lia). cbn [bind].
  destruct (decoded t) as (u & us & r & tb & -> & Hu & Hr).
  destruct (ffm h v' w d vs Hh Hv Hw us pre u r tb (S (length (pre ++ u ++ r))) Hu Hr) as [(H1 & H2 & H3)|(H1 & H2)].
  - apply Text_length in Hu. rewrite !app_length. lia.
  - rewrite H1. split; [reflexivity|]. intros K. exfalso. apply K. exists us. subst tb. cbn in Hr. subst r. rewrite app_nil_r. auto.
  - rewrite H1. split; [|reflexivity]. intros (cs & HT & HO). exfalso. apply H2. destruct tb.
    + exfalso. destruct (Text_app_inv _ _ _ _ Hu HT) as (ds & _ & K). exact (Malformed_not_Text _ _ Hr K).
    + cbn in Hr. subst r. rewrite app_nil_r in HT. rewrite <- (Text_fun _ _ _ HT Hu). auto.
Qed.
Lemma p_c101_first_throws s w o : Malformed w -> ci_find_first s w o = Throw YstringException.
Proof. intros Hw. unfold ci_find_first. pose proof (safe_decode_next_malformed [] w Hw) as D. cbn [app length] in D. now rewrite D. Qed.

(** *** Backwards *)
Lemma differ_no_suffix p c x q d y : fold_case p = fold_case q -> up c <> up d ->
  (forall a b, x ++ c :: p = b ++ a -> fold_case a <> fold_case (y ++ d :: q)) /\
  (forall a b, y ++ d :: q = b ++ a -> fold_case (x ++ c :: p) <> fold_case a).
Proof.
  intros E ND. apply fold_rev_eq in E. destruct (differ_no_prefix (rev p) c (rev x) (rev q) d (rev y) E ND) as [D1 D2].
  assert (R : forall (p x : list N) c, rev (x ++ c :: p) = rev p ++ c :: rev x) by (intros; rewrite rev_app_distr; cbn [rev]; now rewrite <- app_assoc).
  split; intros a b H F; apply (f_equal (@rev N)) in H; rewrite R, rev_app_distr in H; apply fold_rev_eq in F; rewrite R in F; [exact (D1 _ _ H F)|exact (D2 _ _ H F)].
Qed.

Lemma pmis_mal s1 s2 r t u us post w k v vs post' n1 n2 fuel : s1 = r ++ u ++ post -> s2 = w ++ v ++ post' ->
  n1 = (length r + length u)%nat -> n2 = (length w + length v)%nat -> Text u us -> ltail r t -> Text v vs -> ltail w (Some k) ->
  (length us < fuel)%nat ->
  (exists b, prev_ci_mismatch fuel s1 s2 n1 n2 = stuck b /\ (b = k \/ t = Some b) /\ reads_back us (negb (none t)) vs)
  \/ (exists a b, prev_ci_mismatch fuel s1 s2 n1 n2 = Ok (a, b) /\ b <> 0%nat /\ ~ reads_back us (negb (none t)) vs).
Proof.
  intros -> -> -> -> Hu Hr Hv Hw Hf. destruct (common_end us vs) as (p & x & q & y & -> & -> & E & H).
  assert (Lw : (0 < length w)%nat) by (destruct w; [destruct k; destruct Hw as [[K _] _]; congruence|cbn; lia]).
  destruct (Text_cut _ _ _ Hu) as (u2 & u1 & -> & Hx & Hp). destruct (Text_cut _ _ _ Hv) as (v2 & v1 & -> & Hy & Hq).
  rewrite app_length in Hf. replace fuel with (length p + S (fuel - length p - 1))%nat by lia.
  rewrite (pmis_loop p q _ _ (r ++ u2) u1 post (w ++ v2) v1 post') by (rewrite ?app_length, <- ?app_assoc; auto; lia).
  cbn [prev_ci_mismatch]. pose proof (fold_len _ _ E) as LE.
  assert (Hl : length (w ++ v2) <> 0%nat) by (rewrite app_length; lia).
  destruct x as [|c x _] using rev_ind.
  - apply Text_nil_inv in Hx. subst u2. rewrite (dprev_tail _ r t (u1 ++ post)) by (rewrite ?app_nil_r; auto).
    destruct t as [b|]; cbn [bind].
    + left. exists b. split; [destruct b; reflexivity|]. split; [now right|]. right. split; [reflexivity|]. exists q, y. auto.
    + right. exists (length (r ++ [])), (length (w ++ v2)). split; [reflexivity|]. split; [exact Hl|].
      intros [(z & c & x & E1 & E2)|[E1 _]]; [|discriminate E1]. apply fold_len in E2. apply (f_equal (@length N)) in E1.
      rewrite !app_length in *. cbn [length] in *. lia.
  - apply Text_last in Hx. destruct Hx as (u' & g & -> & Hx & Hg).
    rewrite (dprev _ (r ++ u') g c (u1 ++ post)) by (rewrite ?app_length, <- ?app_assoc; auto; lia). cbn [bind].
    destruct y as [|d y _] using rev_ind.
    + apply Text_nil_inv in Hy. subst v2. rewrite (dprev_tail _ w (Some k) (v1 ++ post')) by (rewrite ?app_nil_r; auto).
      left. exists k. split; [destruct k; reflexivity|]. split; [now left|]. left. exists x, c, p. rewrite <- app_assoc. auto.
    + apply Text_last in Hy. destruct Hy as (v' & h & -> & Hy & Hh).
      rewrite (dprev _ (w ++ v') h d (v1 ++ post')) by (rewrite ?app_length, <- ?app_assoc; auto; lia). cbn [bind].
      destruct H as [H|[H|(c' & x' & d' & y' & H1 & H2 & H3)]]; [destruct x; discriminate|destruct y; discriminate|].
      apply app_inj_tail in H1. destruct H1 as [-> ->]. apply app_inj_tail in H2. destruct H2 as [-> ->].
      rewrite (ci_eq_spec _ _ _ _ Hg Hh). pose proof H3 as H4. apply N.eqb_neq in H3. rewrite H3. cbn [negb].
      right. eexists _, _. split; [reflexivity|]. split; [exact Hl|].
      destruct (differ_no_suffix p c' x' q d' y' E H4) as [D1 D2]. rewrite <- !app_assoc. cbn [app].
      intros [(b & e & a & E1 & E2)|(_ & a & b & E1 & E2)]; [|exact (D2 _ _ E1 E2)].
      apply (D1 a (b ++ [e])); [rewrite <- app_assoc; exact E1|exact E2].
Qed.

Lemma p_c101_ends r t u us w k v vs : Text u us -> ltail r t -> Text v vs -> ltail w (Some k) ->
  (~ reads_back us (negb (none t)) vs -> ci_ends_with (r ++ u) (w ++ v) = Ok false) /\
  (reads_back us (negb (none t)) vs -> exists b, ci_ends_with (r ++ u) (w ++ v) = stuck b /\ (b = k \/ t = Some b)).
Proof.
  intros Hu Hr Hv Hw. unfold ci_ends_with. pose proof (Text_length _ _ Hu) as L.
  destruct (pmis_mal (r ++ u) (w ++ v) r t u us [] w k v vs [] (length (r ++ u)) (length (w ++ v)) (S (length (r ++ u)))) as [(b & H & Hb & R)|(a & b & H & Hb & R)];
    rewrite ?app_nil_r, ?app_length; auto; [lia| |]; rewrite app_length in H; rewrite app_length in H; rewrite H.
  - split; [contradiction|]. intros _. exists b. split; [destruct b; reflexivity|exact Hb].
  - cbn [bind snd]. apply Nat.eqb_neq in Hb. rewrite Hb. split; [reflexivity|contradiction].
Qed.


Section FindLast.
Variables (h v w : str) (d : N) (k : bool) (vs : list N).
Hypothesis Hh : uchar h d.
Hypothesis Hv : Text v vs.
Hypothesis Hw : ltail w (Some k).
Notation cmp := (w ++ v ++ h).
Notation ps := (vs ++ [d]).
Notation loop fuel s i := (ci_find_last_loop fuel s cmp d (length w + length v)%nat i i).

Lemma flm us : forall s r t u post n fuel, s = r ++ u ++ post -> n = (length r + length u)%nat -> Text u us -> ltail r t -> (length us < fuel)%nat ->
  (loop fuel s n = Ok sub_default /\ t = None /\ only_at_start ps us) \/
  (exists b, loop fuel s n = stuck b /\ (b = k \/ t = Some b) /\ ~ (t = None /\ only_at_start ps us)).
Proof using Hh Hv Hw.
  induction us as [|c us IH] using rev_ind; intros s r t u post n fuel Es En Hu Hr Hf; (destruct fuel as [|fuel]; [lia|]).
  - apply Text_nil_inv in Hu. subst u. cbn [ci_find_last_loop]. rewrite (dprev_tail s r t post) by (auto; cbn [length] in En; lia).
    destruct t as [b|]; cbn [bind].
    + right. exists b. split; [destruct b; reflexivity|]. split; [now right|]. intros [H _]. discriminate H.
    + left. split; [reflexivity|]. split; [reflexivity|]. intros x y z E F. destruct x; [reflexivity|discriminate].
  - apply Text_last in Hu. destruct Hu as (u' & g & -> & Hu & Hg). rewrite app_length in En. cbn [ci_find_last_loop].
    assert (Es' : s = r ++ u' ++ g ++ post) by (rewrite Es, <- !app_assoc; reflexivity).
    rewrite (dprev s (r ++ u') g c post) by (rewrite ?app_length, <- ?app_assoc; auto; lia). cbn [bind]. rewrite (ci_eq_spec _ _ _ _ Hg Hh), app_length.
    assert (NEXT : ~ (up c = up d /\ exists y e x, us = y ++ e :: x /\ fold_case x = fold_case vs) ->
      (loop fuel s (length r + length u')%nat = Ok sub_default /\ t = None /\ only_at_start ps (us ++ [c])) \/
      (exists b, loop fuel s (length r + length u')%nat = stuck b /\ (b = k \/ t = Some b) /\ ~ (t = None /\ only_at_start ps (us ++ [c])))).
    { intros ND. destruct (IH s r t u' (g ++ post) (length r + length u')%nat fuel Es' eq_refl Hu Hr ltac:(rewrite app_length in Hf; cbn [length] in Hf; lia))
        as [(H1 & H2 & H3)|(b & H1 & H2 & H3)]; [left|right; exists b]; (split; [exact H1|]).
      - split; [exact H2|]. intros x y z E F. destruct z as [|e z _] using rev_ind.
        + rewrite app_nil_r in E. destruct y as [|e y _] using rev_ind; [symmetry in F; apply fold_snoc_nil in F; contradiction|].
          rewrite app_assoc in E. apply app_inj_tail in E. destruct E as [E <-]. apply fold_snoc in F. destruct F as [F1 F2].
          destruct x as [|f x _] using rev_ind; [reflexivity|]. exfalso. apply ND. split; [exact F2|]. exists x, f, y. rewrite E, <- app_assoc. auto.
        + rewrite !app_assoc in E. apply app_inj_tail in E. destruct E as [E _]. rewrite <- app_assoc in E. exact (H3 x y z E F).
      - split; [exact H2|]. intros [K1 K2]. apply H3. split; [exact K1|]. intros x y z E F.
        apply (K2 x y (z ++ [c])); [rewrite E, <- !app_assoc; reflexivity|exact F]. }
    destruct (N.eqb_spec (up c) (up d)) as [E|E]; [|apply NEXT; tauto].
    destruct (pmis_mal s cmp r t u' us (g ++ post) w k v vs h (length r + length u')%nat (length w + length v)%nat (S (length s)))
      as [(b & H & Hb & R)|(a & b & H & Hb & R)]; auto.
    + apply Text_length in Hu. rewrite Es', !app_length. lia.
    + rewrite H. right. exists b. split; [destruct b; reflexivity|]. split; [exact Hb|]. intros [-> K]. destruct R as [(y & e & x & -> & F)|[R _]]; [|discriminate R].
      specialize (K (y ++ [e]) (x ++ [c]) []). rewrite app_nil_r, <- !app_assoc in K. specialize (K eq_refl).
      rewrite !fold_app, F in K. unfold fold_case in K at 2 4. cbn [map] in K. rewrite E in K. specialize (K eq_refl). destruct y; discriminate K.
    + rewrite H. cbn [bind]. apply Nat.eqb_neq in Hb. rewrite Hb. apply NEXT. intros [_ K]. apply R. now left.
Qed.
End FindLast.

Lemma Text_suffix_inv u us : Text u us -> forall r cs, Text (r ++ u) cs -> exists ds, Text r ds.
Proof.
  intros Hu. revert u Hu. induction us as [|c us IH] using rev_ind; intros u Hu r cs H.
  - apply Text_nil_inv in Hu. subst u. rewrite app_nil_r in H. eauto.
  - apply Text_last in Hu. destruct Hu as (u' & g & -> & Hu & Hg).
    destruct cs as [|d cs _] using rev_ind.
    + apply Text_nil_inv in H. apply app_eq_nil in H. destruct H as [-> _]. exists []. constructor.
    + apply Text_last in H. destruct H as (t & g' & E & HT & Hg'). rewrite app_assoc in E.
      destruct (uchar_suffix_unique g c (r ++ u') g' d t Hg Hg' E) as (-> & _ & <-). exact (IH u' Hu r cs HT).
Qed.
Lemma ltail_of r : r = [] \/ MalformedEnd r -> exists t, ltail r t.
Proof.
  intros [->|H]; [exists None; reflexivity|]. destruct (long_cont_tail_dec r) as [L|L]; [exists (Some true)|exists (Some false)]; split; auto.
Qed.
Lemma decoded_back s : exists r t u us, s = r ++ u /\ Text u us /\ ltail r t.
Proof.
  destruct (text_suffix _ s (le_n _)) as (r & u & us & -> & Hu & Hr). destruct (ltail_of r Hr) as [t Ht]. exists r, t, u, us. auto.
Qed.

Lemma p_c101_last t post o w k v vs : vs <> [] -> Text v vs -> ltail w (Some k) -> N.min o (size (t ++ post)) = size t ->
  ((exists cs, Text t cs /\ only_at_start vs cs) -> ci_find_last (t ++ post) (w ++ v) o = Ok (Sub npos 0)) /\
  (~ (exists cs, Text t cs /\ only_at_start vs cs) -> exists b, ci_find_last (t ++ post) (w ++ v) o = stuck b /\
     (b = k \/ exists r u us, t = r ++ u /\ Text u us /\ ltail r (Some b))).
Proof.
  intros Hne Hp Hw Ho. destruct vs as [|d vs _] using rev_ind; [congruence|].
  apply Text_last in Hp. destruct Hp as (v' & h & -> & Hv & Hh).
  assert (D : safe_decode_prev (w ++ v' ++ h) (length (w ++ v' ++ h)) = Ok (Some (d, length w + length v')%nat)).
  { rewrite (dprev _ (w ++ v') h d []) by (rewrite ?app_length, ?app_nil_r, <- ?app_assoc; auto; lia). now rewrite app_length. }
  unfold ci_find_last. rewrite D. cbn [bind]. rewrite Ho. unfold size. rewrite begin_plus_ok by (rewrite app_length; lia). cbn [bind].
  destruct (decoded_back t) as (r & tb & u & us & -> & Hu & Hr). rewrite <- (app_assoc r).
  destruct (flm h v' w d k vs Hh Hv Hw us (r ++ u ++ post) r tb u post (length (r ++ u)) (S (length (r ++ u ++ post))) eq_refl) as [(H1 & H2 & H3)|(b & H1 & Hb & H2)]; auto.
  - apply app_length.
  - apply Text_length in Hu. rewrite !app_length. lia.
  - rewrite H1. split; [reflexivity|]. intros K. exfalso. apply K. exists us. subst tb. cbn in Hr. subst r. auto.
  - rewrite H1. split.
    + intros (cs & HT & HO). exfalso. apply H2. destruct tb as [bb|].
      * exfalso. assert (ME : MalformedEnd r) by (destruct bb; apply Hr).
        destruct (Text_suffix_inv u us Hu r cs HT) as (ds & HD). exact (Text_end_ok _ _ HD ME).
      * cbn in Hr. subst r. cbn [app] in HT. rewrite <- (Text_fun _ _ _ HT Hu). auto.
    + intros _. exists b. split; [reflexivity|]. destruct Hb as [->| ->]; [now left|]. right. exists r, u, us. auto.
Qed.
Lemma p_c101_last_throws s w k o : ltail w (Some k) -> ci_find_last s w o = stuck k.
Proof. intros Hw. unfold ci_find_last. rewrite (dprev_tail w w (Some k) []) by (rewrite ?app_nil_r; auto). destruct k; reflexivity. Qed.
