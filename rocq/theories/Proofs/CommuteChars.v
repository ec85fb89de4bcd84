(** C114, C115: conversions that keep characters together. *)
From Verif Require Import Base Spec.Category Spec.UnicodeData Spec.Utf8Spec Spec.Strings Spec.Slices Spec.Case Spec.Counts Spec.Commute
  Model.Decode Model.Encode Model.Subrange Model.Search Model.CharClass Model.Chars
  Proofs.Utf8Lemmas Proofs.EncodeLemmas Proofs.CodepointLemmas Proofs.SearchLemmas Proofs.SliceLemmas Proofs.CharLemmas Proofs.PositionProps
  Proofs.CharClassLemmas Proofs.UnicodeProps Proofs.CountLemmas Proofs.CommuteLemmas.
From Coq Require Import ZifyBool ZifyNat ZifyN.
Ltac Zify.zify_post_hook ::= Z.div_mod_to_equations.

Lemma each_rev F ps qs : each F ps qs -> each F (rev ps) (rev qs).
Proof. induction 1; cbn [rev]; [constructor|]. apply Forall2_app; [assumption|]. now repeat constructor. Qed.
Lemma each_firstn F k : forall ps qs, each F ps qs -> each F (firstn k ps) (firstn k qs).
Proof. induction k as [|k IH]; intros ps qs H; [constructor|]. destruct H; cbn [firstn]; constructor; auto. now apply IH. Qed.
Lemma each_skipn F k : forall ps qs, each F ps qs -> each F (skipn k ps) (skipn k qs).
Proof. induction k as [|k IH]; intros ps qs H; [exact H|]. destruct H; cbn [skipn]; [constructor|]. now apply IH. Qed.
Lemma each_between F ps qs i j : each F ps qs -> each F (units_between ps i j) (units_between qs i j).
Proof. intros H. unfold units_between. rewrite <- (each_length F ps qs H). now apply each_firstn, each_skipn. Qed.
Lemma Forall_rev_ {A} (P : A -> Prop) l : Forall P l -> Forall P (rev l).
Proof. intros H. apply Forall_forall. intros x Hx. apply in_rev in Hx. rewrite Forall_forall in H. auto. Qed.
Lemma Forall_between (P : str -> Prop) ps i j : Forall P ps -> Forall P (units_between ps i j).
Proof.
  intros H. unfold units_between. rewrite Forall_forall in *. intros x Hx. apply H.
  assert (forall k (l : list str), In x (firstn k l) -> In x l) as A1 by (intros k l Hk; rewrite <- (firstn_skipn k l); apply in_or_app; now left).
  assert (forall k (l : list str), In x (skipn k l) -> In x l) as A2 by (intros k l Hk; rewrite <- (firstn_skipn k l); apply in_or_app; now right).
  eapply A2, A1, Hx.
Qed.

Section Conv.
  Variable F : str -> outcome str.
  Variable f : N -> list N.
  Variable dom : N -> Prop.
  Hypothesis F_ok : forall s cs, Text s cs -> Forall dom cs -> exists r, F s = Ok r /\ Text r (flat_map f cs).
  Hypothesis F_app : forall s cs t ds a b, Text s cs -> Text t ds -> Forall dom cs -> Forall dom ds ->
    F s = Ok a -> F t = Ok b -> F (s ++ t) = Ok (a ++ b).
  Notation good := (fun p : str => exists us, Text p us /\ Forall dom us).
  Lemma concat_each ps qs : each F ps qs -> Forall good ps -> F (concat ps) = Ok (concat qs).
  Proof using F_ok F_app.
    intros HE HT. apply (concat_conv F (flat_map f) dom (fun _ _ => True)); auto.
    intros s cs t ds a b H1 H2 H3 H4 _. now apply (F_app s cs t ds).
  Qed.
  Lemma text_marks q d ds : Text q (d :: ds) -> combining d = false \/ combining d = true -> Forall (fun m => combining m = true) ds -> one_char is_mark q.
  Proof using.
    intros HT _ HM. destruct (Text_cons_inv _ _ _ HT) as (g & t & -> & Hg & Ht). exists g, d, t, ds. repeat split; auto.
    pose proof (Text_below _ _ Ht) as HB. rewrite Forall_forall in *. intros m Hm. rewrite mark_combining by auto. auto.
  Qed.
  Lemma conv_one_char p q cs : one_char is_mark p -> Text p cs -> Forall dom cs -> Forall (keeps_marks f) cs -> F p = Ok q ->
    one_char is_mark q /\ (starts_unmarked is_mark p -> starts_unmarked is_mark q).
  Proof using F_ok.
    intros HO HT HD HK E. destruct (F_ok p cs HT HD) as (q' & E' & Hq). rewrite E in E'. injection E' as <-.
    destruct (one_char_text p cs HO HT) as (c & us & -> & HM). pose proof (Text_below _ _ HT) as HB.
    inversion HB as [|? ? Hc HBu]; inversion HK as [|? ? (d & ds & Ed & Hd & Hds) HKu]; subst. cbn [flat_map] in Hq. rewrite Ed in Hq.
    assert (Forall (fun m => combining m = true) (flat_map f us)) as HMu.
    { clear -HM HBu HKu. induction us as [|m us IH]; [constructor|]. inversion HM; inversion HBu; inversion HKu as [|? ? (d & ds & Ed & Hd & Hds) HKu']; subst.
      cbn [flat_map]. apply Forall_app. split; [|now apply IH]. rewrite Ed. constructor; [|exact Hds]. rewrite Hd, <- mark_combining; auto. }
    split.
    - apply (text_marks q d (ds ++ flat_map f us)); [exact Hq|destruct (combining d); auto|now apply Forall_app].
    - intros HU. pose proof (unmarked_head p c us HU HT) as Hm. destruct (Text_cons_inv _ _ _ Hq) as (g & t & -> & Hg & Ht).
      exists g, d, t. split; [reflexivity|]. split; [exact Hg|]. pose proof (Text_below _ _ Hq) as HBq. inversion HBq; subst.
      rewrite mark_combining, Hd, <- mark_combining; assumption.
  Qed.
  Lemma chars_each ps : forall cs, Forall (one_char is_mark) ps -> Text (concat ps) cs -> Forall dom cs -> Forall (keeps_marks f) cs -> exists qs,
    each F ps qs /\ Forall good ps /\ Forall (one_char is_mark) qs /\
    Forall2 (fun p q => starts_unmarked is_mark p -> starts_unmarked is_mark q) ps qs.
  Proof using F_ok.
    induction ps as [|p ps IH]; intros cs HC HT HD HK.
    - exists []. repeat split; constructor.
    - inversion HC as [|? ? Hp HC']; subst. cbn [concat] in HT. destruct (Text_concat_cons p ps cs (one_char_has p Hp) HT) as (us & vs & -> & Hu & Hv).
      apply Forall_app in HD, HK. destruct HD as [D1 D2], HK as [K1 K2]. destruct (IH vs HC' Hv D2 K2) as (qs & H1 & H2 & H3 & H4).
      destruct (F_ok p us Hu D1) as (q & Eq & _). destruct (conv_one_char p q us Hp Hu D1 K1 Eq) as [O U].
      exists (q :: qs). repeat split; constructor; eauto.
  Qed.
  Lemma chars_conv ps cs : Chars ps -> Text (concat ps) cs -> Forall dom cs -> Forall (keeps_marks f) cs -> exists qs,
    each F ps qs /\ Forall good ps /\ Chars qs /\ F (concat ps) = Ok (concat qs).
  Proof using F_ok F_app.
    intros [HC HU] HT HD HK. destruct (chars_each ps cs HC HT HD HK) as (qs & H1 & H2 & H3 & H4). exists qs.
    split; [exact H1|]. split; [exact H2|]. split; [|now apply concat_each]. split; [exact H3|].
    destruct H4 as [|p q ps qs _ H4]; [constructor|]. cbn [tl] in *. clear -HU H4. induction H4; [constructor|]. inversion HU; subst. constructor; auto.
  Qed.
  Lemma chars_commute s cs : Text s cs -> Forall dom cs -> Forall (keeps_marks f) cs -> Fits s -> exists s', F s = Ok s' /\ (Fits s' ->
    count_chars s' = count_chars s /\
    (exists a a', reverse s = Ok a /\ reverse s' = Ok a' /\ F a = Ok a') /\
    forall i j, (- 0x8000000000000000 <= i <= 0x7FFFFFFFFFFFFFFF)%Z -> (- 0x8000000000000000 <= j <= 0x7FFFFFFFFFFFFFFF)%Z ->
      (0 <= i /\ 0 <= j)%Z \/ (i < j < 0)%Z \/ (i < 0 <= j)%Z ->
      exists a a', get_char_substring s i j = Ok a /\ get_char_substring s' i j = Ok a' /\ F a = Ok a').
  Proof using F_ok F_app.
    intros HT HD HK HF. destruct (Chars_exist s cs HT) as (ps & HC & <-). destruct (chars_conv ps cs HC HT HD HK) as (qs & HE & HG & HQ & E).
    exists (concat qs). split; [exact E|]. intros HF'. split; [|split].
    - rewrite (count_chars_spec ps HC HF), (count_chars_spec qs HQ HF'). now rewrite (each_length F ps qs HE).
    - exists (concat (rev ps)), (concat (rev qs)). split; [now apply reverse_spec|]. split; [now apply reverse_spec|].
      apply concat_each; [now apply each_rev|now apply Forall_rev_].
    - intros i j Hi Hj HS. exists (concat (units_between ps i j)), (concat (units_between qs i j)).
      split; [now apply char_substring_ok|]. split; [now apply char_substring_ok|].
      apply concat_each; [now apply each_between|now apply Forall_between].
  Qed.
  (** One code point becomes one code point. *)
  Lemma cps_conv ps : forall cs, Codepoints ps -> Text (concat ps) cs -> Forall dom cs -> Forall (fun c => exists d, f c = [d]) cs -> exists qs,
    each F ps qs /\ Forall good ps /\ Codepoints qs.
  Proof using F_ok.
    induction ps as [|p ps IH]; intros cs HC HT HD HK.
    - exists []. repeat split; constructor.
    - inversion HC as [|? ? (c & Hp) HC']; subst. cbn [concat] in HT. destruct (Text_app_inv p [c] _ cs (Text_one _ _ Hp) HT) as (vs & -> & Hv).
      inversion HD as [|? ? D1 D2]; inversion HK as [|? ? (d & Ed) K2]; subst. destruct (IH vs HC' Hv D2 K2) as (qs & H1 & H2 & H3).
      assert (Forall dom [c]) as D1' by (constructor; [exact D1|constructor]).
      destruct (F_ok p [c] (Text_one _ _ Hp) D1') as (q & Eq & Hq).
      cbn [flat_map] in Hq. rewrite Ed in Hq. destruct (Text_cons_inv _ _ _ Hq) as (g & t & -> & Hg & Ht). cbn [app] in Ht. apply Text_nil_inv in Ht. subst t. rewrite app_nil_r in *.
      exists (g :: qs). split; [now constructor|]. split.
      + constructor; [|exact H2]. exists [c]. split; [now apply Text_one|exact D1'].
      + constructor; [|exact H3]. now exists d.
  Qed.
  Lemma cps_commute s cs : Text s cs -> Forall dom cs -> Forall (fun c => exists d, f c = [d]) cs -> Fits s -> exists s', F s = Ok s' /\ (Fits s' ->
    forall i j, (- 0x8000000000000000 < i <= 0x7FFFFFFFFFFFFFFF)%Z -> (- 0x8000000000000000 < j <= 0x7FFFFFFFFFFFFFFF)%Z ->
      (0 <= i /\ 0 <= j)%Z \/ (i < j < 0)%Z \/ (j < 0 <= i)%Z ->
      exists a a', get_codepoint_substring s i j = Ok a /\ get_codepoint_substring s' i j = Ok a' /\ F a = Ok a').
  Proof using F_ok F_app.
    intros HT HD HK HF. destruct (Text_Codepoints s cs HT) as (ps & HC & <-). destruct (cps_conv ps cs HC HT HD HK) as (qs & HE & HG & HQ).
    exists (concat qs). split; [now apply concat_each|]. intros HF' i j Hi Hj HS.
    exists (concat (units_between ps i j)), (concat (units_between qs i j)).
    split; [apply cp_substring_ok; auto; now left|]. split; [apply cp_substring_ok; auto; now left|].
    apply concat_each; [now apply each_between|now apply Forall_between].
  Qed.
End Conv.
