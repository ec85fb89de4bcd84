(** C134: text that arrives in pieces. *)
From Verif Require Import Base Spec.Utf8Spec Spec.Chunks Model.Decode Model.Callbacks Model.References
  Proofs.Utf8Lemmas Proofs.Utf8Props Proofs.RefLemmas Proofs.ConcatLemmas.
From Verif Require Import Model.Encode Model.Search Model.CharClass.

Lemma popped_iff s cs r : Popped s cs r <-> exists u, s = u ++ r /\ Text u cs /\ (r = [] \/ Malformed r).
Proof.
  split.
  - induction 1 as [ch0 s r H|ch0 s e r H|ch0 s c t cs r H HP IH].
    + destruct (p_c111_pop ch0 s) as (H1 & H2 & H3). destruct (text_prefix s) as (u & cs & q & -> & HT & Hq).
      destruct HT as [|g c u cs Hg HT].
      * destruct Hq as [->|Hq]; [|cbn in *; rewrite (H3 Hq) in H; discriminate].
        rewrite H1 in H by reflexivity. injection H as <-. exists []. repeat split; auto; constructor.
      * rewrite <- app_assoc in *. rewrite (H2 g c (u ++ q) eq_refl Hg) in H. discriminate.
    + destruct (p_c111_pop ch0 s) as (H1 & H2 & H3). destruct (text_prefix s) as (u & cs & q & -> & HT & Hq).
      destruct HT as [|g c u cs Hg HT].
      * destruct Hq as [->|Hq]; [rewrite H1 in H by reflexivity; discriminate|].
        cbn in *. rewrite (H3 Hq) in H. injection H as _ <-. exists []. repeat split; auto; constructor.
      * rewrite <- app_assoc in *. rewrite (H2 g c (u ++ q) eq_refl Hg) in H. discriminate.
    + destruct IH as (u & -> & HT & Hr). destruct (p_c111_pop ch0 s) as (H1 & H2 & H3).
      destruct (text_prefix s) as (u' & cs' & q & -> & HT' & Hq). destruct HT' as [|g c' u' cs' Hg HT'].
      * destruct Hq as [->|Hq]; [rewrite H1 in H by reflexivity; discriminate|]. cbn in *. rewrite (H3 Hq) in H. discriminate.
      * rewrite <- app_assoc in *. rewrite (H2 g c' (u' ++ q) eq_refl Hg) in H. injection H as -> ->.
        exists (g ++ u). rewrite app_assoc. repeat split; auto. now constructor.
  - intros (u & -> & HT & Hr). induction HT as [|g c u cs Hg HT IH].
    + destruct (p_c111_pop 0 r) as (H1 & _ & H3). destruct Hr as [->|Hr].
      * apply (Popped_none 0). now apply H1.
      * apply (Popped_throw 0 _ YstringException). now apply H3.
    + rewrite <- app_assoc. destruct (p_c111_pop 0 (g ++ u ++ r)) as (_ & H2 & _).
      apply (Popped_some 0 _ c (u ++ r)); [now apply (H2 g)|exact IH].
Qed.

Lemma popped_unique s cs r cs' r' : Popped s cs r -> Popped s cs' r' -> cs = cs' /\ r = r'.
Proof.
  rewrite !popped_iff. intros (u & -> & HT & Hr) (u' & E & HT' & Hr').
  destruct (text_prefix_unique u cs r u' cs' r' HT HT' Hr Hr' E) as (_ & ? & ?). auto.
Qed.
Lemma popped_exists s : exists cs r, Popped s cs r.
Proof. destruct (text_prefix s) as (u & cs & r & -> & HT & Hr). exists cs, r. apply popped_iff. eauto. Qed.

Lemma p_c134_popped s : exists cs r, Popped s cs r /\ (forall cs' r', Popped s cs' r' -> cs' = cs /\ r' = r) /\
  (exists u, s = u ++ r /\ Text u cs) /\ (r = [] \/ Malformed r).
Proof.
  destruct (popped_exists s) as (cs & r & H). exists cs, r. split; [exact H|]. split.
  - intros cs' r' H'. destruct (popped_unique _ _ _ _ _ H H'). auto.
  - apply popped_iff in H as (u & -> & HT & Hr). eauto.
Qed.

Lemma fed_gen chunks : forall held cs0 s0, (exists u, s0 = u ++ held /\ Text u cs0) -> (held = [] \/ Malformed held) ->
  forall cs r, Fed held chunks cs r -> Popped (s0 ++ concat chunks) (cs0 ++ cs) r.
Proof.
  induction chunks as [|x xs IH]; intros held cs0 s0 (u & -> & HT) Hh cs r H; inversion H; subst.
  - cbn. rewrite !app_nil_r. apply popped_iff. eauto.
  - match goal with H : Popped _ _ _ |- _ => apply popped_iff in H as (v & E & HV & Hr) end.
    cbn [concat]. rewrite app_assoc. rewrite (app_assoc cs0).
    match goal with H : Fed ?q xs _ _ |- _ => apply (IH q) end; auto.
    exists (u ++ v). split; [|now apply Text_app]. now rewrite <- !app_assoc, E.
Qed.
Lemma fed_exists chunks : forall held, exists cs r, Fed held chunks cs r.
Proof.
  induction chunks as [|x xs IH]; intros held.
  - exists [], held. constructor.
  - destruct (popped_exists (held ++ x)) as (cs & r & H). destruct (IH r) as (cs' & r' & H'). exists (cs ++ cs'), r'. econstructor; eassumption.
Qed.
Lemma p_c134_fed chunks cs r : Fed [] chunks cs r <-> Popped (concat chunks) cs r.
Proof.
  assert (forall ds q, Fed [] chunks ds q -> Popped (concat chunks) ds q) as HF.
  { intros ds q H. apply (fed_gen chunks [] [] []); auto. exists []. split; [reflexivity|constructor]. }
  split; [apply HF|]. intros H. destruct (fed_exists chunks []) as (ds & q & H').
  destruct (popped_unique _ _ _ _ _ H (HF _ _ H')) as [-> ->]. exact H'.
Qed.
Lemma p_c134_utf32 chunks cs : Fed [] chunks cs [] <-> to_utf32 (concat chunks) = Ok cs.
Proof.
  rewrite p_c134_fed, popped_iff. destruct (p_c06 (concat chunks)) as [H1 H2]. split.
  - intros (u & E & HT & _). rewrite app_nil_r in E. rewrite <- E in HT. now destruct (H1 cs HT).
  - intros E. destruct (text_dec (concat chunks)) as [(ds & HT)|HN].
    + destruct (H1 ds HT) as [_ E']. assert (ds = cs) as -> by congruence. exists (concat chunks). rewrite app_nil_r. auto.
    + destruct (H2 HN). congruence.
Qed.
Lemma p_c134_held chunks cs r : Fed [] chunks cs r ->
  ((exists rest, is_valid_utf8 (concat chunks ++ rest) = Ok true) <-> exists g c v, uchar g c /\ g = r ++ v /\ v <> []) /\
  ((exists rest, is_valid_utf8 (concat chunks ++ rest) = Ok true) -> (length r <= 3)%nat).
Proof.
  rewrite p_c134_fed, popped_iff. intros (u & E & HT & Hr).
  assert ((exists rest, is_valid_utf8 (concat chunks ++ rest) = Ok true) <-> exists g c v, uchar g c /\ g = r ++ v /\ v <> []) as HH.
  { rewrite E. split.
    - intros (rest & HV). rewrite <- app_assoc in HV.
      destruct (text_dec (u ++ r ++ rest)) as [(ds & HD)|HN]; [|destruct (p_c06 (u ++ r ++ rest)) as [_ H]; destruct (H HN); congruence].
      destruct (Text_app_inv u cs (r ++ rest) ds HT HD) as (vs & _ & Hv).
      destruct Hr as [->|[Hn Hr]].
      { exists [x41], 65, [x41]. split; [apply (uchar1 x41); cbn; lia|]. split; [reflexivity|discriminate]. }
      inversion Hv as [E'|g c t es Hg Ht E' E'']; [symmetry in E'; apply app_eq_nil in E' as [E' _]; contradiction|]. subst.
      assert (exists v, g = r ++ v) as (v & ->).
      { destruct (app_eq_app _ _ _ _ E') as (l & [[-> _]|[-> _]]); [eauto|]. exfalso. eapply (Hr g c l); [exact Hg|reflexivity]. }
      exists (r ++ v), c, v. split; [exact Hg|]. split; [reflexivity|]. intros ->. rewrite app_nil_r in *. apply (Hr r c []); [exact Hg|]. now rewrite app_nil_r.
    - intros (g & c & v & Hg & -> & Hv). exists v. rewrite <- app_assoc.
      destruct (p_c06 (u ++ r ++ v)) as [H _]. refine (proj1 (H (cs ++ [c]) _)). apply Text_app; [exact HT|].
      rewrite <- (app_nil_r (r ++ v)). constructor; [exact Hg|constructor]. }
  split; [exact HH|]. intros H. apply HH in H as (g & c & v & Hg & -> & Hv). apply uchar_length in Hg. rewrite app_length in Hg.
  destruct v; [contradiction|]. cbn in Hg. lia.
Qed.
