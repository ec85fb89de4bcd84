(** C119: there is one way to read the arrays *)
From Coq Require Import String.
From Verif Require Import Base Spec.Escape Spec.CppText Proofs.NumeralLemmas.
From Coq Require Import ZifyBool ZifyNat ZifyN.
Local Notation "'#' s" := (list_byte_of_string s%string) (at level 5, only parsing).

Definition starts_not (P : byte -> Prop) (r : str) : Prop := match r with [] => True | c :: _ => ~ P c end.
Lemma longest (P : byte -> Prop) a b r r' : Forall P a -> Forall P b -> starts_not P r -> starts_not P r' -> a ++ r = b ++ r' -> a = b /\ r = r'.
Proof.
  intros HA. revert b. induction HA as [|c a Hc HA IH]; intros b HB Hr Hr' E.
  - destruct HB as [|d b Hd HB]; [auto|]. cbn in E. subst r. contradiction.
  - destruct HB as [|d b Hd HB]; [cbn in E; subst r'; contradiction|]. cbn in E. injection E as <- E. destruct (IH b HB Hr Hr' E) as [-> ->]. auto.
Qed.
Definition is_blank (c : byte) : Prop := c = x20 \/ c = x0a.
(** What may come behind an item *)
Definition behind (r : str) : Prop := match r with [] => True | c :: _ => is_blank c \/ c = x2c end.
Definition sound_item {A} (item : str -> A -> Prop) : Prop :=
  (forall s x, item s x -> exists c s', s = c :: s' /\ ~ is_blank c /\ c <> x2c) /\
  (forall s x s' x' r r', item s x -> item s' x' -> behind r -> behind r' -> s ++ r = s' ++ r' -> s = s' /\ x = x').
Lemma items_unique {A} (item : str -> A -> Prop) : sound_item item -> forall s l, Items item s l -> forall l', Items item s l' -> l = l'.
Proof.
  intros [HS HU]. 
  assert (forall w s x r, blank_text w -> item s x -> ~ blank_text (w ++ s ++ r)) as K0.
  { intros w s x r _ HI HB. destruct (HS s x HI) as (c & s' & -> & Hc & _). apply Forall_app in HB as [_ HB]. apply Forall_inv in HB. contradiction. }
  assert (forall w s x r w' s' x' r', blank_text w -> item s x -> behind r -> blank_text w' -> item s' x' -> behind r' -> w ++ s ++ r = w' ++ s' ++ r' -> x = x' /\ r = r') as K1.
  { intros w s x r w' s' x' r' HW HI HR HW' HI' HR' E. destruct (HS s x HI) as (c & t & -> & Hc & _). destruct (HS s' x' HI') as (c' & t' & -> & Hc' & _).
    apply (longest is_blank) in E as [_ E]; [|exact HW|exact HW'|exact Hc|exact Hc']. destruct (HU _ _ _ _ _ _ HI HI' HR HR' E) as [Es ->]. split; [reflexivity|]. rewrite Es in E. now apply app_inv_head in E. }
  assert (forall w, blank_text w -> behind w) as KB by (intros w [|c w' Hc HW]; [exact I|now left]).
  assert (forall w t, blank_text w -> behind (w ++ #"," ++ t)) as KC by (intros w t [|c w' Hc HW]; [now right|now left]).
  assert (forall w w' t, blank_text w -> w <> w' ++ #"," ++ t) as KD.
  { intros w w' t HW ->. apply Forall_app in HW as [_ HW]. apply Forall_inv in HW as [HW|HW]; discriminate. }
  induction 1 as [w HW|w s x w' HW HI HW'|w s x w' t l HW HI HW' HT IH]; intros l' H'.
  - inversion H' as [w2 H1 E|w2 s2 x2 w2' H1 H2 H3 E|w2 s2 x2 w2' t2 l2 H1 H2 H3 H4 E]; subst; [reflexivity|exfalso; eapply K0; [..|exact HW]; eassumption|exfalso; eapply K0; [..|exact HW]; eassumption].
  - inversion H' as [w2 H1 E|w2 s2 x2 w2' H1 H2 H3 E|w2 s2 x2 w2' t2 l2 H1 H2 H3 H4 E].
    + exfalso. subst w2. eapply K0; [..|exact H1]; eassumption.
    + symmetry in E. destruct (K1 _ _ _ _ _ _ _ _ HW HI (KB _ HW') H1 H2 (KB _ H3) E) as [-> _]. reflexivity.
    + symmetry in E. destruct (K1 _ _ _ _ _ _ _ _ HW HI (KB _ HW') H1 H2 (KC _ t2 H3) E) as [_ E2]. exfalso. now apply (KD w' w2' t2).
  - inversion H' as [w2 H1 E|w2 s2 x2 w2' H1 H2 H3 E|w2 s2 x2 w2' t2 l2 H1 H2 H3 H4 E].
    + exfalso. subst w2. eapply K0; [..|exact H1]; eassumption.
    + symmetry in E. destruct (K1 _ _ _ _ _ _ _ _ HW HI (KC _ t HW') H1 H2 (KB _ H3) E) as [_ E2]. exfalso. symmetry in E2. now apply (KD w2' w' t).
    + symmetry in E. destruct (K1 _ _ _ _ _ _ _ _ HW HI (KC _ t HW') H1 H2 (KC _ t2 H3) E) as [-> E2].
      assert (t = t2) as <-; [|f_equal; now apply IH]. apply (longest is_blank) in E2 as [_ E2]; [|assumption|assumption|intros [K|K]; discriminate|intros [K|K]; discriminate].
      now injection E2.
Qed.
Lemma literal_chars s n : literal s n -> Forall (fun c => c <> x7d) s.
Proof.
  intros (ds & -> & _ & H). apply Forall_app. split; [repeat (constructor; [discriminate|]); constructor|]. apply num_forall in H. revert H. apply Forall_impl.
  intros c [d Hd] ->. revert Hd. unfold hex_digit. change (u8 x7d) with 0x7D. lia.
Qed.
Lemma literal_sound : sound_item literal.
Proof.
  split.
  - intros s n (ds & -> & _). exists x30, (x78 :: ds). split; [reflexivity|]. split; [intros [H|H]; discriminate|discriminate].
  - intros s n s' n' r r' (ds & -> & _ & H) (ds' & -> & _ & H') HR HR' E. rewrite <- !app_assoc in E. apply app_inv_head in E.
    assert (forall r, behind r -> starts_not (fun c => exists d, hex_digit c d) r) as K.
    { intros [|c q] Hq; [exact I|]. intros [d Hd]. revert Hd. destruct Hq as [[-> | ->]| ->]; unfold hex_digit; match goal with |- context [u8 ?b] => let v := eval vm_compute in (u8 b) in change (u8 b) with v end; lia. }
    apply (longest (fun c => exists d, hex_digit c d)) in E as [-> _]; [|now apply num_forall in H|now apply num_forall in H'|now apply K|now apply K].
    split; [reflexivity|]. exact (Hex_fun ds' n n' H H').
Qed.
Lemma items_chars t l : Items literal t l -> Forall (fun c => c <> x7d) t.
Proof.
  assert (forall w, blank_text w -> Forall (fun c => c <> x7d) w) as KW by (intros w; apply Forall_impl; intros c [-> | ->]; discriminate).
  induction 1 as [w HW|w s x w' HW HI HW'|w s x w' t l HW HI HW' HT IH]; [now apply KW|..]; rewrite ?Forall_app; repeat split; auto using (literal_chars s x); eauto using literal_chars.
  constructor; [discriminate|constructor].
Qed.
Lemma braced_prefix s l s' l' r r' : braced s l -> braced s' l' -> s ++ r = s' ++ r' -> s = s' /\ l = l'.
Proof.
  intros (t & -> & H) (t' & -> & H') E. rewrite <- !app_assoc in E. apply app_inv_head in E.
  apply (longest (fun c => c <> x7d)) in E as [-> _]; [|exact (items_chars _ _ H)|exact (items_chars _ _ H')|intros K; now apply K|intros K; now apply K].
  split; [reflexivity|]. exact (items_unique literal literal_sound t' l H l' H').
Qed.
Lemma braced_start s l : braced s l -> exists c s', s = c :: s' /\ ~ is_blank c /\ c <> x2c.
Proof. intros (t & -> & _). exists x7b, (t ++ #"}"). split; [reflexivity|]. split; [intros [H|H]; discriminate|discriminate]. Qed.
Lemma braced4_sound : sound_item braced4.
Proof.
  split.
  - intros s [[[a b] c] d]. apply braced_start.
  - intros s [[[a b] c] d] s' [[[a' b'] c'] d'] r r' H H' _ _ E. destruct (braced_prefix _ _ _ _ _ _ H H' E) as [-> El]. injection El as -> -> -> ->. auto.
Qed.
Lemma braced2_sound : sound_item braced2.
Proof.
  split.
  - intros s [a b]. apply braced_start.
  - intros s [a b] s' [a' b'] r r' H H' _ _ E. destruct (braced_prefix _ _ _ _ _ _ H H' E) as [-> El]. cbn in El. injection El as -> ->. auto.
Qed.
Lemma p_c119_unique s : (forall l l', Items literal s l -> Items literal s l' -> l = l') /\
  (forall l l', Items braced4 s l -> Items braced4 s l' -> l = l') /\ (forall l l', Items braced2 s l -> Items braced2 s l' -> l = l').
Proof.
  split; [|split]; intros l l' H H'.
  - exact (items_unique literal literal_sound s l H l' H').
  - exact (items_unique braced4 braced4_sound s l H l' H').
  - exact (items_unique braced2 braced2_sound s l H l' H').
Qed.
