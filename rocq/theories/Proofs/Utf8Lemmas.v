(** Facts about the UTF-8 specification: byte classes, bit arithmetic,
    uniqueness of segmentation. *)
From Verif Require Import Base Spec.Utf8Spec.
From Coq Require Import ZifyBool ZifyNat ZifyN.
Ltac Zify.zify_post_hook ::= Z.div_mod_to_equations.

(** ** Bytes *)

Lemma u8_lt b : u8 b < 256.
Proof. destruct b; reflexivity. Qed.

Lemma u8_inj a b : u8 a = u8 b -> a = b.
Proof.
  intros H. unfold u8 in H.
  assert (Some a = Some b) as E.
  { rewrite <- (Byte.of_to_N a), <- (Byte.of_to_N b), H. reflexivity. }
  now inversion E.
Qed.

Lemma u8_to_char x : u8 (to_char x) = x mod 256.
Proof.
  unfold to_char. destruct (Byte.of_N (x mod 256)) as [b|] eqn:E.
  - apply Byte.to_of_N in E. exact E.
  - exfalso. apply Byte.of_N_None_iff in E. lia.
Qed.

Lemma to_char_u8 b : to_char (u8 b) = b.
Proof. apply u8_inj. rewrite u8_to_char. apply N.mod_small, u8_lt. Qed.

Lemma byte_eqb_eq a b : byte_eqb a b = true <-> a = b.
Proof.
  unfold byte_eqb. split.
  - intros H. now apply Byte.byte_dec_bl in H.
  - intros ->. now apply Byte.byte_dec_lb.
Qed.

Lemma byte_eqb_refl a : byte_eqb a a = true.
Proof. now apply byte_eqb_eq. Qed.

Definition contb (b : byte) : bool := (0x80 <=? u8 b) && (u8 b <? 0xC0).

Lemma contb_cont b : contb b = true <-> cont b.
Proof. unfold contb, cont. lia. Qed.

Lemma contb_false b : contb b = false <-> ~ cont b.
Proof. unfold contb, cont. lia. Qed.

Lemma cont_mask b : (N.land (u8 b) 0xC0 =? 0x80) = contb b.
Proof. destruct b; reflexivity. Qed.

Lemma ascii_mask b : (N.land (u8 b) 0x80 =? 0) = (u8 b <? 0x80).
Proof. destruct b; reflexivity. Qed.

Lemma lead2_mask b : (N.land (u8 b) 0xE0 =? 0xC0) = ((0xC0 <=? u8 b) && (u8 b <? 0xE0)).
Proof. destruct b; reflexivity. Qed.

Lemma lead3_mask b : (N.land (u8 b) 0xF0 =? 0xE0) = ((0xE0 <=? u8 b) && (u8 b <? 0xF0)).
Proof. destruct b; reflexivity. Qed.

Lemma lead4_mask b : (N.land (u8 b) 0xF8 =? 0xF0) = ((0xF0 <=? u8 b) && (u8 b <? 0xF8)).
Proof. destruct b; reflexivity. Qed.

Lemma cont_bits b : cont b -> N.land (u8 b) 0x3F = u8 b - 0x80.
Proof.
  intros H. change 0x3F with (N.ones 6). rewrite N.land_ones.
  change (2 ^ 6) with 64. unfold cont in H. lia.
Qed.

Lemma lead2_bits b : 0xC0 <= u8 b < 0xE0 -> N.land (u8 b) 0x1F = u8 b - 0xC0.
Proof.
  intros H. change 0x1F with (N.ones 5). rewrite N.land_ones. change (2 ^ 5) with 32. lia.
Qed.

Lemma lead3_bits b : 0xE0 <= u8 b < 0xF0 -> N.land (u8 b) 0x0F = u8 b - 0xE0.
Proof.
  intros H. change 0x0F with (N.ones 4). rewrite N.land_ones. change (2 ^ 4) with 16. lia.
Qed.

Lemma lead4_bits b : 0xF0 <= u8 b < 0xF8 -> N.land (u8 b) 0x07 = u8 b - 0xF0.
Proof.
  intros H. change 0x07 with (N.ones 3). rewrite N.land_ones. change (2 ^ 3) with 8. lia.
Qed.

(** ** Disjoint or is addition *)

Lemma land_shiftl_low a b n : b < 2 ^ n -> N.land (N.shiftl a n) b = 0.
Proof.
  intros H. apply N.bits_inj_iff. intros i. rewrite N.land_spec, N.bits_0.
  destruct (N.lt_ge_cases i n) as [L|L].
  - rewrite N.shiftl_spec_low by exact L. reflexivity.
  - destruct (N.eq_dec b 0) as [->|Hb]; [rewrite N.bits_0; apply andb_false_r|].
    rewrite (N.bits_above_log2 b i).
    + apply andb_false_r.
    + apply N.lt_le_trans with n; [|exact L]. apply N.log2_lt_pow2; lia.
Qed.

Lemma lor_shiftl a b n : b < 2 ^ n -> N.lor (N.shiftl a n) b = a * 2 ^ n + b.
Proof.
  intros H. rewrite <- N.shiftl_mul_pow2.
  rewrite N.add_nocarry_lxor by now apply land_shiftl_low.
  symmetry. apply N.lxor_lor. now apply land_shiftl_low.
Qed.

Lemma lor_shiftl_r a b n : b < 2 ^ n -> N.lor b (N.shiftl a n) = a * 2 ^ n + b.
Proof. intros H. rewrite N.lor_comm. now apply lor_shiftl. Qed.

Lemma shl32_small x n : x * 2 ^ n < W32 -> shl32 x n = x * 2 ^ n.
Proof. intros H. unfold shl32. rewrite N.shiftl_mul_pow2. now apply N.mod_small. Qed.

Lemma shl32_lor x b n : x * 2 ^ n < W32 -> b < 2 ^ n -> N.lor (shl32 x n) b = x * 2 ^ n + b.
Proof.
  intros H Hb. unfold shl32. rewrite N.mod_small.
  - now apply lor_shiftl.
  - now rewrite N.shiftl_mul_pow2.
Qed.

(** ** Segmentation *)

Lemma uchar_nonempty g c : uchar g c -> g <> [].
Proof. intros H; inversion H; discriminate. Qed.

Lemma uchar_length g c : uchar g c -> (1 <= length g <= 4)%nat.
Proof. intros H; inversion H; cbn; lia. Qed.

Lemma uchar_bound g c : uchar g c -> c < 0x200000.
Proof. intros H; inversion H; unfold cont in *; lia. Qed.

(** A sequence is a byte that is not a continuation byte followed by at most
    three continuation bytes. *)
Lemma uchar_shape g c : uchar g c ->
  exists a t, g = a :: t /\ ~ cont a /\ Forall cont t /\ (length t <= 3)%nat.
Proof.
  intros H; inversion H; subst; eexists; eexists; split; try reflexivity;
    (split; [unfold cont in *; lia | split; [auto | cbn; lia]]).
Qed.

Lemma uchar_prefix_unique g c t g' c' t' :
  uchar g c -> uchar g' c' -> g ++ t = g' ++ t' -> g = g' /\ c = c' /\ t = t'.
Proof.
  intros H H' E.
  inversion H; subst; inversion H'; subst; cbn in E; injection E; intros; subst;
    solve [auto | exfalso; unfold cont in *; lia].
Qed.

Lemma uchar_fun g c c' : uchar g c -> uchar g c' -> c = c'.
Proof.
  intros H H'. destruct (uchar_prefix_unique g c [] g c' [] H H' eq_refl) as (_ & E & _).
  exact E.
Qed.

(** Splitting off the continuation bytes at the end of a string. *)
Lemma last_noncont_unique (u v : str) a b (t t' : str) :
  Forall cont t -> Forall cont t' -> ~ cont a -> ~ cont b ->
  u ++ a :: t = v ++ b :: t' -> u = v /\ a = b /\ t = t'.
Proof.
  intros Ht Ht' Ha Hb.
  revert t' Ht' u v. induction t as [|x t IH] using rev_ind; intros t' Ht' u v E.
  - destruct t' as [|y t'' _] using rev_ind.
    + apply app_inj_tail in E. destruct E as [-> ->]. auto.
    + exfalso. rewrite app_comm_cons, app_assoc in E.
      apply app_inj_tail in E. destruct E as [_ <-].
      apply Forall_app in Ht'. destruct Ht' as [_ Hy]. now inversion Hy.
  - destruct t' as [|y t'' _] using rev_ind.
    + exfalso. rewrite app_comm_cons, app_assoc in E.
      apply app_inj_tail in E. destruct E as [_ ->].
      apply Forall_app in Ht. destruct Ht as [_ Hy]. now inversion Hy.
    + rewrite !app_comm_cons, !app_assoc in E.
      apply app_inj_tail in E. destruct E as [E ->].
      apply Forall_app in Ht. destruct Ht as [Ht _].
      apply Forall_app in Ht'. destruct Ht' as [Ht' _].
      destruct (IH Ht t'' Ht' u v E) as (-> & -> & ->). auto.
Qed.

Lemma uchar_suffix_unique g c t g' c' t' :
  uchar g c -> uchar g' c' -> t ++ g = t' ++ g' -> g = g' /\ c = c' /\ t = t'.
Proof.
  intros H H' E.
  destruct (uchar_shape g c H) as (a & r & Eg & Ha & Hr & _).
  destruct (uchar_shape g' c' H') as (a' & r' & Eg' & Ha' & Hr' & _).
  subst g g'.
  destruct (last_noncont_unique t t' a a' r r' Hr Hr' Ha Ha' E) as (-> & -> & ->).
  split; [reflexivity|]. split; [|reflexivity].
  now apply (uchar_fun (a' :: r')).
Qed.

Lemma Text_app s cs t ds : Text s cs -> Text t ds -> Text (s ++ t) (cs ++ ds).
Proof.
  induction 1 as [|g c s cs Hg Hs IH]; intros Ht; [exact Ht|].
  cbn. rewrite <- app_assoc. constructor; auto.
Qed.

Lemma Text_one g c : uchar g c -> Text g [c].
Proof. intros H. rewrite <- (app_nil_r g). constructor; [exact H | constructor]. Qed.

Lemma Text_snoc s cs g c : Text s cs -> uchar g c -> Text (s ++ g) (cs ++ [c]).
Proof. intros H Hg. apply Text_app; [exact H | now apply Text_one]. Qed.

(** Backward induction over a text. *)
Lemma Text_rev_ind (P : str -> list N -> Prop) :
  P [] [] ->
  (forall g c s cs, uchar g c -> Text s cs -> P s cs -> P (s ++ g) (cs ++ [c])) ->
  forall s cs, Text s cs -> P s cs.
Proof.
  intros H0 Hs s cs HT.
  revert s HT. induction cs as [|c cs IH] using rev_ind; intros s HT.
  - inversion HT; subst; exact H0.
  - assert (exists t g, s = t ++ g /\ Text t cs /\ uchar g c) as (t & g & -> & Ht & Hg).
    { clear IH H0 Hs P. revert s HT. induction cs as [|d cs IH]; intros s HT.
      - inversion HT as [|g c' s' cs' Hg Hs']; subst. inversion Hs'; subst.
        exists [], g. rewrite app_nil_r. repeat split; auto; constructor.
      - inversion HT as [|g c' s' cs' Hg Hs']; subst.
        destruct (IH s' Hs') as (t & g' & -> & Ht & Hg').
        exists (g ++ t), g'. rewrite app_assoc. repeat split; auto; now constructor. }
    apply Hs; auto.
Qed.

Lemma Text_fun s cs cs' : Text s cs -> Text s cs' -> cs = cs'.
Proof.
  intros H. revert cs'. induction H as [|g c s cs Hg Hs IH]; intros cs' H'.
  - inversion H' as [|g c s cs Hg Hs E]; [reflexivity|].
    exfalso. apply (uchar_nonempty g c Hg). now destruct g.
  - inversion H' as [E|g' c' s' cs'' Hg' Hs' E]; subst.
    + exfalso. apply (uchar_nonempty g c Hg). now destruct g.
    + destruct (uchar_prefix_unique g' c' s' g c s Hg' Hg E) as (-> & -> & ->).
      f_equal. now apply IH.
Qed.

(** Dropping a text prefix from a text leaves a text. *)
Lemma Text_app_inv s cs t us : Text s cs -> Text (s ++ t) us ->
  exists ds, us = cs ++ ds /\ Text t ds.
Proof.
  intros H. revert us. induction H as [|g c s cs Hg Hs IH]; intros us Hus.
  - exists us. auto.
  - rewrite <- app_assoc in Hus.
    inversion Hus as [E|g' c' s' cs' Hg' Hs' E]; subst.
    + exfalso. apply (uchar_nonempty g c Hg). now destruct g.
    + destruct (uchar_prefix_unique g' c' s' g c (s ++ t) Hg' Hg E) as (-> & -> & ->).
      destruct (IH cs' Hs') as (ds & -> & Hd). exists ds. auto.
Qed.

Lemma Text_bound s cs : Text s cs -> Forall (fun c => c < 0x200000) cs.
Proof. induction 1; constructor; auto. eapply uchar_bound; eauto. Qed.

Lemma Text_nil_inv s : Text s [] -> s = [].
Proof. now inversion 1. Qed.

Lemma Text_cons_inv s c cs : Text s (c :: cs) ->
  exists g t, s = g ++ t /\ uchar g c /\ Text t cs.
Proof. inversion 1; subst; eauto. Qed.

Lemma Text_split s cs ds : Text s (cs ++ ds) ->
  exists u v, s = u ++ v /\ Text u cs /\ Text v ds.
Proof.
  revert s. induction cs as [|c cs IH]; intros s H.
  - exists [], s. repeat split; auto; constructor.
  - cbn in H. apply Text_cons_inv in H. destruct H as (g & t & -> & Hg & Ht).
    destruct (IH t Ht) as (u & v & -> & Hu & Hv).
    exists (g ++ u), v. rewrite app_assoc. repeat split; auto; now constructor.
Qed.

Lemma Text_nonempty s c cs : Text s (c :: cs) -> s <> [].
Proof.
  intros H. apply Text_cons_inv in H. destruct H as (g & t & -> & Hg & _).
  apply uchar_nonempty in Hg. now destruct g.
Qed.

(** What starts / ends a byte string is decidable. *)
Lemma seq_dec s : s = [] \/ Malformed s \/ exists g c t, uchar g c /\ s = g ++ t.
Proof.
  destruct s as [|a s]; [now left|right].
  assert (Hm : (forall g c t, uchar g c -> a :: s = g ++ t -> False) -> Malformed (a :: s)).
  { intros H. split; [discriminate|]. intros g c t Hg E. exact (H g c t Hg E). }
  destruct (u8 a <? 0x80) eqn:E1.
  { right. exists [a], (u8 a), s. split; [constructor; lia | reflexivity]. }
  destruct ((0xC0 <=? u8 a) && (u8 a <? 0xE0)) eqn:E2.
  { destruct s as [|b s].
    - left. apply Hm. intros g c t Hg E. inversion Hg; subst; cbn in E; injection E; intros; subst; try discriminate; lia.
    - destruct (contb b) eqn:Eb.
      + right. exists [a; b], ((u8 a - 0xC0) * 64 + (u8 b - 0x80)), s.
        split; [|reflexivity]. apply uchar2; [lia | now apply contb_cont].
      + left. apply Hm. apply contb_false in Eb.
        intros g c t Hg E. inversion Hg; subst; cbn in E; injection E; intros; subst; try discriminate; try lia; contradiction. }
  destruct ((0xE0 <=? u8 a) && (u8 a <? 0xF0)) eqn:E3.
  { destruct s as [|b [|c s]].
    - left. apply Hm. intros g c t Hg E. inversion Hg; subst; cbn in E; injection E; intros; subst; try discriminate; lia.
    - left. apply Hm. intros g c t Hg E. inversion Hg; subst; cbn in E; injection E; intros; subst; try discriminate; lia.
    - destruct (contb b && contb c) eqn:Eb.
      + apply andb_prop in Eb. destruct Eb as [Eb Ec].
        right. eexists [a; b; c], _, s.
        split; [|reflexivity]. apply uchar3; [lia | now apply contb_cont | now apply contb_cont].
      + left. apply Hm. apply andb_false_iff in Eb. rewrite !contb_false in Eb.
        intros g c' t Hg E. inversion Hg; subst; cbn in E; injection E; intros; subst; try discriminate; try lia; tauto. }
  destruct ((0xF0 <=? u8 a) && (u8 a <? 0xF8)) eqn:E4.
  { destruct s as [|b [|c [|d s]]].
    - left. apply Hm. intros g c t Hg E. inversion Hg; subst; cbn in E; injection E; intros; subst; try discriminate; lia.
    - left. apply Hm. intros g c t Hg E. inversion Hg; subst; cbn in E; injection E; intros; subst; try discriminate; lia.
    - left. apply Hm. intros g c' t Hg E. inversion Hg; subst; cbn in E; injection E; intros; subst; try discriminate; lia.
    - destruct (contb b && contb c && contb d) eqn:Eb.
      + apply andb_prop in Eb. destruct Eb as [Eb Ed]. apply andb_prop in Eb. destruct Eb as [Eb Ec].
        right. eexists [a; b; c; d], _, s.
        split; [|reflexivity]. apply uchar4; [lia | now apply contb_cont ..].
      + left. apply Hm. rewrite !andb_false_iff, !contb_false in Eb.
        intros g c' t Hg E. inversion Hg; subst; cbn in E; injection E; intros; subst; try discriminate; try lia; tauto. }
  left. apply Hm. intros g c t Hg E. inversion Hg; subst; cbn in E; injection E; intros; subst; lia.
Qed.

(** Every byte string is a text followed by nothing or by a malformed rest,
    in exactly one way. *)
Lemma text_prefix s : exists u cs r, s = u ++ r /\ Text u cs /\ (r = [] \/ Malformed r).
Proof.
  remember (length s) as n eqn:En. assert (length s <= n)%nat as Hn by lia. clear En.
  revert s Hn. induction n as [|n IH]; intros s Hn.
  - destruct s; [|cbn in Hn; lia]. exists [], [], []. repeat split; auto; constructor.
  - destruct (seq_dec s) as [->|[H|(g & c & t & Hg & ->)]].
    + exists [], [], []. repeat split; auto; constructor.
    + exists [], [], s. repeat split; auto; constructor.
    + pose proof (uchar_length g c Hg). rewrite app_length in Hn.
      destruct (IH t) as (u & cs & r & -> & Hu & Hr); [lia|].
      exists (g ++ u), (c :: cs), r. rewrite app_assoc. repeat split; auto; now constructor.
Qed.

Lemma Malformed_not_Text r cs : Malformed r -> ~ Text r cs.
Proof.
  intros [Hne Hm] HT. inversion HT; subst; [now apply Hne|].
  eapply Hm; [eassumption | reflexivity].
Qed.

Lemma text_prefix_unique u cs r u' cs' r' :
  Text u cs -> Text u' cs' -> (r = [] \/ Malformed r) -> (r' = [] \/ Malformed r') ->
  u ++ r = u' ++ r' -> u = u' /\ cs = cs' /\ r = r'.
Proof.
  intros Hu. revert u' cs' r r'. induction Hu as [|g c u cs Hg Hu IH]; intros u' cs' r r' Hu' Hr Hr' E.
  - destruct Hu' as [|g' c' u' cs' Hg' Hu']; [auto|].
    exfalso. cbn in E. rewrite <- app_assoc in E. subst r.
    destruct Hr as [Hr|Hr].
    + apply (uchar_nonempty g' c' Hg'). now destruct g'.
    + destruct Hr as [_ Hr]. exact (Hr g' c' _ Hg' eq_refl).
  - destruct Hu' as [|g' c' u' cs' Hg' Hu'].
    + exfalso. cbn in E. rewrite <- app_assoc in E. subst r'.
      destruct Hr' as [Hr'|Hr'].
      * apply (uchar_nonempty g c Hg). now destruct g.
      * destruct Hr' as [_ Hr']. exact (Hr' g c _ Hg eq_refl).
    + rewrite <- !app_assoc in E.
      destruct (uchar_prefix_unique _ _ _ _ _ _ Hg Hg' E) as (-> & -> & E').
      destruct (IH u' cs' r r' Hu' Hr Hr' E') as (-> & -> & ->). auto.
Qed.
