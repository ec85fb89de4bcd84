(** C88: stream output. *)
From Coq Require Import String.
From Verif Require Import Base Spec.Utf8Spec Spec.Strings Spec.Escape Spec.Print Model.Decode Model.Encode Model.Subrange Model.CodepointSet Model.Print
  Proofs.Utf8Lemmas Proofs.EncodeLemmas Proofs.CodepointLemmas Proofs.ReplaceCpLemmas Proofs.NumeralLemmas Proofs.Utf8Props.

Local Notation "'#' s" := (list_byte_of_string s%string) (at level 5, only parsing).

Lemma u8_to_char n : n < 256 -> u8 (to_char n) = n.
Proof.
  intros H. unfold to_char, u8. rewrite N.mod_small by exact H. destruct (Byte.of_N n) as [b|] eqn:E; [now apply Byte.to_of_N|].
  apply Byte.of_N_None_iff in E. lia.
Qed.
Lemma dec_digit_fun c d d' : dec_digit c d -> dec_digit c d' -> d = d'.
Proof. intros [_ H] [_ H']. lia. Qed.
Lemma num_app digit base a v : forall b w, Numeral digit base b w -> Numeral digit base a v ->
  Numeral digit base (a ++ b) (v * base ^ N.of_nat (length b) + w).
Proof.
  intros b w H Ha. induction H as [|ds w c d H IH Hd].
  - rewrite app_nil_r. cbn [length N.of_nat]. rewrite N.pow_0_r. now replace (v * 1 + 0) with v by lia.
  - rewrite app_assoc, app_length. cbn [length]. replace (N.of_nat (length ds + 1)) with (N.succ (N.of_nat (length ds))) by lia. rewrite N.pow_succ_r'.
    replace (v * (base * base ^ N.of_nat (length ds)) + (w * base + d)) with ((v * base ^ N.of_nat (length ds) + w) * base + d) by lia. now constructor.
Qed.
Lemma size_lt n : n < 2 ^ N.size n.
Proof. destruct n as [|p]; [cbn; lia|]. apply N.size_gt. Qed.
Lemma decimal_loop fuel : forall n acc, (n < 10 ^ N.of_nat fuel) -> (0 < fuel)%nat ->
  exists ds, print_decimal_loop fuel n acc = ds ++ acc /\ Decimal ds n.
Proof.
  induction fuel as [|fuel IH]; intros n acc Hn Hf; [lia|]. cbn [print_decimal_loop].
  assert (Hm : n mod 10 < 10) by (apply N.mod_lt; lia).
  assert (HD : dec_digit (to_char (0x30 + n mod 10)) (n mod 10)) by (split; [exact Hm|apply u8_to_char; lia]).
  pose proof (N.div_mod n 10 ltac:(lia)) as DM. destruct (N.eqb_spec (n / 10) 0) as [E|E].
  - exists [to_char (0x30 + n mod 10)]. split; [reflexivity|]. split; [|split; [discriminate|intros ds' [= _ <-]; reflexivity]].
    replace n with (0 * 10 + n mod 10) at 2 by lia. apply (num_snoc _ _ [] 0); [constructor|exact HD].
  - destruct (IH (n / 10) (to_char (0x30 + n mod 10) :: acc)) as (ds & Ed & HN & Hne & Hz).
    + replace (N.of_nat (S fuel)) with (N.succ (N.of_nat fuel)) in Hn by lia. rewrite N.pow_succ_r' in Hn. apply N.div_lt_upper_bound; lia.
    + destruct fuel; [|lia]. cbn in Hn. assert (n / 10 = 0) by (apply N.div_small; lia). contradiction.
    + exists (ds ++ [to_char (0x30 + n mod 10)]). rewrite <- app_assoc. split; [exact Ed|]. split; [|split].
      * replace n with (n / 10 * 10 + n mod 10) at 2 by lia. now constructor.
      * now destruct ds.
      * intros ds' E'. destruct ds as [|c ds]; [contradiction|]. cbn in E'. assert (c = x30) as -> by congruence.
        rewrite (Hz ds eq_refl) in *. exfalso. apply E.
        assert (Numeral dec_digit 10 ([] ++ [x30]) (0 * 10 + 0)) as N0 by (constructor; [constructor|split; [lia|reflexivity]]).
        exact (num_fun dec_digit 10 dec_digit_fun _ _ _ HN N0).
Qed.
Lemma print_decimal_ok n : Decimal (print_decimal n) n.
Proof.
  unfold print_decimal. destruct (decimal_loop (S (N.to_nat (N.size n))) n []) as (ds & -> & H).
  - pose proof (size_lt n). apply N.lt_le_trans with (2 ^ N.size n); [exact H|]. apply N.le_trans with (10 ^ N.size n); [apply N.pow_le_mono_l; lia|apply N.pow_le_mono_r; lia].
  - lia.
  - now rewrite app_nil_r.
Qed.
Lemma p_c88_subrange : forall r, exists a b, Decimal a (sub_offset r) /\ Decimal b (sub_length r) /\
  print_subrange r = #"{offset: " ++ a ++ #", length: " ++ b ++ #"}".
Proof. intros r. exists (print_decimal (sub_offset r)), (print_decimal (sub_length r)). repeat split; try apply print_decimal_ok. Qed.
(** Digits up to something else. *)
Lemma digits_cut (a a' t t' : str) : Forall (fun c => exists d, dec_digit c d) a -> Forall (fun c => exists d, dec_digit c d) a' ->
  stops dec_digit t -> stops dec_digit t' -> t <> [] -> t' <> [] -> a ++ t = a' ++ t' -> a = a' /\ t = t'.
Proof.
  intros Ha. revert a'. induction Ha as [|c a (d & Hd) Ha IH]; intros a' Ha' St St' Nt Nt' E.
  - destruct Ha' as [|c' a' (d' & Hd') Ha']; [auto|]. cbn in E. subst t. exfalso. now apply (St d').
  - destruct Ha' as [|c' a' (d' & Hd') Ha']; cbn in E; [subst t'; exfalso; now apply (St' d)|].
    apply cons_eq in E. destruct E as [-> E]. destruct (IH a' Ha' St St' Nt Nt' E) as [-> ->]. auto.
Qed.
Lemma decimal_forall a n : Decimal a n -> Forall (fun c => exists d, dec_digit c d) a.
Proof. intros (H & _). now apply num_forall in H. Qed.
Lemma stops_other c t : u8 c < 0x30 \/ 0x39 < u8 c -> stops dec_digit (c :: t).
Proof. intros H d [Hd E]. lia. Qed.
Lemma p_c88_subrange_inj : forall r r', print_subrange r = print_subrange r' -> r = r'.
Proof.
  intros [o l] [o' l'] E. unfold print_subrange in E. cbn [sub_offset sub_length] in E. apply app_inv_head in E.
  pose proof (fun n => decimal_forall _ n (print_decimal_ok n)) as F.
  assert (C : forall t, stops dec_digit (x2c :: t)) by (intros t; apply stops_other; cbn; lia).
  assert (D : forall t, stops dec_digit (x7d :: t)) by (intros t; apply stops_other; cbn; lia).
  destruct (digits_cut _ _ _ _ (F o) (F o') (C _) (C _) ltac:(discriminate) ltac:(discriminate) E) as [E1 E3]. clear E. do 10 (apply cons_eq in E3; destruct E3 as [_ E3]).
  destruct (digits_cut _ _ _ _ (F l) (F l') (D _) (D _) ltac:(discriminate) ltac:(discriminate) E3) as [E2 _].
  destruct (print_decimal_ok o) as (A & _), (print_decimal_ok o') as (A' & _), (print_decimal_ok l) as (B & _), (print_decimal_ok l') as (B' & _).
  rewrite <- E1 in A'. rewrite <- E2 in B'. f_equal; [exact (num_fun dec_digit 10 dec_digit_fun _ _ _ A A')|exact (num_fun dec_digit 10 dec_digit_fun _ _ _ B B')].
Qed.

(** Sets *)
Lemma print_range_enc r : fst r <= 0x10FFFF -> snd r <= 0x10FFFF -> Encoded (print_range r) (shown_range r).
Proof.
  destruct r as [a b]. cbn [fst snd]. intros Ha Hb. unfold print_range, shown_range. cbn [fst snd].
  pose proof (proj1 (p_c02_char a) Ha) as Ea. pose proof (proj1 (p_c02_char b) Hb) as Eb. destruct (a =? b).
  - rewrite <- (app_nil_r (from_utf32_char a)). constructor; [exact Ea|constructor].
  - constructor; [exact Ea|]. apply (Encoded_app [x2d] [0x2D] (from_utf32_char b) [b]).
    + rewrite <- (app_nil_r [x2d]). constructor; [|constructor]. apply (p_c02_char 0x2D). lia.
    + rewrite <- (app_nil_r (from_utf32_char b)). constructor; [exact Eb|constructor].
Qed.
Lemma enc_ascii c b : from_utf32_char c = [b] -> c <= 0x10FFFF -> Encoded [b] [c].
Proof. intros <- H. rewrite <- (app_nil_r (from_utf32_char c)). constructor; [now apply p_c02_char|constructor]. Qed.
Lemma p_c88_set : forall s, Forall (fun r : N * N => fst r <= 0x10FFFF /\ snd r <= 0x10FFFF) (cps_ranges s) ->
  Encoded (print_cpset s) (shown_set (cps_negated s) (cps_ranges s)).
Proof.
  intros [rs neg] H. cbn [cps_ranges cps_negated] in *. unfold print_cpset, shown_set. cbn [cps_ranges cps_negated].
  assert (HB : Encoded (concat (map print_range rs) ++ [x5d]) (flat_map shown_range rs ++ [0x5D])).
  { apply Encoded_app; [|apply enc_ascii; [reflexivity|lia]]. clear neg. induction H as [|r rs [Ha Hb] H IH]; [constructor|].
    cbn [map concat flat_map]. apply Encoded_app; [now apply print_range_enc|exact IH]. }
  destruct neg.
  - change ([x5b; x5e] ++ concat (map print_range rs) ++ [x5d]) with ([x5b] ++ [x5e] ++ (concat (map print_range rs) ++ [x5d])).
    apply Encoded_app; [apply enc_ascii; [reflexivity|lia]|]. apply Encoded_app; [apply enc_ascii; [reflexivity|lia]|exact HB].
  - apply Encoded_app; [apply enc_ascii; [reflexivity|lia]|exact HB].
Qed.
Definition plain (r : N * N) : Prop := let (a, b) := r in a <= 0x10FFFF /\ b <= 0x10FFFF /\ a <> 0x2D /\ b <> 0x2D /\ a <> 0x5E.
Lemma ranges_inj rs : forall rs', Forall plain rs -> Forall plain rs' -> flat_map shown_range rs = flat_map shown_range rs' -> rs = rs'.
Proof.
  assert (K : forall rs, Forall plain rs -> forall l, flat_map shown_range rs <> 0x2D :: l).
  { intros rs0 [|[a b] rs1 H _] l; [discriminate|]. destruct H as (_ & _ & H & _). cbn. destruct (a =? b); cbn; congruence. }
  induction rs as [|[a b] rs IH]; intros [|[a' b'] rs'] H H' E; [reflexivity|..].
  - exfalso. cbn in E. destruct (a' =? b'); discriminate.
  - exfalso. cbn in E. destruct (a =? b); discriminate.
  - inversion H as [|? ? P Q]; inversion H' as [|? ? P' Q']; subst. cbn [flat_map shown_range] in E.
    destruct (N.eqb_spec a b) as [->|D], (N.eqb_spec a' b') as [->|D']; cbn [app] in E; apply cons_eq in E; destruct E as [<- E].
    + f_equal. now apply IH.
    + exfalso. now apply (K rs Q) in E.
    + exfalso. symmetry in E. now apply (K rs' Q') in E.
    + apply cons_eq in E. destruct E as [_ E]. apply cons_eq in E. destruct E as [<- E]. f_equal. now apply IH.
Qed.
Lemma shown_bound neg rs : Forall plain rs -> Forall (fun c => c <= 0x10FFFF) (shown_set neg rs).
Proof.
  intros H. unfold shown_set. repeat (apply Forall_app; split); [| |apply Forall_flat_map; revert H; apply Forall_impl|].
  - repeat constructor. lia.
  - destruct neg; repeat constructor. lia.
  - intros [a b] (Ha & Hb & _). cbn. destruct (a =? b); repeat (constructor; [lia|]); constructor.
  - repeat constructor. lia.
Qed.
Lemma p_c88_set_inj : forall s s', Forall plain (cps_ranges s) -> Forall plain (cps_ranges s') -> print_cpset s = print_cpset s' -> s = s'.
Proof.
  intros [rs neg] [rs' neg'] H H' E. cbn [cps_ranges] in *.
  assert (HB : forall l, Forall plain l -> Forall (fun r : N * N => fst r <= 0x10FFFF /\ snd r <= 0x10FFFF) l).
  { intros l. apply Forall_impl. intros [a b] (Ha & Hb & _). now split. }
  pose proof (p_c88_set (CPS rs neg) (HB _ H)) as A. pose proof (p_c88_set (CPS rs' neg') (HB _ H')) as A'. rewrite E in A. cbn [cps_ranges cps_negated] in *.
  pose proof (Text_fun _ _ _ (Encoded_Text _ _ A (shown_bound neg rs H)) (Encoded_Text _ _ A' (shown_bound neg' rs' H'))) as F.
  unfold shown_set in F. apply app_inv_head in F.
  assert (KC : forall l, Forall plain l -> forall m, flat_map shown_range l ++ [0x5D] <> 0x5E :: m).
  { intros l [|[a b] l1 (_ & _ & _ & _ & P) _] m; [discriminate|]. cbn. destruct (a =? b); cbn; congruence. }
  destruct neg, neg'; cbn [app] in F.
  - apply cons_eq in F. destruct F as [_ F]. apply app_inv_tail in F. f_equal. now apply ranges_inj.
  - exfalso. symmetry in F. now apply (KC rs' H') in F.
  - exfalso. now apply (KC rs H) in F.
  - apply app_inv_tail in F. f_equal. now apply ranges_inj.
Qed.
