(** Numerals: digits, [scan_digits], [from_chars] and the digit searches of
    Unescape.cpp. *)
From Verif Require Import Base Spec.Utf8Spec Spec.Strings Spec.Escape Model.Decode Model.Encode Model.Subrange Model.Unescape
  Proofs.Utf8Lemmas Proofs.DecodeLemmas Proofs.EncodeLemmas Proofs.CodepointLemmas Proofs.SearchLemmas.
From Coq Require Import ZifyBool ZifyNat ZifyN.

Lemma digit_value_hex c d : digit_value c = Some d <-> hex_digit c d.
Proof.
  unfold digit_value, hex_digit. pose proof (u8_lt c).
  destruct ((0x30 <=? u8 c) && (u8 c <=? 0x39)) eqn:E1.
  { split; [intros E; injection E as <-; lia|intros [?|[?|?]]; f_equal; lia]. }
  destruct ((0x41 <=? u8 c) && (u8 c <=? 0x46)) eqn:E2.
  { split; [intros E; injection E as <-; lia|intros [?|[?|?]]; f_equal; lia]. }
  destruct ((0x61 <=? u8 c) && (u8 c <=? 0x66)) eqn:E3.
  { split; [intros E; injection E as <-; lia|intros [?|[?|?]]; f_equal; lia]. }
  split; [discriminate|lia].
Qed.
Lemma hex_digit_lt c d : hex_digit c d -> d < 16.
Proof. unfold hex_digit. lia. Qed.
Lemma hex_digit_fun c d d' : hex_digit c d -> hex_digit c d' -> d = d'.
Proof. unfold hex_digit. lia. Qed.
Lemma oct_digit_hex c d : oct_digit c d <-> hex_digit c d /\ d < 8.
Proof. unfold hex_digit, oct_digit. lia. Qed.

Lemma is_hex_digit_value c : is_hex_digit_char c = match digit_value c with Some _ => true | None => false end.
Proof. destruct c; reflexivity. Qed.
Lemma is_hex_digit_true c d : hex_digit c d -> is_hex_digit_char c = true.
Proof. intros H. apply digit_value_hex in H. now rewrite is_hex_digit_value, H. Qed.
Lemma is_hex_digit_false c : (forall d, ~ hex_digit c d) -> is_hex_digit_char c = false.
Proof.
  intros H. rewrite is_hex_digit_value. destruct (digit_value c) as [d|] eqn:E; [|reflexivity].
  apply digit_value_hex in E. now elim (H d).
Qed.
Lemma is_oct_digit_true c d : oct_digit c d -> is_oct_digit_char c = true.
Proof. unfold oct_digit, is_oct_digit_char. lia. Qed.
Lemma is_oct_digit_false c : (forall d, ~ oct_digit c d) -> is_oct_digit_char c = false.
Proof.
  intros H. unfold is_oct_digit_char. specialize (H (u8 c - 0x30)). unfold oct_digit in H. lia.
Qed.
Lemma hex_digit_dec c : (exists d, hex_digit c d) \/ (forall d, ~ hex_digit c d).
Proof.
  destruct (digit_value c) as [d|] eqn:E; [left; exists d; now apply digit_value_hex|].
  right. intros d H. apply digit_value_hex in H. congruence.
Qed.
Lemma oct_digit_dec c : (exists d, oct_digit c d) \/ (forall d, ~ oct_digit c d).
Proof.
  destruct (hex_digit_dec c) as [[d H]|H].
  - destruct (N.ltb_spec d 8); [left; exists d; apply oct_digit_hex; auto|].
    right. intros d' H'. apply oct_digit_hex in H' as [H1 H2]. pose proof (hex_digit_fun _ _ _ H H1). lia.
  - right. intros d H'. apply oct_digit_hex in H' as [H1 H2]. now apply (H d).
Qed.

(** ** Numerals *)

Lemma num_forall digit base ds v : Numeral digit base ds v -> Forall (fun c => exists d, digit c d) ds.
Proof. induction 1; [constructor|]. apply Forall_app. split; [assumption|]. constructor; [eauto|constructor]. Qed.

Lemma num_ex (digit : byte -> N -> Prop) base ds : Forall (fun c => exists d, digit c d) ds -> exists v, Numeral digit base ds v.
Proof.
  induction ds as [|c ds IH] using rev_ind; intros H; [exists 0; constructor|].
  apply Forall_app in H as [H1 H2]. destruct (IH H1) as [v Hv].
  inversion H2 as [|? ? [d Hd] _]; subst. exists (v * base + d). now constructor.
Qed.

Lemma num_snoc_inv (digit : byte -> N -> Prop) base l ds c v : l = ds ++ [c] -> Numeral digit base l v ->
  exists w d, Numeral digit base ds w /\ digit c d /\ v = w * base + d.
Proof.
  intros El H. destruct H as [|ds' v c' d HN Hd]; [now apply app_cons_not_nil in El|].
  apply app_inj_tail in El as [-> ->]. eauto.
Qed.

Lemma num_fun (digit : byte -> N -> Prop) base : (forall c d d', digit c d -> digit c d' -> d = d') ->
  forall ds v v', Numeral digit base ds v -> Numeral digit base ds v' -> v = v'.
Proof.
  intros HF ds v v' H. revert v'. induction H as [|ds v c d HN IH Hd]; intros v' H'.
  - remember [] as l eqn:El in H'. destruct H'; [reflexivity|]. symmetry in El. now apply app_cons_not_nil in El.
  - destruct (num_snoc_inv _ _ _ _ _ _ eq_refl H') as (w & d' & Hw & Hd' & ->).
    rewrite (IH w Hw), (HF c d d' Hd Hd'). reflexivity.
Qed.
Lemma Hex_fun ds v v' : Hex ds v -> Hex ds v' -> v = v'.
Proof. apply num_fun. apply hex_digit_fun. Qed.
Lemma Oct_fun ds v v' : Oct ds v -> Oct ds v' -> v = v'.
Proof. apply num_fun. unfold oct_digit. intros; lia. Qed.

Lemma num_bound (digit : byte -> N -> Prop) base : (forall c d, digit c d -> d < base) ->
  forall ds v, Numeral digit base ds v -> v < base ^ N.of_nat (length ds).
Proof.
  intros HB ds v H. induction H as [|ds v c d HN IH Hd]; [now cbn|].
  rewrite app_length. cbn [length]. replace (N.of_nat (length ds + 1)) with (N.succ (N.of_nat (length ds))) by lia.
  rewrite N.pow_succ_r'. specialize (HB c d Hd). nia.
Qed.
Lemma Hex_bound ds v : Hex ds v -> v < 16 ^ N.of_nat (length ds).
Proof. apply num_bound. apply hex_digit_lt. Qed.
Lemma Oct_bound ds v : Oct ds v -> v < 8 ^ N.of_nat (length ds).
Proof. apply num_bound. unfold oct_digit. intros; lia. Qed.

(** ** scan_digits *)

Lemma scan_num (digit : byte -> N -> Prop) base : (forall c d, digit c d -> digit_value c = Some d /\ d < base) ->
  forall ds v, Numeral digit base ds v -> forall r n0,
  scan_digits base (ds ++ r) 0 n0 = scan_digits base r v (n0 + length ds)%nat.
Proof.
  intros HD ds v H. induction H as [|ds v c d HN IH Hd]; intros r n0.
  - now rewrite Nat.add_0_r.
  - rewrite <- app_assoc. cbn [app]. rewrite IH. cbn [scan_digits].
    destruct (HD c d Hd) as [-> Hlt]. replace (d <? base) with true by lia.
    rewrite app_length. cbn [length]. f_equal. lia.
Qed.
Lemma hex_dv c d : hex_digit c d -> digit_value c = Some d /\ d < 16.
Proof. intros H. split; [now apply digit_value_hex|now apply hex_digit_lt in H]. Qed.
Lemma oct_dv c d : oct_digit c d -> digit_value c = Some d /\ d < 8.
Proof. intros H. apply oct_digit_hex in H as [H1 H2]. split; [now apply digit_value_hex|exact H2]. Qed.

Lemma scan_stop_hex r v n : stops hex_digit r -> scan_digits 16 r v n = (v, n).
Proof.
  destruct r as [|c r]; [reflexivity|]. cbn [stops scan_digits]. intros H.
  destruct (digit_value c) as [d|] eqn:E; [|reflexivity]. apply digit_value_hex in E. now elim (H d).
Qed.
Lemma scan_stop_oct r v n : stops oct_digit r -> scan_digits 8 r v n = (v, n).
Proof.
  destruct r as [|c r]; [reflexivity|]. cbn [stops scan_digits]. intros H.
  destruct (digit_value c) as [d|] eqn:E; [|reflexivity]. apply digit_value_hex in E.
  destruct (N.ltb_spec d 8); [|reflexivity]. elim (H d). apply oct_digit_hex. auto.
Qed.

Lemma from_chars_gen (digit : byte -> N -> Prop) base : (forall c d, digit c d -> digit_value c = Some d /\ d < base) ->
  (forall r v n, stops digit r -> scan_digits base r v n = (v, n)) ->
  forall ds v r, Numeral digit base ds v -> stops digit r -> ds <> [] ->
  from_chars base (ds ++ r) = (length ds, if v <? 0x100000000 then Some v else None).
Proof.
  intros HD HS ds v r HN Hr Hds. unfold from_chars. rewrite (scan_num _ _ HD ds v HN), HS by exact Hr.
  cbn [Nat.add]. destruct ds; [congruence|]. cbn [length]. unfold W32. now destruct (v <? 0x100000000).
Qed.
Lemma from_chars_hex ds v r : Hex ds v -> stops hex_digit r -> ds <> [] ->
  from_chars 16 (ds ++ r) = (length ds, if v <? 0x100000000 then Some v else None).
Proof. apply from_chars_gen; [apply hex_dv|apply scan_stop_hex]. Qed.
Lemma from_chars_oct ds v r : Oct ds v -> stops oct_digit r -> ds <> [] ->
  from_chars 8 (ds ++ r) = (length ds, if v <? 0x100000000 then Some v else None).
Proof. apply from_chars_gen; [apply oct_dv|apply scan_stop_oct]. Qed.
Lemma from_chars_none_hex r : stops hex_digit r -> from_chars 16 r = (0%nat, None).
Proof. intros H. unfold from_chars. now rewrite scan_stop_hex. Qed.

Lemma from_chars_hex_all ds v : Hex ds v -> ds <> [] -> v < 0x100000000 -> from_chars 16 ds = (length ds, Some v).
Proof.
  intros H1 H2 H3. rewrite <- (app_nil_r ds) at 1. rewrite (from_chars_hex ds v []); [|assumption|exact I|assumption].
  now replace (v <? 0x100000000) with true by lia.
Qed.
Lemma from_chars_oct_all ds v : Oct ds v -> ds <> [] -> v < 0x100000000 -> from_chars 8 ds = (length ds, Some v).
Proof.
  intros H1 H2 H3. rewrite <- (app_nil_r ds) at 1. rewrite (from_chars_oct ds v []); [|assumption|exact I|assumption].
  now replace (v <? 0x100000000) with true by lia.
Qed.

(** Every text starts with a maximal run of digits. *)
Lemma hex_run s : exists ds r, s = ds ++ r /\ (exists v, Hex ds v) /\ stops hex_digit r.
Proof.
  enough (exists ds r, s = ds ++ r /\ Forall (fun c => exists d, hex_digit c d) ds /\ stops hex_digit r) as (ds & r & E & H & Hr).
  { exists ds, r. repeat split; [exact E|now apply num_ex|exact Hr]. }
  induction s as [|c s IH]; [exists [], []; repeat split; constructor|].
  destruct (hex_digit_dec c) as [Hc|Hc].
  - destruct IH as (ds & r & -> & H & Hr). exists (c :: ds), r. repeat split; [now constructor|exact Hr].
  - exists [], (c :: s). repeat split; [constructor|exact Hc].
Qed.
(** ... and with a run of at most [n] digits, shorter only if no digit follows. *)
Lemma run_upto (digit : byte -> N -> Prop) base (n : nat) s : (forall c, (exists d, digit c d) \/ (forall d, ~ digit c d)) ->
  exists ds r, s = ds ++ r /\ (exists v, Numeral digit base ds v) /\ (length ds <= n)%nat /\ (length ds = n \/ stops digit r).
Proof.
  intros HD.
  enough (exists ds r, s = ds ++ r /\ Forall (fun c => exists d, digit c d) ds /\ (length ds <= n)%nat /\ (length ds = n \/ stops digit r)) as (ds & r & E & H & Hr).
  { exists ds, r. repeat split; [exact E|now apply num_ex|apply Hr|apply Hr]. }
  revert s. induction n as [|n IH]; intros s; [exists [], s; repeat split; [constructor|cbn; lia|now left]|].
  destruct s as [|c s]; [exists [], []; repeat split; [constructor|cbn; lia|right; exact I]|].
  destruct (HD c) as [Hc|Hc].
  - destruct (IH s) as (ds & r & -> & H & Hl & Hr). exists (c :: ds), r.
    repeat split; [now constructor|cbn [length]; lia|]. destruct Hr as [Hr|Hr]; [left; cbn [length]; lia|now right].
  - exists [], (c :: s). repeat split; [constructor|cbn; lia|right; exact Hc].
Qed.

(** ** The digit searches *)

Lemma uf_loop_skip pred ds : Forall (fun c => pred c = false) ds -> forall pre r k e,
  uf_find_loop (pre ++ ds ++ r) pred (length ds + k) (length pre) e
  = uf_find_loop (pre ++ ds ++ r) pred k (length pre + length ds) e.
Proof.
  induction 1 as [|c ds Hc HF IH]; intros pre r k e; [now rewrite Nat.add_0_r|].
  cbn [length Nat.add uf_find_loop app]. rewrite deref_mid. cbn [bind]. rewrite Hc.
  specialize (IH (pre ++ [c]) r k e). rewrite app_length in IH. cbn [length] in IH.
  rewrite <- !app_assoc in IH. cbn [app] in IH.
  replace (length pre + 1)%nat with (S (length pre)) in IH by lia. rewrite IH. f_equal. lia.
Qed.

(** the run is as long as allowed, or ended by the end of the text *)
Lemma uf_find_end pred pre ds r e : Forall (fun c => pred c = false) ds ->
  e = size pre + size ds \/ (r = [] /\ size pre + size ds <= e) ->
  uf_find (pre ++ ds ++ r) (size pre) e pred = Ok e.
Proof.
  intros HF He. unfold uf_find, size in *.
  replace (N.to_nat (N.min (N.of_nat (length (pre ++ ds ++ r))) e - N.of_nat (length pre))) with (length ds + 0)%nat
    by (rewrite !app_length; destruct He as [->|[-> He]]; cbn [length]; lia).
  rewrite Nnat.Nat2N.id, (uf_loop_skip pred ds HF). reflexivity.
Qed.
(** the run is ended by another character *)
Lemma uf_find_stop pred pre ds c r e : Forall (fun c => pred c = false) ds -> pred c = true -> size pre + size ds < e ->
  uf_find (pre ++ ds ++ c :: r) (size pre) e pred = Ok (size pre + size ds).
Proof.
  intros HF Hc He. unfold uf_find, size in *.
  replace (N.to_nat (N.min (N.of_nat (length (pre ++ ds ++ c :: r))) e - N.of_nat (length pre)))
    with (length ds + S (N.to_nat (N.min (N.of_nat (length (pre ++ ds ++ c :: r))) e - N.of_nat (length pre)) - length ds - 1))%nat
    by (rewrite !app_length; cbn [length]; lia).
  rewrite Nnat.Nat2N.id, (uf_loop_skip pred ds HF). cbn [uf_find_loop].
  rewrite app_assoc, (deref_at _ (pre ++ ds) c r) by (rewrite ?app_length; reflexivity).
  cbn [bind]. rewrite Hc. f_equal. lia.
Qed.
Lemma hex_negb ds v : Hex ds v -> Forall (fun c => negb (is_hex_digit_char c) = false) ds.
Proof.
  intros H. apply num_forall in H. eapply Forall_impl; [|exact H]. cbn. intros c [d Hd].
  now rewrite (is_hex_digit_true c d).
Qed.
Lemma oct_negb ds v : Oct ds v -> Forall (fun c => negb (is_oct_digit_char c) = false) ds.
Proof.
  intros H. apply num_forall in H. eapply Forall_impl; [|exact H]. cbn. intros c [d Hd].
  now rewrite (is_oct_digit_true c d).
Qed.
