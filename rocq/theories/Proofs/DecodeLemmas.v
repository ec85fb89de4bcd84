(** The decoder and the skipping functions against the UTF-8 specification. *)
From Verif Require Import Base Spec.Utf8Spec Model.Decode Proofs.Utf8Lemmas.
From Coq Require Import ZifyBool ZifyNat ZifyN.
Ltac Zify.zify_post_hook ::= Z.div_mod_to_equations.

(** ** Dereferencing *)

Lemma deref_app_r {A} (pre l : list A) k : deref (pre ++ l) (length pre + k) = deref l k.
Proof.
  unfold deref. rewrite nth_error_app2 by lia.
  replace (length pre + k - length pre)%nat with k by lia. reflexivity.
Qed.

Lemma deref_mid {A} (pre : list A) a t : deref (pre ++ a :: t) (length pre) = Ok a.
Proof. unfold deref. rewrite nth_error_app2 by lia. now rewrite Nat.sub_diag. Qed.

Lemma deref_at {A} (s pre : list A) a t i : s = pre ++ a :: t -> i = length pre -> deref s i = Ok a.
Proof. intros -> ->. apply deref_mid. Qed.

Lemma deref_lt {A} (s : list A) i : (i < length s)%nat -> exists a, deref s i = Ok a /\ nth_error s i = Some a.
Proof.
  intros H. unfold deref. destruct (nth_error s i) as [a|] eqn:E; eauto.
  exfalso. apply nth_error_None in E. lia.
Qed.

Lemma list_at {A} (s : list A) i : (i < length s)%nat ->
  exists pre a t, s = pre ++ a :: t /\ length pre = i.
Proof.
  intros H. destruct (nth_error s i) as [a|] eqn:E.
  - apply nth_error_split in E. destruct E as (l1 & l2 & -> & <-). eauto.
  - exfalso. apply nth_error_None in E. lia.
Qed.

(** ** decode_next *)

Lemma lead_bits_spec b :
  lead_bits b =
    if (0xC0 <=? u8 b) && (u8 b <? 0xE0) then Some (u8 b - 0xC0, 1%nat)
    else if (0xE0 <=? u8 b) && (u8 b <? 0xF0) then Some (u8 b - 0xE0, 2%nat)
    else if (0xF0 <=? u8 b) && (u8 b <? 0xF8) then Some (u8 b - 0xF0, 3%nat)
    else None.
Proof.
  unfold lead_bits. rewrite lead2_mask, lead3_mask, lead4_mask.
  destruct ((0xC0 <=? u8 b) && (u8 b <? 0xE0)) eqn:E2; [rewrite lead2_bits by lia; reflexivity|].
  destruct ((0xE0 <=? u8 b) && (u8 b <? 0xF0)) eqn:E3; [rewrite lead3_bits by lia; reflexivity|].
  destruct ((0xF0 <=? u8 b) && (u8 b <? 0xF8)) eqn:E4; [rewrite lead4_bits by lia; reflexivity|].
  reflexivity.
Qed.

Lemma next_loop_cont pre b post k i res :
  contb b = true -> res < 0x2000000 ->
  decode_next_loop (pre ++ b :: post) (S k) i res (length pre)
  = decode_next_loop (pre ++ b :: post) k (S i) (res * 64 + (u8 b - 0x80)) (S (length pre)).
Proof.
  intros Hb Hr. cbn [decode_next_loop]. rewrite deref_mid. cbn [bind].
  rewrite cont_mask, Hb. apply contb_cont in Hb. rewrite cont_bits by exact Hb.
  rewrite shl32_lor; [reflexivity| |].
  - change (2 ^ 6) with 64. unfold W32. lia.
  - change (2 ^ 6) with 64. unfold cont in Hb. lia.
Qed.

Lemma next_loop_bad pre b post k i res :
  contb b = false ->
  decode_next_loop (pre ++ b :: post) (S k) i res (length pre)
  = Ok (INVALID_CHAR, (length pre - (i + 1))%nat).
Proof.
  intros Hb. cbn [decode_next_loop]. rewrite deref_mid. cbn [bind].
  rewrite cont_mask, Hb. reflexivity.
Qed.

Lemma decode_next_end s : decode_next s (length s) = Ok (INVALID_CHAR, length s).
Proof. unfold decode_next. now rewrite Nat.eqb_refl. Qed.

Lemma app_cons_assoc {A} (l : list A) a r : l ++ a :: r = (l ++ [a]) ++ r.
Proof. now rewrite <- app_assoc. Qed.

Lemma snoc_length {A} (l : list A) a : length (l ++ [a]) = S (length l).
Proof. rewrite app_length. cbn. lia. Qed.

Lemma decode_next_lead pre a r :
  decode_next (pre ++ a :: r) (length pre) =
    if u8 a <? 0x80 then Ok (u8 a, S (length pre))
    else match lead_bits a with
         | None => Ok (INVALID_CHAR, length pre)
         | Some (res, n) =>
           if Nat.ltb (length r) n then Ok (INVALID_CHAR, length pre)
           else decode_next_loop ((pre ++ [a]) ++ r) n 0 res (length (pre ++ [a]))
         end.
Proof.
  unfold decode_next.
  replace (Nat.eqb (length pre) (length (pre ++ a :: r))) with false
    by (symmetry; apply Nat.eqb_neq; rewrite app_length; cbn; lia).
  rewrite deref_mid. cbn [bind]. rewrite ascii_mask.
  destruct (u8 a <? 0x80); [reflexivity|].
  destruct (lead_bits a) as [[res n]|]; [|reflexivity].
  replace (length (pre ++ a :: r) - S (length pre))%nat with (length r)
    by (rewrite app_length; cbn; lia).
  replace (S (length pre) - 1)%nat with (length pre) by lia.
  rewrite (app_cons_assoc pre a r), snoc_length. reflexivity.
Qed.

Lemma loop_step_cont pre b r k i res :
  contb b = true -> res < 0x2000000 ->
  decode_next_loop (pre ++ b :: r) (S k) i res (length pre)
  = decode_next_loop ((pre ++ [b]) ++ r) k (S i) (res * 64 + (u8 b - 0x80)) (length (pre ++ [b])).
Proof.
  intros Hb Hr. rewrite next_loop_cont by assumption.
  now rewrite <- app_cons_assoc, snoc_length.
Qed.

Lemma decode_next_uchar pre g c post :
  uchar g c ->
  decode_next (pre ++ g ++ post) (length pre) = Ok (c, (length pre + length g)%nat).
Proof.
  intros H. inversion H as [a Ha|a b Ha Hb|a b d Ha Hb Hd|a b d e Ha Hb Hd He]; subst;
    cbn [app]; rewrite decode_next_lead; rewrite ?lead_bits_spec.
  - replace (u8 a <? 128) with true by lia. cbn. do 2 f_equal. lia.
  - replace (u8 a <? 128) with false by lia.
    replace ((192 <=? u8 a) && (u8 a <? 224)) with true by lia.
    cbn [length Nat.ltb Nat.leb].
    assert (contb b = true) by now apply contb_cont.
    rewrite loop_step_cont by (assumption || lia).
    cbn [decode_next_loop]. rewrite !snoc_length. cbn. do 2 f_equal. lia.
  - replace (u8 a <? 128) with false by lia.
    replace ((192 <=? u8 a) && (u8 a <? 224)) with false by lia.
    replace ((224 <=? u8 a) && (u8 a <? 240)) with true by lia.
    cbn [length Nat.ltb Nat.leb].
    assert (contb b = true) by now apply contb_cont.
    assert (contb d = true) by now apply contb_cont.
    unfold cont in *.
    rewrite loop_step_cont by (assumption || lia).
    rewrite loop_step_cont by (assumption || lia).
    cbn [decode_next_loop]. rewrite !snoc_length. cbn [length].
    f_equal. f_equal; lia.
  - replace (u8 a <? 128) with false by lia.
    replace ((192 <=? u8 a) && (u8 a <? 224)) with false by lia.
    replace ((224 <=? u8 a) && (u8 a <? 240)) with false by lia.
    replace ((240 <=? u8 a) && (u8 a <? 248)) with true by lia.
    cbn [length Nat.ltb Nat.leb].
    assert (contb b = true) by now apply contb_cont.
    assert (contb d = true) by now apply contb_cont.
    assert (contb e = true) by now apply contb_cont.
    unfold cont in *.
    rewrite loop_step_cont by (assumption || lia).
    rewrite loop_step_cont by (assumption || lia).
    rewrite loop_step_cont by (assumption || lia).
    cbn [decode_next_loop]. rewrite !snoc_length. cbn [length].
    f_equal. f_equal; lia.
Qed.

(** If one of the next [k] bytes is not a continuation byte the loop reports
    INVALID_CHAR at the start of the sequence. *)
Lemma next_loop_invalid k : forall pre t r i res,
  length t = i -> (k <= length r)%nat -> forallb contb (firstn k r) = false ->
  decode_next_loop ((pre ++ t) ++ r) k i res (length (pre ++ t)) =
    Ok (INVALID_CHAR, (length pre - 1)%nat).
Proof.
  induction k as [|k IH]; intros pre t r i res Ht Hk Hr; [discriminate|].
  destruct r as [|b r]; [discriminate|].
  cbn [firstn forallb] in Hr.
  destruct (contb b) eqn:Eb.
  - cbn [decode_next_loop]. rewrite deref_mid. cbn [bind]. rewrite cont_mask, Eb.
    rewrite (app_cons_assoc (pre ++ t)), <- snoc_length with (a := b), <- (app_assoc pre t [b]).
    apply IH; [rewrite snoc_length; lia | cbn in Hk; lia | exact Hr].
  - rewrite next_loop_bad by exact Eb.
    do 2 f_equal. rewrite app_length. lia.
Qed.

Lemma decode_next_malformed pre r :
  Malformed r -> decode_next (pre ++ r) (length pre) = Ok (INVALID_CHAR, length pre).
Proof.
  intros [Hne Hm]. destruct r as [|a r]; [contradiction|].
  rewrite decode_next_lead, lead_bits_spec.
  destruct (u8 a <? 0x80) eqn:E1.
  { exfalso. apply (Hm [a] (u8 a) r); [constructor; lia | reflexivity]. }
  assert (Hl : forall n res, (n <= length r)%nat -> forallb contb (firstn n r) = false ->
     decode_next_loop ((pre ++ [a]) ++ r) n 0 res (length (pre ++ [a])) = Ok (INVALID_CHAR, length pre)).
  { intros n res Hn Hf.
    pose proof (next_loop_invalid n (pre ++ [a]) [] r 0%nat res eq_refl Hn Hf) as E.
    rewrite app_nil_r in E. rewrite E. do 2 f_equal. rewrite snoc_length. lia. }
  destruct ((0xC0 <=? u8 a) && (u8 a <? 0xE0)) eqn:E2.
  { destruct (Nat.ltb (length r) 1) eqn:El; [reflexivity|].
    apply Hl; [apply Nat.ltb_ge in El; lia|].
    destruct r as [|b r]; [discriminate|]. cbn [firstn forallb].
    destruct (contb b) eqn:Eb; [|reflexivity]. exfalso.
    eapply (Hm [a; b]); [apply uchar2; [lia | now apply contb_cont] | reflexivity]. }
  destruct ((0xE0 <=? u8 a) && (u8 a <? 0xF0)) eqn:E3.
  { destruct (Nat.ltb (length r) 2) eqn:El; [reflexivity|].
    apply Hl; [apply Nat.ltb_ge in El; lia|].
    destruct r as [|b [|c r]]; try discriminate. cbn [firstn forallb].
    destruct (contb b) eqn:Eb; [|reflexivity].
    destruct (contb c) eqn:Ec; [|reflexivity]. exfalso.
    eapply (Hm [a; b; c]); [apply uchar3; [lia | now apply contb_cont ..] | reflexivity]. }
  destruct ((0xF0 <=? u8 a) && (u8 a <? 0xF8)) eqn:E4.
  { destruct (Nat.ltb (length r) 3) eqn:El; [reflexivity|].
    apply Hl; [apply Nat.ltb_ge in El; lia|].
    destruct r as [|b [|c [|d r]]]; try discriminate. cbn [firstn forallb].
    destruct (contb b) eqn:Eb; [|reflexivity].
    destruct (contb c) eqn:Ec; [|reflexivity].
    destruct (contb d) eqn:Ed; [|reflexivity]. exfalso.
    eapply (Hm [a; b; c; d]); [apply uchar4; [lia | now apply contb_cont ..] | reflexivity]. }
  reflexivity.
Qed.

Lemma INVALID_not_uchar g c : uchar g c -> (c =? INVALID_CHAR) = false.
Proof. intros H. apply uchar_bound in H. unfold INVALID_CHAR. lia. Qed.

Lemma safe_decode_next_end s : safe_decode_next s (length s) = Ok None.
Proof. unfold safe_decode_next. now rewrite Nat.eqb_refl. Qed.

Lemma safe_decode_next_uchar pre g c post :
  uchar g c ->
  safe_decode_next (pre ++ g ++ post) (length pre) = Ok (Some (c, (length pre + length g)%nat)).
Proof.
  intros H. unfold safe_decode_next.
  pose proof (uchar_length g c H).
  replace (Nat.eqb (length pre) (length (pre ++ g ++ post))) with false
    by (symmetry; apply Nat.eqb_neq; rewrite !app_length; lia).
  rewrite decode_next_uchar with (c := c) by exact H. cbn [bind].
  now rewrite (INVALID_not_uchar g c H).
Qed.

Lemma safe_decode_next_malformed pre r :
  Malformed r -> safe_decode_next (pre ++ r) (length pre) = Throw YstringException.
Proof.
  intros H. unfold safe_decode_next.
  replace (Nat.eqb (length pre) (length (pre ++ r))) with false.
  2:{ symmetry; apply Nat.eqb_neq; rewrite !app_length. destruct H as [H _].
      destruct r; [contradiction|cbn; lia]. }
  rewrite decode_next_malformed by exact H. reflexivity.
Qed.

(** ** decode_prev *)

Lemma decode_prev_begin s : decode_prev s 0 = Ok (INVALID_CHAR, 0%nat).
Proof. reflexivity. Qed.

(** One step of the loop over a continuation byte that is not at begin. *)
Lemma prev_loop_cont pre x b post res n :
  contb b = true -> n < 6 ->
  decode_prev_loop (pre ++ x :: b :: post) (S (length pre)) res n
  = decode_prev_loop (pre ++ x :: b :: post) (length pre)
      (N.lor res (shl32 (u8 b - 0x80) (n * 6))) (n + 1).
Proof.
  intros Hb Hn. cbn [decode_prev_loop].
  rewrite (app_cons_assoc pre x), <- snoc_length with (a := x), deref_mid. cbn [bind].
  rewrite cont_mask, Hb. replace (32 <=? n * 6) with false by lia.
  apply contb_cont in Hb. now rewrite cont_bits.
Qed.

Lemma prev_loop_stop pre a post res n :
  contb a = false ->
  decode_prev_loop (pre ++ a :: post) (length pre) res n = Ok (inr (res, n, length pre)).
Proof.
  intros Ha. destruct (length pre) as [|k] eqn:E; cbn [decode_prev_loop]; rewrite <- E, deref_mid;
    cbn [bind]; now rewrite cont_mask, Ha.
Qed.

Lemma shl32_small' x n : n * 6 <= 18 -> x < 64 -> shl32 x (n * 6) = x * 2 ^ (n * 6).
Proof.
  intros Hn Hx. apply shl32_small. apply N.le_lt_trans with (x * 2 ^ 18).
  - apply N.mul_le_mono_l. apply N.pow_le_mono_r; lia.
  - change (2 ^ 18) with 262144. unfold W32. lia.
Qed.

Lemma prev_entry pre b post :
  decode_prev (pre ++ b :: post) (S (length pre)) =
    if u8 b <? 0x80 then Ok (u8 b, length pre)
    else
      let* r := decode_prev_loop (pre ++ b :: post) (length pre) 0 0 in
      match r with
      | inl it' => Ok (INVALID_CHAR, it')
      | inr (result, n, it) =>
        let* c := deref (pre ++ b :: post) it in
        if ((0xC0 <=? u8 c) && (u8 c <? 0xE0)) && (n =? 1)
        then Ok (N.lor result (shl32 (u8 c - 0xC0) 6), it)
        else if ((0xE0 <=? u8 c) && (u8 c <? 0xF0)) && (n =? 2)
        then Ok (N.lor result (shl32 (u8 c - 0xE0) 12), it)
        else if ((0xF0 <=? u8 c) && (u8 c <? 0xF8)) && (n =? 3)
        then Ok (N.lor result (shl32 (u8 c - 0xF0) 18), it)
        else Ok (INVALID_CHAR, (it + (N.to_nat n + 1))%nat)
      end.
Proof.
  unfold decode_prev. rewrite deref_mid. cbn [bind]. rewrite ascii_mask.
  destruct (u8 b <? 0x80); [reflexivity|].
  destruct (decode_prev_loop (pre ++ b :: post) (length pre) 0 0) as [[?|[[res n] it]]| | |];
    cbn [bind]; try reflexivity.
  destruct (deref (pre ++ b :: post) it) as [c| | |]; cbn [bind]; try reflexivity.
  rewrite lead2_mask, lead3_mask, lead4_mask.
  destruct ((0xC0 <=? u8 c) && (u8 c <? 0xE0)) eqn:E2; [rewrite lead2_bits by lia|];
  (destruct ((0xE0 <=? u8 c) && (u8 c <? 0xF0)) eqn:E3; [rewrite lead3_bits by lia|]);
  (destruct ((0xF0 <=? u8 c) && (u8 c <? 0xF8)) eqn:E4; [rewrite lead4_bits by lia|]);
  reflexivity.
Qed.

Lemma lor_shl32 res x n : res < 2 ^ n -> x * 2 ^ n < W32 -> N.lor res (shl32 x n) = x * 2 ^ n + res.
Proof. intros H1 H2. rewrite N.lor_comm. now apply shl32_lor. Qed.

Lemma decode_prev_uchar pre g c post :
  uchar g c ->
  decode_prev (pre ++ g ++ post) (length pre + length g) = Ok (c, length pre).
Proof.
  intros H. inversion H as [a Ha|a b Ha Hb|a b d Ha Hb Hd|a b d e Ha Hb Hd He]; subst; cbn [app length].
  - rewrite Nat.add_1_r, prev_entry. replace (u8 a <? 128) with true by lia. reflexivity.
  - replace (length pre + 2)%nat with (S (length (pre ++ [a]))) by (rewrite snoc_length; lia).
    rewrite (app_cons_assoc pre a), prev_entry.
    assert (contb b = true) as Cb by now apply contb_cont. unfold cont in *.
    replace (u8 b <? 128) with false by lia.
    rewrite <- (app_cons_assoc pre a), snoc_length.
    rewrite prev_loop_cont by (assumption || lia).
    rewrite prev_loop_stop by (unfold contb; lia). cbn [bind].
    rewrite deref_mid. cbn [bind].
    replace ((192 <=? u8 a) && (u8 a <? 224)) with true by lia. cbn [andb N.add N.eqb Pos.eqb].
    rewrite N.lor_0_l. change (0 * 6) with 0. unfold shl32 at 1. rewrite N.shiftl_0_r.
    rewrite N.mod_small by (unfold W32; lia).
    rewrite lor_shl32 by (change (2 ^ 6) with 64; unfold W32; lia).
    change (2 ^ 6) with 64. reflexivity.
  - replace (length pre + 3)%nat with (S (length ((pre ++ [a]) ++ [b]))) by (rewrite !snoc_length; lia).
    rewrite (app_cons_assoc pre a), (app_cons_assoc (pre ++ [a]) b), prev_entry.
    assert (contb b = true) as Cb by now apply contb_cont.
    assert (contb d = true) as Cd by now apply contb_cont. unfold cont in *.
    replace (u8 d <? 128) with false by lia.
    rewrite <- (app_cons_assoc (pre ++ [a]) b), snoc_length.
    rewrite prev_loop_cont by (assumption || lia).
    rewrite <- (app_cons_assoc pre a), snoc_length.
    rewrite prev_loop_cont by (assumption || lia).
    rewrite prev_loop_stop by (unfold contb; lia). cbn [bind].
    rewrite deref_mid. cbn [bind].
    replace ((192 <=? u8 a) && (u8 a <? 224)) with false by lia.
    replace ((224 <=? u8 a) && (u8 a <? 240)) with true by lia.
    cbn [andb N.add N.eqb Pos.eqb Pos.add Pos.succ].
    rewrite N.lor_0_l. change (0 * 6) with 0. change (1 * 6) with 6.
    unfold shl32 at 1. rewrite N.shiftl_0_r.
    rewrite N.mod_small by (unfold W32; lia).
    rewrite (lor_shl32 _ _ 6) by (change (2 ^ 6) with 64; unfold W32; lia).
    rewrite (lor_shl32 _ _ 12) by (change (2 ^ 6) with 64; change (2 ^ 12) with 4096; unfold W32; lia).
    change (2 ^ 6) with 64. change (2 ^ 12) with 4096. do 2 f_equal. lia.
  - replace (length pre + 4)%nat with (S (length (((pre ++ [a]) ++ [b]) ++ [d]))) by (rewrite !snoc_length; lia).
    rewrite (app_cons_assoc pre a), (app_cons_assoc (pre ++ [a]) b), (app_cons_assoc ((pre ++ [a]) ++ [b]) d), prev_entry.
    assert (contb b = true) as Cb by now apply contb_cont.
    assert (contb d = true) as Cd by now apply contb_cont.
    assert (contb e = true) as Ce by now apply contb_cont. unfold cont in *.
    replace (u8 e <? 128) with false by lia.
    rewrite <- (app_cons_assoc ((pre ++ [a]) ++ [b]) d), snoc_length.
    rewrite prev_loop_cont by (assumption || lia).
    rewrite <- (app_cons_assoc (pre ++ [a]) b), snoc_length.
    rewrite prev_loop_cont by (assumption || lia).
    rewrite <- (app_cons_assoc pre a), snoc_length.
    rewrite prev_loop_cont by (assumption || lia).
    rewrite prev_loop_stop by (unfold contb; lia). cbn [bind].
    rewrite deref_mid. cbn [bind].
    replace ((192 <=? u8 a) && (u8 a <? 224)) with false by lia.
    replace ((224 <=? u8 a) && (u8 a <? 240)) with false by lia.
    replace ((240 <=? u8 a) && (u8 a <? 248)) with true by lia.
    cbn [andb N.add N.eqb Pos.eqb Pos.add Pos.succ].
    rewrite N.lor_0_l. change (0 * 6) with 0. change (1 * 6) with 6. change (2 * 6) with 12.
    unfold shl32 at 1. rewrite N.shiftl_0_r.
    rewrite N.mod_small by (unfold W32; lia).
    rewrite (lor_shl32 _ _ 6) by (change (2 ^ 6) with 64; unfold W32; lia).
    rewrite (lor_shl32 _ _ 12) by (change (2 ^ 6) with 64; change (2 ^ 12) with 4096; unfold W32; lia).
    rewrite (lor_shl32 _ _ 18) by (change (2 ^ 6) with 64; change (2 ^ 12) with 4096; change (2 ^ 18) with 262144; unfold W32; lia).
    change (2 ^ 6) with 64. change (2 ^ 12) with 4096. change (2 ^ 18) with 262144. do 2 f_equal. lia.
Qed.

(** The loop over the trailing continuation bytes, whatever they are. *)
Lemma prev_loop_run t : forall pre a post res n,
  Forall cont t -> ~ cont a -> n + N.of_nat (length t) <= 6 ->
  exists r, decode_prev_loop (pre ++ a :: t ++ post) (length pre + length t) res n
            = Ok (inr (r, n + N.of_nat (length t), length pre)).
Proof.
  induction t as [|b t IH] using rev_ind; intros pre a post res n Ht Ha Hn.
  - exists res. cbn [length app]. rewrite Nat.add_0_r, N.add_0_r.
    apply prev_loop_stop. now apply contb_false.
  - apply Forall_app in Ht. destruct Ht as [Ht Hb]. inversion Hb as [|? ? Hb' _]; subst.
    rewrite snoc_length in Hn |- *.
    assert (exists u x, a :: t = u ++ [x]) as (u & x & Eu).
    { destruct t as [|y t] using rev_ind; [exists [], a; reflexivity|].
      exists (a :: t), y. reflexivity. }
    assert (length u = length t) as Lu.
    { apply (f_equal (@length byte)) in Eu. rewrite snoc_length in Eu. cbn in Eu. lia. }
    assert (pre ++ a :: (t ++ [b]) ++ post = (pre ++ u) ++ x :: b :: post) as E1.
    { rewrite <- app_assoc. cbn [app]. change (a :: t ++ b :: post) with ((a :: t) ++ b :: post).
      rewrite Eu. now rewrite <- !app_assoc. }
    rewrite E1.
    replace (length pre + S (length t))%nat with (S (length (pre ++ u))) by (rewrite app_length; lia).
    rewrite prev_loop_cont by (try apply contb_cont; try assumption; lia).
    rewrite <- E1. replace (length (pre ++ u)) with (length pre + length t)%nat by (rewrite app_length; lia).
    destruct (IH pre a (b :: post) (N.lor res (shl32 (u8 b - 128) (n * 6))) (n + 1) Ht Ha) as (r & Er); [lia|].
    exists r. rewrite <- app_assoc. cbn [app]. rewrite Er. do 4 f_equal. lia.
Qed.

Lemma prev_loop_allcont t : forall post res n,
  Forall cont t -> t <> [] -> n + N.of_nat (length t) <= 7 ->
  decode_prev_loop (t ++ post) (length t - 1) res n
            = Ok (inl (length t + N.to_nat n)%nat).
Proof.
  induction t as [|b t IH] using rev_ind; intros post res n Ht Hne Hn; [contradiction|].
  apply Forall_app in Ht. destruct Ht as [Ht Hb]. inversion Hb as [|? ? Hb' _]; subst.
  rewrite snoc_length in *. replace (S (length t) - 1)%nat with (length t) by lia.
  destruct t as [|y u _] using rev_ind.
  - cbn. rewrite cont_mask. apply contb_cont in Hb'. rewrite Hb'. do 2 f_equal. lia.
  - rewrite snoc_length in *. rewrite <- !app_assoc. cbn [app].
    rewrite prev_loop_cont by (try apply contb_cont; try assumption; lia).
    replace (length u) with (S (length u) - 1)%nat at 1 by lia.
    rewrite (app_cons_assoc u y).
    rewrite IH; [|exact Ht|destruct u; discriminate|lia]. do 2 f_equal. lia.
Qed.

Lemma prev_loop_UB t : forall y post res n,
  Forall cont t -> y <> [] -> n + N.of_nat (length t) = 7 -> t <> [] ->
  decode_prev_loop (y ++ t ++ post) (length y + length t - 1) res n = UB.
Proof.
  induction t as [|b t IH] using rev_ind; intros y post res n Ht Hy Hn Hne; [contradiction|].
  apply Forall_app in Ht. destruct Ht as [Ht Hb]. inversion Hb as [|? ? Hb' _]; subst.
  rewrite snoc_length in *.
  assert (exists u x, y ++ t = u ++ [x]) as (u & x & Eu).
  { destruct (y ++ t) as [|z v] eqn:E; [destruct y; [contradiction|discriminate]|].
    destruct (exists_last (l := z :: v)) as (u & x & Ex); [discriminate|]. eauto. }
  assert (length u + 1 = length y + length t)%nat as Lu.
  { apply (f_equal (@length byte)) in Eu. rewrite snoc_length, app_length in Eu. lia. }
  assert (y ++ (t ++ [b]) ++ post = u ++ x :: b :: post) as E1.
  { rewrite <- app_assoc, app_assoc, Eu. now rewrite <- app_assoc. }
  rewrite E1. replace (length y + S (length t) - 1)%nat with (S (length u)) by lia.
  destruct (N.ltb_spec n 6) as [L|L].
  - rewrite prev_loop_cont by (try apply contb_cont; assumption || lia).
    rewrite <- E1. replace (length u) with (length y + length t - 1)%nat by lia.
    rewrite <- app_assoc. apply IH; [exact Ht | exact Hy | lia |].
    intros ->. cbn in Hn. lia.
  - cbn [decode_prev_loop].
    rewrite (app_cons_assoc u x), <- snoc_length with (a := x), deref_mid. cbn [bind].
    apply contb_cont in Hb'. rewrite cont_mask, Hb'. replace (32 <=? n * 6) with true by lia. reflexivity.
Qed.

(** Splitting off the trailing continuation bytes. *)
Lemma trailing_cont (r : str) :
  Forall cont r \/ exists u a t, r = u ++ a :: t /\ ~ cont a /\ Forall cont t.
Proof.
  induction r as [|x r IH].
  - left. constructor.
  - destruct IH as [H|(u & a & t & -> & Ha & Ht)].
    + destruct (contb x) eqn:E.
      * left. constructor; [now apply contb_cont|exact H].
      * right. exists [], x, r. apply contb_false in E. auto.
    + right. exists (x :: u), a, t. auto.
Qed.

(** Seven continuation bytes with something in front of them. *)
Lemma decode_prev_long pre_post r :
  long_cont_tail r -> decode_prev (r ++ pre_post) (length r) = UB.
Proof.
  intros (y & t & -> & Hy & Hl & Ht).
  assert (exists t' b, t = t' ++ [b]) as (t' & b & ->).
  { destruct (exists_last (l := t)) as (u & x & Ex); [destruct t; [discriminate Hl|discriminate]|]. eauto. }
  rewrite app_length, Hl.
  replace (length y + 7)%nat with (S (length (y ++ t'))).
  2:{ rewrite snoc_length in Hl. rewrite app_length. lia. }
  rewrite app_assoc, <- (app_assoc (y ++ t') [b]). cbn [app]. rewrite prev_entry.
  pose proof Ht as Ht2. apply Forall_app in Ht2. destruct Ht2 as [_ Hb]. inversion Hb as [|? ? Hb' _]; subst.
  unfold cont in Hb'. replace (u8 b <? 128) with false by lia.
  pose proof (prev_loop_UB (t' ++ [b]) y pre_post 0 0 Ht Hy) as E.
  rewrite Hl in E. specialize (E eq_refl). rewrite <- !app_assoc in E. cbn [app] in E.
  rewrite <- app_assoc.
  replace (length (y ++ t')) with (length y + 7 - 1)%nat.
  2:{ rewrite snoc_length in Hl. rewrite app_length. lia. }
  rewrite E; [reflexivity|]. destruct t'; discriminate.
Qed.

Lemma decode_prev_malformed r post :
  MalformedEnd r -> ~ long_cont_tail r ->
  decode_prev (r ++ post) (length r) = Ok (INVALID_CHAR, length r).
Proof.
  intros [Hne Hm] Hlong.
  destruct (exists_last Hne) as (r' & b & ->).
  rewrite snoc_length, <- app_assoc. cbn [app]. rewrite prev_entry.
  destruct (u8 b <? 0x80) eqn:E1.
  { exfalso. apply (Hm [b] (u8 b) r'); [constructor; lia | reflexivity]. }
  destruct (trailing_cont (r' ++ [b])) as [Hall|(u & a & t & Er & Ha & Ht)].
  - assert (length (r' ++ [b]) <= 7)%nat as L.
    { destruct (Nat.le_gt_cases (length (r' ++ [b])) 7) as [L|L]; [exact L|].
      exfalso. apply Hlong.
      exists (firstn (length (r' ++ [b]) - 7) (r' ++ [b])), (skipn (length (r' ++ [b]) - 7) (r' ++ [b])).
      repeat split.
      - now rewrite firstn_skipn.
      - intros E. apply (f_equal (@length byte)) in E. rewrite firstn_length in E. cbn in E. lia.
      - rewrite skipn_length. lia.
      - rewrite <- (firstn_skipn (length (r' ++ [b]) - 7) (r' ++ [b])) in Hall.
        apply Forall_app in Hall. tauto. }
    pose proof (prev_loop_allcont (r' ++ [b]) post 0 0 Hall Hne) as E.
    rewrite <- app_assoc in E. cbn [app] in E.
    replace (length r') with (length (r' ++ [b]) - 1)%nat by (rewrite snoc_length; lia).
    rewrite E by lia. cbn [bind]. do 2 f_equal. rewrite snoc_length. lia.
  - assert (length t <= 6)%nat as L.
    { destruct (Nat.le_gt_cases (length t) 6) as [L|L]; [exact L|].
      exfalso. apply Hlong.
      exists (u ++ a :: firstn (length t - 7) t), (skipn (length t - 7) t).
      repeat split.
      - rewrite Er, <- app_assoc. cbn [app]. now rewrite firstn_skipn.
      - destruct u; discriminate.
      - rewrite skipn_length. lia.
      - rewrite <- (firstn_skipn (length t - 7) t) in Ht. apply Forall_app in Ht. tauto. }
    destruct (prev_loop_run t u a post 0 0 Ht Ha) as (res & E); [lia|].
    replace (r' ++ b :: post) with (u ++ a :: t ++ post).
    2:{ rewrite (app_cons_assoc r'), Er, <- app_assoc. reflexivity. }
    assert (S (length r') = length u + S (length t))%nat as Lr.
    { apply (f_equal (@length byte)) in Er. rewrite snoc_length, app_length in Er. cbn in Er. lia. }
    replace (length r') with (length u + length t)%nat by lia.
    rewrite E. cbn [bind]. rewrite deref_mid. cbn [bind]. rewrite N.add_0_l.
    destruct (((192 <=? u8 a) && (u8 a <? 224)) && (N.of_nat (length t) =? 1)) eqn:C1.
    { exfalso. destruct t as [|x [|? ?]]; cbn [length] in C1; try lia.
      inversion Ht; subst.
      eapply (Hm [a; x]); [apply uchar2; [lia|assumption] | exact Er]. }
    destruct (((224 <=? u8 a) && (u8 a <? 240)) && (N.of_nat (length t) =? 2)) eqn:C2.
    { exfalso. destruct t as [|x [|x2 [|? ?]]]; cbn [length] in C2; try lia.
      inversion Ht as [|? ? H1 Ht']; subst. inversion Ht'; subst.
      eapply (Hm [a; x; x2]); [apply uchar3; [lia|assumption..] | exact Er]. }
    destruct (((240 <=? u8 a) && (u8 a <? 248)) && (N.of_nat (length t) =? 3)) eqn:C3.
    { exfalso. destruct t as [|x [|x2 [|x3 [|? ?]]]]; cbn [length] in C3; try lia.
      inversion Ht as [|? ? H1 Ht']; subst. inversion Ht' as [|? ? H2 Ht'']; subst. inversion Ht''; subst.
      eapply (Hm [a; x; x2; x3]); [apply uchar4; [lia|assumption..] | exact Er]. }
    do 2 f_equal. lia.
Qed.

Lemma safe_decode_prev_begin s : safe_decode_prev s 0 = Ok None.
Proof. reflexivity. Qed.

Lemma safe_decode_prev_uchar pre g c post :
  uchar g c ->
  safe_decode_prev (pre ++ g ++ post) (length pre + length g) = Ok (Some (c, length pre)).
Proof.
  intros H. unfold safe_decode_prev.
  pose proof (uchar_length g c H).
  replace (Nat.eqb (length pre + length g) 0) with false
    by (symmetry; apply Nat.eqb_neq; lia).
  rewrite decode_prev_uchar with (c := c) by exact H. cbn [bind].
  now rewrite (INVALID_not_uchar g c H).
Qed.

Lemma safe_decode_prev_malformed r post :
  MalformedEnd r -> ~ long_cont_tail r ->
  safe_decode_prev (r ++ post) (length r) = Throw YstringException.
Proof.
  intros H Hl. unfold safe_decode_prev.
  replace (Nat.eqb (length r) 0) with false.
  2:{ symmetry; apply Nat.eqb_neq. destruct H as [H _]. destruct r; [contradiction|cbn; lia]. }
  rewrite decode_prev_malformed by assumption. reflexivity.
Qed.

Lemma safe_decode_prev_long r post :
  long_cont_tail r -> safe_decode_prev (r ++ post) (length r) = UB.
Proof.
  intros H. unfold safe_decode_prev.
  replace (Nat.eqb (length r) 0) with false.
  2:{ symmetry; apply Nat.eqb_neq. destruct H as (y & t & -> & Hy & _).
      rewrite app_length. destruct y as [|? ?]; [contradiction|]. cbn. lia. }
  rewrite decode_prev_long by assumption. reflexivity.
Qed.

(** Backward case analysis. *)
Lemma seq_dec_end s : s = [] \/ MalformedEnd s \/ exists t g c, uchar g c /\ s = t ++ g.
Proof.
  destruct (trailing_cont s) as [Hall|(u & a & t & -> & Ha & Ht)].
  - destruct s as [|x s]; [now left|right; left].
    split; [discriminate|]. intros g c v Hg E.
    destruct (uchar_shape g c Hg) as (a & t & -> & Ha & _ & _).
    rewrite E in Hall. apply Forall_app in Hall. destruct Hall as [_ Hall]. now inversion Hall.
  - right. destruct (seq_dec (a :: t)) as [H|[H|(g & c & v & Hg & E)]]; [discriminate| |].
    + left. split; [destruct u; discriminate|]. intros g c v Hg E.
      destruct (uchar_shape g c Hg) as (a' & t' & -> & Ha' & Ht' & _).
      destruct (last_noncont_unique u v a a' t t' Ht Ht' Ha Ha' E) as (_ & -> & ->).
      destruct H as [_ H]. apply (H (a' :: t') c [] Hg). now rewrite app_nil_r.
    + destruct v as [|x v].
      * right. exists u, g, c. rewrite app_nil_r in E. now rewrite E.
      * left. split; [destruct u; discriminate|]. intros g' c' w Hg' E'.
        destruct (uchar_shape g' c' Hg') as (a' & t' & -> & Ha' & Ht' & _).
        destruct (last_noncont_unique u w a a' t t' Ht Ht' Ha Ha' E') as (_ & -> & ->).
        assert (a' :: t' ++ [] = g ++ x :: v) as E2 by (rewrite app_nil_r; exact E).
        destruct (uchar_prefix_unique (a' :: t') c' [] g c (x :: v) Hg' Hg E2) as (_ & _ & E3).
        discriminate.
Qed.
