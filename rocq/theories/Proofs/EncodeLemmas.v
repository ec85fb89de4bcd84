(** The encoder against RFC 3629, and the UTF-32 conversions. *)
From Verif Require Import Base Spec.Utf8Spec Model.Decode Model.Encode Proofs.Utf8Lemmas Proofs.DecodeLemmas.
From Coq Require Import ZifyBool ZifyNat ZifyN.
Ltac Zify.zify_post_hook ::= Z.div_mod_to_equations.

Lemma lor_high a b n : b < 2 ^ n -> a mod 2 ^ n = 0 -> N.lor a b = a + b.
Proof.
  intros Hb Ha.
  assert (a = N.shiftl (a / 2 ^ n) n) as ->.
  { rewrite N.shiftl_mul_pow2. pose proof (N.pow_nonzero 2 n).
    pose proof (N.div_mod a (2 ^ n)). lia. }
  rewrite lor_shiftl by exact Hb. now rewrite N.shiftl_mul_pow2.
Qed.

Lemma tail_byte c sh :
  u8 (to_char (N.lor 0x80 (N.land (N.shiftr c sh) 0x3F))) = 0x80 + (c / 2 ^ sh) mod 64.
Proof.
  rewrite u8_to_char, N.shiftr_div_pow2.
  change 0x3F with (N.ones 6). rewrite N.land_ones. change (2 ^ 6) with 64.
  rewrite (lor_high 0x80 _ 6); [|change (2 ^ 6) with 64; lia|reflexivity].
  apply N.mod_small. lia.
Qed.

Ltac conseq := repeat match goal with |- (_ :: _) = (_ :: _) => f_equal end; try reflexivity; try lia.

Lemma encode_length c : N.of_nat (length (fst (encode_utf8 c))) = get_utf8_encoded_length c.
Proof.
  unfold encode_utf8, get_utf8_encoded_length, encode_bytes. cbn [fst].
  destruct (c <? 0x80); [reflexivity|]. destruct (c <? 0x800); [reflexivity|].
  destruct (c <? 0x10000); [reflexivity|]. now destruct (c <=? UNICODE_MAX).
Qed.

Lemma encode_encodes c : c <= 0x10FFFF -> encodes (fst (encode_utf8 c)) c.
Proof.
  intros H. unfold encodes, encode_utf8, get_utf8_encoded_length, rfc3629_bytes. cbn [fst].
  destruct (N.ltb_spec c 0x80) as [L1|L1].
  { replace (c <=? 0x7F) with true by lia. cbn [encode_bytes N.eqb Pos.eqb map].
    unfold encode_bytes. cbn [N.eqb Pos.eqb map]. rewrite u8_to_char, N.mod_small by lia. reflexivity. }
  replace (c <=? 0x7F) with false by lia.
  destruct (N.ltb_spec c 0x800) as [L2|L2].
  { replace (c <=? 0x7FF) with true by lia. unfold encode_bytes.
    change (N.to_nat (2 - 1)) with 1%nat. cbn [N.eqb Pos.eqb encode_tail map].
    rewrite tail_byte, u8_to_char.
    change (shl32 255 (8 - 2)) with 0x3FC0. rewrite N.shiftr_div_pow2.
    change (2 ^ ((2 - 1) * 6)) with 64. change (2 ^ ((2 - 1) * 6 - 6)) with 1. rewrite N.div_1_r.
    rewrite (lor_high 0x3FC0 _ 5); [|change (2 ^ 5) with 32; lia|reflexivity].
    conseq. }
  replace (c <=? 0x7FF) with false by lia.
  destruct (N.ltb_spec c 0x10000) as [L3|L3].
  { replace (c <=? 0xFFFF) with true by lia. unfold encode_bytes.
    change (N.to_nat (3 - 1)) with 2%nat. cbn [N.eqb Pos.eqb encode_tail map].
    rewrite !tail_byte, u8_to_char.
    change (shl32 255 (8 - 3)) with 0x1FE0. rewrite N.shiftr_div_pow2.
    change (2 ^ ((3 - 1) * 6)) with 4096. change (2 ^ ((3 - 1) * 6 - 6)) with 64.
    change (2 ^ ((3 - 1) * 6 - 6 - 6)) with 1. rewrite N.div_1_r.
    rewrite (lor_high 0x1FE0 _ 4); [|change (2 ^ 4) with 16; lia|reflexivity].
    conseq. }
  replace (c <=? 0xFFFF) with false by lia.
  unfold UNICODE_MAX. replace (c <=? 0x10FFFF) with true by lia. unfold encode_bytes.
  change (N.to_nat (4 - 1)) with 3%nat. cbn [N.eqb Pos.eqb encode_tail map].
  rewrite !tail_byte, u8_to_char.
  change (shl32 255 (8 - 4)) with 0xFF0. rewrite N.shiftr_div_pow2.
  change (2 ^ ((4 - 1) * 6)) with 262144. change (2 ^ ((4 - 1) * 6 - 6)) with 4096.
  change (2 ^ ((4 - 1) * 6 - 6 - 6)) with 64.
  change (2 ^ ((4 - 1) * 6 - 6 - 6 - 6)) with 1. rewrite N.div_1_r.
  rewrite (lor_high 0xFF0 _ 3); [|change (2 ^ 3) with 8; lia|reflexivity].
  conseq.
Qed.

Lemma encode_large c : 0x10FFFF < c -> encode_utf8 c = ([], 0).
Proof.
  intros H. unfold encode_utf8, get_utf8_encoded_length, UNICODE_MAX.
  replace (c <? 0x80) with false by lia. replace (c <? 0x800) with false by lia.
  replace (c <? 0x10000) with false by lia. replace (c <=? 0x10FFFF) with false by lia. reflexivity.
Qed.

Lemma map_u8_inj a b : map u8 a = map u8 b -> a = b.
Proof.
  revert b. induction a as [|x a IH]; intros [|y b] E; cbn in E; try discriminate; [reflexivity|].
  injection E as E1 E2. apply u8_inj in E1. subst. f_equal. now apply IH.
Qed.

Lemma encodes_fun g g' c : encodes g c -> encodes g' c -> g = g'.
Proof. unfold encodes. intros H H'. apply map_u8_inj. congruence. Qed.

Lemma cons_eq {A} (x y : A) l m : x :: l = y :: m -> x = y /\ l = m.
Proof. intros E. now injection E. Qed.
Ltac uncons E H := cbn [map] in E; apply cons_eq in E; destruct E as [H E].

(** An RFC 3629 sequence is a sequence with that value. *)
Lemma encodes_uchar g c : c <= 0x10FFFF -> encodes g c -> uchar g c.
Proof.
  unfold encodes, rfc3629_bytes. intros Hc E.
  destruct (N.leb_spec c 0x7F) as [L1|L1].
  { destruct g as [|a [|? ?]]; try discriminate. uncons E Ea.
    rewrite <- Ea. constructor. lia. }
  destruct (N.leb_spec c 0x7FF) as [L2|L2].
  { destruct g as [|a [|b [|? ?]]]; try discriminate. uncons E Ea. uncons E Eb.
    replace c with ((u8 a - 0xC0) * 64 + (u8 b - 0x80)) by lia.
    constructor; unfold cont; lia. }
  destruct (N.leb_spec c 0xFFFF) as [L3|L3].
  { destruct g as [|a [|b [|d [|? ?]]]]; try discriminate. uncons E Ea. uncons E Eb. uncons E Ed.
    replace c with ((u8 a - 0xE0) * 4096 + (u8 b - 0x80) * 64 + (u8 d - 0x80)) by lia.
    constructor; unfold cont; lia. }
  destruct g as [|a [|b [|d [|e [|? ?]]]]]; try discriminate. uncons E Ea. uncons E Eb. uncons E Ed. uncons E Ee.
  replace c with ((u8 a - 0xF0) * 262144 + (u8 b - 0x80) * 4096 + (u8 d - 0x80) * 64 + (u8 e - 0x80)) by lia.
  constructor; unfold cont; lia.
Qed.

Lemma encode_uchar c : c <= 0x10FFFF -> uchar (fst (encode_utf8 c)) c.
Proof. intros H. apply encodes_uchar; [exact H|]. now apply encode_encodes. Qed.

Lemma Encoded_Text s cs : Encoded s cs -> Forall (fun c => c <= 0x10FFFF) cs -> Text s cs.
Proof.
  induction 1 as [|g c s cs Hg Hs IH]; intros F; [constructor|].
  inversion F; subst. constructor; [now apply encodes_uchar|auto].
Qed.

Lemma from_utf32_Encoded cs :
  Encoded (from_utf32 cs) (filter (fun c => c <=? 0x10FFFF) cs).
Proof.
  induction cs as [|c cs IH]; [constructor|].
  cbn [from_utf32 filter]. destruct (N.leb_spec c 0x10FFFF) as [L|L].
  - constructor; [now apply encode_encodes|exact IH].
  - rewrite encode_large by exact L. exact IH.
Qed.

Lemma from_utf32_Text cs : Forall (fun c => c <= 0x10FFFF) cs -> Text (from_utf32 cs) cs.
Proof.
  induction 1 as [|c cs Hc H IH]; [constructor|].
  cbn. constructor; [now apply encode_uchar|exact IH].
Qed.

(** ** to_utf32 *)

Lemma to_utf32_loop_text cs : forall pre t fuel acc,
  Text t cs -> (length cs < fuel)%nat ->
  to_utf32_loop fuel (pre ++ t) (length pre) acc = Ok (acc ++ cs).
Proof.
  induction cs as [|c cs IH]; intros pre t fuel acc HT Hf; (destruct fuel as [|fuel]; [lia|]); cbn [to_utf32_loop].
  - apply Text_nil_inv in HT. subst t. rewrite !app_nil_r, safe_decode_next_end. reflexivity.
  - apply Text_cons_inv in HT. destruct HT as (g & t' & -> & Hg & HT).
    rewrite safe_decode_next_uchar with (c := c) by exact Hg. cbn [bind].
    rewrite app_assoc, <- app_length. rewrite IH by (auto; cbn in Hf; lia).
    now rewrite <- app_assoc.
Qed.

Lemma to_utf32_loop_malformed cs : forall pre t r fuel acc,
  Text t cs -> Malformed r -> (length cs < fuel)%nat ->
  to_utf32_loop fuel (pre ++ t ++ r) (length pre) acc = Throw YstringException.
Proof.
  induction cs as [|c cs IH]; intros pre t r fuel acc HT Hr Hf; (destruct fuel as [|fuel]; [lia|]); cbn [to_utf32_loop].
  - apply Text_nil_inv in HT. subst t. cbn [app]. rewrite safe_decode_next_malformed by exact Hr. reflexivity.
  - apply Text_cons_inv in HT. destruct HT as (g & t' & -> & Hg & HT).
    rewrite <- app_assoc.
    rewrite safe_decode_next_uchar with (c := c) by exact Hg. cbn [bind].
    rewrite app_assoc, <- app_length. apply IH; auto; cbn in Hf; lia.
Qed.

Lemma Text_length s cs : Text s cs -> (length cs <= length s)%nat.
Proof.
  induction 1 as [|g c s cs Hg Hs IH]; [cbn; lia|].
  apply uchar_length in Hg. rewrite app_length. cbn. lia.
Qed.

Lemma to_utf32_text s cs : Text s cs -> to_utf32 s = Ok cs.
Proof.
  intros H. unfold to_utf32.
  change s with ([] ++ s) at 2. change 0%nat with (length (@nil byte)).
  rewrite to_utf32_loop_text with (cs := cs); auto.
  apply Text_length in H. lia.
Qed.

Lemma to_utf32_malformed u cs r : Text u cs -> Malformed r -> to_utf32 (u ++ r) = Throw YstringException.
Proof.
  intros H Hr. unfold to_utf32.
  change (u ++ r) with ([] ++ u ++ r) at 2. change 0%nat with (length (@nil byte)).
  rewrite to_utf32_loop_malformed with (cs := cs); auto.
  apply Text_length in H. rewrite app_length. lia.
Qed.
