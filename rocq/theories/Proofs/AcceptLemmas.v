(** C07: exactly what is_valid_utf8 accepts beyond RFC 3629. *)
From Verif Require Import Base Spec.Utf8Spec Spec.Strings Model.Decode Model.Encode Model.Search
  Proofs.Utf8Lemmas Proofs.EncodeLemmas Proofs.CodepointLemmas Proofs.SearchLemmas Proofs.ClosureLemmas.
From Coq Require Import ZifyBool ZifyNat ZifyN.

Lemma encodes_dec g c : encodes g c \/ ~ encodes g c.
Proof. unfold encodes. destruct (list_eq_dec N.eq_dec (map u8 g) (rfc3629_bytes c)); auto. Qed.
Lemma Text_good_or_bad s cs : Text s cs -> (Encoded s cs /\ Forall scalar cs) \/
  exists u g c v, s = u ++ g ++ v /\ (exists us, Text u us) /\ uchar g c /\ (exists vs, Text v vs) /\ (0x10FFFF < c \/ 0xD800 <= c <= 0xDFFF \/ ~ encodes g c).
Proof.
  induction 1 as [|g c s cs Hg Hs IH]; [left; split; constructor|].
  destruct (encodes_dec g c) as [HE|HE].
  - assert (scalar c \/ 0x10FFFF < c \/ 0xD800 <= c <= 0xDFFF) as [HC|HC] by (unfold scalar; lia).
    + destruct IH as [[I1 I2]|(u & g' & c' & v & -> & [us HU] & HG & HV & HB)].
      * left. split; [now constructor|now constructor].
      * right. exists (g ++ u), g', c', v. rewrite <- app_assoc. split; [reflexivity|]. split; [exists (c :: us); now constructor|]. auto.
    + right. exists [], g, c, s. split; [reflexivity|]. split; [exists []; constructor|]. split; [exact Hg|]. split; [now exists cs|]. tauto.
  - right. exists [], g, c, s. split; [reflexivity|]. split; [exists []; constructor|]. split; [exact Hg|]. split; [now exists cs|]. tauto.
Qed.
Lemma p_c07_accepted s : is_valid_utf8 s = Ok true <-> rfc3629_valid s \/
  exists u g c v, s = u ++ g ++ v /\ (exists us, Text u us) /\ uchar g c /\ (exists vs, Text v vs) /\ (0x10FFFF < c \/ 0xD800 <= c <= 0xDFFF \/ ~ encodes g c).
Proof.
  split.
  - intros H. apply valid_text in H as [cs H]. destruct (Text_good_or_bad s cs H) as [HG|HB]; [left; now exists cs|now right].
  - intros [H|(u & g & c & v & -> & [us HU] & HG & [vs HV] & _)].
    + apply rfc3629_Text in H as [cs H]. now apply is_valid_text with cs.
    + apply is_valid_text with (us ++ c :: vs). apply Text_app; [exact HU|]. now constructor.
Qed.
Lemma p_c07_not_rfc u us g c v vs : Text u us -> uchar g c -> Text v vs -> (0x10FFFF < c \/ 0xD800 <= c <= 0xDFFF \/ ~ encodes g c) -> ~ rfc3629_valid (u ++ g ++ v).
Proof.
  intros HU HG HV HB (cs & HE & HF). destruct (Encoded_app_inv u us (g ++ v) (c :: vs) cs HE (scalar_range _ HF) HU) as (_ & HE2 & ->); [now constructor|].
  apply Forall_app in HF as [_ HF]. inversion HF as [|? ? HC HF']; subst.
  destruct (Encoded_app_inv g [c] v vs (c :: vs) HE2) as (HE3 & _ & _).
  - apply scalar_range. exact HF.
  - rewrite <- (app_nil_r g). constructor; [exact HG|constructor].
  - exact HV.
  - inversion HE3 as [|g' ? ? ? Hg' HN]; subst. inversion HN; subst. rewrite app_nil_r in *. unfold scalar in HC. destruct HB as [HB|[HB|HB]]; [lia|lia|contradiction].
Qed.
