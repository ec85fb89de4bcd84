(** Exactly when the case-insensitive backward functions are undefined (C82). *)
From Verif Require Import Base Spec.Utf8Spec Spec.Strings Spec.Slices Spec.Case Spec.CaseFold Model.Decode Model.Encode Model.Subrange Model.Search
  Model.Split Model.CharClass Model.ConvertCase Model.Chars Model.CaseInsensitive Proofs.Utf8Lemmas Proofs.DecodeLemmas Proofs.EncodeLemmas Proofs.CodepointLemmas Proofs.SearchLemmas
  Proofs.CaseLemmas Proofs.CaseStringLemmas Proofs.Utf8Props Proofs.CiLemmas Proofs.CiFindLemmas Proofs.CiFindLastLemmas Proofs.CiReplaceLemmas Proofs.CiMalformed
  Proofs.CiTotal Proofs.CiTotal2 Proofs.CharMalformed Proofs.BackwardLemmas.
Require Import Lia ZifyBool ZifyNat ZifyN.

Lemma malformed_end_dec w : MalformedEnd w \/ ~ MalformedEnd w.
Proof.
  destruct (seq_dec_end w) as [->|[H|(t & g & c & Hg & ->)]]; [right; intros [H _]; congruence|now left|].
  right. intros [_ H]. exact (H g c t Hg eq_refl).
Qed.
Lemma ci_ends_ub s p ps : Text p ps -> (ci_ends_with s p = UB <->
  exists r u us qs vs, s = r ++ u /\ Text u us /\ ps = qs ++ vs /\ fold_case us = fold_case vs /\ long_cont_tail r).
Proof.
  intros Hp. split.
  - intros E. destruct (p_c49_ends_all s p ps Hp) as [(w & u & us & -> & HT & F)|[(us & HT & F)|[(r & g & c & u & us & qs & d & vs & -> & HT & Hg & F & ND & ->)|(r & u & us & qs & vs & -> & HT & HM & F & ->)]]].
    + destruct (p_c49_ends_any u us w p ps HT Hp F) as (K1 & K2 & K3).
      destruct (malformed_end_dec w) as [M|M]; [|rewrite (K3 M) in E; discriminate].
      destruct (long_cont_tail_dec w) as [L|L]; [|rewrite (K1 M L) in E; discriminate].
      exists w, u, us, [], ps. auto.
    + destruct (p_c49_ends s us p ps HT Hp) as (b & Eb & _). congruence.
    + rewrite (p_c49_ends_differ r g c u us p qs d vs) in E by assumption. discriminate.
    + exists r, u, us, qs, vs. repeat split; auto. eapply bad_ub; [|exact E]. now apply (p_c49_ends_stuck r u us p qs vs).
  - intros (r & u & us & qs & vs & -> & HT & -> & F & L). now apply (p_c49_ends_stuck r u us p qs vs HT (long_malformed _ L) F Hp).
Qed.
Lemma ci_last_ub s p ps o : ps <> [] -> Text p ps -> (ci_find_last s p o = UB <->
  exists r u us post, s = r ++ u ++ post /\ N.min o (size s) = size (r ++ u) /\ Text u us /\ only_at_start ps us /\ long_cont_tail r).
Proof.
  intros Hne Hp. split.
  - intros E. set (n := N.to_nat (N.min o (size s))).
    assert (Hn : (n <= length s)%nat) by (unfold n, size; lia).
    assert (Hs : s = firstn n s ++ skipn n s) by now rewrite firstn_skipn.
    assert (Hz : N.min o (size s) = size (firstn n s)) by (unfold size at 2; rewrite firstn_length; unfold n; unfold size in *; lia).
    clearbody n. destruct (p_c50_last ps p (skipn n s) o Hne Hp) as (K1 & K2 & K3).
    destruct (last_ci_all ps (firstn n s) Hne) as [(u & g & v & E1 & F)|[H|(r & u & us & E1 & Hu & Hr & HO)]].
    + rewrite E1, <- !app_assoc in Hs. rewrite E1 in Hz. rewrite Hs in E. rewrite (K1 u g v F) in E; [discriminate|]. now rewrite <- Hs.
    + rewrite Hs in E. rewrite (K2 _ H) in E; [discriminate|]. now rewrite <- Hs.
    + rewrite E1, <- app_assoc in Hs. rewrite E1 in Hz. exists r, u, us, (skipn n s). repeat split; auto.
      eapply bad_ub; [|exact E]. rewrite Hs at 1. rewrite Hs in Hz at 1. exact (K3 r u us Hz Hu Hr HO).
  - intros (r & u & us & post & -> & Ho & HT & HO & L). destruct (p_c50_last ps p post o Hne Hp) as (_ & _ & K).
    now apply (K r u us Ho HT (long_malformed _ L) HO).
Qed.
Lemma ci_replace_ub s from ps to m : ps <> [] -> Text from ps -> Fits s -> (ci_replace s from to m = UB <->
  (m < 0)%Z /\ exists r, CiStuckBack ps (Z.to_N (- m)) s r /\ long_cont_tail r).
Proof.
  intros Hne Hp HF. split.
  - intros E. destruct (Z.ltb_spec m 0) as [Hm|Hm].
    + split; [exact Hm|]. destruct (p_c51_back_all s ps to Hne (Z.to_N (- m))) as [[r Hr]|[r Hr]].
      * rewrite (p_c51_back s from ps to m r) in E by assumption. discriminate.
      * exists r. split; [exact Hr|]. eapply bad_ub; [|exact E]. now apply (p_c51_back_stuck s from ps to m r).
    + exfalso. destruct (p_c51_front_all s ps to Hne (Z.to_N m)) as [[r Hr]|Hr].
      * rewrite (p_c51_front s from ps to m r) in E by assumption. discriminate.
      * rewrite (p_c51_front_stuck s from ps to m) in E by assumption. discriminate.
  - intros (Hm & r & Hr & L). now apply (p_c51_back_stuck s from ps to m r Hne Hp HF Hm Hr).
Qed.
