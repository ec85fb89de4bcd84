(** C119: there are data files for all rows *)
From Coq Require Import String.
From Verif Require Import Base Spec.Category Spec.Escape Spec.DataFile Model.PyText Proofs.NumeralLemmas Proofs.HeaderLemmas.
From Coq Require Import ZifyBool ZifyNat ZifyN.
Local Notation "'#' s" := (list_byte_of_string s%string) (at level 5, only parsing).

Lemma code_exists c : exists f, code f c /\ (~ In x3b f /\ ~ In x0a f /\ ~ In x0d f).
Proof.
  destruct (format_literal 0 c) as (ds & _ & HN & HH). exists ds. split; [split; assumption|]. apply num_forall in HH. rewrite Forall_forall in HH.
  repeat split; intros Hi; destruct (HH _ Hi) as [d Hd]; revert Hd; unfold hex_digit; match goal with |- context [u8 ?b] => let v := eval vm_compute in (u8 b) in change (u8 b) with v end; lia.
Qed.
Lemma empty_ok : ~ In x3b [] /\ ~ In x0a [] /\ ~ In x0d [].
Proof. repeat split; intros []. Qed.
Lemma name_ok k : ~ In x3b (category_name k) /\ ~ In x0a (category_name k) /\ ~ In x0d (category_name k).
Proof. destruct k; cbn; intuition discriminate. Qed.
Lemma text_exists lines : Forall data_line lines -> exists t, DataText lines t.
Proof. induction 1 as [|fs lines H HF [t IH]]; [exists []; constructor|]. eexists. now apply data_lf; [exact H|exact IH]. Qed.
Lemma class_data_exists rows : exists lines t, DataText lines t /\ Forall2 class_line lines rows.
Proof.
  assert (exists lines, Forall data_line lines /\ Forall2 class_line lines rows) as (lines & H1 & H2).
  { induction rows as [|[c k] rows (lines & H1 & H2)]; [exists []; split; constructor|]. destruct (code_exists c) as (f & Hc & Hf).
    exists ([f; []; category_name k; []; []; []; []; []; []; []; []; []; []; []; []] :: lines). split; constructor; try assumption.
    - split; [reflexivity|]. constructor; [exact Hf|]. constructor; [exact empty_ok|]. constructor; [apply name_ok|]. repeat (constructor; [exact empty_ok|]). constructor.
    - exists f. split; [reflexivity|]. split; [exact Hc|reflexivity]. }
  destruct (text_exists lines H1) as [t Ht]. exists lines, t. auto.
Qed.
Lemma case_data_exists i rows : i = 12%nat \/ i = 13%nat \/ i = 14%nat -> exists lines t, DataText lines t /\ Says (case_line i) lines rows.
Proof.
  intros Hi. assert (exists lines, Forall data_line lines /\ Says (case_line i) lines rows) as (lines & H1 & H2).
  { induction rows as [|[c d] rows (lines & H1 & H2)]; [exists []; split; constructor|]. destruct (code_exists c) as (f & Hc & Hf). destruct (code_exists d) as (g & Hd & Hg).
    exists ([f; []; []; []; []; []; []; []; []; []; []; []; g; g; g] :: lines). split.
    - constructor; [|exact H1]. split; [reflexivity|]. constructor; [exact Hf|]. repeat (constructor; [exact empty_ok|]). repeat (constructor; [exact Hg|]). constructor.
    - apply says_some; [|exact H2]. apply (case_some i _ f g); [reflexivity|exact Hc| |exact Hd]. destruct Hi as [-> |[-> | ->]]; reflexivity. }
  destruct (text_exists lines H1) as [t Ht]. exists lines, t. auto.
Qed.
Lemma pair_data_exists rules : exists lines t, DataText lines t /\ Says pair_line lines rules.
Proof.
  assert (exists lines, Forall data_line lines /\ Says pair_line lines rules) as (lines & H1 & H2).
  { induction rules as [|[c [a b]] rules (lines & H1 & H2)]; [exists []; split; constructor|]. destruct (code_exists c) as (f & Hc & Hf).
    destruct (code_exists a) as (g & Ha & Hg). destruct (code_exists b) as (h & Hb & Hh).
    exists ([f; []; []; []; []; g ++ repeat x20 1 ++ h; []; []; []; []; []; []; []; []; []] :: lines). split.
    - constructor; [|exact H1]. split; [reflexivity|]. constructor; [exact Hf|]. repeat (constructor; [exact empty_ok|]). constructor.
      + rewrite !in_app_iff. cbn [repeat In]. repeat split; intros [H|[[H|[]]|H]]; tauto || discriminate.
      + repeat (constructor; [exact empty_ok|]). constructor.
    - apply says_some; [|exact H2]. apply (pair_some _ f c (g ++ repeat x20 1 ++ h)); [reflexivity|exact Hc|reflexivity|]. apply (codes_more g a 0 h [b] Ha). now constructor. }
  destruct (text_exists lines H1) as [t Ht]. exists lines, t. auto.
Qed.

(** ** Deciding the conditions on concrete files *)
Definition absentb (c : byte) (f : str) : bool := negb (existsb (byte_eqb c) f).
Lemma absentb_ok c f : absentb c f = true -> ~ In c f.
Proof.
  unfold absentb. rewrite negb_true_iff. intros H Hi. assert (existsb (byte_eqb c) f = true); [|congruence]. apply existsb_exists. exists c. split; [exact Hi|]. now apply Byte.byte_dec_lb.
Qed.
Lemma data_line_check fs : Nat.eqb (length fs) 15 && forallb (fun f => absentb x3b f && absentb x0a f && absentb x0d f) fs = true -> data_line fs.
Proof.
  rewrite andb_true_iff, Nat.eqb_eq, forallb_forall. intros [H1 H2]. split; [exact H1|]. apply Forall_forall. intros f Hf. specialize (H2 f Hf). rewrite !andb_true_iff in H2.
  destruct H2 as [[A B] C]. auto using absentb_ok.
Qed.
Definition hexb (f : str) : option N := match f with [] => None | _ => py_hex_loop f 0 end.
Lemma py_digit_hex c d : py_hex_digit c = Some d -> hex_digit c d.
Proof.
  unfold py_hex_digit, hex_digit. destruct ((0x30 <=? u8 c) && (u8 c <=? 0x39)) eqn:E1; [intros E; injection E as <-; lia|].
  destruct ((0x41 <=? u8 c) && (u8 c <=? 0x46)) eqn:E2; [intros E; injection E as <-; lia|]. destruct ((0x61 <=? u8 c) && (u8 c <=? 0x66)) eqn:E3; [intros E; injection E as <-; lia|discriminate].
Qed.
Lemma code_check f n : hexb f = Some n -> code f n.
Proof.
  unfold hexb. intros H. assert (f <> []) as HN by (intros ->; discriminate). split; [exact HN|].
  assert (py_hex_loop f 0 = Some n) as E by (destruct f; [discriminate|exact H]). clear H HN.
  assert (forall f ds v n, Hex ds v -> py_hex_loop f v = Some n -> Hex (ds ++ f) n) as K.
  { clear. induction f as [|c f IH]; intros ds v n H E; cbn in E; [injection E as <-; now rewrite app_nil_r|]. destruct (py_hex_digit c) as [d|] eqn:Ed; [|discriminate].
    change (ds ++ c :: f) with (ds ++ [c] ++ f). rewrite app_assoc. apply (IH (ds ++ [c]) (v * 16 + d)); [|exact E]. apply num_snoc; [exact H|]. now apply py_digit_hex. }
  apply (K f [] 0 n); [constructor|exact E].
Qed.
