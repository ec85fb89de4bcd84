(** UTF-8 is self-synchronising: a valid pattern occurs in a valid text only at
    code point boundaries. *)
From Verif Require Import Base Spec.Utf8Spec Spec.Strings Model.Decode Model.Encode Model.Subrange Model.Search
  Proofs.Utf8Lemmas Proofs.EncodeLemmas Proofs.CodepointLemmas Proofs.SearchLemmas.

Definition at_lead (v : str) : Prop := match v with [] => True | b :: _ => ~ cont b end.

Lemma Text_at_lead s cs : Text s cs -> at_lead s.
Proof.
  destruct 1 as [|g c s cs Hg Hs]; [exact I|]. apply uchar_shape in Hg. destruct Hg as (a & t & -> & Ha & _). exact Ha.
Qed.

Lemma text_cut s cs : Text s cs -> forall u v, s = u ++ v -> at_lead v ->
  exists us vs, cs = us ++ vs /\ Text u us /\ Text v vs.
Proof.
  induction 1 as [|g c s cs Hg Hs IH]; intros u v E Hv.
  - symmetry in E. apply app_eq_nil in E. destruct E as [-> ->]. exists [], []. repeat split; constructor.
  - destruct (le_lt_dec (length g) (length u)) as [L|L].
    + apply app_eq_app in E. destruct E as (w & [[E1 E2]|[E1 E2]]).
      * assert (w = []) as ->. { apply length_zero_iff_nil. rewrite E1, app_length in L. lia. }
        rewrite app_nil_r in E1. cbn in E2. subst. exists [c], cs. split; [reflexivity|]. split; [now apply Text_one|exact Hs].
      * destruct (IH w v E2 Hv) as (us & vs & -> & H1 & H2). subst u. exists (c :: us), vs. repeat split; [|exact H2].
        now constructor.
    + apply app_eq_app in E. destruct E as (w & [[E1 E2]|[E1 E2]]).
      * destruct u as [|a u].
        { cbn in E1. subst w. exists [], (c :: cs). subst v. repeat split; now constructor. }
        exfalso. apply uchar_shape in Hg. destruct Hg as (a' & t & Eg & _ & Ht & _). rewrite Eg in E1. cbn in E1.
        injection E1 as <- E1. destruct w as [|b w].
        { rewrite Eg in L. cbn in L. rewrite app_nil_r in E1. subst t. lia. }
        subst v. cbn in Hv. apply Hv. rewrite E1 in Ht. apply Forall_app in Ht. destruct Ht as [_ Ht]. now inversion Ht.
      * exfalso. subst u. rewrite app_length in L. lia.
Qed.

Lemma sync s cs p ps u v : Text s cs -> Text p ps -> p <> [] -> s = u ++ p ++ v ->
  exists us vs, Text u us /\ Text v vs /\ cs = us ++ ps ++ vs.
Proof.
  intros HS HP HN E. assert (at_lead (p ++ v)) as HL.
  { pose proof (Text_at_lead p ps HP) as H. destruct p; [contradiction|exact H]. }
  destruct (text_cut s cs HS u (p ++ v) E HL) as (us & rs & -> & Hu & Hr).
  destruct (Text_app_inv p ps v rs HP Hr) as (vs & -> & Hv). eauto.
Qed.

Lemma occ_iff p s i : occurs_at p s i <-> exists u v, s = u ++ p ++ v /\ length u = i.
Proof. reflexivity. Qed.

Lemma p_c78_first s cs p ps o i n : Text s cs -> Text p ps -> p <> [] -> o <= size s ->
  find_first s p o = Ok (Sub i n) -> n <> 0 ->
  exists u v us vs, s = u ++ p ++ v /\ size u = i /\ n = size p /\ Text u us /\ Text v vs /\ cs = us ++ ps ++ vs.
Proof.
  intros HS HP HN HO HF Hn. unfold size in HO.
  destruct (find_first_spec s p (N.to_nat o) HN) as [(k & _ & (u & v & E & L) & _ & HR)|[_ HR]]; [lia| |].
  - rewrite N2Nat.id, HF in HR. injection HR as -> ->. destruct (sync s cs p ps u v HS HP HN E) as (us & vs & Hu & Hv & Ec).
    exists u, v, us, vs. repeat split; auto. unfold size. now rewrite L.
  - rewrite N2Nat.id, HF in HR. injection HR as -> ->. now contradiction Hn.
Qed.

Lemma p_c78_last s cs p ps o i n : Text s cs -> Text p ps -> p <> [] ->
  find_last s p o = Ok (Sub i n) -> n <> 0 ->
  exists u v us vs, s = u ++ p ++ v /\ size u = i /\ n = size p /\ Text u us /\ Text v vs /\ cs = us ++ ps ++ vs.
Proof.
  intros HS HP HN HF Hn.
  destruct (find_last_spec s p o HN) as [(k & (u & v & E & L) & _ & _ & HR)|[_ HR]].
  - rewrite HF in HR. injection HR as -> ->. destruct (sync s cs p ps u v HS HP HN E) as (us & vs & Hu & Hv & Ec).
    exists u, v, us, vs. repeat split; auto. unfold size. now rewrite L.
  - rewrite HF in HR. injection HR as -> ->. now contradiction Hn.
Qed.
