(** Searching encoded text is searching the code points. *)
From Verif Require Import Base Spec.Utf8Spec Spec.Strings Model.Decode Model.Encode Model.Subrange Model.Search
  Proofs.Utf8Lemmas Proofs.EncodeLemmas Proofs.CodepointLemmas Proofs.SearchLemmas Proofs.SyncLemmas Proofs.ClosureLemmas.

Local Notation inr := (Forall (fun c => c <= 0x10FFFF)).
Local Notation E := from_utf32.

Lemma E_app a b : E (a ++ b) = E a ++ E b.
Proof. induction a as [|c a IH]; [reflexivity|]. cbn [app from_utf32]. rewrite IH. now rewrite app_assoc. Qed.
Lemma E_enc cs : inr cs -> Encoded (E cs) cs.
Proof.
  intros H. pose proof (from_utf32_Encoded cs) as K. replace (filter _ cs) with cs in K; [exact K|].
  clear K. induction H as [|c cs Hc _ IH]; [reflexivity|]. cbn [filter]. replace (c <=? 0x10FFFF) with true by (symmetry; now apply N.leb_le). now rewrite <- IH.
Qed.
Lemma encodes_fun g g' c : encodes g c -> encodes g' c -> g = g'.
Proof.
  unfold encodes. intros H H'. rewrite <- H in H'. clear H. revert g' H'. induction g as [|b g IH]; intros [|b' g'] H; try discriminate; [reflexivity|]. cbn [map] in H.
  apply cons_eq in H. destruct H as [H1 H2]. f_equal; [|now apply IH]. symmetry. now apply u8_inj.
Qed.
Lemma enc_eq u us : Encoded u us -> inr us -> u = E us.
Proof.
  intros H. induction H as [|g c s cs Hg _ IH]; intros HR; [reflexivity|]. inversion HR as [|? ? Hc Hcs]; subst.
  change (c :: cs) with ([c] ++ cs). rewrite E_app, <- (IH Hcs). f_equal.
  pose proof (E_enc [c] ltac:(constructor; [exact Hc|constructor])) as K. remember (E [c]) as e. clear Heqe.
  inversion K as [|g' c' s' cs' Hg' Hs' E1 E2]; subst. inversion Hs'; subst. rewrite app_nil_r. now apply (encodes_fun g g' c).
Qed.
Lemma E_nonempty c : c <= 0x10FFFF -> E [c] <> [].
Proof. intros H K. pose proof (from_utf32_Text [c] ltac:(constructor; [exact H|constructor])) as T. rewrite K in T. inversion T as [|g d s ds Hg _ E1]. apply uchar_nonempty in Hg. apply app_eq_nil in E1. tauto. Qed.

Lemma occ_cps cs ps i : inr cs -> inr ps -> ps <> [] ->
  (occurs_at (E ps) (E cs) i <-> exists us vs, cs = us ++ ps ++ vs /\ length (E us) = i).
Proof.
  intros HC HP HN. split.
  - intros (u & v & Eq & L).
    assert (E ps <> []) as HE. { destruct ps as [|c ps]; [contradiction|]. change (c :: ps) with ([c] ++ ps). rewrite E_app. intros K. apply app_eq_nil in K. destruct K as [K _]. revert K. apply E_nonempty. now apply Forall_inv in HP. }
    destruct (sync (E cs) cs (E ps) ps u v (from_utf32_Text cs HC) (from_utf32_Text ps HP) HE Eq) as (us & vs & HU & HV & ->).
    exists us, vs. split; [reflexivity|].
    destruct (Encoded_app_inv u us (E ps ++ v) (ps ++ vs) (us ++ ps ++ vs)) as (K & _); [rewrite <- Eq; now apply E_enc|exact HC|exact HU|apply Text_app; [now apply from_utf32_Text|exact HV]|].
    apply Forall_app in HC. rewrite (enc_eq u us K) in L by tauto. exact L.
  - intros (us & vs & -> & <-). exists (E us), (E vs). split; [|reflexivity]. now rewrite !E_app.
Qed.

Lemma E_prefix_le us vs us' vs' : us ++ vs = us' ++ vs' -> inr (us ++ vs) -> (length us' < length us)%nat -> (length (E us') < length (E us))%nat.
Proof.
  revert us'. induction us as [|c us IH]; intros [|c' us'] H HR L; cbn [length] in L; try lia.
  - change (c :: us) with ([c] ++ us). rewrite E_app, app_length. pose proof (E_nonempty c (Forall_inv HR)). destruct (E [c]); [contradiction|cbn; lia].
  - cbn [app] in H. apply cons_eq in H. destruct H as [<- H]. change (c :: us) with ([c] ++ us). change (c :: us') with ([c] ++ us'). rewrite !E_app, !app_length.
    specialize (IH us' H ltac:(now apply Forall_inv_tail in HR) ltac:(lia)). lia.
Qed.

Lemma p_c78_cp_first cs ps : inr cs -> inr ps -> ps <> [] ->
  (exists us vs, cs = us ++ ps ++ vs /\ (forall us' vs', cs = us' ++ ps ++ vs' -> (length us <= length us')%nat) /\
     find_first (E cs) (E ps) 0 = Ok (Sub (size (E us)) (size (E ps))))
  \/ ((forall us vs, cs <> us ++ ps ++ vs) /\ find_first (E cs) (E ps) 0 = Ok (Sub (size (E cs)) 0)).
Proof.
  intros HC HP HN.
  assert (E ps <> []) as HE. { destruct ps as [|c ps]; [contradiction|]. change (c :: ps) with ([c] ++ ps). rewrite E_app. intros K. apply app_eq_nil in K. destruct K as [K _]. revert K. apply E_nonempty. now apply Forall_inv in HP. }
  destruct (find_first_spec (E cs) (E ps) 0 HE ltac:(lia)) as [(i & _ & HO & HM & HF)|[HM HF]]; change (N.of_nat 0) with 0 in HF.
  - left. apply (occ_cps cs ps i HC HP HN) in HO. destruct HO as (us & vs & Eq & L). exists us, vs. split; [exact Eq|]. split.
    + intros us' vs' Eq'. destruct (le_lt_dec (length us) (length us')) as [D|D]; [exact D|exfalso].
      assert (length (E us') < length (E us))%nat as D'. { apply (E_prefix_le us (ps ++ vs) us' (ps ++ vs')); [congruence|now rewrite <- Eq|exact D]. }
      apply (HM (length (E us'))); [lia|]. apply (occ_cps cs ps _ HC HP HN). eauto.
    + rewrite HF. unfold size. now rewrite <- L.
  - right. split; [|exact HF]. intros us vs Eq. apply (HM (length (E us)) ltac:(lia)). apply (occ_cps cs ps _ HC HP HN). eauto.
Qed.

Lemma p_c78_cp_last cs ps : inr cs -> inr ps -> ps <> [] ->
  (exists us vs, cs = us ++ ps ++ vs /\ (forall us' vs', cs = us' ++ ps ++ vs' -> (length us' <= length us)%nat) /\
     find_last (E cs) (E ps) (size (E cs)) = Ok (Sub (size (E us)) (size (E ps))))
  \/ ((forall us vs, cs <> us ++ ps ++ vs) /\ find_last (E cs) (E ps) (size (E cs)) = Ok (Sub 0 0)).
Proof.
  intros HC HP HN.
  assert (E ps <> []) as HE. { destruct ps as [|c ps]; [contradiction|]. change (c :: ps) with ([c] ++ ps). rewrite E_app. intros K. apply app_eq_nil in K. destruct K as [K _]. revert K. apply E_nonempty. now apply Forall_inv in HP. }
  assert (forall us vs, cs = us ++ ps ++ vs -> N.of_nat (length (E us)) + size (E ps) <= N.min (size (E cs)) (size (E cs))) as W.
  { intros us vs ->. unfold size. rewrite !E_app, !app_length. lia. }
  destruct (find_last_spec (E cs) (E ps) (size (E cs)) HE) as [(i & HO & _ & HM & HF)|[HM HF]].
  - left. apply (occ_cps cs ps i HC HP HN) in HO. destruct HO as (us & vs & Eq & L). exists us, vs. split; [exact Eq|]. split.
    + intros us' vs' Eq'. destruct (le_lt_dec (length us') (length us)) as [D|D]; [exact D|exfalso].
      assert (length (E us) < length (E us'))%nat as D'. { apply (E_prefix_le us' (ps ++ vs') us (ps ++ vs)); [congruence|now rewrite <- Eq'|exact D]. }
      apply (HM (length (E us'))); [lia|now apply (W us' vs')|]. apply (occ_cps cs ps _ HC HP HN). eauto.
    + rewrite HF. unfold size. now rewrite <- L.
  - right. split; [|exact HF]. intros us vs Eq. apply (HM (length (E us)) (W us vs Eq)). apply (occ_cps cs ps _ HC HP HN). eauto.
Qed.

Lemma p_c78_prefix cs ps : inr cs -> inr ps -> (exists t, E cs = E ps ++ t) <-> exists ds, cs = ps ++ ds.
Proof.
  intros HC HP. split.
  - intros [t Eq]. pose proof (from_utf32_Text cs HC) as T. rewrite Eq in T. destruct (Text_app_inv (E ps) ps t cs (from_utf32_Text ps HP) T) as (ds & -> & _). eauto.
  - intros [ds ->]. rewrite E_app. eauto.
Qed.
Lemma p_c78_suffix cs ps : inr cs -> inr ps -> (exists t, E cs = t ++ E ps) <-> exists ds, cs = ds ++ ps.
Proof.
  intros HC HP. split.
  - intros [t Eq]. destruct (text_cut (E cs) cs (from_utf32_Text cs HC) t (E ps) Eq (Text_at_lead _ _ (from_utf32_Text ps HP))) as (us & vs & -> & HU & HV).
    exists us. f_equal. exact (Text_fun _ _ _ HV (from_utf32_Text ps HP)).
  - intros [ds ->]. rewrite E_app. eauto.
Qed.
Lemma p_c78_fixes cs ps : inr cs -> inr ps -> Fits (E cs) ->
  (starts_with (E cs) (E ps) = Ok true <-> exists ds, cs = ps ++ ds) /\
  (ends_with (E cs) (E ps) = Ok true <-> exists ds, cs = ds ++ ps).
Proof.
  intros HC HP HF. rewrite <- (p_c78_prefix cs ps HC HP), <- (p_c78_suffix cs ps HC HP).
  destruct (starts_with_spec (E cs) (E ps)) as (b & -> & H). destruct (ends_with_spec (E cs) (E ps) HF) as (b' & -> & H').
  rewrite <- H, <- H'. split; split; congruence.
Qed.
