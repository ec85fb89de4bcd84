(** C116 *)
From Verif Require Import Base Spec.Category Spec.UnicodeData Spec.Utf8Spec Spec.Strings Spec.Case Spec.Normalization Spec.Commute Spec.CaseFold Model.CaseInsensitive Proofs.CiLemmas
  Model.Decode Model.Encode Model.ConvertCase Model.Normalize Tables.UnicodeDataTables
  Proofs.Utf8Lemmas Proofs.EncodeLemmas Proofs.CodepointLemmas Proofs.CaseStringLemmas Proofs.NormLemmas Proofs.NormProps Proofs.NormEquiv Proofs.CommuteCase Proofs.CommuteProps Proofs.CommuteNorm.
From Coq Require Import ZifyBool ZifyNat ZifyN.
Ltac Zify.zify_post_hook ::= Z.div_mod_to_equations.

Fixpoint eqb_list (a b : list N) : bool := match a, b with [], [] => true | x :: a, y :: b => (x =? y) && eqb_list a b | _, _ => false end.
Lemma eqb_list_ok a : forall b, eqb_list a b = true <-> a = b.
Proof.
  induction a as [|x a IH]; intros [|y b]; cbn; split; try discriminate; try reflexivity.
  - intros H. apply andb_true_iff in H. destruct H as [H1 H2]. apply N.eqb_eq in H1. apply IH in H2. congruence.
  - intros H. injection H as -> ->. rewrite N.eqb_refl. now apply IH.
Qed.
Definition same (f : N -> list N) (c : N) : bool := eqb_list (flat_map f (F c)) (flat_map F (f c)).
Definition agrees (f : N -> list N) (exc : list N) (c : N) : bool := Bool.eqb (same f c) (negb (existsb (N.eqb c) exc)).
Definition map1 (t : list (N * N)) (c : N) : list N := [mapped t c].
Lemma F_none c : lookup c = None -> F c = [c].
Proof. intros H. apply F_fun. constructor. intros a b. now apply lookup_none. Qed.
Lemma agrees_all f t exc : (forall c, f c = map1 t c \/ c = 0xDF) ->
  forallb (fun p : N * (N * N) => agrees f exc (fst p)) UD_PAIRS = true -> forallb (fun p : N * N => agrees f exc (fst p)) t = true ->
  forallb (fun c => match lookup c with None => match find (fun p => fst p =? c) t with None => false | _ => true end | _ => true end) exc = true ->
  agrees f exc 0xDF = true -> forall c, agrees f exc c = true.
Proof.
  intros Hf HP HT HX HDF c. destruct (Hf c) as [Ef| ->]; [|exact HDF]. destruct (lookup c) as [p|] eqn:E.
  - apply lookup_some in E. destruct E as (a & b & -> & H). rewrite forallb_forall in HP. exact (HP _ H).
  - destruct (find (fun p => fst p =? c) t) as [p|] eqn:Et.
    + pose proof Et as Et'. apply find_some in Et'. destruct Et' as [Hi Hc]. apply N.eqb_eq in Hc. rewrite forallb_forall in HT. specialize (HT _ Hi). now rewrite Hc in HT.
    + unfold agrees, same. assert (f c = [c]) as Efc by (rewrite Ef; unfold map1, mapped; now rewrite Et). rewrite (F_none c E). rewrite Efc. cbn [flat_map]. rewrite Efc, (F_none c E).
      cbn [flat_map app eqb_list]. rewrite N.eqb_refl. cbn [andb]. destruct (existsb (N.eqb c) exc) eqn:Ex; [|reflexivity].
      apply existsb_exists in Ex. destruct Ex as (x & Hx & Hq). apply N.eqb_eq in Hq. subst x. rewrite forallb_forall in HX. specialize (HX _ Hx). rewrite E, Et in HX. discriminate HX.
Qed.
Lemma agrees_in f exc : (forall c, agrees f exc c = true) -> forall c, flat_map f (F c) = flat_map F (f c) <-> ~ In c exc.
Proof.
  intros H c. specialize (H c). unfold agrees in H. apply Bool.eqb_prop in H. unfold same in H. rewrite <- eqb_list_ok, H, negb_true_iff.
  split.
  - intros Hn Hi. assert (existsb (N.eqb c) exc = true) as He by (apply existsb_exists; exists c; split; [exact Hi|apply N.eqb_refl]). congruence.
  - intros Hn. apply Bool.not_true_is_false. intros He. apply existsb_exists in He. destruct He as (x & Hx & Hq). apply N.eqb_eq in Hq. subst x. contradiction.
Qed.
Lemma lower_swap c : flat_map lower_of (F c) = flat_map F (lower_of c) <-> ~ In c lower_exceptions.
Proof.
  apply agrees_in. apply (agrees_all _ UD_LOWER).
  - intros x. now left.
  - vm_cast_no_check (eq_refl true).
  - vm_cast_no_check (eq_refl true).
  - vm_cast_no_check (eq_refl true).
  - vm_cast_no_check (eq_refl true).
Qed.
Lemma upper_swap c : flat_map upper_of (F c) = flat_map F (upper_of c) <-> ~ In c upper_exceptions.
Proof.
  apply agrees_in. apply (agrees_all _ UD_UPPER).
  - intros x. unfold upper_of. destruct (N.eqb_spec x 0xDF); [now right|now left].
  - vm_cast_no_check (eq_refl true).
  - vm_cast_no_check (eq_refl true).
  - vm_cast_no_check (eq_refl true).
  - vm_cast_no_check (eq_refl true).
Qed.
Lemma flat_swap f cs : (forall c, In c cs -> flat_map f (F c) = flat_map F (f c)) -> flat_map f (flat_map F cs) = flat_map F (flat_map f cs).
Proof.
  induction cs as [|c cs IH]; intros H; [reflexivity|]. cbn [flat_map]. rewrite !flat_map_app, (H c (or_introl eq_refl)), IH; [reflexivity|]. intros x Hx. apply H. now right.
Qed.
Definition fewb (c : N) : bool := (length (F c) <=? 3)%nat.
Definition few_stays (f : N -> list N) (c : N) : bool := implb (fewb c) (forallb fewb (f c)).
Lemma few_images f t : (forall c, f c = map1 t c \/ c = 0xDF) -> forallb (fun p : N * N => few_stays f (fst p)) t = true -> few_stays f 0xDF = true ->
  forall c, (length (F c) <= 3)%nat -> Forall (fun d => (length (F d) <= 3)%nat) (f c).
Proof.
  intros Hf HT HDF c Hc. assert (few_stays f c = true \/ f c = [c]) as [H|E].
  - destruct (Hf c) as [Ef| ->]; [|now left]. destruct (find (fun p => fst p =? c) t) as [p|] eqn:Et.
    + left. apply find_some in Et. destruct Et as [Hi Hq]. apply N.eqb_eq in Hq. rewrite forallb_forall in HT. specialize (HT _ Hi). now rewrite Hq in HT.
    + right. rewrite Ef. unfold map1, mapped. now rewrite Et.
  - unfold few_stays in H. assert (fewb c = true) as Eb by now apply Nat.leb_le. rewrite Eb in H. cbn [implb] in H. rewrite forallb_forall in H.
    apply Forall_forall. intros d Hd. apply Nat.leb_le. now apply H.
  - rewrite E. constructor; [exact Hc|constructor].
Qed.
Lemma lower_few c : (length (F c) <= 3)%nat -> Forall (fun d => (length (F d) <= 3)%nat) (lower_of c).
Proof.
  apply (few_images _ UD_LOWER).
  - intros x. now left.
  - vm_cast_no_check (eq_refl true).
  - vm_cast_no_check (eq_refl true).
Qed.
Lemma upper_few c : (length (F c) <= 3)%nat -> Forall (fun d => (length (F d) <= 3)%nat) (upper_of c).
Proof.
  apply (few_images _ UD_UPPER).
  - intros x. unfold upper_of. destruct (N.eqb_spec x 0xDF); [now right|now left].
  - vm_cast_no_check (eq_refl true).
  - vm_cast_no_check (eq_refl true).
Qed.

Definition exceptions (f : N -> list N) (exc : list N) : Prop :=
  (forall c, flat_map f (F c) = flat_map F (f c) <-> ~ In c exc) /\ (forall c, (length (F c) <= 3)%nat -> Forall (fun d => (length (F d) <= 3)%nat) (f c)).

Lemma both_texts inner C f exc s cs d l : case_conversion C f -> exceptions f exc -> Text s cs -> to_decomposed inner s = Ok d -> C s = Ok l ->
  exists a b, C d = Ok a /\ to_decomposed inner l = Ok b /\ Encoded a (flat_map f (flat_map F cs)) /\ Encoded b (flat_map F (flat_map f cs)) /\
    Forall uni (flat_map f (flat_map F cs)) /\ Forall uni (flat_map F (flat_map f cs)).
Proof.
  intros HC [HS HW] HT ED EL. destruct (D_few inner s d ED) as (cs' & HT' & HD). rewrite (Text_fun _ _ _ HT' HT) in HD. clear HT' cs'.
  destruct (conv_text C f s l HC EL) as (cs' & HT' & HU). rewrite (Text_fun _ _ _ HT' HT) in HU. clear HT' cs'.
  destruct (D_ok inner s cs HT HD) as (d' & ED' & HTd). rewrite ED in ED'. injection ED' as <-.
  assert (Forall uni (flat_map F cs)) as HUd.
  { rewrite Forall_flat_map. rewrite Forall_forall in *. intros c Hc. destruct (F_atom c) as [->|[_ S]]; [constructor; [now apply HU|constructor]|].
    revert S. apply Forall_impl. intros; lia. }
  assert (exists r, C d = Ok r /\ Encoded r (flat_map f (flat_map F cs))) as (a & Ea & Ha).
  { destruct HC.
    - destruct (to_lower_str_ok d _ HTd HUd) as (r & E & Hr). exists r. split; [exact E|]. now rewrite <- lower_flat.
    - destruct (to_upper_str_ok d _ HTd HUd) as (r & E & Hr). exists r. split; [exact E|exact Hr]. }
  assert (Encoded l (flat_map f cs)) as Hl.
  { destruct HC.
    - destruct (to_lower_str_ok s _ HT HU) as (r & E & Hr). rewrite EL in E. injection E as <-. now rewrite <- lower_flat.
    - destruct (to_upper_str_ok s _ HT HU) as (r & E & Hr). rewrite EL in E. injection E as <-. exact Hr. }
  assert (Forall (fun c => (length (F c) <= 3)%nat /\ c <= 0x10FFFF) (flat_map f cs)) as HFl.
  { rewrite Forall_flat_map. apply Forall_forall. intros c Hc. rewrite Forall_forall in HU, HD. pose proof (conv_uni C f HC c (HU c Hc)) as H1.
    pose proof (HW c (HD c Hc)) as H2. rewrite Forall_forall in *. intros x Hx. split; [now apply H2|now apply H1]. }
  assert (Text l (flat_map f cs)) as HTl.
  { apply Encoded_Text; [exact Hl|]. revert HFl. apply Forall_impl. intros c [_ Hc]. exact Hc. }
  destruct (D_ok inner l _ HTl) as (b & Eb & _). { revert HFl. apply Forall_impl. intros c [Hc _]. exact Hc. }
  exists a, b. split; [exact Ea|]. split; [exact Eb|]. split; [exact Ha|]. split; [exact (D_enc inner l _ b Hl HFl Eb)|].
  assert (forall xs, Forall uni xs -> Forall uni (flat_map F xs)) as UF.
  { intros xs HX. rewrite Forall_flat_map. rewrite Forall_forall in *. intros c Hc. destruct (F_atom c) as [->|[_ S]]; [constructor; [now apply HX|constructor]|].
    revert S. apply Forall_impl. intros; lia. }
  assert (forall xs, Forall uni xs -> Forall uni (flat_map f xs)) as Uf.
  { intros xs HX. rewrite Forall_flat_map. rewrite Forall_forall in *. intros c Hc. apply (conv_uni C f HC). now apply HX. }
  split; auto.
Qed.
Lemma both_agree inner C f exc s cs d l : case_conversion C f -> exceptions f exc -> Text s cs -> Forall (fun c => ~ In c exc) cs ->
  to_decomposed inner s = Ok d -> C s = Ok l -> exists r, C d = Ok r /\ to_decomposed inner l = Ok r.
Proof.
  intros HC HX HT HE ED EL. destruct (both_texts inner C f exc s cs d l HC HX HT ED EL) as (a & b & Ea & Eb & Ha & Hb & Ua & Ub).
  assert (flat_map f (flat_map F cs) = flat_map F (flat_map f cs)) as E.
  { apply flat_swap. intros c Hc. apply (proj1 HX). rewrite Forall_forall in HE. now apply HE. }
  rewrite E in Ha. exists b. split; [|exact Eb]. rewrite Ea. f_equal. exact (Encoded_fun _ _ _ Ha Hb).
Qed.
Lemma both_differ inner C f exc s c d l : case_conversion C f -> exceptions f exc -> Text s [c] -> In c exc ->
  to_decomposed inner s = Ok d -> C s = Ok l -> exists a b, C d = Ok a /\ to_decomposed inner l = Ok b /\ a <> b.
Proof.
  intros HC HX HT HE ED EL. destruct (both_texts inner C f exc s [c] d l HC HX HT ED EL) as (a & b & Ea & Eb & Ha & Hb & Ua & Ub).
  exists a, b. split; [exact Ea|]. split; [exact Eb|]. intros <-.
  pose proof (Text_fun _ _ _ (Encoded_Text _ _ Ha Ua) (Encoded_Text _ _ Hb Ub)) as E. cbn [flat_map] in E. rewrite !app_nil_r in E.
  now apply (proj1 HX c) in E.
Qed.
Lemma lower_exc : exceptions lower_of lower_exceptions.
Proof. split; [exact lower_swap|exact lower_few]. Qed.
Lemma upper_exc : exceptions upper_of upper_exceptions.
Proof. split; [exact upper_swap|exact upper_few]. Qed.

(** *** Case-insensitive equality *)
Definition fold_ok (c : N) : bool := eqb_list (fold_case (F c)) (fold_case (F (simple_upper c))).
Lemma fold_upper c : fold_case (F c) = fold_case (F (simple_upper c)).
Proof.
  unfold simple_upper, mapped. destruct (find (fun p => fst p =? c) UD_UPPER) as [p|] eqn:Et; [|reflexivity].
  assert (forallb (fun p : N * N => eqb_list (fold_case (F (fst p))) (fold_case (F (snd p)))) UD_UPPER = true) as H by vm_cast_no_check (eq_refl true).
  apply find_some in Et. destruct Et as [Hi Hq]. apply N.eqb_eq in Hq. rewrite forallb_forall in H. specialize (H _ Hi). apply eqb_list_ok in H. now rewrite Hq in H.
Qed.
Lemma fold_flat cs : fold_case (flat_map F cs) = fold_case (flat_map F (fold_case cs)).
Proof.
  induction cs as [|c cs IH]; [reflexivity|]. unfold fold_case in *. cbn [flat_map map]. rewrite !map_app, IH. f_equal. exact (fold_upper c).
Qed.
Lemma both_equal inner s t a b : ci_equal s t = Ok true -> to_decomposed inner s = Ok a -> to_decomposed inner t = Ok b -> ci_equal a b = Ok true.
Proof.
  intros HE EA EB. destruct (D_few inner s a EA) as (cs & HS & DS). destruct (D_few inner t b EB) as (ds & HT & DT).
  destruct (D_ok inner s cs HS DS) as (a' & EA' & HA). rewrite EA in EA'. injection EA' as <-.
  destruct (D_ok inner t ds HT DT) as (b' & EB' & HB). rewrite EB in EB'. injection EB' as <-.
  destruct (p_c47_text s cs t ds HS HT) as (e & E1 & H1). rewrite HE in E1. injection E1 as <-.
  destruct (p_c47_text a _ b _ HA HB) as (e & E2 & H2). rewrite E2. f_equal. apply H2. rewrite (fold_flat cs), (fold_flat ds). now rewrite (proj1 H1 eq_refl).
Qed.
