(** C116: exactly when case conversion and decomposition can be swapped. *)
From Verif Require Import Base Spec.Category Spec.UnicodeData Spec.Utf8Spec Spec.Strings Spec.Case Spec.Normalization Spec.Commute Spec.CaseFold
  Model.Decode Model.Encode Model.ConvertCase Model.Normalize Tables.UnicodeDataTables
  Proofs.Utf8Lemmas Proofs.EncodeLemmas Proofs.CodepointLemmas Proofs.CaseStringLemmas Proofs.NormLemmas Proofs.NormProps Proofs.NormEquiv Proofs.CommuteCase Proofs.CommuteProps Proofs.CommuteNorm Proofs.CommuteBoth Proofs.CaseOrderLemmas.
From Coq Require Import ZifyBool ZifyNat ZifyN.

(** A fact about every code point that is settled by the tables. *)
Lemma table_all (f : N -> list N) t (Q : N -> bool) : (forall c, f c = map1 t c \/ c = 0xDF) ->
  forallb (fun p : N * (N * N) => Q (fst p)) UD_PAIRS = true -> forallb (fun p : N * N => Q (fst p)) t = true -> Q 0xDF = true ->
  (forall c, F c = [c] -> f c = [c] -> Q c = true) -> forall c, Q c = true.
Proof.
  intros Hf HP HT HDF HD c. destruct (Hf c) as [Ef| ->]; [|exact HDF]. destruct (lookup c) as [p|] eqn:E.
  - apply lookup_some in E. destruct E as (a & b & -> & H). rewrite forallb_forall in HP. exact (HP _ H).
  - destruct (find (fun p => fst p =? c) t) as [p|] eqn:Et.
    + pose proof Et as Et'. apply find_some in Et'. destruct Et' as [Hi Hc]. apply N.eqb_eq in Hc. rewrite forallb_forall in HT. specialize (HT _ Hi). now rewrite Hc in HT.
    + apply HD; [now apply F_none|]. rewrite Ef. unfold map1, mapped. now rewrite Et.
Qed.
(** Upper case: the lengths agree, so equal results are equal place by place. *)
Definition same_length (c : N) : bool := Nat.eqb (length (flat_map upper_of (F c))) (length (flat_map F (upper_of c))).
Lemma upper_same_length c : length (flat_map upper_of (F c)) = length (flat_map F (upper_of c)).
Proof.
  apply Nat.eqb_eq. change (same_length c = true). revert c. apply (table_all upper_of UD_UPPER).
  - intros x. unfold upper_of. destruct (N.eqb_spec x 0xDF); [now right|now left].
  - vm_cast_no_check (eq_refl true).
  - vm_cast_no_check (eq_refl true).
  - vm_cast_no_check (eq_refl true).
  - intros c E1 E2. unfold same_length. rewrite E1, E2. cbn [flat_map]. rewrite E1, E2. reflexivity.
Qed.
Lemma upper_lengths cs : length (flat_map upper_of (flat_map F cs)) = length (flat_map F (flat_map upper_of cs)).
Proof. induction cs as [|c cs IH]; [reflexivity|]. cbn [flat_map]. rewrite !flat_map_app, !app_length, IH, upper_same_length. reflexivity. Qed.
Lemma upper_swap_all cs : flat_map upper_of (flat_map F cs) = flat_map F (flat_map upper_of cs) <-> Forall (fun c => ~ In c upper_exceptions) cs.
Proof.
  split; [|intros H; apply flat_swap; intros c Hc; apply upper_swap; rewrite Forall_forall in H; now apply H].
  induction cs as [|c cs IH]; intros E; [constructor|]. cbn [flat_map] in E. rewrite !flat_map_app in E.
  apply app_long in E as [E1 E2]; [|now rewrite upper_same_length|now rewrite upper_lengths]. constructor; [now apply upper_swap|now apply IH].
Qed.
(** Lower case: U+0130 leaves a dot behind, which nothing can make up for. *)
Definition DOT : N := 0x307.
Definition starts_dot (c : N) : bool :=
  match flat_map F (lower_of c) with [] => false | x :: _ => implb (x =? DOT) (c =? DOT) end.
Lemma lower_dot c x r : flat_map F (lower_of c) = x :: r -> x = DOT -> c = DOT.
Proof.
  intros E ->. assert (starts_dot c = true) as H.
  { clear E. revert c. apply (table_all lower_of UD_LOWER).
    - intros x. now left.
    - vm_cast_no_check (eq_refl true).
    - vm_cast_no_check (eq_refl true).
    - vm_cast_no_check (eq_refl true).
    - intros c E1 E2. unfold starts_dot. rewrite E2. cbn [flat_map]. rewrite E1. cbn [app]. now destruct (c =? DOT). }
  unfold starts_dot in H. rewrite E, N.eqb_refl in H. now apply N.eqb_eq.
Qed.
Lemma lower_some c : flat_map F (lower_of c) <> [].
Proof.
  assert (starts_dot c = true) as H.
  { revert c. apply (table_all lower_of UD_LOWER).
    - intros x. now left.
    - vm_cast_no_check (eq_refl true).
    - vm_cast_no_check (eq_refl true).
    - vm_cast_no_check (eq_refl true).
    - intros c E1 E2. unfold starts_dot. rewrite E2. cbn [flat_map]. rewrite E1. cbn [app]. now destruct (c =? DOT). }
  unfold starts_dot in H. intros E. rewrite E in H. discriminate.
Qed.
Lemma dot_ahead cs : flat_map F (flat_map lower_of cs) <> DOT :: flat_map lower_of (flat_map F cs).
Proof.
  induction cs as [|c cs IH]; [discriminate|]. intros E. cbn [flat_map] in E. rewrite !flat_map_app in E.
  destruct (flat_map F (lower_of c)) as [|x r] eqn:EX; [destruct (lower_some c EX)|]. cbn [app] in E. injection E as -> E.
  assert (c = DOT) as -> by exact (lower_dot c DOT r EX eq_refl).
  assert (E1 : flat_map F (lower_of DOT) = [DOT]) by (vm_compute; reflexivity). assert (E2 : flat_map lower_of (F DOT) = [DOT]) by (vm_compute; reflexivity).
  rewrite E1 in EX. injection EX as <-. rewrite E2 in E. exact (IH E).
Qed.
Lemma lower_swap_all cs : flat_map lower_of (flat_map F cs) = flat_map F (flat_map lower_of cs) <-> Forall (fun c => ~ In c lower_exceptions) cs.
Proof.
  split; [|intros H; apply flat_swap; intros c Hc; apply lower_swap; rewrite Forall_forall in H; now apply H].
  induction cs as [|c cs IH]; intros E; [constructor|]. cbn [flat_map] in E. rewrite !flat_map_app in E.
  destruct (in_dec N.eq_dec c lower_exceptions) as [HI|HN].
  - exfalso. destruct HI as [<-|[<-|[]]].
    + assert (E1 : flat_map lower_of (F 0x130) = [0x69; DOT]) by (vm_compute; reflexivity). assert (E2 : flat_map F (lower_of 0x130) = [0x69]) by (vm_compute; reflexivity).
      rewrite E1, E2 in E. cbn [app] in E. injection E as E. symmetry in E. exact (dot_ahead cs E).
    + assert (E1 : flat_map lower_of (F 0x212B) = [0xE5]) by (vm_compute; reflexivity). assert (E2 : flat_map F (lower_of 0x212B) = [0x61; 0x30A]) by (vm_compute; reflexivity).
      rewrite E1, E2 in E. discriminate.
  - constructor; [exact HN|]. apply IH. apply lower_swap in HN. rewrite HN in E. now apply app_inv_head in E.
Qed.
Lemma both_exactly inner C f exc s cs d l : case_conversion C f -> exceptions f exc ->
  (forall cs, flat_map f (flat_map F cs) = flat_map F (flat_map f cs) <-> Forall (fun c => ~ In c exc) cs) ->
  Text s cs -> to_decomposed inner s = Ok d -> C s = Ok l -> (C d = to_decomposed inner l <-> Forall (fun c => ~ In c exc) cs).
Proof.
  intros HC HX HA HT ED EL. destruct (both_texts inner C f exc s cs d l HC HX HT ED EL) as (a & b & Ea & Eb & Ha & Hb & Ua & Ub).
  rewrite <- HA, Ea, Eb, ok_eq. split.
  - intros ->. exact (Text_fun _ _ _ (Encoded_Text _ _ Ha Ua) (Encoded_Text _ _ Hb Ub)).
  - intros E. rewrite E in Ha. exact (Encoded_fun _ _ _ Ha Hb).
Qed.
Lemma p_c116_lower inner s cs d l : Text s cs -> to_decomposed inner s = Ok d -> to_lower_str s = Ok l ->
  (to_lower_str d = to_decomposed inner l <-> Forall (fun c => ~ In c lower_exceptions) cs).
Proof. exact (both_exactly inner _ _ _ s cs d l lower_conversion lower_exc lower_swap_all). Qed.
Lemma p_c116_upper inner s cs d u : Text s cs -> to_decomposed inner s = Ok d -> to_upper_str s = Ok u ->
  (to_upper_str d = to_decomposed inner u <-> Forall (fun c => ~ In c upper_exceptions) cs).
Proof. exact (both_exactly inner _ _ _ s cs d u upper_conversion upper_exc upper_swap_all). Qed.
