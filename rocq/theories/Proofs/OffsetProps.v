(** C102, assembled. *)
From Verif Require Import Base Model.Decode Model.Encode Model.Subrange Model.Search Model.CharClass Model.ConvertCase
  Model.CodepointSet Model.Chars Model.CaseInsensitive Spec.Utf8Spec Spec.Strings Spec.Offsets Proofs.SearchLemmas Proofs.OffsetLemmas.
Require Import Lia ZifyBool ZifyNat ZifyN.

Lemma p_c102_forward pre t o : Fits (pre ++ t) ->
  (forall p, find_first (pre ++ t) p (size pre + o) = moved_result (size pre) (find_first t p o)) /\
  (forall pred, find_first_where (pre ++ t) pred (size pre + o) = moved_char (size pre) (find_first_where t pred o)) /\
  (forall chars, find_first_of (pre ++ t) chars (size pre + o) = moved_char (size pre) (find_first_of t chars o)) /\
  (forall after, find_first_newline after (pre ++ t) (size pre + o) = moved_result (size pre) (find_first_newline after t o)) /\
  get_next_char_range (pre ++ t) (size pre + o) = moved_result (size pre) (get_next_char_range t o).
Proof.
  intros HF. repeat split; intros.
  - now apply first_moved.
  - now apply where_moved.
  - now apply where_moved.
  - now apply newline_moved.
  - now apply char_moved.
Qed.
Lemma p_c102_forward_ci pre t o : Fits (pre ++ t) ->
  (forall p, ci_find_first (pre ++ t) p (size pre + o) = moved_result (size pre) (ci_find_first t p o)) /\
  (forall chars, ci_find_first_of (pre ++ t) chars (size pre + o) = moved_char (size pre) (ci_find_first_of t chars o)) /\
  (forall set, ci_find_first_of_set (pre ++ t) set (size pre + o) = moved_char (size pre) (ci_find_first_of_set t set o)).
Proof.
  intros HF. repeat split; intros.
  - now apply ci_moved.
  - now apply where_moved.
  - now apply where_moved.
Qed.
Lemma p_c102_backward t post o : o <= size t ->
  (forall p, find_last (t ++ post) p o = find_last t p o) /\
  (forall pred, find_last_where (t ++ post) pred o = find_last_where t pred o) /\
  (forall chars, find_last_of (t ++ post) chars o = find_last_of t chars o) /\
  (Fits t -> forall after, find_last_newline after (t ++ post) o = find_last_newline after t o) /\
  get_prev_char_range (t ++ post) o = get_prev_char_range t o.
Proof.
  intros H. repeat split; intros.
  - now apply last_prefix.
  - now apply lwhere_prefix.
  - now apply lwhere_prefix.
  - now apply lnewline_prefix.
  - now apply prev_char_prefix.
Qed.
Lemma p_c102_backward_ci t post o : o <= size t ->
  (forall p, ci_find_last (t ++ post) p o = ci_find_last t p o) /\
  (forall chars, ci_find_last_of (t ++ post) chars o = ci_find_last_of t chars o) /\
  (forall set, ci_find_last_of_set (t ++ post) set o = ci_find_last_of_set t set o).
Proof.
  intros H. repeat split; intros.
  - now apply ci_last_prefix.
  - now apply lwhere_prefix.
  - now apply lwhere_prefix.
Qed.
Lemma p_c102_beyond s o : size s <= o ->
  (forall p, find_last s p o = find_last s p (size s)) /\
  (forall pred, find_last_where s pred o = find_last_where s pred (size s)) /\
  (forall chars, find_last_of s chars o = find_last_of s chars (size s)) /\
  (forall after, find_last_newline after s o = find_last_newline after s (size s)) /\
  (forall p, ci_find_last s p o = ci_find_last s p (size s)) /\
  (forall chars, ci_find_last_of s chars o = ci_find_last_of s chars (size s)) /\
  (forall set, ci_find_last_of_set s set o = ci_find_last_of_set s set (size s)).
Proof.
  intros H. assert (W : forall pred, find_last_where s pred o = find_last_where s pred (size s)).
  { intros pred. unfold find_last_where. now rewrite (N.min_r _ _ H), N.min_id. }
  repeat split; intros; auto; try apply W.
  - unfold find_last. now rewrite (N.min_r _ _ H), N.min_id.
  - unfold find_last_newline, find_last_of. destruct (u32view_of_ptr (NEWLINES ++ after)); cbn [bind]; auto. now rewrite W.
  - unfold ci_find_last. now rewrite (N.min_r _ _ H), N.min_id.
Qed.
Lemma p_c102_between s p o o' i : p <> [] ->
  (find_first s p o = Ok (Sub i (size p)) -> o <= o' <= i -> find_first s p o' = Ok (Sub i (size p))) /\
  (find_last s p o = Ok (Sub i (size p)) -> i + size p <= o' <= o -> find_last s p o' = Ok (Sub i (size p))).
Proof.
  intros Hp. assert (Sp : 0 < size p) by (unfold size; destruct p; [congruence|cbn [length]; lia]).
  split; intros E L.
  - assert (Lo : o <= size s).
    { unfold find_first, begin_plus in E. destruct (N.leb_spec o (size s)); [assumption|discriminate E]. }
    unfold size in Lo. replace o with (N.of_nat (N.to_nat o)) in E by lia. replace o' with (N.of_nat (N.to_nat o')) by lia.
    destruct (find_first_spec s p (N.to_nat o) Hp ltac:(lia)) as [(a & H1 & H2 & H3 & H4)|[H1 H2]].
    2:{ rewrite H2 in E. injection E as _ E. lia. }
    rewrite H4 in E. injection E as <-. pose proof (occurs_le _ _ _ H2) as La.
    destruct (find_first_spec s p (N.to_nat o') Hp ltac:(lia)) as [(b & G1 & G2 & G3 & G4)|[G1 G2]].
    + rewrite G4. do 3 f_equal. destruct (Nat.lt_trichotomy a b) as [C|[C|C]]; [|now symmetry|].
      * exfalso. apply (G3 a); [lia|exact H2].
      * exfalso. apply (H3 b); [lia|exact G2].
    + exfalso. apply (G1 a); [lia|exact H2].
  - pose proof (find_last_spec s p o Hp) as [(a & H1 & H2 & H3 & H4)|[H1 H2]].
    2:{ rewrite H2 in E. injection E as _ E. lia. }
    rewrite H4 in E. injection E as <-.
    pose proof (find_last_spec s p o' Hp) as [(b & G1 & G2 & G3 & G4)|[G1 G2]].
    + rewrite G4. do 3 f_equal. destruct (Nat.lt_trichotomy a b) as [C|[C|C]]; [|now symmetry|].
      * exfalso. apply (H3 b); [lia|lia|exact G1].
      * exfalso. apply (G3 a); [lia|lia|exact H1].
    + exfalso. apply (G1 a); [lia|exact H1].
Qed.
