(** C89: the binary searches are valid. *)
From Coq Require Import Sorted.
From Verif Require Import Base Model.LowerBound Model.ConvertCase Model.CharClass Tables.CharClassTables Tables.CaseTables Tables.NormalizationTables Proofs.TableLemmas.

Lemma sorted_of_increasing {A} (key : A -> N) l : increasing key l = true -> StronglySorted N.lt (map key l).
Proof.
  intros H. induction l as [|a l IH]; [constructor|]. cbn [map].
  assert (HT : increasing key l = true).
  { cbn [increasing] in H. destruct l as [|b l]; [reflexivity|]. apply andb_true_iff in H. tauto. }
  constructor; [now apply IH|]. apply Forall_forall. intros y Hy. apply in_map_iff in Hy. destruct Hy as (e & <- & He).
  apply in_split in He. destruct He as (u & v & ->). apply (increasing_lt key (a :: u ++ e :: v) H [] a u e v). reflexivity.
Qed.
Lemma sorted_partition (ks : list N) k i j a b : StronglySorted N.lt ks -> (i <= j)%nat -> nth_error ks i = Some a -> nth_error ks j = Some b -> b < k -> a < k.
Proof.
  intros H. revert i j a b. induction H as [|x l H IH F]; intros i j a b L Ha Hb K; [destruct i; discriminate|].
  destruct j as [|j]; destruct i as [|i]; cbn [nth_error] in *; try lia.
  - congruence.
  - assert (a = x) by congruence. subst x. apply nth_error_In in Hb. rewrite Forall_forall in F. specialize (F b Hb). lia.
  - apply (IH i j a b); auto. lia.
Qed.
Lemma halving_ok {A} (key : A -> N) (k : N) (l : list A) : StronglySorted N.lt (map key l) ->
  forall fuel first len, (first + len <= length l)%nat -> (len < fuel)%nat ->
  (forall i x, (i < first)%nat -> nth_error l i = Some x -> key x < k) ->
  (forall i x, (first + len <= i)%nat -> nth_error l i = Some x -> k <= key x) ->
  exists p, halving (fun e => key e <? k) l fuel first len = Ok p /\ (p <= length l)%nat /\
    (forall i x, (i < p)%nat -> nth_error l i = Some x -> key x < k) /\ (forall i x, (p <= i)%nat -> nth_error l i = Some x -> k <= key x).
Proof.
  intros HS. assert (SP : forall i j x y, (i <= j)%nat -> nth_error l i = Some x -> nth_error l j = Some y -> key y < k -> key x < k).
  { intros i j x y L Hx Hy. apply (sorted_partition (map key l) k i j); auto; now apply map_nth_error. }
  induction fuel as [|fuel IH]; intros first len HB Hf HL HR; [lia|]. cbn [halving]. destruct (Nat.eqb_spec len 0) as [->|D].
  - exists first. split; [reflexivity|]. split; [lia|]. split; [exact HL|]. intros i x Hi. apply HR. lia.
  - assert (Nat.div2 len < len)%nat as Hh by (apply Nat.lt_div2; lia). destruct (nth_error l (first + Nat.div2 len)) as [x|] eqn:E.
    + destruct (N.ltb_spec (key x) k) as [K|K].
      * apply IH; [lia|lia| |].
        -- intros i y Hi Hy. apply (SP i (first + Nat.div2 len)%nat y x); auto. lia.
        -- intros i y Hi. apply HR. lia.
      * apply IH; [lia|lia|exact HL|]. intros i y Hi Hy. destruct (N.le_gt_cases k (key y)) as [|K']; [assumption|].
        exfalso. assert (key x < k) by (apply (SP (first + Nat.div2 len)%nat i x y); auto). lia.
    + exfalso. apply nth_error_None in E. lia.
Qed.
Lemma p_c89_search : forall {A} (key : A -> N) (l : list A) k, StronglySorted N.lt (map key l) ->
  exists p, std_lower_bound (fun e => key e <? k) l = Ok p /\ (p <= length l)%nat /\
    (forall i x, (i < p)%nat -> nth_error l i = Some x -> key x < k) /\ (forall i x, (p <= i)%nat -> nth_error l i = Some x -> k <= key x).
Proof. intros A key l k H. apply halving_ok; auto; intros; try lia. exfalso. assert (i < length l)%nat by (apply nth_error_Some; congruence). lia. Qed.
Lemma lower_bound_pos {A} (less : A -> bool) (l : list A) p : (p <= length l)%nat ->
  (forall i x, (i < p)%nat -> nth_error l i = Some x -> less x = true) -> (forall i x, (p <= i)%nat -> nth_error l i = Some x -> less x = false) ->
  lower_bound less l = nth_error l p.
Proof.
  revert p. induction l as [|a l IH]; intros p Hp HL HR; [now destruct p|]. cbn [lower_bound]. destruct p as [|p].
  - rewrite (HR 0%nat a); auto.
  - rewrite (HL 0%nat a) by (reflexivity || lia). cbn [nth_error]. apply IH; [cbn in Hp; lia| |].
    + intros i x Hi. apply (HL (S i)). lia.
    + intros i x Hi. apply (HR (S i)). lia.
Qed.
Lemma p_c89_same : forall {A} (key : A -> N) (l : list A) k, StronglySorted N.lt (map key l) ->
  exists p, std_lower_bound (fun e => key e <? k) l = Ok p /\ nth_error l p = lower_bound (fun e => key e <? k) l.
Proof.
  intros A key l k H. destruct (p_c89_search key l k H) as (p & E & Hp & HL & HR). exists p. split; [exact E|]. symmetry. apply lower_bound_pos; [exact Hp| |].
  - intros i x Hi Hx. apply N.ltb_lt. eauto.
  - intros i x Hi Hx. apply N.ltb_ge. eauto.
Qed.
Lemma p_c89_sorted :
  StronglySorted N.lt (map segment_of COMPACT_LOWER_CASE) /\ StronglySorted N.lt (map fst LOWER_CASE) /\
  StronglySorted N.lt (map segment_of COMPACT_TITLE_CASE) /\ StronglySorted N.lt (map fst TITLE_CASE) /\
  StronglySorted N.lt (map segment_of COMPACT_UPPER_CASE) /\ StronglySorted N.lt (map fst UPPER_CASE) /\
  StronglySorted N.lt COMPLETE_CHAR_CLASSES /\ StronglySorted N.lt TO_DECOMPOSED /\ StronglySorted N.lt TO_COMPOSED.
Proof.
  rewrite <- (map_id COMPLETE_CHAR_CLASSES), <- (map_id TO_DECOMPOSED), <- (map_id TO_COMPOSED).
  repeat split; apply sorted_of_increasing; vm_compute; reflexivity.
Qed.
