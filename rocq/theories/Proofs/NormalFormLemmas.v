(** Normalization form D is total and unique. *)
From Verif Require Import Base Spec.NormalForms Tables.UnicodeDataTables Tables.CanonicalTables Spec.Normalization
  Proofs.TableLemmas Proofs.NormLemmas.
From Coq Require Import Permutation ZifyBool ZifyNat ZifyN.

(** ** Mappings *)
Definition lookup1 (c : N) : option (N * N) := find (fun p => fst p =? c) UD_SINGLETONS.
Definition is_hangul (c : N) : bool := (0xAC00 <=? c) && (c <=? 0xD7A3).
Definition mapping (c : N) : option (list N) :=
  match lookup c with
  | Some (_, (a, b)) => Some [a; b]
  | None => match lookup1 c with
            | Some (_, a) => Some [a]
            | None => if is_hangul c then Some (jamo c) else None
            end
  end.
Definition plain_key (c : N) : bool := negb ((0x1100 <=? c) && (c <? 0x1200)) && negb (is_hangul c).
Lemma keys_pairs : forallb (fun p => plain_key (fst p)) UD_PAIRS = true.
Proof. vm_compute. reflexivity. Qed.
Lemma keys_singletons : forallb (fun p => plain_key (fst p) && match lookup (fst p) with None => true | Some _ => false end) UD_SINGLETONS = true.
Proof. vm_compute. reflexivity. Qed.
Lemma singletons_increasing : increasing (@fst N N) UD_SINGLETONS = true.
Proof. vm_compute. reflexivity. Qed.
Lemma singleton_fun c a b : In (c, a) UD_SINGLETONS -> In (c, b) UD_SINGLETONS -> a = b.
Proof.
  intros H1 H2. apply in_split in H1 as (u & v & E). pose proof singletons_increasing as HI. rewrite E in H2, HI.
  apply in_app_or in H2 as [H2|[H2|H2]].
  - apply in_split in H2 as (u1 & u2 & ->). pose proof (increasing_lt _ _ HI u1 (c, b) u2 (c, a) v) as K.
    cbn [fst] in K. rewrite <- app_assoc in K. specialize (K eq_refl). lia.
  - now injection H2.
  - apply in_split in H2 as (v1 & v2 & ->). pose proof (increasing_lt _ _ HI u (c, a) v1 (c, b) v2) as K.
    cbn [fst] in K. specialize (K eq_refl). lia.
Qed.
Lemma lookup1_in c a : In (c, a) UD_SINGLETONS -> lookup1 c = Some (c, a).
Proof.
  intros H. unfold lookup1. destruct (find _ UD_SINGLETONS) as [[c' a']|] eqn:E.
  - apply find_some in E as [E1 E2]. cbn [fst] in E2. apply N.eqb_eq in E2. subst c'. now rewrite (singleton_fun c a a' H E1).
  - apply (find_none _ _ E) in H. cbn [fst] in H. rewrite N.eqb_refl in H. discriminate.
Qed.
Lemma is_hangul_spec c : is_hangul c = true <-> hangul c.
Proof. unfold is_hangul, hangul. lia. Qed.
Lemma mapping_spec c m : CanonicalMapping c m <-> mapping c = Some m.
Proof.
  unfold mapping. split.
  - intros [c' a b H|c' a H|c' H].
    + now rewrite (lookup_pair c' a b H).
    + pose proof (proj1 (forallb_forall _ _) keys_singletons _ H) as K. cbn [fst] in K. apply andb_true_iff in K as [_ K].
      destruct (lookup c'); [discriminate|]. now rewrite (lookup1_in _ _ H).
    + apply is_hangul_spec in H. destruct (lookup c') as [p|] eqn:E.
      { apply lookup_some in E as (a & b & -> & E). pose proof (proj1 (forallb_forall _ _) keys_pairs _ E) as K. cbn [fst] in K.
        unfold plain_key in K. rewrite H in K. now rewrite andb_false_r in K. }
      destruct (lookup1 c') as [[c2 a]|] eqn:E1; [|now rewrite H]. unfold lookup1 in E1. apply find_some in E1 as [E1 E2].
      cbn [fst] in E2. apply N.eqb_eq in E2. subst c2. pose proof (proj1 (forallb_forall _ _) keys_singletons _ E1) as K. cbn [fst] in K.
      unfold plain_key in K. rewrite H in K. now rewrite andb_false_r in K.
  - destruct (lookup c) as [p|] eqn:E.
    { apply lookup_some in E as (a & b & -> & E). intros K. injection K as <-. now apply map_pair. }
    destruct (lookup1 c) as [[c2 a]|] eqn:E1.
    { unfold lookup1 in E1. apply find_some in E1 as [E1 E2]. cbn [fst] in E2. apply N.eqb_eq in E2. subst c2.
      intros K. injection K as <-. now apply map_singleton. }
    destruct (is_hangul c) eqn:E2; [|discriminate]. intros K. injection K as <-. apply map_hangul. now apply is_hangul_spec.
Qed.
Lemma mapping_none c : (forall m, ~ CanonicalMapping c m) <-> mapping c = None.
Proof.
  split.
  - intros H. destruct (mapping c) as [m|] eqn:E; [|reflexivity]. apply mapping_spec in E. now apply H in E.
  - intros H m K. apply mapping_spec in K. congruence.
Qed.
Lemma plain_atom c : plain_key c = false -> is_hangul c = false -> mapping c = None.
Proof.
  intros P H. unfold mapping. destruct (lookup c) as [p|] eqn:E.
  { apply lookup_some in E as (a & b & -> & E). pose proof (proj1 (forallb_forall _ _) keys_pairs _ E) as K. cbn [fst] in K. congruence. }
  destruct (lookup1 c) as [[c2 a]|] eqn:E1; [|now rewrite H]. unfold lookup1 in E1. apply find_some in E1 as [E1 E2].
  cbn [fst] in E2. apply N.eqb_eq in E2. subst c2. pose proof (proj1 (forallb_forall _ _) keys_singletons _ E1) as K. cbn [fst] in K.
  apply andb_true_iff in K as [K _]. congruence.
Qed.
Lemma jamo_atoms c : hangul c -> Forall (fun x => mapping x = None) (jamo c).
Proof.
  intros H. unfold hangul in H.
  assert (P : forall x, 0x1100 <= x < 0x1200 -> mapping x = None).
  { intros x Hx. apply plain_atom; [|unfold is_hangul; lia]. unfold plain_key.
    replace ((0x1100 <=? x) && (x <? 0x1200)) with true by lia. reflexivity. }
  assert (B1 : (c - 0xAC00) / 588 < 19) by (apply N.div_lt_upper_bound; lia).
  assert (B2 : (c - 0xAC00) mod 588 / 28 < 21) by (apply N.div_lt_upper_bound; [lia|]; pose proof (N.mod_lt (c - 0xAC00) 588); lia).
  assert (B3 : (c - 0xAC00) mod 28 < 28) by (apply N.mod_lt; lia).
  unfold jamo. apply Forall_app. split.
  - constructor; [apply P; lia|]. constructor; [apply P; lia|constructor].
  - destruct (_ =? 0); [constructor|]. constructor; [apply P; lia|constructor].
Qed.

(** ** Full decomposition as a function *)
Fixpoint expand_cp (n : nat) (c : N) : list N :=
  match n with O => [c] | S k => match mapping c with None => [c] | Some m => flat_map (expand_cp k) m end end.
Fixpoint settled (n : nat) (c : N) : bool :=
  match mapping c with None => true | Some m => match n with O => false | S k => forallb (settled k) m end end.
Lemma pairs_settled : forallb (fun p => settled 2 (fst (snd p)) && settled 2 (snd (snd p))) UD_PAIRS = true.
Proof. vm_compute. reflexivity. Qed.
Lemma singletons_settled : forallb (fun p => settled 2 (snd p)) UD_SINGLETONS = true.
Proof. vm_compute. reflexivity. Qed.
Lemma all_settled c : settled 3 c = true.
Proof.
  change (match mapping c with None => true | Some m => forallb (settled 2) m end = true).
  destruct (mapping c) as [m|] eqn:E; [|reflexivity]. apply mapping_spec in E. destruct E as [c a b H|c a H|c H].
  - pose proof (proj1 (forallb_forall _ _) pairs_settled _ H) as K. cbn [fst snd] in K. apply andb_true_iff in K as [K1 K2].
    cbn [forallb]. now rewrite K1, K2.
  - pose proof (proj1 (forallb_forall _ _) singletons_settled _ H) as K. cbn [fst snd] in K. cbn [forallb]. now rewrite K.
  - apply forallb_forall. intros x Hx. pose proof (jamo_atoms c H) as K. rewrite Forall_forall in K. specialize (K x Hx).
    cbn [settled]. now rewrite K.
Qed.
Definition D (c : N) : list N := expand_cp 3 c.
Definition DS (cs : list N) : list N := flat_map D cs.

Lemma fully_app cs ds : FullyDecomposed cs ds -> forall cs' ds', FullyDecomposed cs' ds' -> FullyDecomposed (cs ++ cs') (ds ++ ds').
Proof.
  induction 1 as [|c cs ds H HD IH|c m cs ds H HD IH]; intros cs' ds' H'; cbn [app].
  - exact H'.
  - apply fully_keep; [exact H|now apply IH].
  - apply (fully_map c m); [exact H|]. rewrite app_assoc. now apply IH.
Qed.
Lemma expand_ok n : forall c, settled n c = true -> FullyDecomposed [c] (expand_cp n c).
Proof.
  induction n as [|n IH]; intros c S; cbn [settled expand_cp] in *.
  - destruct (mapping c) eqn:E; [discriminate|]. apply fully_keep; [now apply mapping_none|constructor].
  - destruct (mapping c) as [m|] eqn:E; [|apply fully_keep; [now apply mapping_none|constructor]].
    apply (fully_map c m); [now apply mapping_spec|]. rewrite app_nil_r. clear E c.
    induction m as [|x m IHm]; [constructor|]. cbn [forallb flat_map] in *. apply andb_true_iff in S as [S1 S2].
    change (x :: m) with ([x] ++ m). apply fully_app; auto.
Qed.
Lemma fully_D cs : FullyDecomposed cs (DS cs).
Proof.
  induction cs as [|c cs IH]; [constructor|]. unfold DS. cbn [flat_map]. change (c :: cs) with ([c] ++ cs).
  apply fully_app; [|exact IH]. apply expand_ok. apply all_settled.
Qed.
Lemma fully_fun cs ds : FullyDecomposed cs ds -> forall ds', FullyDecomposed cs ds' -> ds = ds'.
Proof.
  induction 1 as [|c cs ds H HD IH|c m cs ds H HD IH]; intros ds' H'; inversion H' as [|c' cs' ds'' K K'|c' m' cs' ds'' K K']; subst.
  - reflexivity.
  - f_equal. now apply IH.
  - now apply H in K.
  - now apply K in H.
  - apply mapping_spec in H. apply mapping_spec in K. rewrite H in K. injection K as <-. now apply IH.
Qed.
Lemma fully_iff cs ds : FullyDecomposed cs ds <-> ds = DS cs.
Proof. split; [intros H; exact (fully_fun _ _ H _ (fully_D cs))|intros ->; apply fully_D]. Qed.
Lemma fully_atoms cs ds : FullyDecomposed cs ds -> Forall (fun d => forall m, ~ CanonicalMapping d m) ds.
Proof. induction 1; auto. Qed.
Lemma fully_self ds : Forall (fun d => forall m, ~ CanonicalMapping d m) ds -> FullyDecomposed ds ds.
Proof. induction 1; constructor; auto. Qed.
Lemma DS_app a b : DS (a ++ b) = DS a ++ DS b.
Proof. apply flat_map_app. Qed.
Lemma DS_cons c cs : DS (c :: cs) = D c ++ DS cs.
Proof. reflexivity. Qed.
Lemma D_atom c : mapping c = None -> D c = [c].
Proof. intros E. unfold D. cbn [expand_cp]. now rewrite E. Qed.
Lemma D_mapping c m : CanonicalMapping c m -> D c = DS m.
Proof.
  intros H. assert (K : FullyDecomposed [c] (DS m)) by (apply (fully_map c m); [exact H|rewrite app_nil_r; apply fully_D]).
  apply fully_iff in K. unfold DS in K at 2. cbn [flat_map] in K. now rewrite app_nil_r in K.
Qed.
Lemma D_nonempty c : (1 <= length (D c))%nat.
Proof.
  assert (K : forall cs ds, FullyDecomposed cs ds -> cs <> [] -> ds <> []).
  { induction 1 as [|x cs ds H HD IH|x m cs ds H HD IH]; intros E; [congruence|discriminate|].
    apply IH. destruct H; discriminate. }
  pose proof (K [c] (DS [c]) (fully_D [c])) as Q. unfold DS in Q. cbn [flat_map] in Q. rewrite app_nil_r in Q.
  destruct (D c); [|cbn; lia]. exfalso. apply Q; [discriminate|reflexivity].
Qed.
Lemma DS_length_le cs : (length cs <= length (DS cs))%nat.
Proof. induction cs as [|c cs IH]; [reflexivity|]. rewrite DS_cons, app_length. cbn [length]. pose proof (D_nonempty c). lia. Qed.

(** ** Ordering *)
Notation cc := combining_class.
Lemma reordered_perm a b : Reordered a b -> Permutation a b.
Proof.
  induction 1 as [|u x y v cs H HR IH]; [reflexivity|]. rewrite <- IH. apply Permutation_app_head. constructor.
Qed.
Lemma reordered_cons x a b : Reordered a b -> Reordered (x :: a) (x :: b).
Proof. induction 1 as [|u y z v cs H HR IH]; [constructor|]. exact (reo_swap (x :: u) y z v _ H IH). Qed.
Lemma reordered_trans a b : Reordered a b -> forall c, Reordered b c -> Reordered a c.
Proof. induction 1 as [|u y z v cs H HR IH]; intros c H'; [exact H'|]. apply (reo_swap u y z v); [exact H|now apply IH]. Qed.

Definition oob (a b : N) : bool := (0 <? cc b) && (cc b <? cc a).
Lemma oob_spec a b : oob a b = true <-> out_of_order a b.
Proof. unfold oob, out_of_order. lia. Qed.
Fixpoint insert_cp (x : N) (l : list N) : list N :=
  match l with [] => [x] | y :: r => if oob x y then y :: insert_cp x r else x :: l end.
Fixpoint sort_cp (l : list N) : list N := match l with [] => [] | x :: r => insert_cp x (sort_cp r) end.
Lemma insert_reordered x l : Reordered (x :: l) (insert_cp x l).
Proof.
  induction l as [|y r IH]; [constructor|]. cbn [insert_cp]. destruct (oob x y) eqn:E; [|constructor].
  apply (reo_swap [] x y r); [now apply oob_spec|]. cbn [app]. now apply reordered_cons.
Qed.
Lemma sort_reordered l : Reordered l (sort_cp l).
Proof.
  induction l as [|x r IH]; [constructor|]. cbn [sort_cp]. eapply reordered_trans; [apply reordered_cons; exact IH|]. apply insert_reordered.
Qed.
Lemma Ordered_cons2 a b r : Ordered (a :: b :: r) <-> ~ out_of_order a b /\ Ordered (b :: r).
Proof.
  split.
  - intros H. split; [exact (H [] a b r eq_refl)|]. intros u x y v E. apply (H (a :: u) x y v). cbn. now rewrite E.
  - intros [H1 H2] u x y v E. destruct u as [|z u].
    + injection E as -> -> ->. exact H1.
    + injection E as -> E. now apply (H2 u x y v).
Qed.
Lemma Ordered_nil : Ordered [].
Proof. intros [|? ?] ? ? ?; discriminate. Qed.
Lemma Ordered_one x : Ordered [x].
Proof. intros [|? [|? ?]] ? ? ?; discriminate. Qed.
Lemma insert_ordered x l : Ordered l -> Ordered (insert_cp x l).
Proof.
  induction l as [|y r IH]; intros H; [apply Ordered_one|]. cbn [insert_cp]. destruct (oob x y) eqn:E.
  - assert (Hr : Ordered r).
    { destruct r as [|z r]; [apply Ordered_nil|]. now apply Ordered_cons2 in H. }
    specialize (IH Hr). destruct r as [|z r]; cbn [insert_cp] in *.
    + apply Ordered_cons2. split; [|apply Ordered_one]. apply oob_spec in E. unfold out_of_order in *. lia.
    + destruct (oob x z); apply Ordered_cons2; (split; [|exact IH]).
      * now apply Ordered_cons2 in H.
      * apply oob_spec in E. unfold out_of_order in *. lia.
  - apply Ordered_cons2. split; [|exact H]. intros K. apply oob_spec in K. congruence.
Qed.
Lemma sort_ordered l : Ordered (sort_cp l).
Proof. induction l as [|x r IH]; [apply Ordered_nil|]. now apply insert_ordered. Qed.

(** Swapping keeps, for each class, the sequence of those with that class or
    class 0. *)
Definition sel (k : N) (c : N) : bool := (cc c =? 0) || (cc c =? k).
Lemma reordered_sel k a b : Reordered a b -> filter (sel k) a = filter (sel k) b.
Proof.
  induction 1 as [|u x y v cs H HR IH]; [reflexivity|]. rewrite <- IH. rewrite !filter_app. f_equal. cbn [filter].
  unfold out_of_order in H. destruct (sel k x) eqn:Ex, (sel k y) eqn:Ey; try reflexivity. unfold sel in *. lia.
Qed.
(** In an ordered text everything up to the next code point of class 0 is
    sorted. *)
Lemma ordered_low a l : Ordered (a :: l) -> forall k b, k <> 0 -> hd_error (filter (sel k) l) = Some b -> cc b = k -> cc a <> 0 -> cc a <= k.
Proof.
  revert a. induction l as [|y r IH]; intros a H k b Hk HB Eb Ha; [discriminate|].
  apply Ordered_cons2 in H as [H1 H2]. unfold out_of_order in H1. cbn [filter] in HB. destruct (sel k y) eqn:Ey.
  - injection HB as ->. lia.
  - specialize (IH y H2 k b Hk HB Eb). unfold sel in Ey. lia.
Qed.
Lemma ordered_unique a : forall b, Ordered a -> Ordered b -> (forall k, filter (sel k) a = filter (sel k) b) -> a = b.
Proof.
  induction a as [|x a IH]; intros b Ha Hb HF.
  - destruct b as [|y b]; [reflexivity|]. specialize (HF (cc y)). cbn [filter] in HF. unfold sel at 1 in HF. rewrite N.eqb_refl, orb_true_r in HF. discriminate.
  - destruct b as [|y b].
    { specialize (HF (cc x)). cbn [filter] in HF. unfold sel at 1 in HF. rewrite N.eqb_refl, orb_true_r in HF. discriminate. }
    assert (E : x = y).
    { pose proof (HF (cc x)) as Hx. pose proof (HF (cc y)) as Hy. cbn [filter] in Hx, Hy.
      assert (Sx : sel (cc x) x = true) by (unfold sel; now rewrite N.eqb_refl, orb_true_r).
      assert (Sy : sel (cc y) y = true) by (unfold sel; now rewrite N.eqb_refl, orb_true_r).
      rewrite Sx in Hx. rewrite Sy in Hy.
      destruct (sel (cc x) y) eqn:E1; [now injection Hx|]. destruct (sel (cc y) x) eqn:E2; [now injection Hy|].
      exfalso. unfold sel in E1, E2.
      assert (L1 : cc y <= cc x).
      { apply (ordered_low y b Hb (cc x) x); [lia|now rewrite <- Hx|reflexivity|lia]. }
      assert (L2 : cc x <= cc y).
      { apply (ordered_low x a Ha (cc y) y); [lia|now rewrite Hy|reflexivity|lia]. }
      lia. }
    subst y. f_equal. apply IH.
    + destruct a; [apply Ordered_nil|]. now apply Ordered_cons2 in Ha.
    + destruct b; [apply Ordered_nil|]. now apply Ordered_cons2 in Hb.
    + intros k. specialize (HF k). cbn [filter] in HF. destruct (sel k x); [now injection HF|exact HF].
Qed.

(** ** NFD *)
Lemma nfd_iff cs ds : NFD cs ds <-> ds = sort_cp (DS cs).
Proof.
  split.
  - intros (es & H1 & H2 & H3). apply fully_iff in H1. subst es. apply ordered_unique; [exact H3|apply sort_ordered|].
    intros k. rewrite <- (reordered_sel k _ _ H2). apply reordered_sel. apply sort_reordered.
  - intros ->. exists (DS cs). split; [apply fully_D|]. split; [apply sort_reordered|apply sort_ordered].
Qed.
Lemma p_nfd_total cs : exists ds, NFD cs ds.
Proof. exists (sort_cp (DS cs)). now apply nfd_iff. Qed.
Lemma p_nfd_unique cs ds ds' : NFD cs ds -> NFD cs ds' -> ds = ds'.
Proof. intros H H'. apply nfd_iff in H, H'. congruence. Qed.
Lemma nfd_length cs ds : NFD cs ds -> length ds = length (DS cs).
Proof. intros H. apply nfd_iff in H. subst ds. symmetry. apply Permutation_length, reordered_perm, sort_reordered. Qed.
Lemma equivalent_iff cs ds : Equivalent cs ds <-> sort_cp (DS cs) = sort_cp (DS ds).
Proof.
  split.
  - intros (ns & H1 & H2). apply nfd_iff in H1, H2. congruence.
  - intros H. exists (sort_cp (DS cs)). split; apply nfd_iff; [reflexivity|exact H].
Qed.
Lemma nfd_self ds : Forall (fun d => forall m, ~ CanonicalMapping d m) ds -> Ordered ds -> NFD ds ds.
Proof. intros H1 H2. exists ds. split; [now apply fully_self|]. split; [constructor|exact H2]. Qed.
Lemma nfd_atoms cs ds : NFD cs ds -> Forall (fun d => forall m, ~ CanonicalMapping d m) ds.
Proof.
  intros (es & H1 & H2 & _). apply fully_atoms in H1. apply reordered_perm in H2. rewrite Forall_forall in *.
  intros x Hx. apply H1. apply Permutation_in with (2 := Hx). now symmetry.
Qed.
