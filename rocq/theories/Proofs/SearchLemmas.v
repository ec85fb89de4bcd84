(** Byte searches, code point searches, trimming, joining. *)
From Verif Require Import Base Spec.Utf8Spec Spec.Strings Model.Decode Model.Encode Model.Subrange Model.Search
  Proofs.Utf8Lemmas Proofs.DecodeLemmas Proofs.EncodeLemmas Proofs.CodepointLemmas.
From Coq Require Import ZifyBool ZifyNat ZifyN.
Ltac Zify.zify_post_hook ::= Z.div_mod_to_equations.

(** ** Comparisons *)

Lemma str_eqb_eq a : forall b, str_eqb a b = true <-> a = b.
Proof.
  induction a as [|x a IH]; intros [|y b]; cbn; try (split; [discriminate|discriminate]); [tauto|].
  rewrite andb_true_iff, IH, byte_eqb_eq. split; [intros [-> ->]; reflexivity|intros E; now injection E].
Qed.

Lemma prefix_eqb_spec n : forall h, prefix_eqb n h = true <-> exists t, h = n ++ t.
Proof.
  induction n as [|x n IH]; intros h; cbn.
  - split; [intros _; now exists h|reflexivity].
  - destruct h as [|y h].
    + split; [discriminate|intros (t & E); discriminate].
    + rewrite andb_true_iff, byte_eqb_eq, IH. split.
      * intros [-> (t & ->)]. now exists t.
      * intros (t & E). injection E as -> ->. split; [reflexivity|now exists t].
Qed.

Lemma prefix_eqb_false n h : prefix_eqb n h = false <-> ~ exists t, h = n ++ t.
Proof. rewrite <- prefix_eqb_spec. now destruct (prefix_eqb n h). Qed.

(** ** substr *)

Lemma substr_prefix u v n : size u = n -> substr (u ++ v) 0 n = Ok u.
Proof.
  intros <-. unfold substr, size. rewrite app_length.
  replace (N.of_nat (length u + length v) <? 0) with false by lia.
  replace (N.to_nat (N.min (N.of_nat (length u)) (N.of_nat (length u + length v) - 0))) with (length u) by lia.
  cbn [N.to_nat skipn]. now rewrite firstn_length_app.
Qed.

Lemma substr_clamp s n : size s <= n -> substr s 0 n = Ok s.
Proof.
  intros H. unfold substr, size in *.
  replace (N.of_nat (length s) <? 0) with false by lia.
  replace (N.to_nat (N.min n (N.of_nat (length s) - 0))) with (length s) by lia.
  cbn [N.to_nat skipn]. now rewrite firstn_all.
Qed.

Lemma substr_from_app u v n : size u = n -> Fits (u ++ v) -> substr_from (u ++ v) n = Ok v.
Proof.
  intros <- HF. unfold substr_from, substr, size, npos, SIZE_MAX, Fits, size in *. rewrite app_length in *.
  replace (N.of_nat (length u + length v) <? N.of_nat (length u)) with false by lia.
  replace (N.to_nat (N.of_nat (length u))) with (length u) by lia.
  rewrite skipn_length_app. f_equal. apply firstn_all2. lia.
Qed.

Lemma substr_mid u g v n k : size u = n -> size g = k -> substr (u ++ g ++ v) n k = Ok g.
Proof.
  intros <- <-. unfold substr, size. rewrite !app_length.
  replace (N.of_nat (length u + (length g + length v)) <? N.of_nat (length u)) with false by lia.
  replace (N.to_nat (N.of_nat (length u))) with (length u) by lia.
  rewrite skipn_length_app.
  replace (N.to_nat (N.min (N.of_nat (length g)) (N.of_nat (length u + (length g + length v)) - N.of_nat (length u))))
    with (length g) by lia.
  f_equal. apply firstn_length_app.
Qed.

Lemma substr_firstn s n : (n <= length s)%nat -> substr s 0 (N.of_nat n) = Ok (firstn n s).
Proof.
  intros H. rewrite <- (firstn_skipn n s) at 1. apply substr_prefix. unfold size. rewrite firstn_length. lia.
Qed.
Lemma substr_skipn s n : Fits s -> (n <= length s)%nat -> substr_from s (N.of_nat n) = Ok (skipn n s).
Proof.
  intros HF H. rewrite <- (firstn_skipn n s) at 1. apply substr_from_app.
  - unfold size. rewrite firstn_length. lia.
  - now rewrite firstn_skipn.
Qed.

(** ** starts_with, ends_with *)

Lemma starts_with_spec s p : exists b, starts_with s p = Ok b /\ (b = true <-> exists t, s = p ++ t).
Proof.
  unfold starts_with. destruct (N.leb_spec (size p) (size s)) as [L|L].
  - unfold size in L.
    unfold size. rewrite substr_firstn by lia.
    cbn [bind]. eexists. split; [reflexivity|]. rewrite str_eqb_eq. split.
    + intros E. exists (skipn (length p) s). rewrite <- E at 1. now rewrite firstn_skipn.
    + intros (t & ->). apply firstn_length_app.
  - exists false. split; [reflexivity|]. split; [discriminate|].
    intros (t & ->). unfold size in L. rewrite app_length in L. lia.
Qed.

Lemma sub64_small a b : b <= a -> a < W64 -> sub64 a b = a - b.
Proof.
  intros H1 H2. unfold sub64. unfold W64 in *. rewrite (N.mod_small b) by lia. lia.
Qed.
Lemma add64_small a b : a + b < W64 -> add64 a b = a + b.
Proof. intros H. unfold add64. now apply N.mod_small. Qed.

Lemma ends_with_spec s p : Fits s -> exists b, ends_with s p = Ok b /\ (b = true <-> exists t, s = t ++ p).
Proof.
  intros HF. unfold ends_with. destruct (N.leb_spec (size p) (size s)) as [L|L].
  - unfold size in L.
    rewrite sub64_small by (unfold Fits, size, W64 in *; lia).
    remember (length s - length p)%nat as k eqn:Ek.
    replace (size s - size p) with (N.of_nat k) by (unfold size; lia).
    rewrite substr_skipn by (auto; lia).
    cbn [bind]. eexists. split; [reflexivity|]. rewrite str_eqb_eq. split.
    + intros E. exists (firstn k s). rewrite <- E. now rewrite firstn_skipn.
    + intros (t & ->). rewrite app_length in Ek. replace k with (length t) by lia. apply skipn_length_app.
  - exists false. split; [reflexivity|]. split; [discriminate|].
    intros (t & ->). unfold size in L. rewrite app_length in L. lia.
Qed.

(** ** find_first *)

Lemma occurs_at_skipn p s i : (i <= length s)%nat ->
  occurs_at p s i <-> prefix_eqb p (skipn i s) = true.
Proof.
  intros Hi. rewrite prefix_eqb_spec. split.
  - intros (u & v & -> & <-). exists v. apply skipn_length_app.
  - intros (t & E). exists (firstn i s), t. rewrite <- E, firstn_skipn. split; [reflexivity|].
    rewrite firstn_length. lia.
Qed.

Lemma occurs_at_lt p s i : p <> [] -> occurs_at p s i -> (i + length p <= length s)%nat /\ (i < length s)%nat.
Proof.
  intros Hp (u & v & -> & <-). rewrite !app_length. destruct p; [congruence|]. cbn. lia.
Qed.

Lemma search_from_spec hay needle : needle <> [] -> forall k i, (i + k = length hay)%nat ->
  let j := search_from hay needle i k in
  (occurs_at needle hay j /\ (i <= j < length hay)%nat /\ forall m, (i <= m < j)%nat -> ~ occurs_at needle hay m)
  \/ (j = length hay /\ forall m, (i <= m)%nat -> ~ occurs_at needle hay m).
Proof.
  intros Hn. induction k as [|k IH]; intros i Hi; cbn [search_from].
  - right. split; [reflexivity|]. intros m Hm Ho. apply occurs_at_lt in Ho; [lia|exact Hn].
  - destruct (prefix_eqb needle (skipn i hay)) eqn:E.
    + left. apply occurs_at_skipn in E; [|lia]. split; [exact E|]. split; [lia|]. lia.
    + assert (Hno : ~ occurs_at needle hay i) by (rewrite occurs_at_skipn by lia; congruence).
      destruct (IH (S i) ltac:(lia)) as [(H1 & H2 & H3)|(H1 & H2)].
      * left. split; [exact H1|]. split; [lia|]. intros m Hm.
        destruct (Nat.eq_dec m i) as [->|]; [exact Hno|]. apply H3. lia.
      * right. split; [exact H1|]. intros m Hm.
        destruct (Nat.eq_dec m i) as [->|]; [exact Hno|]. apply H2. lia.
Qed.

Lemma std_search_spec hay needle it : needle <> [] -> (it <= length hay)%nat ->
  let j := std_search hay needle it in
  (occurs_at needle hay j /\ (it <= j < length hay)%nat /\ forall m, (it <= m < j)%nat -> ~ occurs_at needle hay m)
  \/ (j = length hay /\ forall m, (it <= m)%nat -> ~ occurs_at needle hay m).
Proof.
  intros Hn Hi. unfold std_search. destruct needle as [|x n]; [congruence|].
  apply search_from_spec; [discriminate|lia].
Qed.

Lemma begin_plus_ok s o : (o <= length s)%nat -> begin_plus s (N.of_nat o) = Ok o.
Proof.
  intros H. unfold begin_plus, size. replace (N.of_nat o <=? N.of_nat (length s)) with true by lia.
  f_equal. lia.
Qed.

Lemma find_first_spec s p o : p <> [] -> (o <= length s)%nat ->
  (exists i, (o <= i)%nat /\ occurs_at p s i /\ (forall j, (o <= j < i)%nat -> ~ occurs_at p s j) /\
     find_first s p (N.of_nat o) = Ok (Sub (N.of_nat i) (size p)))
  \/ ((forall j, (o <= j)%nat -> ~ occurs_at p s j) /\ find_first s p (N.of_nat o) = Ok (Sub (size s) 0)).
Proof.
  intros Hp Ho. unfold find_first. rewrite begin_plus_ok by exact Ho. cbn [bind].
  destruct (std_search_spec s p o Hp Ho) as [(H1 & H2 & H3)|(H1 & H2)].
  - left. exists (std_search s p o). repeat split; auto; [lia|].
    replace (Nat.eqb (std_search s p o) (length s)) with false by lia. reflexivity.
  - right. split; [exact H2|]. rewrite H1, Nat.eqb_refl. reflexivity.
Qed.

Lemma find_first_empty s o : (o <= length s)%nat -> find_first s [] (N.of_nat o) = Ok (Sub (N.of_nat o) 0).
Proof.
  intros Ho. unfold find_first. rewrite begin_plus_ok by exact Ho. cbn [bind std_search].
  destruct (Nat.eqb_spec o (length s)) as [->|]; reflexivity.
Qed.

(** ** find_last *)

Lemma skipn_skipn {A} (l : list A) : forall x y, skipn x (skipn y l) = skipn (x + y) l.
Proof.
  induction l as [|a l IH]; intros x y; [now rewrite !skipn_nil|].
  destruct y as [|y]; [now rewrite Nat.add_0_r|].
  rewrite <- plus_n_Sm. cbn [skipn]. apply IH.
Qed.

Lemma slice_split {A} (s : list A) i j : (i <= j <= length s)%nat ->
  s = firstn i s ++ slice s i j ++ skipn j s.
Proof.
  intros H. unfold slice. rewrite <- (firstn_skipn i s) at 1. f_equal.
  rewrite <- (firstn_skipn (j - i) (skipn i s)) at 1. f_equal.
  rewrite skipn_skipn. f_equal. lia.
Qed.

Lemma slice_length {A} (s : list A) i j : (i <= j <= length s)%nat -> length (slice s i j) = (j - i)%nat.
Proof. intros H. unfold slice. rewrite firstn_length, skipn_length. lia. Qed.

Lemma slice_app {A} (u g v : list A) i j : length u = i -> (i + length g = j)%nat -> slice (u ++ g ++ v) i j = g.
Proof.
  intros <- <-. unfold slice. rewrite skipn_length_app.
  replace (length u + length g - length u)%nat with (length g) by lia. apply firstn_length_app.
Qed.

Definition occurs_in (p s : str) (e i : nat) : Prop := occurs_at p s i /\ (i + length p <= e)%nat.

Lemma occurs_in_slice p s e i : (i <= e <= length s)%nat ->
  occurs_in p s e i <-> prefix_eqb p (slice s i e) = true.
Proof.
  intros H. rewrite prefix_eqb_spec. split.
  - intros [(u & v & -> & <-) Hl].
    exists (firstn (e - length u - length p) v).
    unfold slice. rewrite skipn_length_app, firstn_app.
    rewrite firstn_all2 by lia. f_equal.
  - intros (t & E). pose proof (slice_split s i e H) as Hs. pose proof (slice_length s i e H) as Hl.
    rewrite E in Hs, Hl. rewrite app_length in Hl. split; [|lia].
    exists (firstn i s), (t ++ skipn e s). split; [now rewrite <- app_assoc in Hs|].
    rewrite firstn_length. lia.
Qed.

Lemma search_last_loop_spec s p e : p <> [] -> (e <= length s)%nat -> forall it, (it <= e)%nat ->
  (exists i, (i <= it)%nat /\ occurs_in p s e i /\ (forall j, (i < j <= it)%nat -> ~ occurs_in p s e j) /\
     search_last_loop s p e it = (i, (i + length p)%nat))
  \/ ((forall j, (j <= it)%nat -> ~ occurs_in p s e j) /\ search_last_loop s p e it = (0, 0)%nat).
Proof.
  intros Hp He. induction it as [|it IH]; intros Hi; cbn [search_last_loop].
  - destruct (prefix_eqb p (slice s 0 e)) eqn:E.
    + left. exists 0%nat. apply occurs_in_slice in E; [|lia]. repeat split; auto; try apply E. lia.
    + right. split; [|reflexivity]. intros j Hj Ho. assert (j = 0)%nat by lia. subst j.
      apply occurs_in_slice in Ho; [congruence|lia].
  - destruct (prefix_eqb p (slice s (S it) e)) eqn:E.
    + left. exists (S it). apply occurs_in_slice in E; [|lia]. repeat split; auto; try apply E. lia.
    + assert (Hno : ~ occurs_in p s e (S it)).
      { intros Ho. apply occurs_in_slice in Ho; [congruence|lia]. }
      destruct (IH ltac:(lia)) as [(i & H1 & H2 & H3 & H4)|(H1 & H2)].
      * left. exists i. repeat split; auto; try apply H2. intros j Hj.
        destruct (Nat.eq_dec j (S it)) as [->|]; [exact Hno|]. apply H3. lia.
      * right. split; [|exact H2]. intros j Hj.
        destruct (Nat.eq_dec j (S it)) as [->|]; [exact Hno|]. apply H1. lia.
Qed.

Lemma search_last_spec s p e : p <> [] -> (e <= length s)%nat ->
  (exists i, occurs_in p s e i /\ (forall j, (i < j)%nat -> ~ occurs_in p s e j) /\
     search_last s e p = (i, (i + length p)%nat))
  \/ ((forall j, ~ occurs_in p s e j) /\ search_last s e p = (0, 0)%nat).
Proof.
  intros Hp He. unfold search_last.
  destruct p as [|x p']; [congruence|]. set (p := x :: p') in *.
  replace (Nat.eqb (length p) 0) with false by (unfold p; cbn; lia). cbn [orb].
  destruct (Nat.ltb_spec e (length p)) as [L|L].
  - right. split; [|reflexivity]. intros j [Ho Hj]. lia.
  - destruct (search_last_loop_spec s p e Hp He (e - length p)%nat ltac:(lia)) as [(i & H1 & H2 & H3 & H4)|(H1 & H2)].
    + left. exists i. repeat split; auto; try apply H2. intros j Hj [Ho Hl].
      apply (H3 j); [lia|split; assumption].
    + right. split; [|exact H2]. intros j [Ho Hl]. apply (H1 j); [lia|split; assumption].
Qed.

Lemma min_pos o s : exists e, (e <= length s)%nat /\ N.min o (size s) = N.of_nat e.
Proof. exists (N.to_nat (N.min o (size s))). unfold size. split; lia. Qed.

Lemma find_last_spec s p o : p <> [] ->
  let within i := N.of_nat i + size p <= N.min o (size s) in
  (exists i, occurs_at p s i /\ within i /\ (forall j, (i < j)%nat -> within j -> ~ occurs_at p s j) /\
     find_last s p o = Ok (Sub (N.of_nat i) (size p)))
  \/ ((forall j, within j -> ~ occurs_at p s j) /\ find_last s p o = Ok (Sub 0 0)).
Proof.
  intros Hp within. unfold within, find_last. destruct (min_pos o s) as (e & He & ->).
  rewrite begin_plus_ok by exact He. cbn [bind].
  destruct (search_last_spec s p e Hp He) as [(i & [H1 H2] & H3 & ->)|(H1 & ->)].
  - left. exists i. unfold size. repeat split; auto; [lia| |].
    + intros j Hj Hw Ho. apply (H3 j Hj). split; [exact Ho|lia].
    + do 2 f_equal. lia.
  - right. split; [|reflexivity]. intros j Hw Ho. apply (H1 j). split; [exact Ho|unfold size in Hw; lia].
Qed.

(** ** find_first_where / find_last_where *)

Definition nonep (p : N -> bool) (cs : list N) : Prop := Forall (fun c => p c = false) cs.

Section Where.
Variable pred : N -> bool.

Lemma ffw_loop us : forall pre u r fuel,
  Text u us -> nonep pred us -> (length us < fuel)%nat ->
  find_first_where_loop fuel (pre ++ u ++ r) pred (length pre) (length pre)
  = find_first_where_loop (fuel - length us) ((pre ++ u) ++ r) pred (length (pre ++ u)) (length (pre ++ u)).
Proof.
  induction us as [|c us IH]; intros pre u r fuel HT HN Hf.
  - apply Text_nil_inv in HT. subst u. rewrite app_nil_r, Nat.sub_0_r. reflexivity.
  - apply Text_cons_inv in HT. destruct HT as (g & t & -> & Hg & HT).
    apply Forall_cons_iff in HN. destruct HN as [Hc HN].
    destruct fuel as [|fuel]; [cbn in Hf; lia|]. cbn [find_first_where_loop].
    rewrite <- (app_assoc g t r).
    rewrite safe_decode_next_uchar with (c := c) by exact Hg. cbn [bind]. rewrite Hc.
    cbn [length] in *. rewrite (app_assoc pre g), <- app_length. rewrite IH by (auto; lia).
    cbn [Nat.sub]. rewrite <- !app_assoc. reflexivity.
Qed.

Lemma ffw_found pre u us g c v fuel :
  Text u us -> nonep pred us -> uchar g c -> pred c = true -> (length us < fuel)%nat ->
  find_first_where_loop fuel (pre ++ u ++ g ++ v) pred (length pre) (length pre)
  = Ok (Sub (N.of_nat (length (pre ++ u))) (size g), c).
Proof.
  intros HT HN Hg Hc Hf. rewrite ffw_loop with (us := us) by assumption.
  destruct (fuel - length us)%nat as [|k] eqn:Ek; [lia|]. cbn [find_first_where_loop].
  rewrite safe_decode_next_uchar with (c := c) by exact Hg. cbn [bind]. rewrite Hc.
  unfold sub_its, size. do 3 f_equal; lia.
Qed.

Lemma ffw_none pre u us fuel :
  Text u us -> nonep pred us -> (length us < fuel)%nat ->
  find_first_where_loop fuel (pre ++ u) pred (length pre) (length pre) = Ok (Sub npos 0, INVALID_CHAR).
Proof.
  intros HT HN Hf. rewrite <- (app_nil_r u). rewrite ffw_loop with (us := us) by assumption.
  destruct (fuel - length us)%nat as [|k] eqn:Ek; [lia|]. cbn [find_first_where_loop].
  rewrite app_nil_r, safe_decode_next_end. reflexivity.
Qed.

Lemma ffw_malformed pre u us r fuel :
  Text u us -> nonep pred us -> Malformed r -> (length us < fuel)%nat ->
  find_first_where_loop fuel (pre ++ u ++ r) pred (length pre) (length pre) = Throw YstringException.
Proof.
  intros HT HN Hr Hf. rewrite ffw_loop with (us := us) by assumption.
  destruct (fuel - length us)%nat as [|k] eqn:Ek; [lia|]. cbn [find_first_where_loop].
  rewrite safe_decode_next_malformed by exact Hr. reflexivity.
Qed.

Lemma find_first_where_found pre u us g c v :
  Text u us -> nonep pred us -> uchar g c -> pred c = true ->
  find_first_where (pre ++ u ++ g ++ v) pred (size pre)
  = Ok (Sub (size (pre ++ u)) (size g), c).
Proof.
  intros HT HN Hg Hc. unfold find_first_where. unfold size at 1.
  rewrite begin_plus_ok by (rewrite app_length; lia). cbn [bind].
  apply ffw_found with us; auto. apply Text_length in HT. rewrite !app_length. lia.
Qed.

Lemma find_first_where_none pre u us :
  Text u us -> nonep pred us ->
  find_first_where (pre ++ u) pred (size pre) = Ok (Sub npos 0, INVALID_CHAR).
Proof.
  intros HT HN. unfold find_first_where. unfold size at 1.
  rewrite begin_plus_ok by (rewrite app_length; lia). cbn [bind].
  apply ffw_none with us; auto. apply Text_length in HT. rewrite app_length. lia.
Qed.

Lemma find_first_where_malformed pre u us r :
  Text u us -> nonep pred us -> Malformed r ->
  find_first_where (pre ++ u ++ r) pred (size pre) = Throw YstringException.
Proof.
  intros HT HN Hr. unfold find_first_where. unfold size at 1.
  rewrite begin_plus_ok by (rewrite app_length; lia). cbn [bind].
  apply ffw_malformed with us; auto. apply Text_length in HT. rewrite !app_length. lia.
Qed.

(** Every remainder falls into one of the three cases. *)
Lemma first_where_cases t :
  (exists u us g c v, t = u ++ g ++ v /\ Text u us /\ nonep pred us /\ uchar g c /\ pred c = true)
  \/ (exists us, Text t us /\ nonep pred us)
  \/ (exists u us r, t = u ++ r /\ Text u us /\ nonep pred us /\ Malformed r).
Proof.
  destruct (text_prefix t) as (u & cs & r & -> & HT & Hr).
  revert r Hr. induction HT as [|g c u cs Hg HT IH]; intros r Hr.
  - destruct Hr as [->|Hr].
    + right. left. exists []. split; constructor.
    + right. right. exists [], [], r. split; [reflexivity|]. split; [constructor|]. split; [constructor|exact Hr].
  - destruct (pred c) eqn:Ec.
    + left. exists [], [], g, c, (u ++ r). rewrite <- app_assoc. repeat split; auto; constructor.
    + destruct (IH r Hr) as [(u' & us & g' & c' & v & E & H1 & H2 & H3 & H4)|[(us & H1 & H2)|(u' & us & r' & E & H1 & H2 & H3)]];
        rewrite <- app_assoc.
      * left. exists (g ++ u'), (c :: us), g', c', v. rewrite E, <- !app_assoc. repeat split; auto; now constructor.
      * right. left. exists (c :: us). split; now constructor.
      * right. right. exists (g ++ u'), (c :: us), r'. rewrite E, <- app_assoc.
        split; [reflexivity|]. split; [now constructor|]. split; [now constructor|exact H3].
Qed.

(** *** backwards *)

Lemma flw_loop u us : Text u us -> forall pre post fuel,
  nonep pred us -> (length us < fuel)%nat ->
  find_last_where_loop fuel ((pre ++ u) ++ post) pred (length (pre ++ u)) (length (pre ++ u))
  = find_last_where_loop (fuel - length us) (pre ++ u ++ post) pred (length pre) (length pre).
Proof.
  intros HT. induction HT as [|g c u us Hg HT IH] using Text_rev_ind; intros pre post fuel HN Hf.
  - rewrite app_nil_r, Nat.sub_0_r. reflexivity.
  - apply Forall_app in HN. destruct HN as [HN Hc]. apply Forall_inv in Hc.
    destruct fuel as [|fuel]; [lia|]. cbn [find_last_where_loop].
    rewrite (app_assoc pre u g). rewrite <- (app_assoc (pre ++ u) g post).
    rewrite (app_length (pre ++ u) g).
    rewrite safe_decode_prev_uchar with (c := c) by exact Hg. cbn [bind]. rewrite Hc.
    rewrite app_length in Hf. rewrite (app_length us [c]). cbn [length] in *.
    rewrite IH by (auto; lia). rewrite <- !app_assoc.
    now replace (S fuel - (length us + 1))%nat with (fuel - length us)%nat by lia.
Qed.

Lemma flw_found pre u us g c post fuel :
  Text u us -> nonep pred us -> uchar g c -> pred c = true -> (length us < fuel)%nat ->
  find_last_where_loop fuel ((pre ++ g ++ u) ++ post) pred (length (pre ++ g ++ u)) (length (pre ++ g ++ u))
  = Ok (Sub (size pre) (size g), c).
Proof.
  intros HT HN Hg Hc Hf. rewrite (app_assoc pre g u). rewrite flw_loop with (us := us) by assumption.
  destruct (fuel - length us)%nat as [|k] eqn:Ek; [lia|]. cbn [find_last_where_loop].
  rewrite <- (app_assoc pre g), (app_length pre g).
  rewrite safe_decode_prev_uchar with (c := c) by exact Hg. cbn [bind]. rewrite Hc.
  unfold sub_its, size. do 3 f_equal; lia.
Qed.

Lemma flw_none u us post fuel :
  Text u us -> nonep pred us -> (length us < fuel)%nat ->
  find_last_where_loop fuel (u ++ post) pred (length u) (length u) = Ok (Sub npos 0, INVALID_CHAR).
Proof.
  intros HT HN Hf. change u with ([] ++ u) at 1 2 3. rewrite flw_loop with (us := us) by assumption.
  destruct (fuel - length us)%nat as [|k] eqn:Ek; [lia|]. reflexivity.
Qed.

Lemma flw_stuck r u us post fuel :
  Text u us -> nonep pred us -> MalformedEnd r -> (length us < fuel)%nat ->
  (~ long_cont_tail r -> find_last_where_loop fuel ((r ++ u) ++ post) pred (length (r ++ u)) (length (r ++ u))
     = Throw YstringException) /\
  (long_cont_tail r -> find_last_where_loop fuel ((r ++ u) ++ post) pred (length (r ++ u)) (length (r ++ u)) = UB).
Proof.
  intros HT HN Hr Hf. rewrite flw_loop with (us := us) by assumption.
  destruct (fuel - length us)%nat as [|k] eqn:Ek; [lia|]. cbn [find_last_where_loop].
  split; intros HL.
  - now rewrite safe_decode_prev_malformed.
  - now rewrite safe_decode_prev_long.
Qed.

Lemma flw_enter b post o : N.min o (size (b ++ post)) = size b ->
  find_last_where (b ++ post) pred o
  = find_last_where_loop (S (length (b ++ post))) (b ++ post) pred (length b) (length b).
Proof.
  intros H. unfold find_last_where. rewrite H. unfold size.
  rewrite begin_plus_ok by (rewrite app_length; lia). reflexivity.
Qed.

Lemma find_last_where_found pre u us g c post o :
  N.min o (size (pre ++ g ++ u ++ post)) = size (pre ++ g ++ u) ->
  Text u us -> nonep pred us -> uchar g c -> pred c = true ->
  find_last_where (pre ++ g ++ u ++ post) pred o = Ok (Sub (size pre) (size g), c).
Proof.
  intros Ho HT HN Hg Hc.
  assert (E : pre ++ g ++ u ++ post = (pre ++ g ++ u) ++ post) by now rewrite <- !app_assoc.
  rewrite E in *. rewrite flw_enter by exact Ho.
  apply flw_found with us; auto. apply Text_length in HT. rewrite !app_length. lia.
Qed.

Lemma find_last_where_none u us post o :
  N.min o (size (u ++ post)) = size u -> Text u us -> nonep pred us ->
  find_last_where (u ++ post) pred o = Ok (Sub npos 0, INVALID_CHAR).
Proof.
  intros Ho HT HN. rewrite flw_enter by exact Ho.
  apply flw_none with us; auto. apply Text_length in HT. rewrite !app_length. lia.
Qed.

Lemma find_last_where_stuck r u us post o :
  N.min o (size (r ++ u ++ post)) = size (r ++ u) -> Text u us -> nonep pred us -> MalformedEnd r ->
  (~ long_cont_tail r -> find_last_where (r ++ u ++ post) pred o = Throw YstringException) /\
  (long_cont_tail r -> find_last_where (r ++ u ++ post) pred o = UB).
Proof.
  intros Ho HT HN Hr. rewrite app_assoc in *. rewrite flw_enter by exact Ho.
  apply flw_stuck with us; auto. apply Text_length in HT. rewrite !app_length. lia.
Qed.
End Where.

Lemma text_suffix n : forall s, (length s <= n)%nat ->
  exists r u cs, s = r ++ u /\ Text u cs /\ (r = [] \/ MalformedEnd r).
Proof.
  induction n as [|n IH]; intros s Hl.
  - destruct s; [|cbn in Hl; lia]. exists [], [], []. repeat split; auto. constructor.
  - destruct (seq_dec_end s) as [->|[H|(t & g & c & Hg & ->)]].
    + exists [], [], []. repeat split; auto. constructor.
    + exists s, [], []. rewrite app_nil_r. repeat split; auto. constructor.
    + pose proof (uchar_length _ _ Hg). rewrite app_length in Hl.
      destruct (IH t ltac:(lia)) as (r & u & cs & -> & HT & Hr).
      exists r, (u ++ g), (cs ++ [c]). rewrite <- app_assoc. repeat split; auto. now apply Text_snoc.
Qed.

Lemma last_where_cases pred b :
  (exists pre g c u us, b = pre ++ g ++ u /\ Text u us /\ nonep pred us /\ uchar g c /\ pred c = true)
  \/ (exists us, Text b us /\ nonep pred us)
  \/ (exists r u us, b = r ++ u /\ Text u us /\ nonep pred us /\ MalformedEnd r).
Proof.
  destruct (text_suffix _ b (le_n _)) as (r & u & cs & -> & HT & Hr).
  revert r Hr. induction HT as [|g c u cs Hg HT IH] using Text_rev_ind; intros r Hr.
  - destruct Hr as [->|Hr].
    + right. left. exists []. split; constructor.
    + right. right. exists r, [], []. split; [reflexivity|]. split; [constructor|]. split; [constructor|exact Hr].
  - destruct (pred c) eqn:Ec.
    + left. exists (r ++ u), g, c, [], []. rewrite app_nil_r, <- app_assoc. repeat split; auto; constructor.
    + destruct (IH r Hr) as [(pre & g' & c' & u' & us & E & H1 & H2 & H3 & H4)|[(us & H1 & H2)|(r' & u' & us & E & H1 & H2 & H3)]];
        rewrite app_assoc, E || rewrite app_assoc.
      * left. exists pre, g', c', (u' ++ g), (us ++ [c]). rewrite <- !app_assoc.
        split; [reflexivity|]. split; [now apply Text_snoc|]. split; [|now split].
        apply Forall_app. split; [exact H2|]. now constructor.
      * right. left. exists (us ++ [c]). split; [now apply Text_snoc|].
        apply Forall_app. split; [exact H2|]. now constructor.
      * right. right. exists r', (u' ++ g), (us ++ [c]). rewrite <- app_assoc.
        split; [reflexivity|]. split; [now apply Text_snoc|]. split; [|exact H3].
        apply Forall_app. split; [exact H2|]. now constructor.
Qed.

(** ** find_first_of, find_last_of *)

Lemma u32_contains_spec l c : u32_contains l c = true <-> In c l.
Proof.
  unfold u32_contains. rewrite existsb_exists. split.
  - intros (x & Hx & E). apply N.eqb_eq in E. now subst.
  - intros H. exists c. split; [exact H|apply N.eqb_refl].
Qed.

(** ** Trimming *)

Lemma Fits_app_r u v : Fits (u ++ v) -> Fits v.
Proof. unfold Fits, size. rewrite app_length. lia. Qed.
Lemma Fits_app_l u v : Fits (u ++ v) -> Fits u.
Proof. unfold Fits, size. rewrite app_length. lia. Qed.

Lemma sub_bool_uchar o g c : uchar g c -> sub_bool (Sub o (size g)) = true.
Proof.
  intros H. apply uchar_length in H. unfold sub_bool, size. cbn [sub_length].
  replace (N.of_nat (length g) =? 0) with false by lia. reflexivity.
Qed.

Definition allp (p : N -> bool) (cs : list N) : Prop := Forall (fun c => p c = true) cs.

Lemma nonep_negb p cs : allp p cs -> nonep (fun c => negb (p c)) cs.
Proof. intros H. eapply Forall_impl; [|exact H]. cbn. intros c ->. reflexivity. Qed.

Section Trim.
Variable pred : N -> bool.

(** [s = u ++ v]: [u] is all in the set, [v] is empty or starts with a code
    point outside it. *)
Lemma trim_start_where_cut u us g c v :
  Fits (u ++ g ++ v) -> Text u us -> allp pred us -> uchar g c -> pred c = false ->
  trim_start_where (u ++ g ++ v) pred = Ok (g ++ v).
Proof.
  intros HF HT HA Hg Hc. unfold trim_start_where.
  pose proof (find_first_where_found (fun c => negb (pred c)) [] u us g c v HT (nonep_negb _ _ HA) Hg) as E.
  cbn [app size length N.of_nat] in E. change (size []) with 0 in E. rewrite E by now rewrite Hc.
  cbn [bind]. rewrite (sub_bool_uchar _ _ _ Hg). cbn [negb sub_start sub_offset].
  now apply substr_from_app.
Qed.

Lemma trim_start_where_all u us :
  Text u us -> allp pred us -> trim_start_where u pred = Ok [].
Proof.
  intros HT HA. unfold trim_start_where.
  pose proof (find_first_where_none (fun c => negb (pred c)) [] u us HT (nonep_negb _ _ HA)) as E.
  cbn [app] in E. change (size []) with 0 in E. now rewrite E.
Qed.

Lemma trim_start_where_malformed u us r :
  Text u us -> allp pred us -> Malformed r -> trim_start_where (u ++ r) pred = Throw YstringException.
Proof.
  intros HT HA Hr. unfold trim_start_where.
  pose proof (find_first_where_malformed (fun c => negb (pred c)) [] u us r HT (nonep_negb _ _ HA) Hr) as E.
  cbn [app] in E. change (size []) with 0 in E. now rewrite E.
Qed.

Lemma min_npos s : Fits s -> N.min npos (size s) = size s.
Proof. unfold Fits, npos, SIZE_MAX. lia. Qed.

Lemma trim_end_where_cut v g c u us :
  Fits (v ++ g ++ u) -> Text u us -> allp pred us -> uchar g c -> pred c = false ->
  trim_end_where (v ++ g ++ u) pred = Ok (v ++ g).
Proof.
  intros HF HT HA Hg Hc. unfold trim_end_where.
  pose proof (find_last_where_found (fun c => negb (pred c)) v u us g c [] npos) as E.
  rewrite !app_nil_r in E.
  rewrite E; [|now apply min_npos|exact HT|now apply nonep_negb|exact Hg|now rewrite Hc].
  cbn [bind]. rewrite (sub_bool_uchar _ _ _ Hg). cbn [negb].
  unfold sub_end. cbn [sub_offset sub_length].
  rewrite add64_small by (unfold Fits, size, W64 in *; rewrite !app_length in HF; lia).
  rewrite app_assoc. apply substr_prefix. unfold size. rewrite app_length. lia.
Qed.

Lemma trim_end_where_all u us :
  Fits u -> Text u us -> allp pred us -> trim_end_where u pred = Ok [].
Proof.
  intros HF HT HA. unfold trim_end_where.
  pose proof (find_last_where_none (fun c => negb (pred c)) u us [] npos) as E.
  rewrite app_nil_r in E. rewrite E; [reflexivity|now apply min_npos|exact HT|now apply nonep_negb].
Qed.

Lemma trim_end_where_stuck r u us :
  Fits (r ++ u) -> Text u us -> allp pred us -> MalformedEnd r ->
  (~ long_cont_tail r -> trim_end_where (r ++ u) pred = Throw YstringException) /\
  (long_cont_tail r -> trim_end_where (r ++ u) pred = UB).
Proof.
  intros HF HT HA Hr. unfold trim_end_where.
  pose proof (find_last_where_stuck (fun c => negb (pred c)) r u us [] npos) as E.
  rewrite app_nil_r in E. destruct E as [E1 E2]; [now apply min_npos|exact HT|now apply nonep_negb|exact Hr|].
  split; intros HL; [now rewrite E1|now rewrite E2].
Qed.
End Trim.

(** ** join *)

Lemma join_loop_spec d l : forall r, join_loop l d r = r ++ concat (map (fun x => d ++ x) l).
Proof.
  induction l as [|x l IH]; intros r; cbn; [now rewrite app_nil_r|].
  rewrite IH, <- !app_assoc. reflexivity.
Qed.

Lemma join_spec l d : join l d = interleave d l.
Proof.
  destruct l as [|x l]; [reflexivity|]. cbn [join]. rewrite join_loop_spec.
  revert x. induction l as [|y l IH]; intros x; cbn [map concat interleave]; [apply app_nil_r|].
  rewrite <- !app_assoc. do 2 f_equal. exact (IH y).
Qed.
