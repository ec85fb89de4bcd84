(** C133: the stream operators for a stream in any state. *)
From Coq Require Import String.
From Verif Require Import Base Spec.Utf8Spec Spec.Strings Spec.Escape Spec.Print Spec.Stream Model.Decode Model.Encode Model.Subrange
  Model.CodepointSet Model.Print Model.Stream
  Proofs.Utf8Lemmas Proofs.EncodeLemmas Proofs.NumeralLemmas Proofs.PrintLemmas.
From Coq Require Import ZifyBool ZifyNat ZifyN.
Local Notation "'#' s" := (list_byte_of_string s%string) (at level 5, only parsing).

(** ** Pieces *)
Definition same_flags (o o' : ostream) : Prop :=
  os_base o' = os_base o /\ os_showbase o' = os_showbase o /\ os_uppercase o' = os_uppercase o.
Lemma write_flags o bs : same_flags o (os_write o bs).
Proof. repeat split. Qed.

Lemma write_write o bs bs' : os_good o = true ->
  (if os_good (os_write o bs) then os_write (os_write o bs) bs' else os_write o bs) = os_write o (bs ++ bs').
Proof.
  intros G. unfold os_write. destruct (os_room o) as [n|]; cbn [os_good os_text os_room os_fill os_adjust os_base os_showbase os_uppercase].
  - destruct (Nat.leb_spec (length bs) n) as [L|L].
    + rewrite firstn_all2 by exact L. rewrite firstn_app. rewrite (firstn_all2 (n := n) bs L), <- app_assoc. f_equal.
      * rewrite app_length. destruct (Nat.leb_spec (length bs') (n - length bs)), (Nat.leb_spec (length bs + length bs') n); lia.
      * rewrite app_length. f_equal. lia.
    + f_equal.
      * rewrite firstn_app. replace (n - length bs)%nat with 0%nat by lia. now rewrite firstn_O, app_nil_r.
      * rewrite app_length. symmetry. apply Nat.leb_gt. lia.
      * rewrite app_length. f_equal. lia.
  - now rewrite <- app_assoc.
Qed.

Lemma put_plain o sign body : os_good o = true -> os_width o = 0 -> os_put o sign body = os_write o (sign ++ body).
Proof.
  intros G W. unfold os_put. rewrite G, W. replace (N.to_nat (0 - _)) with 0%nat by lia. cbn [repeat].
  destruct (os_adjust o); cbn [app]; now rewrite ?app_nil_r.
Qed.
Lemma put_after o bs sign body : os_good o = true -> os_put (os_write o bs) sign body = os_write o (bs ++ sign ++ body).
Proof.
  intros G. rewrite <- (write_write o bs (sign ++ body) G). destruct (os_good (os_write o bs)) eqn:G'.
  - now apply put_plain.
  - unfold os_put. now rewrite G'.
Qed.
Lemma put_str_after o bs s : os_good o = true -> os_put_str (os_write o bs) s = os_write o (bs ++ s).
Proof. intros G. unfold os_put_str. now rewrite put_after. Qed.
Lemma put_opening o s : os_good o = true -> os_put_str o s = os_write o (opening o s).
Proof. intros G. unfold os_put_str, os_put, opening, filled. rewrite G. cbn [app]. now destruct (os_adjust o). Qed.

(** ** Numbers *)
Definition number_text (o : ostream) (n : N) : str :=
  base_mark (base_value (os_base o)) (os_showbase o) (os_uppercase o) n ++
  print_digits (S (N.to_nat (N.size n))) (base_value (os_base o)) (os_uppercase o) n [].
Lemma put_number_after o bs n : os_good o = true -> os_put_number (os_write o bs) n = os_write o (bs ++ number_text o n).
Proof.
  intros G. unfold os_put_number, number_text, base_mark. destruct (write_flags o bs) as (-> & -> & ->).
  destruct (os_base o); rewrite put_after by exact G; do 2 f_equal; cbn [base_value]; destruct (os_showbase o), (n =? 0); reflexivity.
Qed.

Lemma digit_char_ok base up d : d < base -> base <= 16 -> digit_in base up (digit_char up d) d.
Proof.
  intros H B. split; [exact H|]. unfold digit_char. destruct (N.ltb_spec d 10) as [L|L]; [left|right]; (split; [exact L|]).
  - apply u8_to_char. lia.
  - destruct up; apply u8_to_char; lia.
Qed.
Lemma digit_in_fun base up c d d' : digit_in base up c d -> digit_in base up c d' -> d = d'.
Proof. intros [H [[A B]|[A B]]] [H' [[A' B']|[A' B']]]; destruct up; cbv iota in *; lia. Qed.
Lemma digits_loop base up : 2 <= base -> base <= 16 -> forall fuel n acc, (n < base ^ N.of_nat fuel) -> (0 < fuel)%nat ->
  exists ds, print_digits fuel base up n acc = ds ++ acc /\ PlainNumeral base up ds n.
Proof.
  intros B1 B2. induction fuel as [|fuel IH]; intros n acc Hn Hf; [lia|]. cbn [print_digits].
  assert (Hm : n mod base < base) by (apply N.mod_lt; lia).
  pose proof (digit_char_ok base up (n mod base) Hm B2) as HD.
  pose proof (N.div_mod n base ltac:(lia)) as DM. destruct (N.eqb_spec (n / base) 0) as [E|E].
  - exists [digit_char up (n mod base)]. split; [reflexivity|]. split; [|split; [discriminate|intros ds' [= _ <-]; reflexivity]].
    replace n with (0 * base + n mod base) at 2 by lia. apply (num_snoc _ _ [] 0); [constructor|exact HD].
  - destruct (IH (n / base) (digit_char up (n mod base) :: acc)) as (ds & Ed & HN & Hne & Hz).
    + replace (N.of_nat (S fuel)) with (N.succ (N.of_nat fuel)) in Hn by lia. rewrite N.pow_succ_r' in Hn. apply N.div_lt_upper_bound; lia.
    + destruct fuel; [|lia]. change (N.of_nat 1) with 1 in Hn. rewrite N.pow_1_r in Hn. assert (n / base = 0) by (apply N.div_small; lia). contradiction.
    + exists (ds ++ [digit_char up (n mod base)]). rewrite <- app_assoc. split; [exact Ed|]. split; [|split].
      * replace n with (n / base * base + n mod base) at 2 by lia. now constructor.
      * now destruct ds.
      * intros ds' E'. destruct ds as [|c ds]; [contradiction|]. cbn in E'. assert (c = x30) as -> by congruence.
        rewrite (Hz ds eq_refl) in *. exfalso. apply E.
        assert (Numeral (digit_in base up) base ([] ++ [x30]) (0 * base + 0)) as N0 by (constructor; [constructor|split; [lia|left; split; [lia|reflexivity]]]).
        exact (num_fun (digit_in base up) base (digit_in_fun base up) _ _ _ HN N0).
Qed.
Lemma print_digits_ok base up n : 2 <= base -> base <= 16 -> PlainNumeral base up (print_digits (S (N.to_nat (N.size n))) base up n []) n.
Proof.
  intros B1 B2. destruct (digits_loop base up B1 B2 (S (N.to_nat (N.size n))) n []) as (ds & -> & H).
  - pose proof (size_lt n). apply N.lt_le_trans with (2 ^ N.size n); [assumption|]. apply N.le_trans with (base ^ N.size n); [apply N.pow_le_mono_l; lia|apply N.pow_le_mono_r; lia].
  - lia.
  - now rewrite app_nil_r.
Qed.
Lemma base_bounds b : 2 <= base_value b /\ base_value b <= 16.
Proof. destruct b; cbn; lia. Qed.
Lemma number_shown o n : shown_number o (number_text o n) n.
Proof.
  destruct (base_bounds (os_base o)) as [A B]. eexists. split; [|reflexivity]. exact (print_digits_ok _ _ n A B).
Qed.

(** ** The operators *)
Lemma write_written o bs : os_good o = true -> written o (os_write o bs) bs.
Proof.
  intros _. unfold written, os_write. cbn [os_text os_good os_width os_fill os_adjust os_base os_showbase os_uppercase]. split; [reflexivity|].
  split; [|repeat split]. destruct (os_room o) as [n|].
  - rewrite Nat.leb_le. split; [intros L k [= <-]; exact L|auto].
  - split; [discriminate|reflexivity].
Qed.
Definition subrange_text (o : ostream) (r : subrange) : str :=
  opening o #"{offset: " ++ number_text o (sub_offset r) ++ #", length: " ++ number_text o (sub_length r) ++ #"}".
Lemma put_subrange_ok o r : os_good o = true -> os_put_subrange o r = os_write o (subrange_text o r).
Proof.
  intros G. unfold os_put_subrange. rewrite (put_opening o _ G). rewrite put_number_after, put_str_after, put_number_after, put_str_after by exact G.
  unfold subrange_text. now rewrite <- !app_assoc.
Qed.
Lemma p_c133_subrange o r : os_good o = true -> exists a b, shown_number o a (sub_offset r) /\ shown_number o b (sub_length r) /\
  written o (os_put_subrange o r) (opening o #"{offset: " ++ a ++ #", length: " ++ b ++ #"}").
Proof.
  intros G. exists (number_text o (sub_offset r)), (number_text o (sub_length r)). split; [apply number_shown|]. split; [apply number_shown|].
  rewrite put_subrange_ok by exact G. now apply write_written.
Qed.

Lemma ranges_ok o : os_good o = true -> forall rs bs, os_put_ranges (os_write o bs) rs = os_write o (bs ++ concat (map print_range rs)).
Proof.
  intros G. induction rs as [|[a b] rs IH]; intros bs; [cbn; now rewrite app_nil_r|]. cbn [os_put_ranges map concat fst snd].
  assert ((if a =? b then os_put_str (os_write o bs) (from_utf32_char a)
           else os_put_str (os_put_str (os_put_str (os_write o bs) (from_utf32_char a)) [x2d]) (from_utf32_char b)) = os_write o (bs ++ print_range (a, b))) as K.
  { unfold print_range. cbn [fst snd]. destruct (a =? b); rewrite ?put_str_after by exact G; now rewrite <- ?app_assoc. }
  rewrite K, IH, <- app_assoc. reflexivity.
Qed.
Lemma p_c133_set o s : os_good o = true ->
  exists body, print_cpset s = (if cps_negated s then #"[^" else #"[") ++ body /\
    written o (os_put_set o s) (opening o (if cps_negated s then #"[^" else #"[") ++ body).
Proof.
  intros G. exists (concat (map print_range (cps_ranges s)) ++ #"]"). split; [unfold print_cpset; now destruct (cps_negated s)|].
  unfold os_put_set. rewrite (put_opening o _ G), (ranges_ok o G), put_str_after by exact G. rewrite <- app_assoc.
  assert (forall x y : str, x = y -> written o (os_write o x) y) as K by (intros x y ->; now apply write_written). apply K. now destruct (cps_negated s).
Qed.
Lemma p_c133_bad o : os_good o = false -> (forall r, os_put_subrange o r = o) /\ (forall s, os_put_set o s = o).
Proof.
  intros G. assert (forall a b, os_put o a b = o) as K by (intros; unfold os_put; now rewrite G). split.
  - intros r. assert (forall n, os_put_number o n = o) as M by (intros n; unfold os_put_number; destruct (os_base o); apply K).
    unfold os_put_subrange, os_put_str. now rewrite K, M, K, M, K.
  - intros s. unfold os_put_set, os_put_str. rewrite K. assert (forall rs, os_put_ranges o rs = o) as R; [|now rewrite R, K].
    induction rs as [|r rs IH]; [reflexivity|]. cbn [os_put_ranges]. unfold os_put_str. rewrite !K. now destruct (_ =? _).
Qed.

(** ** Different subranges are written differently *)
Lemma shown_chars o s n : shown_number o s n -> Forall (fun c => u8 c <> 0x2C /\ u8 c <> 0x7D) s.
Proof.
  intros (ds & (H & _) & ->). apply Forall_app. split.
  - unfold base_mark. destruct (_ || _); [constructor|]. destruct (os_base o), (os_uppercase o); cbn; repeat constructor; cbn; lia.
  - apply num_forall in H. eapply Forall_impl; [|exact H]. intros c (d & Hd & Hc). destruct (os_base o), (os_uppercase o); lia.
Qed.
Lemma cut_at (p : byte -> Prop) (a a' t t' : str) (c : byte) : Forall p a -> Forall p a' -> ~ p c -> a ++ c :: t = a' ++ c :: t' -> a = a' /\ t = t'.
Proof.
  intros Ha. revert a'. induction Ha as [|x a Hx Ha IH]; intros a' Ha' Hc E; destruct Ha' as [|x' a' Hx' Ha']; cbn in E.
  - apply cons_eq in E. destruct E. auto.
  - apply cons_eq in E. destruct E as [<- _]. contradiction.
  - apply cons_eq in E. destruct E as [-> _]. contradiction.
  - apply cons_eq in E. destruct E as [-> E]. destruct (IH a' Ha' Hc E) as [-> ->]. auto.
Qed.
Lemma shown_inj o s n n' : shown_number o s n -> shown_number o s n' -> n = n'.
Proof.
  intros (ds & (H & Hne & Hz) & E) (ds' & (H' & Hne' & Hz') & E').
  set (b := match os_base o with BaseDec => 10 | BaseHex => 16 | BaseOct => 8 end) in *.
  assert (Z0 : forall ds n, Numeral (digit_in b (os_uppercase o)) b ds n -> ds <> [] -> (n =? 0) = true -> (forall t, ds = x30 :: t -> t = []) -> ds = [x30]).
  { clear. intros ds n H Hne Hn Hz. apply N.eqb_eq in Hn. subst n. destruct ds as [|c t]; [contradiction|].
    assert (c = x30) as ->; [|now rewrite (Hz t eq_refl)].
    clear Hz Hne. revert H. generalize (eq_refl (c :: t)). generalize (c :: t) at 1 3. intros l El H. remember 0 as z eqn:Ez. revert c t El Ez.
    induction H as [|ds v x d H IH Hd]; intros c t El Ez; [discriminate|].
    assert (d = 0 /\ v = 0) as [-> ->] by (subst b; destruct (os_base o); lia).
    destruct ds as [|y ds]; cbn in El; apply cons_eq in El; destruct El as [<- El].
    - destruct Hd as [_ [[_ Hd]|[K _]]]; [|lia]. apply u8_inj. rewrite Hd. reflexivity.
    - now apply (IH y ds). }
  rewrite E in E'. unfold base_mark in E'.
  destruct (n =? 0) eqn:Nn, (n' =? 0) eqn:Nn'.
  - apply N.eqb_eq in Nn, Nn'. congruence.
  - rewrite (Z0 ds n H Hne Nn Hz) in E'. rewrite orb_true_r, orb_false_r in E'. cbn [app] in E'.
    destruct (os_showbase o); cbn [negb] in E'.
    + destruct (b =? 16); [discriminate|]. destruct (b =? 8).
      * cbn [app] in E'. apply cons_eq in E'. destruct E' as [_ E']. congruence.
      * cbn [app] in E'. subst ds'. rewrite (Z0 ds n H Hne Nn Hz) in H. exact (num_fun _ _ (digit_in_fun b (os_uppercase o)) _ _ _ H H').
    + cbn [app] in E'. subst ds'. rewrite (Z0 ds n H Hne Nn Hz) in H. exact (num_fun _ _ (digit_in_fun b (os_uppercase o)) _ _ _ H H').
  - rewrite (Z0 ds' n' H' Hne' Nn' Hz') in E'. rewrite orb_true_r, orb_false_r in E'. cbn [app] in E'.
    destruct (os_showbase o); cbn [negb] in E'.
    + destruct (b =? 16); [discriminate|]. destruct (b =? 8).
      * cbn [app] in E'. apply cons_eq in E'. destruct E' as [_ E']. congruence.
      * cbn [app] in E'. subst ds. rewrite (Z0 ds' n' H' Hne' Nn' Hz') in H'. exact (num_fun _ _ (digit_in_fun b (os_uppercase o)) _ _ _ H H').
    + cbn [app] in E'. subst ds. rewrite (Z0 ds' n' H' Hne' Nn' Hz') in H'. exact (num_fun _ _ (digit_in_fun b (os_uppercase o)) _ _ _ H H').
  - apply app_inv_head in E'. subst ds'. exact (num_fun _ _ (digit_in_fun b (os_uppercase o)) _ _ _ H H').
Qed.
Lemma p_c133_inj o r r' : os_good o = true -> os_room o = None -> os_text (os_put_subrange o r) = os_text (os_put_subrange o r') -> r = r'.
Proof.
  intros G R. rewrite !put_subrange_ok by exact G. unfold os_write. rewrite R. cbn [os_text]. intros E. apply app_inv_head in E.
  unfold subrange_text in E. apply app_inv_head in E. destruct r as [a b], r' as [a' b']. cbn [sub_offset sub_length] in E.
  pose proof (number_shown o a) as A. pose proof (number_shown o a') as A'. pose proof (number_shown o b) as B. pose proof (number_shown o b') as B'.
  assert (~ (u8 x2c <> 0x2C /\ u8 x2c <> 0x7D)) as X by (intros [X _]; now apply X).
  assert (~ (u8 x7d <> 0x2C /\ u8 x7d <> 0x7D)) as Y by (intros [_ Y]; now apply Y).
  destruct (cut_at (fun c => u8 c <> 0x2C /\ u8 c <> 0x7D) _ _ _ _ x2c (shown_chars o _ _ A) (shown_chars o _ _ A') X E) as [E1 E2].
  do 9 (apply cons_eq in E2; destruct E2 as [_ E2]).
  destruct (cut_at (fun c => u8 c <> 0x2C /\ u8 c <> 0x7D) _ _ _ _ x7d (shown_chars o _ _ B) (shown_chars o _ _ B') Y E2) as [E3 _].
  rewrite E1 in A. rewrite E3 in B. f_equal; eapply shown_inj; eassumption.
Qed.

(** ** The default state *)
Lemma decimal_digits n : forall fuel acc, print_digits fuel 10 false n acc = print_decimal_loop fuel n acc.
Proof.
  intros fuel. revert n. induction fuel as [|fuel IH]; intros n acc; [reflexivity|]. cbn [print_digits print_decimal_loop].
  assert (n mod 10 < 10) by (apply N.mod_lt; lia). unfold digit_char. replace (n mod 10 <? 10) with true by lia. now rewrite IH.
Qed.
Lemma p_c133_default o : os_good o = true -> os_room o = None -> os_width o = 0 ->
  (forall r, os_base o = BaseDec -> os_uppercase o = false -> os_text (os_put_subrange o r) = os_text o ++ print_subrange r) /\
  (forall s, os_text (os_put_set o s) = os_text o ++ print_cpset s).
Proof.
  intros G R W. assert (forall s, opening o s = s) as O.
  { intros s. unfold opening, filled. rewrite W. replace (N.to_nat (0 - size s)) with 0%nat by lia. cbn [repeat]. destruct (os_adjust o); now rewrite ?app_nil_r. }
  split.
  - intros r B U. rewrite put_subrange_ok by exact G. unfold os_write. rewrite R. cbn [os_text]. f_equal. unfold subrange_text. rewrite O.
    assert (forall n, number_text o n = print_decimal n) as K; [|now rewrite !K].
    intros n. unfold number_text, base_mark. rewrite B, U. cbn [base_value]. rewrite decimal_digits. now destruct (_ || _).
  - intros s. destruct (p_c133_set o s G) as (body & P & Q & _). rewrite Q, R, O, P. reflexivity.
Qed.
