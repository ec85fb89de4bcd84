(** C130 and C131: the order of encoded texts; replacing and splitting encoded
    texts is replacing and splitting sequences of code points. *)
From Verif Require Import Base Spec.Utf8Spec Spec.Strings Spec.Split Spec.Replace Spec.CaseFold Spec.Case Spec.UnicodeData Spec.Sequences
  Model.Decode Model.Encode Model.Subrange Model.Search Model.Split Model.ConvertCase Model.CaseInsensitive
  Proofs.Utf8Lemmas Proofs.DecodeLemmas Proofs.EncodeLemmas Proofs.SyncLemmas Proofs.SyncUtf32 Proofs.AgreeLemmas Proofs.CiLemmas
  Proofs.ReplaceLemmas Proofs.SplitLemmas Proofs.CaseStringLemmas Proofs.Utf8Props Proofs.NewlineLemmas Proofs.SearchLemmas.
From Coq Require Import ZifyBool ZifyNat ZifyN.
Ltac Zify.zify_post_hook ::= Z.div_mod_to_equations.

Lemma lex_same p a b : lex (p ++ a) (p ++ b) = lex a b.
Proof. induction p as [|x p IH]; [reflexivity|]. cbn [app lex]. now rewrite N.compare_refl. Qed.

Lemma lex_step x a y b o : (x ?= y) = o -> o <> Eq -> lex (x :: a) (y :: b) = o.
Proof. intros H K. cbn [lex]. rewrite H. now destruct o. Qed.

Lemma rfc_lex_lt c d x y : c < d -> d <= 0x10FFFF -> lex (rfc3629_bytes c ++ x) (rfc3629_bytes d ++ y) = Lt.
Proof.
  intros L H. unfold rfc3629_bytes.
  destruct (N.leb_spec c 0x7F), (N.leb_spec d 0x7F), (N.leb_spec c 0x7FF), (N.leb_spec d 0x7FF), (N.leb_spec c 0xFFFF), (N.leb_spec d 0xFFFF); try lia; cbn [app lex];
  repeat match goal with |- context [?a ?= ?b] => destruct (N.compare_spec a b) end; try reflexivity; lia.
Qed.
Lemma lex_sym a : forall b, lex a b = CompOpp (lex b a).
Proof. induction a as [|x a IH]; intros [|y b]; cbn [lex]; try reflexivity. rewrite (N.compare_antisym y x), (IH b). now destruct (y ?= x). Qed.
Lemma rfc_lex c d x y : c <= 0x10FFFF -> d <= 0x10FFFF ->
  lex (rfc3629_bytes c ++ x) (rfc3629_bytes d ++ y) = match c ?= d with Eq => lex x y | o => o end.
Proof.
  intros Hc Hd. destruct (N.compare_spec c d) as [->|L|L].
  - apply lex_same.
  - now apply rfc_lex_lt.
  - rewrite lex_sym, (rfc_lex_lt d c) by assumption. reflexivity.
Qed.
Lemma rfc_nonempty c : exists b t, rfc3629_bytes c = b :: t.
Proof. unfold rfc3629_bytes. destruct (_ <=? _); [eauto|]. destruct (_ <=? _); [eauto|]. destruct (_ <=? _); eauto. Qed.

Lemma encoded_order a cs : Encoded a cs -> inr cs -> forall b ds, Encoded b ds -> inr ds -> lex (map u8 a) (map u8 b) = lex cs ds.
Proof.
  induction 1 as [|g c a cs Hg Ha IH]; intros HC b ds HB HD.
  - destruct HB as [|h d b ds Hh Hb]; [reflexivity|]. rewrite map_app, Hh. destruct (rfc_nonempty d) as (x & t & ->). reflexivity.
  - destruct HB as [|h d b ds Hh Hb].
    + rewrite map_app, Hg. destruct (rfc_nonempty c) as (x & t & ->). reflexivity.
    + pose proof (Forall_inv HC) as C1. pose proof (Forall_inv HD) as D1. cbv beta in C1, D1. rewrite !map_app, Hg, Hh, rfc_lex by assumption. cbn [lex].
      now rewrite (IH (Forall_inv_tail HC) b ds Hb (Forall_inv_tail HD)).
Qed.

Lemma p_c130_from cs ds : inr cs -> inr ds -> lex (map u8 (E cs)) (map u8 (E ds)) = lex cs ds.
Proof. intros H K. apply encoded_order; auto using E_enc. Qed.

Lemma enc_text s cs : Encoded s cs -> inr cs -> Text s cs.
Proof. intros H K. rewrite (enc_eq s cs H K). now apply from_utf32_Text. Qed.

Lemma upper_no_ss cs : ~ In 0xDF cs -> upper_cps cs = fold_case cs.
Proof.
  induction cs as [|c cs IH]; intros H; [reflexivity|]. unfold upper_cps, fold_case in *. cbn [flat_map map].
  destruct (N.eqb_spec c 0xDF) as [->|D]; [exfalso; apply H; now left|]. cbn [app]. f_equal. apply IH. intros K. apply H. now right.
Qed.

Lemma fold_inr cs : inr cs -> inr (fold_case cs).
Proof. intros H. unfold fold_case. induction H as [|c cs Hc _ IH]; cbn [map]; constructor; [now apply simple_upper_bound|exact IH]. Qed.

Lemma p_c130_upper a cs b ds : Text a cs -> Text b ds -> inr cs -> inr ds -> ~ In 0xDF cs -> ~ In 0xDF ds ->
  exists x y z, to_upper_str a = Ok x /\ to_upper_str b = Ok y /\ ci_compare a b = Ok z /\ (z ?= 0)%Z = lex (map u8 x) (map u8 y).
Proof.
  intros HA HB HC HD NC ND. destruct (to_upper_str_ok a cs HA HC) as (x & Ex & X). destruct (to_upper_str_ok b ds HB HD) as (y & Ey & Y).
  destruct (p_c46_lex a cs b ds HA HB) as (z & Ez & Z). exists x, y, z. repeat split; try assumption. rewrite Z.
  rewrite (upper_no_ss cs NC) in X. rewrite (upper_no_ss ds ND) in Y. symmetry. apply encoded_order; auto using fold_inr.
Qed.

Lemma p_c130_to a cs b ds : Encoded a cs -> Encoded b ds -> inr cs -> inr ds ->
  to_utf32 a = Ok cs /\ to_utf32 b = Ok ds /\ lex (map u8 a) (map u8 b) = lex cs ds.
Proof.
  intros HA HB HC HD. split; [apply to_utf32_text; now apply enc_text|]. split; [apply to_utf32_text; now apply enc_text|]. now apply encoded_order.
Qed.

(** ** C131 *)
Lemma inr_app a b : inr (a ++ b) -> inr a /\ inr b.
Proof. apply Forall_app. Qed.
Lemma E_inj cs ds : inr cs -> inr ds -> E cs = E ds -> cs = ds.
Proof. intros H K Q. apply (Text_fun (E cs)); [now apply from_utf32_Text|]. rewrite Q. now apply from_utf32_Text. Qed.
Lemma E_ne ps : inr ps -> ps <> [] -> E ps <> [].
Proof. intros H K Q. apply K. now apply (E_inj ps [] H (Forall_nil _)). Qed.

(** A cut of encoded text around an encoded pattern. *)
Lemma E_around cs ps u v : inr cs -> inr ps -> ps <> [] -> E cs = u ++ E ps ++ v ->
  exists us vs, cs = us ++ ps ++ vs /\ inr us /\ inr vs /\ u = E us /\ v = E vs.
Proof.
  intros HC HP HN Q. destruct (sync (E cs) cs (E ps) ps u v (from_utf32_Text cs HC) (from_utf32_Text ps HP) (E_ne ps HP HN) Q) as (us & vs & HU & HV & Ec).
  assert (inr us /\ inr vs) as [IU IV]. { subst cs. apply inr_app in HC. destruct HC as [A B]. apply inr_app in B. tauto. }
  exists us, vs. repeat split; try assumption.
  - destruct (E_split cs u us (E ps ++ v) (ps ++ vs) HC Q HU) as (_ & K & _); [apply Text_app; [now apply from_utf32_Text|exact HV]|exact K].
  - destruct (E_split cs (u ++ E ps) (us ++ ps) v vs HC) as (_ & _ & K); [now rewrite <- app_assoc|apply Text_app; [exact HU|now apply from_utf32_Text]|exact HV|exact K].
Qed.

Lemma absent_E cs ps : inr cs -> inr ps -> ps <> [] -> (forall i, ~ occurs_at (E ps) (E cs) i) -> absent ps cs.
Proof. intros HC HP HN H us vs ->. apply (H (length (E us))). exists (E us), (E vs). now rewrite !E_app. Qed.
Lemma absent_E' cs ps : inr cs -> inr ps -> ps <> [] -> absent ps cs -> forall i, ~ occurs_at (E ps) (E cs) i.
Proof. intros HC HP HN H i (u & v & Q & _). destruct (E_around cs ps u v HC HP HN Q) as (us & vs & K & _). exact (H us vs K). Qed.

Lemma before_E us ps vs : inr (us ++ ps ++ vs) -> (forall i, (i < length (E us))%nat -> ~ occurs_at (E ps) (E us ++ E ps ++ E vs) i) ->
  absent_before ps (us ++ ps ++ vs) (length us).
Proof.
  intros HC H u v Q. destruct (Nat.le_gt_cases (length us) (length u)) as [L|L]; [exact L|exfalso].
  apply (H (length (E u))).
  - eapply E_prefix_le; [exact Q|exact HC|exact L].
  - exists (E u), (E v). rewrite <- !E_app, Q. now rewrite !E_app.
Qed.
Lemma after_E us ps vs : inr (us ++ ps ++ vs) -> (forall i, (length (E us) < i)%nat -> ~ occurs_at (E ps) (E us ++ E ps ++ E vs) i) ->
  absent_after ps (us ++ ps ++ vs) (length us).
Proof.
  intros HC H u v Q. destruct (Nat.le_gt_cases (length u) (length us)) as [L|L]; [exact L|exfalso].
  apply (H (length (E u))).
  - symmetry in Q. eapply E_prefix_le; [exact Q| |exact L]. rewrite Q. exact HC.
  - exists (E u), (E v). rewrite <- !E_app, Q. now rewrite !E_app.
Qed.

Lemma front_E ps qs n s r : inr ps -> inr qs -> ps <> [] -> ReplaceFront (E ps) (E qs) n s r -> forall cs, inr cs -> s = E cs ->
  exists rs, r = E rs /\ inr rs /\ replaced_first ps qs n cs rs.
Proof.
  intros HP HQ HN H. induction H as [s|n s H|n u v r H HR IH]; intros cs HC Q; subst.
  - exists cs. repeat split; [assumption|constructor].
  - exists cs. repeat split; [assumption|]. apply first_none. now apply absent_E.
  - destruct (E_around cs ps u v HC HP HN (eq_sym Q)) as (us & vs & -> & HU & HV & -> & ->).
    destruct (IH vs HV eq_refl) as (rs & -> & HI & HR'). exists (us ++ qs ++ rs). rewrite !E_app. split; [reflexivity|].
    split; [repeat (apply Forall_app; split); assumption|]. apply first_next; [|exact HR']. now apply before_E.
Qed.
Lemma back_E ps qs n s r : inr ps -> inr qs -> ps <> [] -> ReplaceBack (E ps) (E qs) n s r -> forall cs, inr cs -> s = E cs ->
  exists rs, r = E rs /\ inr rs /\ replaced_last ps qs n cs rs.
Proof.
  intros HP HQ HN H. induction H as [s|n s H|n u v r H HR IH]; intros cs HC Q; subst.
  - exists cs. repeat split; [assumption|constructor].
  - exists cs. repeat split; [assumption|]. apply last_none. now apply absent_E.
  - destruct (E_around cs ps v u HC HP HN (eq_sym Q)) as (vs & us & -> & HV & HU & -> & ->).
    destruct (IH vs HV eq_refl) as (rs & -> & HI & HR'). exists (rs ++ qs ++ us). rewrite !E_app. split; [reflexivity|].
    split; [repeat (apply Forall_app; split); assumption|]. apply last_next; [|exact HR']. now apply after_E.
Qed.

Lemma p_c131_front cs ps qs m : inr cs -> inr ps -> inr qs -> ps <> [] -> (0 <= m)%Z ->
  exists rs, replace (E cs) (E ps) (E qs) m = Ok (E rs) /\ replaced_first ps qs (Z.to_N m) cs rs.
Proof.
  intros HC HP HQ HN Hm. destruct (replace_front (E cs) (E ps) (E qs) m (E_ne ps HP HN) Hm) as (r & Er & HR).
  destruct (front_E ps qs _ _ _ HP HQ HN HR cs HC eq_refl) as (rs & -> & _ & K). eauto.
Qed.
Lemma p_c131_back cs ps qs m : inr cs -> inr ps -> inr qs -> ps <> [] -> Fits (E cs) -> (- 0x8000000000000000 < m < 0)%Z ->
  exists rs, replace (E cs) (E ps) (E qs) m = Ok (E rs) /\ replaced_last ps qs (Z.to_N (- m)) cs rs.
Proof.
  intros HC HP HQ HN HF Hm. destruct (replace_back (E cs) (E ps) (E qs) m (E_ne ps HP HN) HF ltac:(unfold PTRDIFF_MIN; lia)) as (r & Er & HR).
  destruct (back_E ps qs _ _ _ HP HQ HN HR cs HC eq_refl) as (rs & -> & _ & K). eauto.
Qed.

Lemma cuts_E ps : inr ps -> ps <> [] -> forall s cuts rest, Cuts (first_sep (E ps)) s cuts rest -> forall cs n, inr cs -> s = E cs ->
  N.of_nat (length cuts) = n \/ (N.of_nat (length cuts) < n /\ forall i, ~ occurs_at (E ps) rest i) ->
  exists parts, parted ps n cs parts /\ map fst cuts ++ [rest] = map E parts.
Proof.
  intros HP HN s cuts rest H. induction H as [s|u g v cuts rest HF HC IH]; intros cs n HI Q K; subst.
  - exists [cs]. split; [|reflexivity]. destruct K as [<-|[_ K]]; [constructor|]. apply parted_none. now apply absent_E.
  - destruct HF as [-> HF]. destruct (E_around cs ps u v HI HP HN (eq_sym Q)) as (us & vs & -> & HU & HV & -> & ->).
    cbn [length] in K. destruct (IH vs (n - 1) HV eq_refl) as (parts & HPa & EP); [destruct K as [K|[K K']]; [left|right; split; [|exact K']]; lia|].
    exists (us :: parts). split; [|cbn [map app fst]; now rewrite EP].
    replace n with (n - 1 + 1) by (destruct K as [K|[K _]]; lia). apply parted_next; [|exact HPa]. now apply before_E.
Qed.

Lemma p_c131_split cs ps n : inr cs -> inr ps -> ps <> [] -> Fits (E cs) -> 1 <= n ->
  exists parts, split_sep (E cs) (E ps) n false = Ok (map E parts) /\ parted ps n cs parts.
Proof.
  intros HC HP HN HF Hn. destruct (p_c36 (E cs) (E ps) n (E_ne ps HP HN) HF Hn) as (cuts & rest & HCu & HS & ->).
  destruct (cuts_E ps HP HN _ _ _ HCu cs n HC eq_refl) as (parts & HPa & EP).
  - unfold stopped, kept in HS. cbv zeta in HS. rewrite map_length in HS. destruct HS as [[A B]|(c & u & g & -> & A & B)]; [right; split; [exact A|exact B]|left; exact B].
  - exists parts. split; [|exact HPa]. now rewrite EP.
Qed.

Section Unique.
  Context {A : Type}.
  Implicit Types p q s r : list A.
  Lemma app_split_eq p (u v u' v' : list A) : u ++ p ++ v = u' ++ p ++ v' -> length u = length u' -> u = u' /\ v = v'.
  Proof.
    intros H L. assert (u = u') as ->.
    { apply (f_equal (firstn (length u))) in H. rewrite firstn_app, Nat.sub_diag, firstn_all, firstn_O, app_nil_r in H.
      rewrite L, firstn_app, Nat.sub_diag, firstn_all, firstn_O, app_nil_r in H. exact H. }
    apply app_inv_head in H. apply app_inv_head in H. auto.
  Qed.
  Lemma first_unique p q n s r : replaced_first p q n s r -> forall r', replaced_first p q n s r' -> r = r'.
  Proof.
    induction 1 as [s|n s H|n u v r H HR IH]; intros r' K.
    - inversion K; subst; try reflexivity. lia.
    - inversion K as [|? ? ?|n' u v r0 Hb]; subst; try reflexivity. now destruct (H u v).
    - inversion K as [? Q|? ? HA|n' u' v' r0 Hb HR' Q1 Q2]; subst; [lia|now destruct (HA u v)|].
      assert (n' = n) as -> by lia. destruct (app_split_eq p u' v' u v Q2) as [-> ->].
      + apply Nat.le_antisymm; [apply (Hb u v); exact Q2|apply (H u' v'); now symmetry].
      + now rewrite (IH _ HR').
  Qed.
  Lemma last_unique p q n s r : replaced_last p q n s r -> forall r', replaced_last p q n s r' -> r = r'.
  Proof.
    induction 1 as [s|n s H|n u v r H HR IH]; intros r' K.
    - inversion K; subst; try reflexivity. lia.
    - inversion K as [|? ? ?|n' u v r0 Hb]; subst; try reflexivity. now destruct (H u v).
    - inversion K as [? Q|? ? HA|n' u' v' r0 Hb HR' Q1 Q2]; subst; [lia|now destruct (HA u v)|].
      assert (n' = n) as -> by lia. destruct (app_split_eq p u' v' u v Q2) as [-> ->].
      + apply Nat.le_antisymm; [apply (H u' v'); now symmetry|apply (Hb u v); exact Q2].
      + now rewrite (IH _ HR').
  Qed.
  Lemma parted_unique p n s l : parted p n s l -> forall l', parted p n s l' -> l = l'.
  Proof.
    induction 1 as [s|n s H|n u v l H HR IH]; intros l' K.
    - inversion K; subst; try reflexivity. lia.
    - inversion K as [|? ? ?|n' u v r0 Hb]; subst; try reflexivity. now destruct (H u v).
    - inversion K as [? Q|? ? HA|n' u' v' r0 Hb HR' Q1 Q2]; subst; [lia|now destruct (HA u v)|].
      assert (n' = n) as -> by lia. destruct (app_split_eq p u' v' u v Q2) as [-> ->].
      + apply Nat.le_antisymm; [apply (Hb u v); exact Q2|apply (H u' v'); now symmetry].
      + now rewrite (IH _ HR').
  Qed.
End Unique.

Lemma drop_split (p : N -> bool) cs : exists us, cs = us ++ drop_while p cs /\ Forall (fun c => p c = true) us /\ first_out (fun c => p c = true) (drop_while p cs).
Proof.
  induction cs as [|c cs (us & Q & HU & HF)]; [exists []; repeat split; constructor|]. cbn [drop_while]. destruct (p c) eqn:Hp.
  - exists (c :: us). split; [cbn [app]; now rewrite <- Q|]. split; [now constructor|exact HF].
  - exists []. split; [reflexivity|]. split; [constructor|]. cbn. congruence.
Qed.
Lemma drop_end_split (p : N -> bool) cs : exists vs, cs = drop_end_while p cs ++ vs /\ Forall (fun c => p c = true) vs /\ last_out (fun c => p c = true) (drop_end_while p cs).
Proof.
  destruct (drop_split p (rev cs)) as (us & Q & HU & HF). exists (rev us). unfold drop_end_while. split; [|split].
  - rewrite <- rev_app_distr, <- Q. symmetry. apply rev_involutive.
  - now apply Forall_rev.
  - intros ds c K. apply (f_equal (@rev N)) in K. rewrite rev_involutive, rev_app_distr in K. rewrite K in HF. exact HF.
Qed.
Lemma p_c131_trim_start (p : N -> bool) cs : inr cs -> Fits (E cs) -> trim_start_where (E cs) p = Ok (E (drop_while p cs)).
Proof.
  intros HC HF. destruct (drop_split p cs) as (us & Q & HU & HO). destruct (p_trim_where p) as (T & _ & _).
  remember (drop_while p cs) as ms. subst cs. apply inr_app in HC. destruct HC as [A B]. rewrite E_app in *.
  now apply (T (E us) us (E ms) ms); auto using from_utf32_Text.
Qed.
Lemma p_c131_trim_end (p : N -> bool) cs : inr cs -> Fits (E cs) -> trim_end_where (E cs) p = Ok (E (drop_end_while p cs)).
Proof.
  intros HC HF. destruct (drop_end_split p cs) as (us & Q & HU & HO). destruct (p_trim_where p) as (_ & T & _).
  remember (drop_end_while p cs) as ms. subst cs. apply inr_app in HC. destruct HC as [A B]. rewrite E_app in *.
  now apply (T (E ms) ms (E us) us); auto using from_utf32_Text.
Qed.
Lemma drop_inr (p : N -> bool) cs : inr cs -> inr (drop_while p cs).
Proof. induction 1 as [|c cs Hc H IH]; [constructor|]. cbn [drop_while]. destruct (p c); [exact IH|now constructor]. Qed.
Lemma drop_fits (p : N -> bool) cs : Fits (E cs) -> Fits (E (drop_while p cs)).
Proof.
  intros H. destruct (drop_split p cs) as (us & Q & _). rewrite Q, E_app in H. unfold Fits, size in *. rewrite app_length in H. lia.
Qed.
Lemma p_c131_trim (p : N -> bool) cs : inr cs -> Fits (E cs) ->
  trim_start_where (E cs) p = Ok (E (drop_while p cs)) /\ trim_end_where (E cs) p = Ok (E (drop_end_while p cs)) /\
  trim_where (E cs) p = Ok (E (drop_end_while p (drop_while p cs))).
Proof.
  intros HC HF. split; [now apply p_c131_trim_start|]. split; [now apply p_c131_trim_end|].
  unfold trim_where. rewrite p_c131_trim_start by assumption. cbn [bind]. apply p_c131_trim_end; [now apply drop_inr|now apply drop_fits].
Qed.

Lemma p_c131_join l d : join (map E l) (E d) = E (joined d l).
Proof.
  rewrite join_spec. induction l as [|x [|y l] IH]; [reflexivity|reflexivity|].
  change (E x ++ E d ++ interleave (E d) (map E (y :: l)) = E (x ++ d ++ joined d (y :: l))). now rewrite IH, !E_app.
Qed.
