From Verif Require Import Base Model.Decode Model.Encode Model.Subrange Model.Search Model.CharClass Model.ConvertCase Model.CodepointSet
  Spec.Utf8Spec Spec.UnicodeData Spec.CaseFold Spec.CpSet Proofs.Utf8Lemmas Proofs.CaseLemmas Proofs.CaseStringLemmas Proofs.SearchLemmas Proofs.NewlineLemmas.
Require Import Lia ZifyBool ZifyNat ZifyN.

Definition in_ranges (l : list (N * N)) (c : N) : Prop := exists r, In r l /\ fst r <= c <= snd r.

Lemma in_ranges_app a b c : in_ranges (a ++ b) c <-> in_ranges a c \/ in_ranges b c.
Proof.
  unfold in_ranges. split.
  - intros (r & H & E). apply in_app_or in H. destruct H; [left|right]; eauto.
  - intros [(r & H & E)|(r & H & E)]; exists r; (split; [apply in_or_app; auto|exact E]).
Qed.
Lemma in_ranges_one a b c : in_ranges [(a, b)] c <-> a <= c <= b.
Proof.
  unfold in_ranges. split.
  - intros (r & [<-|[]] & E). exact E.
  - intros E. exists (a, b). split; [left; reflexivity|exact E].
Qed.

Lemma contains_spec s c : cps_contains s c = true <-> (in_ranges (cps_ranges s) c <-> cps_negated s = false).
Proof.
  unfold cps_contains, in_ranges.
  assert (E : existsb (fun r : N * N => (fst r <=? c) && (c <=? snd r)) (cps_ranges s) = true <->
    exists r, In r (cps_ranges s) /\ fst r <= c <= snd r).
  { rewrite existsb_exists. split; intros (r & H & E); exists r; (split; [exact H|lia]). }
  destruct (existsb _ _); destruct (cps_negated s); cbn; rewrite <- E; intuition congruence.
Qed.

Definition do_step (s : cpset) (p : N * N * bool) : cpset :=
  let '(x, y, one) := p in if (one : bool) then add_codepoint s y else add_range s x y.
Definition step_adds (p : N * N * bool) (c : N) : Prop := fst (fst p) <= c <= snd (fst p).
Definition step_ok (p : N * N * bool) : Prop := let '(x, y, one) := p in (one : bool) = true -> x = y.

Lemma steps_ok l : Forall step_ok (steps l).
Proof.
  induction l as [|a l IH]; [apply Forall_nil|]. unfold steps in *. cbn [flat_map]. apply Forall_app. split; [|exact IH].
  destruct a as [x y|d|cs]; [apply Forall_cons; [intros H; discriminate H|apply Forall_nil]|apply Forall_cons; [intros _; reflexivity|apply Forall_nil]|].
  apply Forall_forall. intros p H. apply in_map_iff in H as (d & <- & _). intros _; reflexivity.
Qed.
Lemma perform_steps l : forall s, fold_left perform l s = fold_left do_step (steps l) s.
Proof.
  induction l as [|a l IH]; intros s; [reflexivity|]. unfold steps in *. cbn [flat_map fold_left]. rewrite fold_left_app, IH. f_equal.
  destruct a as [x y|d|cs]; [reflexivity|reflexivity|]. cbn [perform]. unfold add_codepoints. clear. revert s.
  induction cs as [|d cs IH]; intros s; [reflexivity|]. cbn [map fold_left]. apply IH.
Qed.
Lemma steps_adds l c : Exists (fun p => step_adds p c) (steps l) <-> Exists (fun a => adds a c) l.
Proof.
  induction l as [|a l IH]; [split; intros H; inversion H|]. unfold steps in *. cbn [flat_map]. rewrite Exists_app, Exists_cons, IH.
  apply or_iff_compat_r. destruct a as [x y|d|cs]; cbn [adds].
  - rewrite Exists_cons, Exists_nil. unfold step_adds. cbn. tauto.
  - rewrite Exists_cons, Exists_nil. unfold step_adds. cbn. split; [intros [H|[]]; lia|intros ->; left; lia].
  - rewrite Exists_exists. split.
    + intros (p & H & E). apply in_map_iff in H as (d & <- & H). unfold step_adds in E. cbn in E. replace c with d by lia. exact H.
    + intros H. exists (c, c, true). split; [apply in_map_iff; exists c; auto|unfold step_adds; cbn; lia].
Qed.

(** One step: either a new range, or the last one is prolonged. *)
Lemma do_step_cases s p : step_ok p -> cps_negated (do_step s p) = cps_negated s /\
  (cps_ranges (do_step s p) = cps_ranges s ++ [fst p] \/
   exists before a b d, p = (d, d, true) /\ cps_ranges s = before ++ [(a, b)] /\ (b + 1) mod 0x100000000 = d /\
     cps_ranges (do_step s p) = before ++ [(a, d)]).
Proof.
  destruct p as [[x y] one]. intros H. destruct one; [|split; [reflexivity|left; reflexivity]].
  cbn in H. rewrite (H eq_refl) in *. clear H x. cbn [do_step fst]. unfold add_codepoint.
  destruct (rev (cps_ranges s)) as [|[a b] before] eqn:Er; [split; [reflexivity|left; reflexivity]|].
  destruct (N.eqb_spec (add32 b 1) y) as [E|E]; [|split; [reflexivity|left; reflexivity]].
  split; [reflexivity|]. right. exists (rev before), a, b, y. split; [reflexivity|]. split; [|split; [exact E|reflexivity]].
  rewrite <- (rev_involutive (cps_ranges s)), Er. reflexivity.
Qed.

Lemma steps_negated ps : forall s, Forall step_ok ps -> cps_negated (fold_left do_step ps s) = cps_negated s.
Proof.
  induction ps as [|p ps IH]; intros s H; [reflexivity|]. apply Forall_cons_iff in H as [H1 H2]. cbn [fold_left].
  rewrite IH by exact H2. now apply do_step_cases.
Qed.
Lemma steps_sound ps : forall s c, Forall step_ok ps -> in_ranges (cps_ranges (fold_left do_step ps s)) c ->
  in_ranges (cps_ranges s) c \/ Exists (fun p => step_adds p c) ps.
Proof.
  induction ps as [|p ps IH]; intros s c H HI; [now left|]. apply Forall_cons_iff in H as [H1 H2]. cbn [fold_left] in HI.
  apply (IH _ c H2) in HI. rewrite Exists_cons. destruct HI as [HI|HI]; [|tauto].
  destruct (do_step_cases s p H1) as [_ [E|(before & a & b & d & -> & E1 & E2 & E3)]].
  - rewrite E, in_ranges_app in HI. destruct HI as [HI|HI]; [tauto|]. destruct p as [[x y] one]. cbn [fst] in HI.
    apply in_ranges_one in HI. unfold step_adds. cbn. tauto.
  - rewrite E3, in_ranges_app, in_ranges_one in HI. rewrite E1, in_ranges_app, in_ranges_one. unfold step_adds. cbn [fst snd].
    destruct HI as [HI|HI]; [tauto|]. destruct (N.eq_dec c d); [right; left; lia|].
    assert (d <= b + 1) by (rewrite <- E2; apply N.mod_le; discriminate). left. right. lia.
Qed.

(** The last range ends where the last step did, and if it is not that step's
    own range it is not reversed. *)
Definition last_of (s : cpset) (last : option (N * N)) : Prop :=
  match last with
  | None => cps_ranges s = []
  | Some (x, y) => exists before a, cps_ranges s = before ++ [(a, y)] /\ (a = x \/ a <= y)
  end.
Definition harmless_from (last : option (N * N)) (ps : list (N * N * bool)) : Prop := forall u x y one d v,
  match last with None => ps | Some (x, y) => (x, y, false) :: ps end = u ++ (x, y, one) :: (d, d, true) :: v ->
  ~ (y + 1 < x /\ d = y + 1) /\ ~ (y = 0xFFFFFFFF /\ d = 0).
Lemma steps_complete ps : forall s last, Forall step_ok ps -> Forall (fun p => snd (fst p) < 0x100000000) ps ->
  last_of s last -> match last with Some p => snd p < 0x100000000 | None => True end -> harmless_from last ps -> forall c,
  in_ranges (cps_ranges s) c \/ Exists (fun p => step_adds p c) ps -> in_ranges (cps_ranges (fold_left do_step ps s)) c.
Proof.
  induction ps as [|p ps IH]; intros s last H HV HL HV' HH c HI; [destruct HI as [HI|HI]; [exact HI|inversion HI]|].
  apply Forall_cons_iff in H as [H1 H2]. apply Forall_cons_iff in HV as [V1 V2]. cbn [fold_left].
  assert (harmless_from (Some (fst p)) ps) as HH'.
  { destruct p as [[x0 y0] one0]. cbn [fst]. intros u x y one d v E.
    destruct u as [|u0 u].
    - cbn [app] in E. injection E as -> -> _ E. destruct last as [[lx ly]|].
      + apply (HH [(lx, ly, false)] x y one0 d v). cbn [app]. now rewrite E.
      + apply (HH [] x y one0 d v). cbn [app]. now rewrite E.
    - injection E as _ E. destruct last as [[lx ly]|].
      + apply (HH ((lx, ly, false) :: (x0, y0, one0) :: u) x y one d v). cbn [app]. now rewrite E.
      + apply (HH ((x0, y0, one0) :: u) x y one d v). cbn [app]. now rewrite E. }
  destruct (do_step_cases s p H1) as [_ [E|(before & a & b & d & -> & E1 & E2 & E3)]].
  - apply (IH _ (Some (fst p)) H2 V2); [|exact V1|exact HH'|].
    + destruct p as [[x y] one]. exists (cps_ranges s), x. split; [exact E|now left].
    + rewrite E, in_ranges_app. rewrite Exists_cons in HI. destruct HI as [HI|[HI|HI]]; [tauto| |tauto].
      left. right. destruct p as [[x y] one]. now apply in_ranges_one.
  - destruct last as [[lx ly]|]; [|cbn in HL; rewrite E1 in HL; destruct before; discriminate].
    destruct HL as (bf & a' & E4 & HA). rewrite E1 in E4. apply app_inj_tail in E4 as [<- E4]. injection E4 as <- <-.
    destruct (HH [] lx b false d ps eq_refl) as [HB HD].
    cbn [snd] in HV'. assert (d = b + 1).
    { destruct (N.lt_ge_cases b 0xFFFFFFFF) as [K|K]; [rewrite N.mod_small in E2 by lia; lia|].
      exfalso. assert (b = 0xFFFFFFFF) as -> by lia. apply HD. split; [reflexivity|]. rewrite <- E2. reflexivity. }
    assert (a <= d) by lia.
    apply (IH _ (Some (d, d)) H2 V2); [|exact V1|exact HH'|].
    + exists before, a. split; [exact E3|right; lia].
    + rewrite E3, in_ranges_app, in_ranges_one. rewrite E1, in_ranges_app, in_ranges_one, Exists_cons in HI.
      unfold step_adds in HI at 1. cbn [fst snd] in HI. destruct HI as [[HI|HI]|[HI|HI]]; [tauto|left; right; lia|left; right; lia|tauto].
Qed.

Lemma not_in_nil c : ~ in_ranges [] c.
Proof. intros (r & [] & _). Qed.
Lemma p_c53 l negated c : values32 l -> harmless l ->
  cps_contains (fold_left perform l (cps_empty negated)) c = true <-> (Exists (fun a => adds a c) l <-> negated = false).
Proof.
  intros HV HH. rewrite contains_spec, perform_steps, steps_negated by apply steps_ok. cbn [cps_empty cps_negated].
  rewrite <- steps_adds. pose proof (not_in_nil c).
  assert (in_ranges (cps_ranges (fold_left do_step (steps l) (CPS [] negated))) c <-> Exists (fun p => step_adds p c) (steps l)) as E; [|unfold cps_empty; tauto].
  split.
  - intros HI. apply steps_sound in HI; [|apply steps_ok]. tauto.
  - intros HI. apply (steps_complete _ _ None); [apply steps_ok| |reflexivity|exact I|exact HH|now right].
    eapply Forall_impl; [|exact HV]. cbn. tauto.
Qed.
Lemma p_c53_sound l negated c : cps_contains (fold_left perform l (cps_empty negated)) c <> negated -> Exists (fun a => adds a c) l.
Proof.
  intros H. rewrite <- steps_adds. pose proof (contains_spec (fold_left perform l (cps_empty negated)) c) as HC.
  rewrite perform_steps in *. rewrite steps_negated in HC by apply steps_ok. cbn [cps_empty cps_negated] in HC.
  destruct (cps_contains (fold_left do_step (steps l) (cps_empty negated)) c) eqn:E; destruct negated; try congruence.
  - assert (in_ranges (cps_ranges (fold_left do_step (steps l) (cps_empty false))) c) as HI by (apply HC; reflexivity).
    apply steps_sound in HI; [|apply steps_ok]. destruct HI as [HI|HI]; [now apply not_in_nil in HI|exact HI].
  - destruct (existsb (fun r : N * N => (fst r <=? c) && (c <=? snd r)) (cps_ranges (fold_left do_step (steps l) (cps_empty true)))) eqn:EX.
    + apply existsb_exists in EX as (r & HR & EX).
      assert (in_ranges (cps_ranges (fold_left do_step (steps l) (cps_empty true))) c) as HI by (exists r; split; [exact HR|lia]).
      apply steps_sound in HI; [|apply steps_ok]. destruct HI as [HI|HI]; [now apply not_in_nil in HI|exact HI].
    + exfalso. unfold cps_contains in E. rewrite EX in E. rewrite steps_negated in E by apply steps_ok. discriminate E.
Qed.

Lemma p_c53_after h x y d negated c : (y + 1) mod 0x100000000 = d -> d < x -> ~ Exists (fun a => adds a c) h ->
  cps_contains (fold_left perform (h ++ [AddRange x y; AddCodepoint d]) (cps_empty negated)) c = negated.
Proof.
  intros E L HN. rewrite fold_left_app. set (s := fold_left perform h (cps_empty negated)).
  assert (~ in_ranges (cps_ranges s) c) as HS.
  { intros HI. apply HN. unfold s in HI. rewrite perform_steps in HI. apply steps_sound in HI; [|apply steps_ok].
    rewrite <- steps_adds. destruct HI as [HI|HI]; [now apply not_in_nil in HI|exact HI]. }
  assert (cps_negated s = negated) as HG by (unfold s; rewrite perform_steps; now rewrite steps_negated by apply steps_ok).
  cbn [fold_left perform]. unfold add_codepoint, add_range at 1. cbn [cps_ranges]. rewrite rev_app_distr. cbn [rev app].
  change (add32 y 1) with ((y + 1) mod 0x100000000). rewrite E, N.eqb_refl, rev_involutive.
  unfold cps_contains. cbn [cps_ranges cps_negated add_range]. rewrite HG.
  destruct (existsb _ _) eqn:EX; [|now destruct negated]. exfalso. apply existsb_exists in EX as (r & HR & EX).
  apply in_app_or in HR as [HR|[<-|[]]]; [apply HS; exists r; split; [exact HR|lia]|cbn in EX; lia].
Qed.

(** Case-insensitive membership. *)
Notation up := simple_upper.
Lemma up_W32 c : c < W32 -> up c < W32.
Proof.
  intros H. destruct (N.le_gt_cases c 0x10FFFF) as [L|L].
  - apply simple_upper_bound in L. unfold W32. lia.
  - now rewrite simple_upper_above.
Qed.

Definition ci_in_range (r : N * N) (c : N) : Prop := up (fst r) <= up c <= up (snd r).

Lemma p_c54_exact s c : c < 0x100000000 -> Forall (fun r : N * N => fst r < 0x100000000 /\ snd r < 0x100000000) (cps_ranges s) ->
  cps_ci_contains s c = true <->
  ((exists r, In r (cps_ranges s) /\ simple_upper (fst r) <= simple_upper c <= simple_upper (snd r)) <-> cps_negated s = false).
Proof.
  intros Hc HF. unfold cps_ci_contains.
  assert (E : existsb (fun r : N * N =>
          if fst r =? snd r then case_insensitive_equal c (fst r)
          else negb (case_insensitive_less c (fst r)) && negb (case_insensitive_less (snd r) c)) (cps_ranges s) = true <->
    exists r, In r (cps_ranges s) /\ up (fst r) <= up c <= up (snd r)).
  { rewrite existsb_exists. rewrite Forall_forall in HF.
    unfold case_insensitive_equal, case_insensitive_less.
    split; intros (r & H & E); exists r; (split; [exact H|]); destruct (HF r H) as [B1 B2];
      rewrite !to_upper_spec in * by assumption.
    - destruct (N.eqb_spec (fst r) (snd r)) as [X|X]; [rewrite <- X|]; lia.
    - destruct (N.eqb_spec (fst r) (snd r)) as [X|X]; [rewrite <- X in E|]; lia. }
  destruct (existsb _ _); destruct (cps_negated s); cbn; rewrite <- E; intuition congruence.
Qed.

Lemma p_c54_case s c d : c < 0x100000000 -> d < 0x100000000 -> simple_upper c = simple_upper d ->
  cps_ci_contains s c = cps_ci_contains s d.
Proof.
  intros Hc Hd E. unfold cps_ci_contains, case_insensitive_equal, case_insensitive_less.
  rewrite !(to_upper_spec c Hc), !(to_upper_spec d Hd), E. reflexivity.
Qed.

Lemma p_c54_extends s c : c < 0x100000000 -> cps_negated s = false ->
  Forall (fun r : N * N => fst r < 0x100000000 /\ snd r < 0x100000000 /\
     forall x, fst r <= x <= snd r -> simple_upper (fst r) <= simple_upper x <= simple_upper (snd r)) (cps_ranges s) ->
  cps_contains s c = true -> cps_ci_contains s c = true.
Proof.
  intros Hc Hn HF H. apply contains_spec in H. destruct (proj2 H Hn) as (r & Hr & E).
  apply p_c54_exact; [exact Hc| |].
  - eapply Forall_impl; [|exact HF]. cbn. tauto.
  - split; [intros _; exact Hn|]. intros _. exists r. split; [exact Hr|]. rewrite Forall_forall in HF.
    destruct (HF r Hr) as (_ & _ & M). now apply M.
Qed.
