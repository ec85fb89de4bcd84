(** C143: quoted texts end where they should. *)
From Verif Require Import Base Spec.Utf8Spec Spec.Strings Spec.Escape Spec.Quoted Model.Decode Model.Subrange Model.Search Model.Escape Model.Unescape
  Proofs.Utf8Lemmas Proofs.EscapeLemmas Proofs.EscapeScan.

Lemma hex_plain ds v : Hex ds v -> Forall (fun b => b <> x22 /\ b <> x5c) ds.
Proof.
  induction 1 as [|ds v c d H IH Hd]; [constructor|]. apply Forall_app. split; [exact IH|]. constructor; [|constructor]. split; intros ->; unfold hex_digit in Hd; change (u8 x22) with 0x22 in Hd; change (u8 x5c) with 0x5c in Hd; lia.
Qed.
Lemma literal_plain_app l s e t : Forall (fun b => b <> x22 /\ b <> x5c) l -> Literal s e t -> Literal (l ++ s) (l ++ e) t.
Proof. induction 1 as [|b l [H1 H2] HL IH]; intros H; [exact H|]. cbn. constructor; auto. Qed.
Lemma json_literal e t : JsonBody e -> Literal (e ++ x22 :: t) e t.
Proof.
  induction 1 as [|c s H1 H2 H3 H IH|c s Hc H IH|ds v s Hl Hd H IH]; cbn [app].
  - constructor.
  - now constructor.
  - now constructor.
  - constructor. rewrite <- app_assoc. apply literal_plain_app; [now apply hex_plain with v|exact IH].
Qed.
Lemma literal_fun s e t : Literal s e t -> forall e' t', Literal s e' t' -> e' = e /\ t' = t.
Proof.
  induction 1 as [t|c s e t H IH|c s e t H1 H2 H IH]; intros e' t' H'; inversion H'; subst; try congruence; auto.
  - match goal with H : Literal s _ _ |- _ => destruct (IH _ _ H) as [-> ->] end. auto.
  - match goal with H : Literal s _ _ |- _ => destruct (IH _ _ H) as [-> ->] end. auto.
Qed.
Lemma p_c143_ends : forall x e t, Fits x -> escape_json x = Ok e -> forall e' t', Literal (e ++ x22 :: t) e' t' <-> e' = e /\ t' = t.
Proof.
  intros x e t HF E e' t'. destruct (p_c57 x HF) as (e2 & E2 & HB & _). rewrite E in E2. injection E2 as <-.
  pose proof (json_literal e t HB) as HL. split; [apply (literal_fun _ _ _ HL)|]. intros [-> ->]. exact HL.
Qed.
Lemma no_quote_cut l : ~ In x22 l -> forall l' s s', ~ In x22 l' -> l ++ x22 :: s = l' ++ x22 :: s' -> l = l' /\ s = s'.
Proof.
  induction l as [|b l IH]; intros Hl l' s s' Hl' E; destruct l' as [|b' l']; cbn in *.
  - injection E as ->. auto.
  - injection E as <- _. tauto.
  - injection E as -> _. tauto.
  - injection E as -> E. destruct (IH ltac:(tauto) l' s s' ltac:(tauto) E) as [-> ->]. auto.
Qed.
Lemma document_fun s ls es : Document s ls es -> forall ls' es', Document s ls' es' -> ls' = ls /\ es' = es.
Proof.
  induction 1 as [l Hl|l s e t ls es Hl HL H IH]; intros ls' es' H'.
  - inversion H' as [|l' s' e' t' ls2 es2 H1 H2 H3]; subst; [auto|]. destruct Hl. apply in_or_app. right. now left.
  - inversion H' as [l' Hl'|l' s' e' t' ls2 es2 H1 H2 H3 Q]; subst.
    + destruct Hl'. apply in_or_app. right. now left.
    + destruct (no_quote_cut _ H1 _ _ _ Hl Q) as [-> ->]. destruct (literal_fun _ _ _ HL _ _ H2) as [-> ->]. destruct (IH _ _ H3) as [-> ->]. auto.
Qed.
Lemma document_reads l fields : ~ In x22 l -> Forall (fun f => JsonBody (fst f) /\ ~ In x22 (snd f)) fields ->
  Document (document l fields) (l :: map snd fields) (map fst fields).
Proof.
  intros Hl H. revert l Hl. induction H as [|[e l'] fields [He Hl'] H IH]; intros l Hl; cbn [document map fst snd] in *; [now constructor|].
  unfold quote. cbn [app]. rewrite <- app_assoc. cbn [app]. constructor 2 with (t := document l' fields); auto. now apply json_literal.
Qed.
Lemma p_c143_document : forall l fields xs, ~ In x22 l -> Forall (fun f => ~ In x22 (snd f)) fields -> Forall Fits xs ->
  Forall2 (fun x e => escape_json x = Ok e) xs (map fst fields) ->
  forall ls es, Document (document l fields) ls es <-> ls = l :: map snd fields /\ es = map fst fields.
Proof.
  intros l fields xs Hl Hf HF H ls es.
  assert (Document (document l fields) (l :: map snd fields) (map fst fields)) as HD.
  { apply document_reads; [exact Hl|]. clear ls es. remember (map fst fields) as es eqn:Ee. revert fields Ee Hf.
    induction H as [|x e xs es E H IH]; intros [|[e' l'] fields] Ee Hf; try discriminate; constructor; inversion HF; inversion Hf; subst; cbn in *.
    - injection Ee as <- Ee. split; [|assumption]. destruct (p_c57 x) as (e2 & E2 & HB & _); [assumption|]. congruence.
    - injection Ee as <- Ee. now apply IH. }
  split; [apply (document_fun _ _ _ HD)|]. intros [-> ->]. exact HD.
Qed.
Lemma p_c143_injective : forall l fields xs l' fields' xs', ~ In x22 l -> Forall (fun f => ~ In x22 (snd f)) fields -> Forall Fits xs ->
  Forall2 (fun x e => escape_json x = Ok e) xs (map fst fields) ->
  ~ In x22 l' -> Forall (fun f => ~ In x22 (snd f)) fields' -> Forall Fits xs' ->
  Forall2 (fun x e => escape_json x = Ok e) xs' (map fst fields') ->
  document l fields = document l' fields' -> l = l' /\ fields = fields' /\ xs = xs'.
Proof.
  intros l fields xs l' fields' xs' Hl Hf HF H Hl' Hf' HF' H' E.
  destruct (p_c143_document l fields xs Hl Hf HF H (l' :: map snd fields') (map fst fields')) as [A _].
  rewrite E in A. destruct A as [A B]; [apply (p_c143_document l' fields' xs' Hl' Hf' HF' H'); auto|].
  injection A as -> A. split; [reflexivity|]. split.
  - clear -A B. revert fields' A B. induction fields as [|[e l] fields IH]; intros [|[e' l'] fields'] A B; try discriminate; [reflexivity|].
    cbn in *. injection A as -> A. injection B as -> B. f_equal. now apply IH.
  - rewrite B in H'. clear -H H' HF HF'. revert xs' H' HF'. induction H as [|x e xs es Ex H IH]; intros xs' H' HF'; inversion H'; subst; [reflexivity|].
    inversion HF; inversion HF'; subst. f_equal; [|now apply IH]. eapply p_c58_inj; eassumption.
Qed.

(** With the library's finders. *)
Lemma not_escaped c : 0x20 <= u8 c -> c <> x22 -> c <> x5c -> ~ must_escape c.
Proof. unfold must_escape. intros H1 H2 H3 [H|[H|H]]; [lia|auto|auto]. Qed.
Lemma nth_here {A} (u : list A) c v : nth_error (u ++ c :: v) (N.to_nat (N.of_nat (length u))) = Some c.
Proof. rewrite Nat2N.id, nth_error_app2, Nat.sub_diag by lia. reflexivity. Qed.
Lemma json_walk e t : JsonBody e -> forall pre lits, Fits (pre ++ lits ++ e ++ x22 :: t) -> Forall (fun c => ~ must_escape c) lits ->
  Walk (pre ++ lits ++ e ++ x22 :: t) (size pre) (size (pre ++ lits ++ e)).
Proof.
  assert (forall pre lits w n q, Fits (pre ++ lits ++ x5c :: w) -> Forall (fun c => ~ must_escape c) lits -> Extent (x5c :: w) n ->
    Walk (pre ++ lits ++ x5c :: w) (size (pre ++ lits) + n) q -> Walk (pre ++ lits ++ x5c :: w) (size pre) q) as HE.
  { intros pre lits w n q HF HL HX HW. destruct (p_c59_find pre lits (x5c :: w) HL) as [_ A]. specialize (A x5c w eq_refl ltac:(right; now right)).
    eapply walk_escape; [exact A| | |exact HW].
    - rewrite app_assoc. apply nth_here.
    - rewrite app_assoc in *. destruct (p_c74 (pre ++ lits) [] (x5c :: w) HF ltac:(intros [])) as (_ & B & _).
      destruct (B n HX) as [B' _]. rewrite app_nil_r in B'. exact B'. }
  induction 1 as [|c s H1 H2 H3 H IH|c s Hc H IH|ds v s Hl Hd H IH]; intros pre lits HF HL.
  - rewrite app_nil_r. cbn [app]. destruct (p_c59_find pre lits (x22 :: t) HL) as [_ A]. specialize (A x22 t eq_refl ltac:(right; now left)).
    apply walk_quote; [exact A|]. rewrite app_assoc. apply nth_here.
  - replace (lits ++ (c :: s) ++ x22 :: t) with ((lits ++ [c]) ++ s ++ x22 :: t) in * by (rewrite <- app_assoc; reflexivity).
    replace (lits ++ c :: s) with ((lits ++ [c]) ++ s) by (rewrite <- app_assoc; reflexivity).
    apply IH; [exact HF|]. apply Forall_app. split; [exact HL|]. constructor; [now apply not_escaped|constructor].
  - cbn [app] in *. apply HE with (n := 2); auto.
    + apply ext_two; cbn in Hc; repeat destruct Hc as [<-|Hc]; try contradiction; try (cbn; lia); intros Hi; cbn in Hi; decompose [or] Hi; try discriminate; assumption.
    + specialize (IH (pre ++ lits ++ [x5c; c]) []). cbn [app] in IH. rewrite <- !app_assoc in IH. cbn [app] in IH.
      replace (size (pre ++ lits) + 2) with (size (pre ++ lits ++ [x5c; c])) by (unfold size; rewrite !app_length; cbn [length]; lia).
      apply IH; auto.
  - cbn [app] in *. rewrite <- app_assoc in *. apply HE with (n := 6); auto.
    + change (x5c :: x75 :: ds ++ s ++ x22 :: t) with ((x5c :: x75 :: ds) ++ s ++ x22 :: t). now apply ext_u with v.
    + specialize (IH (pre ++ lits ++ x5c :: x75 :: ds) []). cbn [app] in IH. rewrite <- !app_assoc in IH. cbn [app] in IH.
      replace (size (pre ++ lits) + 6) with (size (pre ++ lits ++ x5c :: x75 :: ds)) by (unfold size; rewrite !app_length; cbn [length]; lia).
      apply IH; auto.
Qed.
Lemma walk_fun s o p : Walk s o p -> forall q, Walk s o q -> q = p.
Proof.
  induction 1 as [o p E B|o p n q E B F H IH]; intros q' H'; inversion H'; subst; try congruence.
  apply IH. replace n with n0 by congruence. replace p with p0 by congruence. assumption.
Qed.
Lemma p_c143_finders : forall pre x e t, Fits x -> escape_json x = Ok e -> Fits (pre ++ e ++ x22 :: t) ->
  forall q, Walk (pre ++ e ++ x22 :: t) (size pre) q <-> q = size (pre ++ e).
Proof.
  intros pre x e t HF E HFd q. destruct (p_c57 x HF) as (e2 & E2 & HB & _). rewrite E in E2. injection E2 as <-.
  pose proof (json_walk e t HB pre [] HFd ltac:(constructor)) as HW. cbn [app] in HW. split; [apply (walk_fun _ _ _ HW)|]. intros ->. exact HW.
Qed.
