(** C129: the calls made by templates with blocks. *)
From Coq Require Import String.
From Verif Require Import Base Model.PyText Model.Codegen Model.Expanders Spec.Template Spec.Blocks Spec.Expanders Proofs.CodegenLemmas Proofs.BlockLemmas Proofs.ExpanderLemmas.
Local Notation "'#' s" := (list_byte_of_string s%string) (at level 5, only parsing).

Scheme block_ind2 := Minimality for BlockCalls Sort Prop
  with branch_ind2 := Minimality for BranchCalls Sort Prop.
Combined Scheme block_branch_ind from block_ind2, branch_ind2.

Section B.
Context {E : Type} (X : expander E).
Notation G e w out S := (GProc (e, w) (Proc [] out [] 0 S [])).
Notation R := (g_run (watched X)).

Lemma skip_line e w out s S l rest : s <> Active -> R (G e w out (s :: S)) false (tokens_of l ++ rest) = R (G e w out (s :: S)) false rest.
Proof.
  intros HS. pose proof (simple_tokens l) as H. induction H as [|t ts Ht HT IH]; [reflexivity|]. cbn [app g_run].
  assert (g_step (watched X) (G e w out (s :: S)) false t = Some (G e w out (s :: S), false)) as ->; [|exact IH].
  destruct t; try contradiction; destruct s; try congruence; reflexivity.
Qed.
Lemma skip_tmpl : (forall t e w out s S rest, s <> Active -> R (G e w out (s :: S)) false (ttokens t ++ rest) = R (G e w out (s :: S)) false rest) /\
  (forall b e w out S rest, R (G e w out (Done :: S)) false (btokens b ++ rest) = R (G e w out (Done :: S)) false rest).
Proof.
  apply tmpl_branches_ind.
  - reflexivity.
  - intros l rest IH e w out s S more Hs. cbn [ttokens]. rewrite <- app_assoc, skip_line by exact Hs. now apply IH.
  - intros ind key body IH1 more IH2 ind2 rest IH3 e w out s S tl Hs. cbn [ttokens]. rewrite <- !app_assoc.
    transitivity (R (G e w out (Done :: s :: S)) false (ttokens body ++ btokens more ++ [TText ind2; TEndif; TNewline] ++ ttokens rest ++ tl)).
    { destruct s; [congruence| |]; reflexivity. }
    rewrite IH1 by discriminate. rewrite IH2. transitivity (R (G e w out (s :: S)) false (ttokens rest ++ tl)); [|now apply IH3].
    destruct s; [congruence| |]; reflexivity.
  - reflexivity.
  - intros ind key body IH1 more IH2 e w out S rest. cbn [btokens]. rewrite <- !app_assoc.
    transitivity (R (G e w out (Done :: S)) false (ttokens body ++ btokens more ++ rest)); [reflexivity|]. rewrite IH1 by discriminate. apply IH2.
  - intros ind body IH e w out S rest. cbn [btokens]. rewrite <- !app_assoc.
    transitivity (R (G e w out (Done :: S)) false (ttokens body ++ rest)); [reflexivity|]. now apply IH.
Qed.
Lemma close_tmpl more e w out S rest : unindented_branches more ->
  R (G e w out (Active :: Active :: S)) false (btokens more ++ [TText []; TEndif; TNewline] ++ rest) = R (G e w out (Active :: S)) false rest.
Proof.
  destruct skip_tmpl as [ST SB]. destruct more as [|ind key body more|ind body]; cbn [btokens unindented_branches].
  - reflexivity.
  - intros (-> & _). rewrite <- !app_assoc.
    transitivity (R (G e w out (Done :: Active :: S)) false (ttokens body ++ btokens more ++ [TText []; TEndif; TNewline] ++ rest)); [reflexivity|].
    rewrite ST by discriminate. rewrite SB. reflexivity.
  - intros (-> & _). rewrite <- !app_assoc.
    transitivity (R (G e w out (Done :: Active :: S)) false (ttokens body ++ [TText []; TEndif; TNewline] ++ rest)); [reflexivity|].
    rewrite ST by discriminate. reflexivity.
Qed.
Lemma expand_here e w out S k v e1 : Forall key_char k -> ask X e k [] ([], 0%nat) = Some (v, e1) ->
  g_expand (watched X) (G e w out S) k = Some (v, (e1, w ++ [(k, [], ([], 0%nat))])).
Proof.
  intros HK HA. unfold g_expand, split_key. rewrite split1_absent by (apply key_not; [exact HK|not_key]). cbn [g_state g_proc p_cur p_column watched ask fst snd].
  change (indentation []) with (@nil byte). unfold context in *. match type of HA with ?l = _ => match goal with |- context [ask X e k ?a ?b] => change (ask X e k a b) with l end end. now rewrite HA.
Qed.
Lemma truthy_truth v : truthy v -> truth v = true.
Proof.
  destruct v as [|[|]|[|]|s]; cbn; try contradiction; try congruence; try reflexivity.
  intros (c & Hc & Hn). apply negb_true_iff, not_true_iff_false. rewrite forallb_forall. intros H. specialize (H c Hc). apply byte_eqb_true in H. congruence.
Qed.
Lemma falsy_truth v : falsy v -> truth v = false.
Proof. intros [-> |[-> |[-> | ->]]]; reflexivity. Qed.
Lemma plain_tline_texts l : plain_tline l -> plain_texts l.
Proof. intros [H1 H2]. split; [|exact H2]. eapply Forall_impl; [|exact H1]. cbv beta. tauto. Qed.
Lemma run_blocks :
  (forall e t calls e' out, BlockCalls X e t calls e' out -> plain_tmpl t -> unindented t -> forall w o S rest,
     R (G e w o (Active :: S)) false (ttokens t ++ rest) = R (G e' (w ++ calls) (o ++ out) (Active :: S)) false rest) /\
  (forall e b calls e' out, BranchCalls X e b calls e' out -> plain_branches b -> unindented_branches b -> forall w o S rest,
     R (G e w o (Inactive :: Active :: S)) false (btokens b ++ [TText []; TEndif; TNewline] ++ rest) = R (G e' (w ++ calls) (o ++ out) (Active :: S)) false rest).
Proof.
  destruct skip_tmpl as [ST SB].
  apply block_branch_ind.
  - intros e _ _ w o S rest. cbn [ttokens app]. now rewrite !app_nil_r.
  - intros e ps tail calls e1 cur o rest calls2 e2 out HL HS HB IH [P1 P2] HU w o0 S tl. cbn [ttokens]. rewrite <- app_assoc.
    pose proof (run_calls_line X e [] ps calls e1 cur HL S w tail o0 (ttokens rest ++ tl) (plain_tline_texts _ P1)) as K. cbn [length] in K. etransitivity; [exact K|].
    rewrite (stripped_fun _ _ HS). rewrite (IH P2 HU), <- !app_assoc. reflexivity.
  - intros e k v e1 rest calls e2 out HA HV HB IH [P1 P2] HU w o S tl. cbn [ttokens].
    change (tokens_of ([([], k)], [])) with [TText []; TExpand k; TNewline]. cbn [app].
    assert (HK : Forall key_char k) by (destruct P1 as [P1 _]; apply Forall_cons_iff in P1 as [(_ & _ & _ & [P _]) _]; exact P).
    transitivity (R (G e w o (Active :: S)) false (TExpand k :: TNewline :: ttokens rest ++ tl)); [reflexivity|].
    cbn [g_run g_step g_handle g_proc top p_scope]. unfold g_handle_expand. rewrite (expand_here e w o (Active :: S) k v e1 HK HA).
    transitivity (R (G e1 (w ++ [(k, [], ([], 0%nat))]) o (Active :: S)) false (ttokens rest ++ tl)).
    { destruct HV as [-> |[-> | ->]]; reflexivity. }
    rewrite (IH P2 HU), <- app_assoc. reflexivity.
  - intros e ind key body more ind2 rest calls e1 out calls2 e2 out2 HB IH1 HR IH2 (P1 & P2 & P3 & P4 & P5 & P6 & P7) (-> & U1 & U2 & -> & U3) w o S tl.
    cbn [ttokens]. rewrite <- !app_assoc.
    transitivity (R (G e1 (w ++ calls) (o ++ out) (Active :: S)) false (ttokens rest ++ tl)); [|rewrite (IH2 P7 U3), <- !app_assoc; reflexivity].
    rewrite <- (IH1 (conj P1 (conj P2 (conj P3 (conj P4 P5)))) (conj eq_refl (conj U1 U2)) w o S). cbn [btokens]. rewrite <- !app_assoc.
    (* IF outside is ELIF in a block nothing was taken of *)
    assert (exists v e3, ask X e key [] ([], 0%nat) = Some (v, e3)) as (v & e3 & HA) by (inversion HB; subst; eauto).
    set (more_tokens := ttokens body ++ btokens more ++ [TText []; TEndif; TNewline] ++ ttokens rest ++ tl).
    transitivity (R (G e w o (Active :: S)) false (TIf key :: TNewline :: more_tokens)); [reflexivity|].
    transitivity (R (G e w o (Inactive :: Active :: S)) false (TElif key :: TNewline :: more_tokens)); [|reflexivity].
    cbn [g_run g_step g_handle g_proc top p_scope]. unfold g_handle_if, g_handle_elif. cbn [g_proc top p_scope].
    rewrite (expand_here e w o (Active :: S) key v e3 P3 HA), (expand_here e w o (Inactive :: Active :: S) key v e3 P3 HA).
    destruct (truth v); reflexivity.
  - intros e _ _ w o S rest. cbn [btokens app]. now rewrite !app_nil_r.
  - intros e ind key body more v e1 calls e2 out HA HV HB IH (P1 & P2 & P3 & P4 & P5) (-> & U1 & U2) w o S rest. cbn [btokens]. rewrite <- !app_assoc.
    transitivity (R (G e1 (w ++ [(key, [], ([], 0%nat))]) o (Active :: Active :: S)) false (ttokens body ++ btokens more ++ [TText []; TEndif; TNewline] ++ rest)).
    { cbn [app g_run g_step g_handle g_proc top p_scope]. unfold g_handle_elif. cbn [g_proc top p_scope].
      rewrite (expand_here e w o (Inactive :: Active :: S) key v e1 P3 HA), (truthy_truth v HV). reflexivity. }
    rewrite (IH P4 U1). rewrite close_tmpl by exact U2. now rewrite <- app_assoc.
  - intros e ind key body more v e1 calls e2 out HA HV HB IH (P1 & P2 & P3 & P4 & P5) (-> & U1 & U2) w o S rest. cbn [btokens]. rewrite <- !app_assoc.
    transitivity (R (G e1 (w ++ [(key, [], ([], 0%nat))]) o (Inactive :: Active :: S)) false (ttokens body ++ btokens more ++ [TText []; TEndif; TNewline] ++ rest)).
    { cbn [app g_run g_step g_handle g_proc top p_scope]. unfold g_handle_elif. cbn [g_proc top p_scope].
      rewrite (expand_here e w o (Inactive :: Active :: S) key v e1 P3 HA), (falsy_truth v HV). reflexivity. }
    rewrite ST by discriminate. rewrite (IH P5 U2). now rewrite <- app_assoc.
  - intros e ind body calls e1 out HB IH (P1 & P2) (-> & U) w o S rest. cbn [btokens]. rewrite <- !app_assoc.
    transitivity (R (G e w o (Active :: Active :: S)) false (ttokens body ++ [TText []; TEndif; TNewline] ++ rest)); [reflexivity|].
    rewrite (IH P2 U). reflexivity.
Qed.
End B.
Lemma p_c129_blocks {E : Type} (X : expander E) e t calls e' out : BlockCalls X e t calls e' out -> plain_tmpl t -> unindented t -> t <> t_end ->
  g_make_lines (watched X) (lines_text (tmpl_lines t)) (e, []) = Some (out, (e', calls)).
Proof.
  intros H HP HU HN. unfold g_make_lines. rewrite (tokenize_whole t HP HN). destruct (run_blocks X) as [K _].
  specialize (K e t calls e' out H HP HU [] [] [] []). rewrite app_nil_r in K. rewrite K. reflexivity.
Qed.
