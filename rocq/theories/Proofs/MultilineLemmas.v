(** C118: values with line feeds *)
From Coq Require Import String.
From Verif Require Import Base Model.PyText Model.Codegen Spec.Template Proofs.CodegenLemmas.
From Coq Require Import ZifyBool ZifyNat ZifyN.
Local Notation "'#' s" := (list_byte_of_string s%string) (at level 5, only parsing).

Definition flat (l : list str) : str := concat (map (fun x => x ++ [x0a]) l).
Lemma flat_app a b : flat (a ++ b) = flat a ++ flat b.
Proof. unfold flat. now rewrite map_app, concat_app. Qed.
Lemma flat_lines l : l <> [] -> flat l = lines_text l ++ [x0a].
Proof.
  induction l as [|x l IH]; intros H; [congruence|]. destruct l as [|y l]; [cbn; now rewrite app_nil_r|].
  change (flat (x :: y :: l)) with ((x ++ [x0a]) ++ flat (y :: l)). rewrite IH by discriminate.
  change (lines_text (x :: y :: l)) with (x ++ [x0a] ++ lines_text (y :: l)). now rewrite <- !app_assoc.
Qed.
Lemma rcut_spec t : match py_rcut_newline t with Some (a, b) => t = a ++ x0a :: b /\ ~ In x0a b | None => ~ In x0a t end.
Proof.
  induction t as [|c t IH]; [intros []|]. cbn [py_rcut_newline]. destruct (py_rcut_newline t) as [[a b]|].
  - destruct IH as [-> H]. split; [reflexivity|exact H].
  - destruct (byte_eqb c x0a) eqn:E.
    + apply byte_eqb_true in E. subst. split; [reflexivity|exact IH].
    + apply byte_eqb_false in E. intros [H|H]; [congruence|contradiction].
Qed.
Lemma add_text_flat d out cur col t : ~ In x0a cur -> exists extra cur' col',
  add_text (Proc d out cur col [Active] []) t = Proc d (out ++ extra) cur' col' [Active] [] /\ flat extra ++ cur' = cur ++ t /\ ~ In x0a cur'.
Proof.
  intros H. unfold add_text. pose proof (rcut_spec t) as HR. destruct (py_rcut_newline t) as [[a b]|].
  - destruct HR as [-> Hb]. exists [cur ++ a], b. eexists. split; [reflexivity|]. split; [|exact Hb].
    unfold flat. cbn [map concat]. rewrite app_nil_r, <- !app_assoc. reflexivity.
  - exists [], (cur ++ t). eexists. cbn [p_dict p_lines p_cur p_column p_scope p_align]. rewrite app_nil_r. split; [reflexivity|]. split; [reflexivity|].
    intros Hi. apply in_app_or in Hi as [Hi|Hi]; contradiction.
Qed.
Lemma run_values d ps ts : Forall2 (fun p t => value_text d (snd p) t) ps ts -> forall out tail cur col rest, plain_tline (ps, tail) -> ~ In x0a cur ->
  exists extra cur', run (Proc d out cur col [Active] []) false (tokens_of (ps, tail) ++ rest) =
    run (Proc d ((out ++ extra) ++ [py_rstrip cur']) [] 0 [Active] []) false rest /\
  flat extra ++ cur' = cur ++ concat (map (fun q => fst (fst q) ++ snd q) (combine ps ts)) ++ tail /\ ~ In x0a cur'.
Proof.
  induction 1 as [|[t k] v ps ts HB H IH]; intros out tail cur col rest [HP [HT1 HT2]] Hc; cbn [fst snd] in *.
  - exists [], (cur ++ tail). unfold tokens_of. cbn [fst snd flat_map app combine map concat]. rewrite app_nil_r. split.
    + destruct tail as [|c tail].
      * cbn [app run step handle]. unfold handle_newline. cbn [top p_scope p_dict p_lines p_cur p_align]. now rewrite app_nil_r.
      * cbn [app run step handle top p_scope]. rewrite add_text_plain by exact HT1. unfold handle_newline. cbn [top p_scope p_dict p_lines p_cur p_align]. reflexivity.
    + split; [reflexivity|]. intros Hi. apply in_app_or in Hi as [Hi|Hi]; contradiction.
  - apply Forall_cons_iff in HP as [(A1 & A2 & A3 & A4) HP']. cbn [fst snd] in *.
    change (tokens_of ((t, k) :: ps, tail)) with (TText t :: TExpand k :: tokens_of (ps, tail)).
    cbn [app run step handle top p_scope]. rewrite add_text_plain by exact A1. cbn [step handle top p_scope].
    assert (~ In x0a (cur ++ t)) as Hct by (intros Hi; apply in_app_or in Hi as [Hi|Hi]; contradiction).
    destruct (add_text_flat d out (cur ++ t) (col + length t) v Hct) as (e1 & c1 & n1 & E1 & F1 & G1).
    assert (handle_expand (Proc d out (cur ++ t) (col + length t) [Active] []) k = Some (Proc d (out ++ e1) c1 n1 [Active] [], true)) as ->.
    { unfold handle_expand. destruct HB as [HB|[Hn HB]]; rewrite (expand_get d _ _ _ _ _ k _ A4 HB); [|destruct v; [congruence|]]; now rewrite E1. }
    cbn [negb andb]. destruct (IH (out ++ e1) tail c1 n1 rest) as (e2 & c2 & E2 & F2 & G2); [split; [exact HP'|split; assumption]|exact G1|].
    exists (e1 ++ e2), c2. split; [rewrite E2; now rewrite <- !app_assoc|]. split; [|exact G2].
    rewrite flat_app, <- app_assoc, F2. rewrite app_assoc, F1. cbn [combine map concat fst snd]. now rewrite <- !app_assoc.
Qed.
Lemma flat_ends l : flat l = [] \/ exists a, flat l = a ++ [x0a].
Proof.
  induction l as [|x l IH]; [now left|]. right. change (flat (x :: l)) with ((x ++ [x0a]) ++ flat l). destruct IH as [-> |[a ->]].
  - rewrite app_nil_r. now exists x.
  - exists ((x ++ [x0a]) ++ a). now rewrite app_assoc.
Qed.
Lemma cut_unique (a b a2 b2 : str) : (a = [] \/ exists a', a = a' ++ [x0a]) -> (a2 = [] \/ exists a', a2 = a' ++ [x0a]) -> ~ In x0a b -> ~ In x0a b2 -> a ++ b = a2 ++ b2 -> a = a2 /\ b = b2.
Proof.
  intros Ha Ha2 Hb Hb2 E.
  assert (K : forall (a b a2 b2 : str) w, (a2 = [] \/ exists a', a2 = a' ++ [x0a]) -> ~ In x0a b -> a2 = a ++ w -> b = w ++ b2 -> w = []).
  { clear. intros a b a2 b2 w Ha2 Hb E1 E2. destruct w as [|c w _] using rev_ind; [reflexivity|]. exfalso. destruct Ha2 as [-> |[a' ->]].
    - rewrite app_assoc in E1. symmetry in E1. now apply app_eq_nil in E1 as [_ E1].
    - rewrite app_assoc in E1. apply app_inj_tail in E1 as [_ <-]. apply Hb. rewrite E2. rewrite <- app_assoc. apply in_or_app. right. now left. }
  apply app_eq_app in E as (w & [[E1 E2]|[E1 E2]]).
  - assert (w = []) by (apply (K a2 b2 a b w); assumption). subst w. cbn in E2. rewrite app_nil_r in E1. auto.
  - assert (w = []) by (apply (K a b a2 b2 w); assumption). subst w. cbn in E2. rewrite app_nil_r in E1. auto.
Qed.
Lemma p_c118_values d lines outs : lines <> [] -> Forall plain_tline lines ->
  Forall2 (fun l o => exists ts, Forall2 (fun p t => value_text d (snd p) t) (fst l) ts /\
    stripped_last (concat (map (fun q => fst (fst q) ++ snd q) (combine (fst l) ts)) ++ snd l) o) lines outs ->
  make_text (lines_text (map tline_text lines)) d = Some (lines_text outs).
Proof.
  intros HN HP HE. unfold make_text, make_lines. rewrite tokenize_all by assumption.
  assert (K : forall out, exists out', run (Proc d out [] 0 [Active] []) false (flat_map tokens_of lines) = Some (Proc d (out ++ out') [] 0 [Active] []) /\
    flat out' = flat outs /\ (outs = [] <-> out' = [])).
  { clear HN. induction HE as [|[ps tail] o lines outs (ts & HV & HS) HE IH]; intros out.
    - exists []. cbn. rewrite app_nil_r. repeat split; auto.
    - apply Forall_cons_iff in HP as [HP1 HP2]. cbn [flat_map fst snd] in *.
      destruct (run_values d ps ts HV out tail [] 0%nat (flat_map tokens_of lines) HP1 ltac:(intros [])) as (extra & cur & E & F & G).
      destruct (IH HP2 ((out ++ extra) ++ [py_rstrip cur])) as (out' & E2 & F2 & _). exists (extra ++ [py_rstrip cur] ++ out').
      split; [etransitivity; [exact E|]; etransitivity; [exact E2|]; now rewrite <- !app_assoc|]. split; [|split; [discriminate|intros K; destruct extra; discriminate]].
      destruct HS as (a & b & b' & Ha & Eab & Hb & HS & ->). cbn [app] in F. assert (flat extra ++ cur = a ++ b) as F' by (etransitivity; [exact F|exact Eab]).
      destruct (cut_unique _ _ _ _ (flat_ends extra) Ha G Hb F') as [<- <-]. apply stripped_fun in HS. subst b'.
      rewrite !flat_app, F2. change (flat ((flat extra ++ py_rstrip cur) :: outs)) with (((flat extra ++ py_rstrip cur) ++ [x0a]) ++ flat outs).
      unfold flat at 2. cbn [map concat]. now rewrite app_nil_r, <- !app_assoc. }
  destruct (K []) as (out' & -> & F & HO). cbn [app p_scope p_lines]. f_equal. rewrite lines_text_join.
  assert (outs <> []) as HOn by (clear - HN HE; destruct lines; [now destruct HN|]; destruct outs; [inversion HE|discriminate]).
  assert (out' <> []) as HOn' by (intros E; apply HOn; now apply HO).
  rewrite !flat_lines in F by assumption. now apply app_inv_tail in F.
Qed.
