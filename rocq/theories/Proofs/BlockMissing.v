(** C122: conditions that are not in the dictionary, and every value in blocks. *)
From Coq Require Import String.
From Verif Require Import Base Model.PyText Model.Codegen Spec.Template Spec.Blocks Proofs.CodegenLemmas Proofs.BlockLemmas Proofs.ListsLemmas.
From Coq Require Import ZifyBool ZifyNat ZifyN.
Local Notation "'#' s" := (list_byte_of_string s%string) (at level 5, only parsing).

Lemma p_c122_every d c t out : plain_tmpl t -> unindented t -> Forall (tells d c) (asked c t) -> chosen c t <> [] -> filled_in d 0 (chosen c t) out ->
  make_lines (lines_text (tmpl_lines t)) d = Some out.
Proof. intros HP HU HA HN HE. rewrite (p_c122_unindented d c t HP HU HA HN). now apply p_c118_every; [|apply chosen_plain|]. Qed.
Lemma p_c122_every_indented d c none t out : plain_tmpl t -> t <> t_end -> Forall (tells d c) (asked c t) -> nothing d none -> plain_key none ->
  filled_in d 0 (chosen_with none c t) out -> make_lines (lines_text (tmpl_lines t)) d = Some out.
Proof.
  intros HP HN HA Hno Pno HE. rewrite (p_c122_blocks d c none t HP HN HA Hno Pno).
  apply p_c118_every; [destruct t; [congruence|discriminate..]|now apply chosen_with_plain|exact HE].
Qed.

Section Missing.
Context (d : dict) (c : str -> bool).
(** [ts] fails or ends where a line may begin, in the scope [S]. *)
Definition good (p : processor) (ts : list token) (S : list scope_state) : Prop :=
  match runi p false ts with None => True | Some (q, i) => i = false /\ p_cur q = [] /\ p_dict q = d /\ p_scope q = S end.
Lemma sim_good p ts ls S : Sim d p ts ls S -> good p ts S.
Proof.
  unfold Sim, good. destruct (runi (resc [Active] p) false (flat_map tokens_of ls)) as [[q i]|]; [|now intros ->]. intros (_ & H1 & H2 & ->). auto.
Qed.
Lemma good_app p ts1 S ts2 S2 : good p ts1 S -> (forall q, p_scope q = S -> p_cur q = [] -> p_dict q = d -> good q ts2 S2) -> good p (ts1 ++ ts2) S2.
Proof.
  unfold good. rewrite runi_app. intros H1 H2. destruct (runi p false ts1) as [[q i]|]; [|exact I]. destruct H1 as (-> & A & B & C). now apply H2.
Qed.
Lemma good_fail p ts1 S ts2 : good p ts1 S -> (forall q, p_scope q = S -> p_cur q = [] -> p_dict q = d -> runi q false ts2 = None) -> runi p false (ts1 ++ ts2) = None.
Proof.
  unfold good. rewrite runi_app. intros H1 H2. destruct (runi p false ts1) as [[q i]|]; [|reflexivity]. destruct H1 as (-> & A & B & C). now apply H2.
Qed.
Lemma fail_app p ts1 ts2 : runi p false ts1 = None -> runi p false (ts1 ++ ts2) = None.
Proof. intros H. now rewrite runi_app, H. Qed.
Lemma step_blanks p ind S : indent ind -> p_scope p = Active :: S -> step p false (TText ind) = Some (add_text p ind, false).
Proof. intros HI HS. unfold step, handle, top. now rewrite HS. Qed.
Lemma good_marker ind t p S S2 : indent ind -> p_scope p = Active :: S -> p_cur p = [] -> p_dict p = d ->
  (forall q, p_scope q = Active :: S -> p_dict q = d -> handle q t = Some (resc S2 q, blank q)) -> t <> TNewline -> good p [TText ind; t; TNewline] S2.
Proof.
  intros HI HS HC HD HH Ht. unfold good. destruct p as [d' lines cur col sc al]. cbn [p_scope p_cur p_dict p_lines p_column p_align] in *. subst.
  cbn [runi]. rewrite (step_blanks _ ind S) by (auto). rewrite add_text_plain by now apply indent_newline. cbn [app].
  assert (step (Proc d lines ind (col + length ind) (Active :: S) al) false t = handle (Proc d lines ind (col + length ind) (Active :: S) al) t) as -> by reflexivity.
  rewrite HH by reflexivity. unfold resc. cbn [p_scope p_cur p_dict p_lines p_column p_align].
  assert (forall S, blank (Proc d lines ind (col + length ind) S al) = true) as HBl.
  { intros S'. unfold blank, is_empty_or_space, py_isspace. cbn [p_cur]. destruct ind; [reflexivity|]. now apply indent_space. }
  rewrite HBl. cbn [step]. rewrite HBl. auto.
Qed.
Lemma fail_marker ind t p S : indent ind -> p_scope p = Active :: S -> p_dict p = d ->
  (forall q, p_scope q = Active :: S -> p_dict q = d -> handle q t = None) -> runi p false [TText ind; t; TNewline] = None.
Proof.
  intros HI HS HD HH. destruct p as [d' lines cur col sc al]. cbn [p_scope p_dict] in HS, HD. subst. cbn [runi]. rewrite (step_blanks _ ind S) by auto.
  rewrite add_text_plain by now apply indent_newline. unfold step. rewrite HH; reflexivity.
Qed.
Lemma good_close more ind2 p S : plain_branches more -> indent ind2 -> p_scope p = Active :: Active :: S -> p_cur p = [] -> p_dict p = d ->
  good p (btokens more ++ [TText ind2; TEndif; TNewline]) (Active :: S).
Proof.
  intros HP HI HS HC HD.
  assert (E : forall q, p_scope q = Done :: Active :: S -> p_cur q = [] -> p_dict q = d -> good q [TText ind2; TEndif; TNewline] (Active :: S)).
  { intros q H1 H2 H3. apply (sim_good _ _ []). apply sim_skipped with Done (Active :: S); auto; try discriminate. left. clear - H1 H2. pdone q. }
  destruct more as [|ind key body more|ind body]; cbn [btokens].
  - cbn [app]. apply good_marker with (Active :: S); auto; [|discriminate]. intros q H1 H2. cbn [handle]. unfold handle_endif. rewrite H1. reflexivity.
  - destruct HP as (H1 & _ & HK & H4 & H5). rewrite <- !app_assoc. apply good_app with (Done :: Active :: S).
    { apply good_marker with (Active :: S); auto; [|discriminate]. intros q K1 K2. unfold handle, top. rewrite K1. unfold handle_elif, top. rewrite K1. cbn [and_ignore set_top]. unfold set_top. rewrite K1. reflexivity. }
    intros q K1 K2 K3. apply good_app with (Done :: Active :: S); [apply (sim_good _ _ []), skip_all; auto; discriminate|]. intros q2 L1 L2 L3.
    apply good_app with (Done :: Active :: S); [now apply (sim_good _ _ []), skip_all|exact E].
  - destruct HP as (H1 & H2). rewrite <- !app_assoc. apply good_app with (Done :: Active :: S).
    { apply good_marker with (Active :: S); auto; [|discriminate]. intros q K1 K2. unfold handle, top. rewrite K1. unfold handle_else, top. rewrite K1. cbn [and_ignore set_top]. unfold set_top. rewrite K1. reflexivity. }
    intros q K1 K2 K3. apply good_app with (Done :: Active :: S); [apply (sim_good _ _ []), skip_all; auto; discriminate|exact E].
Qed.
Lemma truth_told p k : Forall key_char k -> p_dict p = d -> tells d c k -> exists v, expand p k = Some v /\ truth v = c k.
Proof. apply (tells_truth d (fun _ => []) (fun _ => False) c); contradiction. Qed.
Lemma good_if ind key p S : indent ind -> Forall key_char key -> tells d c key -> p_scope p = Active :: S -> p_cur p = [] -> p_dict p = d ->
  good p [TText ind; TIf key; TNewline] ((if c key then Active else Inactive) :: Active :: S).
Proof.
  intros HI HK HT HS HC HD. apply good_marker with S; auto; [|discriminate]. intros q K1 K2. cbn [handle]. unfold handle_if, top. rewrite K1.
  destruct (truth_told q key HK K2 HT) as (v & -> & ->). reflexivity.
Qed.
Lemma good_elif ind key p S : Forall key_char key -> tells d c key -> p_scope p = Inactive :: Active :: S -> p_cur p = [] -> p_dict p = d ->
  good p [TText ind; TElif key; TNewline] ((if c key then Active else Inactive) :: Active :: S).
Proof.
  intros HK Hk HS HC HD. apply (sim_good _ _ []). apply sim_skipped with Inactive (Active :: S); auto; try discriminate.
  destruct (truth_told p key HK HD Hk) as (v & Ev & Et).
  left. unfold handle, top. rewrite HS. unfold handle_elif, top. rewrite HS. rewrite Ev, Et.
  destruct (c key); cbn [and_ignore]; unfold blank, set_top; cbn [p_cur]; rewrite HC, ?HS; [unfold resc; rewrite HC; reflexivity|]. rewrite <- HS, resc_self. reflexivity.
Qed.
Lemma good_else ind p S : p_scope p = Inactive :: Active :: S -> p_cur p = [] -> p_dict p = d -> good p [TText ind; TElse; TNewline] (Active :: Active :: S).
Proof.
  intros HS HC HD. apply (sim_good _ _ []). apply sim_skipped with Inactive (Active :: S); auto; try discriminate. left. unfold handle, top. rewrite HS. unfold handle_else, top. rewrite HS.
  clear - HS HC. pdone p.
Qed.
Lemma good_skip t p S : p_scope p = Inactive :: S -> p_cur p = [] -> p_dict p = d -> good p (ttokens t) (Inactive :: S).
Proof. intros. apply (sim_good _ _ []), skip_all; auto; discriminate. Qed.
Lemma good_all : (forall t p S, plain_tmpl t -> Forall (tells d c) (asked c t) -> p_scope p = Active :: S -> p_cur p = [] -> p_dict p = d -> good p (ttokens t) (Active :: S)) /\
  (forall b ind2 p S, plain_branches b -> indent ind2 -> Forall (tells d c) (asked_branch c b) -> p_scope p = Inactive :: Active :: S -> p_cur p = [] -> p_dict p = d ->
    good p (btokens b ++ [TText ind2; TEndif; TNewline]) (Active :: S)).
Proof.
  apply tmpl_branches_ind.
  - intros p S _ _ HS HC HD. cbn [ttokens]. unfold good. cbn [runi]. auto.
  - intros l rest IH p S [H1 H2] HA HS HC HD. cbn [ttokens asked] in *. apply good_app with (Active :: S); [now apply (sim_good _ _ [l]), sim_line|]. intros q K1 K2 K3. now apply IH.
  - intros ind key body IH1 more IH2 ind2 rest IH3 p S (H1 & H2 & H3 & H4 & H5 & H6 & H7) HA HS HC HD. cbn [ttokens asked] in *.
    apply Forall_cons_iff in HA as [Hk HA]. apply Forall_app in HA as [HA1 HA2]. apply good_app with (1 := good_if ind key p S H1 H3 Hk HS HC HD).
    intros q K1 K2 K3. rewrite (app_assoc (btokens more)). destruct (c key).
    + apply good_app with (Active :: Active :: S); [now apply IH1|]. intros q2 L1 L2 L3. apply good_app with (Active :: S); [now apply good_close|]. intros q3 M1 M2 M3. now apply IH3.
    + apply good_app with (Inactive :: Active :: S); [now apply good_skip|]. intros q2 L1 L2 L3. apply good_app with (Active :: S); [now apply IH2|]. intros q3 M1 M2 M3. now apply IH3.
  - intros ind2 p S _ HI _ HS HC HD. cbn [btokens app]. apply (sim_good _ _ []). apply sim_skipped with Inactive (Active :: S); auto; try discriminate. left. clear - HS HC. pdone p.
  - intros ind key body IH1 more IH2 ind2 p S (H1 & H2 & H3 & H4 & H5) HI HA HS HC HD. cbn [btokens asked_branch] in *.
    apply Forall_cons_iff in HA as [Hk HA]. rewrite <- !app_assoc. apply good_app with (1 := good_elif ind key p S H3 Hk HS HC HD). intros q K1 K2 K3. destruct (c key).
    + apply good_app with (Active :: Active :: S); [now apply IH1|]. intros q2 L1 L2 L3. now apply good_close.
    + apply good_app with (Inactive :: Active :: S); [now apply good_skip|]. intros q2 L1 L2 L3. now apply IH2.
  - intros ind body IH ind2 p S (H1 & H2) HI HA HS HC HD. cbn [btokens asked_branch] in *. rewrite <- !app_assoc. apply good_app with (1 := good_else ind p S HS HC HD).
    intros q K1 K2 K3. apply good_app with (Active :: Active :: S); [now apply IH|]. intros q2 L1 L2 L3. exact (good_close b_end ind2 q2 S I HI L1 L2 L3).
Qed.
Lemma split_where_asked (l1 l2 a b : list str) k : l1 ++ l2 = a ++ k :: b -> (exists b', l1 = a ++ k :: b') \/ (exists a', a = l1 ++ a' /\ l2 = a' ++ k :: b).
Proof.
  revert a. induction l1 as [|x l1 IH]; intros a E; cbn [app] in E; [right; exists a; split; [reflexivity|exact E]|]. destruct a as [|y a]; cbn [app] in E.
  - injection E as -> E. left. now exists l1.
  - injection E as -> E. destruct (IH a E) as [(b' & ->)|(a' & -> & ->)]; [left; now exists b'|right; now exists a'].
Qed.
Lemma no_expand k p : Forall key_char k -> (forall v, ~ In (k, v) d) -> p_dict p = d -> expand p k = None.
Proof.
  intros HK HM HD. unfold expand. rewrite split1_absent by (apply key_not; [exact HK|not_key]). rewrite HD. clear HD p.
  unfold dict_get. destruct (find (fun p => str_eqb (fst p) k) d) as [[k' v]|] eqn:E; [|reflexivity]. apply find_some in E as [E1 E2]. cbn [fst] in E2.
  apply str_eqb_true in E2. subst. now destruct (HM v).
Qed.
Lemma fail_all k : (forall v, ~ In (k, v) d) ->
  (forall t p S a b, plain_tmpl t -> asked c t = a ++ k :: b -> Forall (tells d c) a -> p_scope p = Active :: S -> p_cur p = [] -> p_dict p = d -> runi p false (ttokens t) = None) /\
  (forall br p S a b, plain_branches br -> asked_branch c br = a ++ k :: b -> Forall (tells d c) a -> p_scope p = Inactive :: Active :: S -> p_cur p = [] -> p_dict p = d ->
    runi p false (btokens br) = None).
Proof.
  intros HM. apply tmpl_branches_ind.
  - intros p S a b _ E. destruct a; discriminate.
  - intros l rest IH p S a b [H1 H2] E HA HS HC HD. cbn [ttokens asked] in *. apply good_fail with (Active :: S); [now apply (sim_good _ _ [l]), sim_line|]. intros q K1 K2 K3. now apply (IH q S a b).
  - intros ind key body IH1 more IH2 ind2 rest IH3 p S a b HP E HA HS HC HD. pose proof HP as (H1 & H2 & H3 & H4 & H5 & H6 & H7). cbn [ttokens asked] in *.
    destruct a as [|x a]; cbn [app] in E; injection E as <- E.
    { apply fail_app. apply fail_marker with S; auto. intros q K1 K2. cbn [handle]. unfold handle_if, top. rewrite K1. now rewrite (no_expand key q). }
    apply Forall_cons_iff in HA as [Hk HA]. destruct (split_where_asked _ _ _ _ _ E) as [(b' & Eb)|(a' & -> & Er)].
    + apply good_fail with (1 := good_if ind key p S H1 H3 Hk HS HC HD). intros q K1 K2 K3. destruct (c key).
      * apply fail_app. now apply (IH1 q (Active :: S) a b').
      * apply good_fail with (Inactive :: Active :: S); [now apply good_skip|]. intros q2 L1 L2 L3. apply fail_app. now apply (IH2 q2 S a b').
    + apply Forall_app in HA as [HA1 HA2].
      change (TText ind :: TIf key :: TNewline :: nil) with ([TText ind; TIf key; TNewline]).
      assert (good p (ttokens (t_if ind key body more ind2 t_end)) (Active :: S)) as G.
      { apply (proj1 good_all); auto; [cbn; tauto|]. cbn [asked]. constructor; [exact Hk|]. now rewrite app_nil_r. }
      cbn [ttokens] in G. rewrite app_nil_r in G.
      match goal with |- runi p false ?T = None => match type of G with good p ?T1 _ => replace T with (T1 ++ ttokens rest) by (cbn [app]; rewrite <- ?app_assoc; reflexivity) end end.
      apply good_fail with (1 := G). intros q K1 K2 K3. now apply (IH3 q S a' b).
  - intros p S a b _ E. destruct a; discriminate.
  - intros ind key body IH1 more IH2 p S a b (H1 & H2 & H3 & H4 & H5) E HA HS HC HD. cbn [btokens asked_branch] in *.
    destruct a as [|x a]; cbn [app] in E; injection E as <- E.
    { apply fail_app. cbn [runi]. assert (step p false (TText ind) = Some (p, false)) as -> by (unfold step, handle, top; now rewrite HS).
      unfold step, handle, top. rewrite HS. unfold handle_elif, top. rewrite HS. now rewrite (no_expand key p). }
    apply Forall_cons_iff in HA as [Hk HA]. apply good_fail with (1 := good_elif ind key p S H3 Hk HS HC HD). intros q K1 K2 K3. destruct (c key).
    + apply fail_app. now apply (IH1 q (Active :: S) a b).
    + apply good_fail with (Inactive :: Active :: S); [now apply good_skip|]. intros q2 L1 L2 L3. now apply (IH2 q2 S a b).
  - intros ind body IH p S a b (H1 & H2) E HA HS HC HD. cbn [btokens asked_branch] in *. apply good_fail with (1 := good_else ind p S HS HC HD).
    intros q K1 K2 K3. now apply (IH q (Active :: S) a b).
Qed.
End Missing.
Lemma p_c122_missing d c t a k b : plain_tmpl t -> asked c t = a ++ k :: b -> Forall (tells d c) a -> (forall v, ~ In (k, v) d) ->
  make_lines (lines_text (tmpl_lines t)) d = None.
Proof.
  intros HP E HA HM. assert (t <> t_end) as HN by (intros ->; destruct a; discriminate). rewrite (make_lines_runi _ d _ (tokenize_whole t HP HN)).
  rewrite (proj1 (fail_all d c k HM) t _ [] a b); auto.
Qed.
