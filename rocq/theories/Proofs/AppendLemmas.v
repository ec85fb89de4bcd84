(** C122: templates put together. *)
From Coq Require Import String.
From Verif Require Import Base Model.PyText Model.Codegen Spec.Template Spec.Blocks Proofs.CodegenLemmas Proofs.BlockLemmas.
Local Notation "'#' s" := (list_byte_of_string s%string) (at level 5, only parsing).

(** The lines written so far are not read. *)
Definition addp (pre : list str) (p : processor) : processor :=
  Proc (p_dict p) (pre ++ p_lines p) (p_cur p) (p_column p) (p_scope p) (p_align p).
Lemma add_text_addp pre p t : add_text (addp pre p) t = addp pre (add_text p t).
Proof. unfold add_text, addp. destruct (py_rcut_newline t) as [[a b]|]; cbn [p_dict p_lines p_cur p_column p_scope p_align]; rewrite <- ?app_assoc; reflexivity. Qed.
Lemma add_lines_addp pre p l : add_lines (addp pre p) l = addp pre (add_lines p l).
Proof.
  unfold add_lines. destruct l as [|x [|y l]]; [reflexivity..|]. rewrite <- add_text_addp. f_equal.
  unfold addp. cbn [p_dict p_lines p_cur p_column p_scope p_align]. rewrite <- !app_assoc. reflexivity.
Qed.
Lemma top_addp pre p : top (addp pre p) = top p. Proof. reflexivity. Qed.
Definition addo {A} (pre : list str) (o : option (processor * A)) : option (processor * A) :=
  match o with None => None | Some (q, i) => Some (addp pre q, i) end.
Lemma handle_addp pre p t : handle (addp pre p) t = addo pre (handle p t).
Proof.
  assert (EX : forall k, expand (addp pre p) k = expand p k) by reflexivity.
  unfold handle. rewrite top_addp. destruct t as [s| |key|key|key| | |s| | |].
  - destruct (top p); [rewrite add_text_addp; reflexivity|reflexivity..].
  - unfold handle_newline. rewrite top_addp. destruct (top p); [|reflexivity..]. unfold addp. cbn [p_dict p_lines p_cur p_column p_scope p_align addo]. now rewrite <- app_assoc.
  - destruct (top p); [|reflexivity..]. unfold handle_expand. rewrite EX. destruct (expand p key) as [[|[|c s]|[|r l]|s]|]; try reflexivity.
    + now rewrite add_text_addp.
    + now rewrite add_lines_addp.
    + now rewrite add_text_addp.
  - unfold handle_if. cbv zeta. rewrite top_addp. destruct (top p); [rewrite EX; destruct (expand p key)|..]; reflexivity.
  - destruct (top p) eqn:ET; [| |reflexivity]; unfold handle_elif; rewrite top_addp, ET, ?EX; cbn [addp p_scope]; destruct (p_scope p) as [|a [|b l]]; try reflexivity; try (destruct (expand p key) as [v|]; [destruct (truth v)|]; reflexivity).
  - destruct (top p) eqn:ET; [| |reflexivity]; unfold handle_else; rewrite top_addp, ET; cbn [addp p_scope]; destruct (p_scope p) as [|a [|b l]]; reflexivity.
  - unfold handle_endif. cbn [addp p_scope]. destruct (p_scope p) as [|a [|b l]]; reflexivity.
  - destruct (top p); [|reflexivity..]. unfold handle_set. destruct (py_split1 x3d s) as [[|c k] [v|]]; reflexivity.
  - destruct (top p); reflexivity.
  - destruct (top p); [|reflexivity..]. unfold align. cbn [addp p_align]. destruct (p_align p); reflexivity.
  - destruct (top p); [|reflexivity..]. unfold pop_alignment. cbn [addp p_align]. destruct (p_align p); reflexivity.
Qed.
Lemma step_addp pre p ig t : step (addp pre p) ig t = addo pre (step p ig t).
Proof. unfold step. destruct ig; [destruct t|]; try apply handle_addp. reflexivity. Qed.
Lemma runi_addp pre ts : forall p ig, runi (addp pre p) ig ts = addo pre (runi p ig ts).
Proof.
  induction ts as [|t ts IH]; intros p ig; cbn [runi]; [reflexivity|]. rewrite step_addp. destruct (step p ig t) as [[q i]|]; cbn [addo]; [apply IH|reflexivity].
Qed.

(** Without SET and alignment markers the dictionary and the alignments stay. *)
Definition calm (t : token) : Prop := match t with TSet _ | TPush | TAlign | TPop => False | _ => True end.
Lemma add_text_same p t : p_dict (add_text p t) = p_dict p /\ p_align (add_text p t) = p_align p.
Proof. unfold add_text. destruct (py_rcut_newline t) as [[a b]|]; split; reflexivity. Qed.
Lemma add_lines_same p l : p_dict (add_lines p l) = p_dict p /\ p_align (add_lines p l) = p_align p.
Proof.
  unfold add_lines. destruct l as [|x [|y l]]; [split; reflexivity..|].
  match goal with |- context [add_text ?q ?t] => destruct (add_text_same q t) as [-> ->] end. split; reflexivity.
Qed.
Lemma set_top_same p s : p_dict (set_top p s) = p_dict p /\ p_align (set_top p s) = p_align p.
Proof. split; reflexivity. Qed.
Lemma step_calm p ig t q i : calm t -> step p ig t = Some (q, i) -> p_dict q = p_dict p /\ p_align q = p_align p.
Proof.
  intros Ht. assert (handle p t = Some (q, i) -> p_dict q = p_dict p /\ p_align q = p_align p) as K.
  { unfold handle. destruct t as [s| |key|key|key| | |s| | |]; try contradiction.
    - destruct (top p); intros E; apply some_fst in E; subst q; [apply add_text_same|auto..].
    - unfold handle_newline. destruct (top p); intros E; apply some_fst in E; subst q; auto.
    - destruct (top p); [|intros E; apply some_fst in E; subst q; auto..]. unfold handle_expand.
      destruct (expand p key) as [[|[|c s]|[|r l]|s]|]; intros E; try discriminate; apply some_fst in E; subst q; auto using add_text_same, add_lines_same.
    - unfold handle_if. destruct (top p); [destruct (expand p key) as [v|]; [|discriminate]|..]; cbn [and_ignore]; intros E; apply some_fst in E; subst q; auto.
    - unfold handle_elif. destruct (top p) eqn:ET; [| |intros E; apply some_fst in E; subst q; auto];
        (destruct (p_scope p) as [|a [|b l]]; [discriminate..|]); [|destruct (expand p key) as [v|]; [|discriminate]; destruct (truth v)];
        cbn [and_ignore]; intros E; apply some_fst in E; subst q; auto.
    - unfold handle_else. destruct (top p) eqn:ET; [| |intros E; apply some_fst in E; subst q; auto];
        (destruct (p_scope p) as [|a [|b l]]; [discriminate..|]); cbn [and_ignore]; intros E; apply some_fst in E; subst q; auto.
    - unfold handle_endif. destruct (p_scope p) as [|a [|b l]]; try discriminate. cbn [and_ignore]. intros E; apply some_fst in E; subst q; auto. }
  unfold step. destruct ig; [|exact K]. destruct t; try exact K. intros E. apply some_fst in E. subst q. auto.
Qed.
Lemma runi_calm ts : Forall calm ts -> forall p ig q i, runi p ig ts = Some (q, i) -> p_dict q = p_dict p /\ p_align q = p_align p.
Proof.
  induction 1 as [|t ts Ht HT IH]; intros p ig q i E; cbn [runi] in E; [apply some_fst in E; now subst q|].
  destruct (step p ig t) as [[p' i']|] eqn:E'; [|discriminate]. destruct (IH _ _ _ _ E) as [-> ->]. exact (step_calm _ _ _ _ _ Ht E').
Qed.
Lemma mtokens_calm m : Forall calm (mtokens m).
Proof.
  destruct m as [l|ind key|ind key|ind|ind]; cbn [mtokens]; try (repeat constructor).
  eapply Forall_impl; [|apply simple_tokens]. intros [| | | | | | | | | |]; cbn; auto.
Qed.
Lemma split_app a s : py_split x0a (a ++ x0a :: s) = py_split x0a a ++ py_split x0a s.
Proof.
  induction a as [|c a IH]; cbn [app py_split]; [reflexivity|]. destruct (byte_eqb c x0a); [now rewrite IH|]. rewrite IH. destruct (py_split x0a a) as [|x l] eqn:E; [|reflexivity].
  exfalso. clear - E. destruct a as [|b a]; cbn in E; [discriminate|]. destruct (byte_eqb b x0a); [discriminate|]. destruct (py_split x0a a); discriminate.
Qed.
Lemma tokenize_app a s : tokenize (a ++ x0a :: s) = match tokenize a, tokenize s with Some x, Some y => Some (x ++ y) | _, _ => None end.
Proof.
  unfold tokenize. rewrite split_app. induction (py_split x0a a) as [|l ls IH]; cbn [app tokenize_lines].
  - now destruct (tokenize_lines (py_split x0a s)).
  - destruct (tokenize_line _ l); [|reflexivity]. rewrite IH. destruct (tokenize_lines ls), (tokenize_lines (py_split x0a s)); try reflexivity. now rewrite app_assoc.
Qed.
Lemma mtokens_flag m p ig q i : runi p ig (mtokens m) = Some (q, i) -> i = false.
Proof.
  assert (forall ts, runi p ig (ts ++ [TNewline]) = Some (q, i) -> i = false) as K.
  { intros ts E. rewrite runi_app in E. destruct (runi p ig ts) as [[p' i']|]; [|discriminate]. cbn [runi] in E. destruct i'; cbn [step] in E; [|cbn [handle] in E]; injection E as _ <-; reflexivity. }
  destruct m as [l|ind key|ind key|ind|ind]; cbn [mtokens]; [|apply (K [_; _])..]. unfold tokens_of. rewrite app_assoc. apply K.
Qed.
Lemma mlines_flag ms : forall p q i, runi p false (flat_map mtokens ms) = Some (q, i) -> i = false.
Proof.
  induction ms as [|m ms IH]; intros p q i E; cbn [flat_map] in E; [cbn in E; now injection E|]. rewrite runi_app in E.
  destruct (runi p false (mtokens m)) as [[p' i']|] eqn:E1; [|discriminate]. apply mtokens_flag in E1 as ->. exact (IH _ _ _ E).
Qed.
Lemma p_c122_append ms tail d out s : Forall plain_mline ms -> ~ In x0a tail -> no_marker tail ->
  make_lines (lines_text (map mline_text ms ++ [tail])) d = Some out ->
  make_lines (lines_text (map mline_text ms ++ [tail]) ++ x0a :: s) d = option_map (app out) (make_lines s d).
Proof.
  intros HP HT1 HT2 E. replace (map mline_text ms ++ [tail]) with (map mline_text (ms ++ [m_line ([], tail)])) in * by (rewrite map_app; reflexivity).
  assert (Forall plain_mline (ms ++ [m_line ([], tail)])) as HP' by (apply Forall_app; split; [exact HP|]; repeat constructor; auto).
  assert (tokenize (lines_text (map mline_text (ms ++ [m_line ([], tail)]))) = Some (flat_map mtokens (ms ++ [m_line ([], tail)]))) as ET by (apply tokenize_mlines; [now destruct ms|exact HP']).
  rewrite (make_lines_runi _ d _ ET) in E. unfold make_lines at 1. rewrite tokenize_app, ET. unfold make_lines.
  destruct (tokenize s) as [ts|]; [|reflexivity]. rewrite !run_runi, runi_app. unfold result in E.
  rewrite flat_map_app, runi_app in *. destruct (runi _ false (flat_map mtokens ms)) as [[q i]|] eqn:E1; [|discriminate].
  assert (i = false) as -> by exact (mlines_flag _ _ _ _ E1).
  assert (p_dict q = d /\ p_align q = []) as [HD HA].
  { apply runi_calm in E1; [exact E1|]. apply Forall_flat_map. apply Forall_forall. intros m _. apply mtokens_calm. }
  assert (good q) as HG.
  { clear - E1. assert (forall ms p ig q i, good p -> runi p ig (flat_map mtokens ms) = Some (q, i) -> good q) as K.
    { clear. induction ms as [|m ms IH]; intros p ig q i HG E; cbn [flat_map] in E; [cbn in E; apply some_fst in E; now subst q|].
      rewrite runi_app in E. destruct (runi p ig (mtokens m)) as [[p' i']|] eqn:E1; [|discriminate]. apply (IH _ _ _ _ (proj2 (proj2 (mline_depth _ _ _ _ _ E1 HG))) E). }
    refine (K _ _ _ _ _ _ E1). now exists []. }
  cbn [flat_map mtokens] in *. rewrite app_nil_r in *.
  destruct (runi q false (tokens_of ([], tail))) as [[r j]|] eqn:E2; [|discriminate]. cbn [option_map fst] in E.
  pose proof (runi_simple_scope _ (simple_tokens _) _ _ _ _ E2) as ES.
  assert (p_scope q = [Active]) as HS.
  { destruct HG as [s' HS]. rewrite ES, HS in E. destruct s' as [|x s']; [exact HS|]. cbn [app] in E. destruct (s' ++ [Active]) as [|y l] eqn:K; [destruct s'; discriminate|]. discriminate. }
  rewrite ES, HS in E. injection E as <-.
  assert (r = addp (p_lines r) (Proc d [] [] 0 [Active] []) /\ j = false) as [-> ->].
  { destruct q as [dq lq cq colq sq aq]. cbn in HD, HA, HS. subst dq aq sq. unfold tokens_of in E2. cbn [fst snd flat_map app] in E2. destruct tail as [|c tail].
    - cbn in E2. injection E2 as <- <-. unfold addp. cbn. now rewrite app_nil_r.
    - cbn [app runi step handle top p_scope] in E2. rewrite add_text_plain in E2 by exact HT1. cbn in E2. injection E2 as <- <-. unfold addp. cbn. now rewrite app_nil_r. }
  rewrite runi_addp. destruct (runi (Proc d [] [] 0 [Active] []) false ts) as [[r' i]|]; [|reflexivity]. cbn [addo option_map fst addp p_scope p_lines app].
  destruct (p_scope r') as [|a [|b l]]; [reflexivity| |reflexivity]. cbn [option_map]. now rewrite app_nil_r.
Qed.
Lemma lines_text_app (a b : list str) : a <> [] -> b <> [] -> lines_text (a ++ b) = lines_text a ++ x0a :: lines_text b.
Proof.
  intros Ha Hb. induction a as [|x a IH]; [congruence|]. destruct a as [|y a].
  - cbn [app]. destruct b; [congruence|]. reflexivity.
  - specialize (IH ltac:(discriminate)). change (lines_text ((x :: y :: a) ++ b)) with (x ++ [x0a] ++ lines_text ((y :: a) ++ b)). rewrite IH.
    change (lines_text (x :: y :: a)) with (x ++ [x0a] ++ lines_text (y :: a)). now rewrite <- !app_assoc.
Qed.
Lemma p_c122_set_later ms tail d out k v s : Forall plain_mline ms -> ~ In x0a tail -> no_marker tail ->
  make_lines (lines_text (map mline_text ms ++ [tail])) d = Some out -> k <> [] -> Forall key_char k -> ~ In x5d v -> ~ In x0a v ->
  make_lines (lines_text (map mline_text ms ++ [tail; #"[[[SET " ++ k ++ #"=" ++ v ++ #"]]]"; s])) d = option_map (app out) (make_lines s ((k, VStr v) :: d)).
Proof.
  intros HP HT1 HT2 E H1 H2 H3 H4.
  replace (map mline_text ms ++ [tail; #"[[[SET " ++ k ++ #"=" ++ v ++ #"]]]"; s]) with ((map mline_text ms ++ [tail]) ++ [#"[[[SET " ++ k ++ #"=" ++ v ++ #"]]]"; s]) by now rewrite <- app_assoc.
  rewrite lines_text_app; [|destruct ms; discriminate|discriminate]. rewrite (p_c122_append _ _ _ _ _ HP HT1 HT2 E).
  rewrite <- p_c122_set by assumption. do 2 f_equal. cbn [lines_text]. now rewrite <- !app_assoc.
Qed.

(** ** Alignment of any number of lines *)
Lemma run_text_newline dd out cur col a T ts : ~ In x0a T -> run (Proc dd out cur col [Active] a) false ((match T with [] => [] | _ => [TText T] end) ++ TNewline :: ts)
    = run (Proc dd (out ++ [py_rstrip (cur ++ T)]) [] 0 [Active] a) false ts.
Proof.
  destruct T as [|t T]; intros HT.
  - rewrite app_nil_r. reflexivity.
  - cbn [app]. unfold run at 1. fold run. cbn [step handle top p_scope]. rewrite add_text_plain by exact HT. cbn [step handle]. reflexivity.
Qed.
Definition plain_text (t : str) : Prop := ~ In x0a t /\ no_marker t.
Lemma p_c122_align_many d A B (xys : list (str * str)) :
  plain_text A -> plain_text B -> (forall u, A <> u ++ #"[") ->
  Forall (fun xy => plain_text (fst xy) /\ plain_text (snd xy) /\ (forall u, fst xy <> u ++ #"[")) xys ->
  exists o outs, stripped (A ++ B) o /\
    Forall2 (fun xy o => exists fill, indent fill /\ length fill = (length A - length (fst xy))%nat /\ stripped (fst xy ++ fill ++ snd xy) o) xys outs /\
    make_lines (lines_text ((A ++ #"[[[>]]]" ++ B) :: map (fun xy => fst xy ++ #"[[[|]]]" ++ snd xy) xys)) d = Some (o :: outs).
Proof.
  intros [A1 A2] [B1 B2] HA HF.
  set (al := indentation A ++ repeat x20 (length A - length (indentation A))).
  destruct (indentation_ok A) as [I1 I2].
  assert (length al = length A) as HL by (unfold al; rewrite app_length, repeat_length; lia).
  assert (indent al) as Hal by (apply Forall_app; split; [exact I1|]; apply Forall_forall; intros c Hc; apply repeat_spec in Hc; now left).
  exists (py_rstrip (A ++ B)), (map (fun xy => py_rstrip (fst xy ++ skipn (length (fst xy)) al ++ snd xy)) xys).
  split; [apply rstrip_spec|]. split.
  { clear HF. induction xys as [|[X Y] xys IH]; constructor; [|exact IH]. cbn [fst snd]. exists (skipn (length X) al). split.
    - unfold indent in *. rewrite <- (firstn_skipn (length X) al) in Hal. now apply Forall_app in Hal as [_ ?].
    - split; [rewrite skipn_length; lia|apply rstrip_spec]. }
  assert (forall a m b : str, ~ In x0a a -> ~ In x0a m -> ~ In x0a b -> ~ In x0a (a ++ m ++ b)) as K by (intros a m b Ka Km Kb; rewrite !in_app_iff; intuition).
  unfold make_lines, tokenize. rewrite split_lines_text; [|discriminate|].
  2:{ constructor; [apply K; auto; cbn; intuition discriminate|]. apply Forall_forall. intros x Hx. apply in_map_iff in Hx as ([X Y] & <- & Hi).
      rewrite Forall_forall in HF. destruct (HF _ Hi) as ([X1 _] & [Y1 _] & _). apply K; auto. cbn; intuition discriminate. }
  set (toks := fun xy : str * str => TText (fst xy) :: TAlign :: (match snd xy with [] => [] | _ => [TText (snd xy)] end) ++ [TNewline]).
  assert (tokenize_lines (map (fun xy => fst xy ++ #"[[[|]]]" ++ snd xy) xys) = Some (flat_map toks xys)) as ET.
  { induction HF as [|[X Y] xys ([X1 X2] & [Y1 Y2] & X3) HF IH]; [reflexivity|]. cbn [map flat_map tokenize_lines fst snd] in *. rewrite IH.
    change (X ++ #"[[[|]]]" ++ Y) with (X ++ #"[[[" ++ #"|" ++ #"]]]" ++ Y).
    rewrite (tokenize_symbol X #"|" TAlign Y) by first [assumption|reflexivity|cbn; intuition discriminate]. reflexivity. }
  cbn [tokenize_lines]. change (A ++ #"[[[>]]]" ++ B) with (A ++ #"[[[" ++ #">" ++ #"]]]" ++ B).
  rewrite (tokenize_symbol A #">" TPush B) by first [assumption|reflexivity|cbn; intuition discriminate]. rewrite ET.
  cbn [app]. rewrite <- !app_assoc. cbn [app].
  unfold run at 1. fold run. cbn [step handle top p_scope]. rewrite add_text_plain by exact A1. cbn [app Nat.add step handle top p_scope].
  unfold push_alignment, alignment. cbn [p_dict p_lines p_cur p_column p_scope p_align]. fold al. rewrite run_text_newline by exact B1. cbn [app].
  change [py_rstrip (A ++ B)] with ([py_rstrip (A ++ B)] ++ map (fun xy => py_rstrip (fst xy ++ skipn (length (fst xy)) al ++ snd xy)) []).
  change (py_rstrip (A ++ B) :: map (fun xy => py_rstrip (fst xy ++ skipn (length (fst xy)) al ++ snd xy)) xys) with ([py_rstrip (A ++ B)] ++ map (fun xy => py_rstrip (fst xy ++ skipn (length (fst xy)) al ++ snd xy)) xys).
  assert (forall out, run (Proc d out [] 0 [Active] [al]) false (flat_map toks xys) = Some (Proc d (out ++ map (fun xy => py_rstrip (fst xy ++ skipn (length (fst xy)) al ++ snd xy)) xys) [] 0 [Active] [al])) as KR.
  { clear ET. induction HF as [|[X Y] xys ([X1 X2] & [Y1 Y2] & X3) HF IH]; intros out; [cbn; now rewrite app_nil_r|]. cbn [flat_map map fst snd] in *. unfold toks at 1. cbn [fst snd app]. rewrite <- app_assoc. cbn [app].
    unfold run at 1. fold run. cbn [step handle top p_scope]. rewrite add_text_plain by exact X1. cbn [app Nat.add step handle top p_scope].
    unfold align. cbn [p_dict p_lines p_cur p_column p_scope p_align and_keep]. rewrite run_text_newline by exact Y1. rewrite IH. now rewrite <- !app_assoc. }
  cbn [map]. rewrite app_nil_r. rewrite KR. reflexivity.
Qed.
