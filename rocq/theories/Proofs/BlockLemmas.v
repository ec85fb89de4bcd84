(** C122 *)
From Coq Require Import String.
From Verif Require Import Base Model.PyText Model.Codegen Spec.Template Spec.Blocks Proofs.CodegenLemmas Proofs.DataFileLemmas.
From Coq Require Import ZifyBool ZifyNat ZifyN.
Local Notation "'#' s" := (list_byte_of_string s%string) (at level 5, only parsing).

Scheme tmpl_mut := Induction for tmpl Sort Prop with branches_mut := Induction for branches Sort Prop.
Combined Scheme tmpl_branches_ind from tmpl_mut, branches_mut.

(** ** Tokens *)
Fixpoint ttokens (t : tmpl) : list token :=
  match t with
  | t_end => []
  | t_line l rest => tokens_of l ++ ttokens rest
  | t_if ind key body more ind2 rest =>
    [TText ind; TIf key; TNewline] ++ ttokens body ++ btokens more ++ [TText ind2; TEndif; TNewline] ++ ttokens rest
  end
with btokens (b : branches) : list token :=
  match b with
  | b_end => []
  | b_elif ind key body more => [TText ind; TElif key; TNewline] ++ ttokens body ++ btokens more
  | b_else ind body => [TText ind; TElse; TNewline] ++ ttokens body
  end.

Lemma indent_no_marker ind : indent ind -> no_marker ind /\ (forall u, ind <> u ++ #"[").
Proof.
  unfold indent. rewrite Forall_forall. intros H. split.
  - intros u v ->. destruct (H x5b); [apply in_or_app; right; now left|discriminate|discriminate].
  - intros u ->. destruct (H x5b); [apply in_or_app; right; now left|discriminate|discriminate].
Qed.
Lemma key_no_space k : Forall key_char k -> Forall (fun c => py_space c = false) k.
Proof.
  apply Forall_impl. intros c H. apply not_true_iff_false. intros E. apply py_space_white in E. unfold white, key_char in *. lia.
Qed.
Lemma words_two w k : Forall (fun c => py_space c = false) w -> w <> [] -> Forall key_char k -> k <> [] -> py_words (w ++ x20 :: k) = [w; k].
Proof.
  intros HW NW HK NK. unfold py_words. rewrite words_word by exact HW. rewrite app_nil_r. cbn [py_words_loop]. change (py_space x20) with true. cbv iota.
  destruct (rev w) as [|a r] eqn:E; [apply (f_equal (@rev byte)) in E; rewrite rev_involutive in E; contradiction|]. rewrite <- E, rev_involutive. f_equal.
  pose proof (words_word k [] [] (key_no_space k HK)) as EK. rewrite !app_nil_r in EK. rewrite EK. cbn [py_words_loop].
  destruct (rev k) as [|a' r'] eqn:E'; [apply (f_equal (@rev byte)) in E'; rewrite rev_involutive in E'; contradiction|]. now rewrite <- E', rev_involutive.
Qed.
Lemma tokenize_block_marker ind inner t : indent ind -> ~ In x5d inner -> (marker_token (inner ++ #"]]]") inner = Some t) ->
  forall fuel, (length (ind ++ #"[[[" ++ inner ++ #"]]]") < fuel)%nat ->
  tokenize_line fuel (ind ++ #"[[[" ++ inner ++ #"]]]") = Some [TText ind; t; TNewline].
Proof.
  intros HI HN HM [|fuel] HL; [lia|]. destruct (indent_no_marker ind HI) as [H1 H2]. cbn [tokenize_line].
  rewrite cut_found by assumption. pose proof (cut_close inner [] HN) as E. rewrite app_nil_r in E. rewrite E, HM.
  destruct fuel as [|fuel]; [rewrite !app_length in HL; cbn [length list_byte_of_string] in HL; change (length #"[[[") with 3%nat in HL; lia|].
  reflexivity.
Qed.
Lemma word_no_close w k : Forall key_char k -> ~ In x5d w -> ~ In x5d (w ++ k).
Proof. intros HK HW. rewrite in_app_iff. intros [H|H]; [contradiction|]. revert H. apply key_not; [exact HK|not_key]. Qed.
Lemma marker_if k s : Forall key_char k -> k <> [] -> marker_token ((#"IF " ++ k) ++ s) (#"IF " ++ k) = Some (TIf k).
Proof.
  intros HK NK. unfold marker_token. rewrite <- app_assoc, prefix_app.
  change (#"IF " ++ k) with (#"IF" ++ x20 :: k). rewrite words_two; try assumption; [reflexivity| |discriminate]. repeat constructor.
Qed.
Lemma marker_elif k s : Forall key_char k -> k <> [] -> marker_token ((#"ELIF " ++ k) ++ s) (#"ELIF " ++ k) = Some (TElif k).
Proof.
  intros HK NK. unfold marker_token. rewrite <- app_assoc, prefix_app. change (prefix_eqb #"IF " (#"ELIF " ++ k ++ s)) with false. cbv iota.
  change (#"ELIF " ++ k) with (#"ELIF" ++ x20 :: k). rewrite words_two; try assumption; [reflexivity| |discriminate]. repeat constructor.
Qed.

Lemma tokens_ok l t : tokenize_line (S (length l)) l = Some t -> forall ls ts, tokenize_lines ls = Some ts -> tokenize_lines (l :: ls) = Some (t ++ ts).
Proof. intros E ls ts E2. cbn [tokenize_lines]. now rewrite E, E2. Qed.
Lemma tokenize_lines_app a : forall b ta tb, tokenize_lines a = Some ta -> tokenize_lines b = Some tb -> tokenize_lines (a ++ b) = Some (ta ++ tb).
Proof.
  induction a as [|l a IH]; intros b ta tb Ea Eb; cbn [app tokenize_lines] in *; [injection Ea as <-; exact Eb|].
  destruct (tokenize_line _ l) as [x|]; [|discriminate]. destruct (tokenize_lines a) as [y|]; [|discriminate]. injection Ea as <-.
  rewrite (IH b y tb eq_refl Eb). now rewrite app_assoc.
Qed.
Lemma tokenize_tmpl : (forall t, plain_tmpl t -> tokenize_lines (tmpl_lines t) = Some (ttokens t)) /\
  (forall b, plain_branches b -> tokenize_lines (branch_lines b) = Some (btokens b)).
Proof.
  apply tmpl_branches_ind.
  - reflexivity.
  - intros [ps tail] rest IH [H1 H2]. cbn [tmpl_lines ttokens]. apply tokens_ok; [apply tokenize_ok; [exact H1|lia]|exact (IH H2)].
  - intros ind key body IH1 more IH2 ind2 rest IH3 (H1 & H2 & H3 & H4 & H5 & H6 & H7). cbn [tmpl_lines ttokens].
    apply tokens_ok.
    + change (#"[[[IF " ++ key ++ #"]]]") with (#"[[[" ++ #"IF " ++ key ++ #"]]]"). rewrite (app_assoc #"IF " key).
      apply tokenize_block_marker; [exact H1|apply word_no_close; [exact H3|cbn; intuition discriminate]|now apply marker_if|lia].
    + apply tokenize_lines_app; [exact (IH1 H4)|]. apply tokenize_lines_app; [exact (IH2 H5)|]. apply tokens_ok; [|exact (IH3 H7)].
      change #"[[[ENDIF]]]" with (#"[[[" ++ #"ENDIF" ++ #"]]]"). apply tokenize_block_marker; [exact H6|cbn; intuition discriminate|reflexivity|lia].
  - reflexivity.
  - intros ind key body IH1 more IH2 (H1 & H2 & H3 & H4 & H5). cbn [branch_lines btokens]. apply tokens_ok.
    + change (#"[[[ELIF " ++ key ++ #"]]]") with (#"[[[" ++ #"ELIF " ++ key ++ #"]]]"). rewrite (app_assoc #"ELIF " key).
      apply tokenize_block_marker; [exact H1|apply word_no_close; [exact H3|cbn; intuition discriminate]|now apply marker_elif|lia].
    + apply tokenize_lines_app; [exact (IH1 H4)|exact (IH2 H5)].
  - intros ind body IH (H1 & H2). cbn [branch_lines btokens]. apply tokens_ok; [|exact (IH H2)].
    change #"[[[ELSE]]]" with (#"[[[" ++ #"ELSE" ++ #"]]]"). apply tokenize_block_marker; [exact H1|cbn; intuition discriminate|reflexivity|lia].
Qed.
Lemma marker_no_newline ind w k : indent ind -> ~ In x0a w -> Forall key_char k -> ~ In x0a (ind ++ w ++ k ++ #"]]]").
Proof.
  intros HI HW HK. rewrite !in_app_iff. intros [H|[H|[H|H]]]; [now apply (indent_newline ind)|contradiction|revert H; apply key_not; [exact HK|not_key]|cbn in H; intuition discriminate].
Qed.
Lemma no_newlines : (forall t, plain_tmpl t -> Forall (fun l => ~ In x0a l) (tmpl_lines t)) /\
  (forall b, plain_branches b -> Forall (fun l => ~ In x0a l) (branch_lines b)).
Proof.
  apply tmpl_branches_ind.
  - constructor.
  - intros [ps tail] rest IH [H1 H2]. cbn [tmpl_lines]. constructor; [now apply tline_no_newline|auto].
  - intros ind key body IH1 more IH2 ind2 rest IH3 (H1 & H2 & H3 & H4 & H5 & H6 & H7). cbn [tmpl_lines].
    constructor; [apply marker_no_newline; auto; cbn; intuition discriminate|]. apply Forall_app. split; [auto|]. apply Forall_app. split; [auto|].
    constructor; [|auto]. rewrite in_app_iff. intros [H|H]; [now apply (indent_newline ind2)|cbn in H; intuition discriminate].
  - constructor.
  - intros ind key body IH1 more IH2 (H1 & H2 & H3 & H4 & H5). cbn [branch_lines].
    constructor; [apply marker_no_newline; auto; cbn; intuition discriminate|]. apply Forall_app. auto.
  - intros ind body IH (H1 & H2). cbn [branch_lines]. constructor; [|auto].
    rewrite in_app_iff. intros [H|H]; [now apply (indent_newline ind)|cbn in H; intuition discriminate].
Qed.
Lemma tokenize_whole t : plain_tmpl t -> t <> t_end -> tokenize (lines_text (tmpl_lines t)) = Some (ttokens t).
Proof.
  intros H HN. unfold tokenize. rewrite split_lines_text; [now apply tokenize_tmpl| |now apply no_newlines].
  destruct t; cbn; congruence.
Qed.

(** ** Running *)
Fixpoint runi (p : processor) (ig : bool) (ts : list token) : option (processor * bool) :=
  match ts with
  | [] => Some (p, ig)
  | t :: ts' => match step p ig t with None => None | Some (p, ig) => runi p ig ts' end
  end.
Lemma run_runi ts : forall p ig, run p ig ts = option_map fst (runi p ig ts).
Proof. induction ts as [|t ts IH]; intros p ig; cbn [run runi]; [reflexivity|]. destruct (step p ig t) as [[q i]|]; [apply IH|reflexivity]. Qed.
Lemma runi_app a : forall b p ig, runi p ig (a ++ b) = match runi p ig a with None => None | Some (q, i) => runi q i b end.
Proof. induction a as [|t a IH]; intros b p ig; cbn [app runi]; [reflexivity|]. destruct (step p ig t) as [[q i]|]; [apply IH|reflexivity]. Qed.

Definition resc (S : list scope_state) (p : processor) : processor := Proc (p_dict p) (p_lines p) (p_cur p) (p_column p) S (p_align p).
Lemma resc_resc S T p : resc S (resc T p) = resc S p.
Proof. reflexivity. Qed.
Lemma resc_self p : resc (p_scope p) p = p.
Proof. now destruct p. Qed.
Lemma add_text_resc S p t : add_text (resc S p) t = resc S (add_text p t).
Proof. unfold add_text. destruct (py_rcut_newline t) as [[a b]|]; reflexivity. Qed.
Lemma add_lines_resc S p l : add_lines (resc S p) l = resc S (add_lines p l).
Proof. unfold add_lines. destruct l as [|x [|y l]]; [reflexivity..|]. rewrite <- add_text_resc. reflexivity. Qed.
Lemma step_scope p S ig t : p_scope p = [Active] -> simple_token t ->
  step (resc (Active :: S) p) ig t = match step p ig t with None => None | Some (q, i) => Some (resc (Active :: S) q, i) end.
Proof.
  intros HS Ht. assert (handle (resc (Active :: S) p) t = match handle p t with None => None | Some (q, i) => Some (resc (Active :: S) q, i) end) as K.
  { unfold handle, handle_newline, top. rewrite HS. cbn [resc p_scope]. destruct t as [s| |key|key|key| | |s| | |]; try contradiction.
    - fold (resc (Active :: S) p). now rewrite add_text_resc.
    - reflexivity.
    - fold (resc (Active :: S) p). unfold handle_expand. change (expand (resc (Active :: S) p) key) with (expand p key).
      destruct (expand p key) as [[|[|c s]|[|r l]|s]|]; try reflexivity; rewrite ?add_text_resc, ?add_lines_resc; reflexivity. }
  unfold step. destruct ig; [|exact K]. destruct t; try exact K. reflexivity.
Qed.
Lemma runi_scope S ts : Forall simple_token ts -> forall p ig, p_scope p = [Active] ->
  runi (resc (Active :: S) p) ig ts = match runi p ig ts with None => None | Some (q, i) => Some (resc (Active :: S) q, i) end.
Proof.
  induction 1 as [|t ts Ht HT IH]; intros p ig HS; cbn [runi]; [reflexivity|]. rewrite step_scope by assumption.
  destruct (step p ig t) as [[q i]|] eqn:E; [|reflexivity]. apply IH. now apply (step_keeps p ig t q i HS Ht E).
Qed.
Lemma runi_keeps ts : Forall simple_token ts -> forall p ig q i, p_scope p = [Active] -> runi p ig ts = Some (q, i) -> p_dict q = p_dict p /\ p_scope q = [Active].
Proof.
  induction 1 as [|t ts Ht HT IH]; intros p ig q i HS E; cbn [runi] in E; [injection E as <- _; auto|].
  destruct (step p ig t) as [[p' i']|] eqn:E'; [|discriminate]. destruct (step_keeps p ig t p' i' HS Ht E') as [H1 H2].
  destruct (IH p' i' q i H2 E). split; congruence.
Qed.
Lemma simple_tokens l : Forall simple_token (tokens_of l).
Proof.
  apply Forall_forall. intros t Ht. unfold tokens_of in Ht. rewrite !in_app_iff in Ht. destruct Ht as [Ht|[Ht|Ht]].
  - apply in_flat_map in Ht as (q & _ & [<-|[<-|[]]]); exact I.
  - destruct (snd l); [contradiction|]. destruct Ht as [<-|[]]. exact I.
  - destruct Ht as [<-|[]]. exact I.
Qed.
Lemma step_blank p ig t q : simple_token t -> p_scope p = [Active] -> step p ig t = Some (q, true) -> blank q = true.
Proof.
  intros Ht HS. assert (handle p t = Some (q, true) -> blank q = true) as K.
  { unfold handle, handle_newline, top. rewrite HS. destruct t as [s| |key|key|key| | |s| | |]; try contradiction; intros E; try discriminate.
    destruct (handle_expand p key) as [[p' done]|]; [|discriminate]. injection E as -> E. now apply andb_true_iff in E as [_ E]. }
  unfold step. destruct ig; [|exact K]. destruct t; try exact K. discriminate.
Qed.
Lemma runi_blank ts : Forall simple_token ts -> forall p ig q, p_scope p = [Active] -> (ig = true -> blank p = true) -> runi p ig ts = Some (q, true) -> blank q = true.
Proof.
  induction 1 as [|t ts Ht HT IH]; intros p ig q HS HB E; cbn [runi] in E; [injection E as <- ->; auto|].
  destruct (step p ig t) as [[p' i']|] eqn:E'; [|discriminate]. apply (IH p' i' q); [now apply (step_keeps p ig t p' i' HS Ht E')| |exact E].
  intros ->. exact (step_blank p ig t p' Ht HS E').
Qed.
(** After a line nothing is left of it. *)
Lemma line_done l p q i : p_scope p = [Active] -> runi p false (tokens_of l) = Some (q, i) -> i = false /\ p_cur q = [].
Proof.
  intros HS E. pose proof (simple_tokens l) as HT. unfold tokens_of in *. rewrite app_assoc in E, HT. apply Forall_app in HT as [HT _]. rewrite runi_app in E.
  destruct (runi p false _) as [[p' i']|] eqn:E'; [|discriminate]. destruct (runi_keeps _ HT p false p' i' HS E') as [_ HS'].
  cbn [runi] in E. destruct i'; cbn [step] in E.
  - rewrite (runi_blank _ HT p false p' HS ltac:(discriminate) E') in E. injection E as <- <-. auto.
  - cbn [handle] in E. injection E as <- <-. unfold handle_newline, top. rewrite HS'. auto.
Qed.

Ltac pdone p := let a := fresh in let b := fresh in let e := fresh in let f := fresh in let g := fresh in let h := fresh in destruct p as [a b e f g h]; cbn [p_dict p_lines p_cur p_column p_scope p_align] in *; subst; reflexivity.

(** [lo] gives the lines that stand for a marker behind the given blanks. *)
Fixpoint chosen_gen (lo : str -> list tline) (c : str -> bool) (t : tmpl) : list tline :=
  match t with
  | t_end => []
  | t_line l rest => l :: chosen_gen lo c rest
  | t_if ind key body more ind2 rest =>
    lo ind ++
    (if c key then chosen_gen lo c body ++ lo (next_blanks more ind2) else chosen_branch_gen lo c more ind2)
    ++ chosen_gen lo c rest
  end
with chosen_branch_gen (lo : str -> list tline) (c : str -> bool) (b : branches) (ind2 : str) : list tline :=
  match b with
  | b_end => []
  | b_elif _ key body more =>
    if c key then chosen_gen lo c body ++ lo (next_blanks more ind2) else chosen_branch_gen lo c more ind2
  | b_else _ body => chosen_gen lo c body ++ lo ind2
  end.
Fixpoint inds_are (ok : str -> Prop) (t : tmpl) : Prop :=
  match t with
  | t_end => True
  | t_line _ rest => inds_are ok rest
  | t_if ind _ body more ind2 rest => ok ind /\ inds_are ok body /\ inds_are_branches ok more /\ ok ind2 /\ inds_are ok rest
  end
with inds_are_branches (ok : str -> Prop) (b : branches) : Prop :=
  match b with
  | b_end => True
  | b_elif ind _ body more => ok ind /\ inds_are ok body /\ inds_are_branches ok more
  | b_else ind body => ok ind /\ inds_are ok body
  end.
(** A line with only a marker for nothing. *)
Lemma run_left_out d none ind p : nothing d none -> plain_key none -> indent ind -> p_scope p = [Active] -> p_cur p = [] -> p_dict p = d ->
  runi p false (tokens_of (marker_line none ind)) = Some (Proc d (p_lines p) [] (p_column p + length ind) [Active] (p_align p), false).
Proof.
  intros Hnone Pnone HI HS HC HD. destruct p as [d' lines cur col sc al]. cbn [p_scope p_cur p_dict p_lines p_column p_align] in *. subst.
  unfold tokens_of, marker_line. cbn [fst snd flat_map app]. cbn [runi step handle top p_scope]. rewrite add_text_plain by now apply indent_newline.
  cbn [app step handle top p_scope]. unfold handle_expand.
  assert (forall (v : value), (v = VNone \/ v = VStr [] \/ v = VList []) ->
    match v with VNone => Some (Proc d lines ind (col + length ind) [Active] al, false) | VStr [] => Some (Proc d lines ind (col + length ind) [Active] al, false)
      | VStr s => Some (add_text (Proc d lines ind (col + length ind) [Active] al) s, true) | VList [] => Some (Proc d lines ind (col + length ind) [Active] al, false)
      | VList l => Some (add_lines (Proc d lines ind (col + length ind) [Active] al) l, true) | VOther s => Some (add_text (Proc d lines ind (col + length ind) [Active] al) s, true) end
    = Some (Proc d lines ind (col + length ind) [Active] al, false)) as K by (intros v [-> |[-> | ->]]; reflexivity).
  assert (exists v, bound d none v /\ (v = VNone \/ v = VStr [] \/ v = VList [])) as (v & HB & Hv) by (destruct Hnone as [H|[H|H]]; eauto).
  rewrite (expand_get d _ _ _ _ _ none v Pnone HB). rewrite (K v Hv). cbn [negb andb].
  assert (blank (Proc d lines ind (col + length ind) [Active] al) = true) as HBl.
  { unfold blank, is_empty_or_space, py_isspace. cbn [p_cur]. destruct ind; [reflexivity|]. now apply indent_space. }
  rewrite HBl. cbn [step]. rewrite HBl. reflexivity.
Qed.
Section Blocks.
Variables (d : dict) (lo : str -> list tline) (ok : str -> Prop) (c : str -> bool).
Hypothesis Hlo : forall ind p, ok ind -> p_scope p = [Active] -> p_cur p = [] -> p_dict p = d ->
  runi p false (flat_map tokens_of (lo ind)) = Some (Proc d (p_lines p) [] (p_column p + length ind) [Active] (p_align p), false).
Hypothesis Hok : forall ind, ok ind -> indent ind.

(** [ts] does in the scope of [p] what the lines [ls] do in the outermost scope,
    and leaves the scope [S]. *)
Definition Sim (p : processor) (ts : list token) (ls : list tline) (S : list scope_state) : Prop :=
  match runi (resc [Active] p) false (flat_map tokens_of ls) with
  | None => runi p false ts = None
  | Some (q, i) => i = false /\ p_cur q = [] /\ p_dict q = d /\ runi p false ts = Some (resc S q, false)
  end.
Lemma sim_app p ts1 ls1 S ts2 ls2 S2 : Sim p ts1 ls1 S ->
  (forall q, p_scope q = S -> p_cur q = [] -> p_dict q = d -> Sim q ts2 ls2 S2) -> Sim p (ts1 ++ ts2) (ls1 ++ ls2) S2.
Proof.
  unfold Sim. rewrite flat_map_app. rewrite !runi_app. intros H1 H2.
  destruct (runi (resc [Active] p) false (flat_map tokens_of ls1)) as [[q i]|] eqn:E1; [|now rewrite H1].
  destruct H1 as (-> & Hc & Hd & ->). specialize (H2 (resc S q) eq_refl Hc Hd). rewrite resc_resc in H2.
  assert (p_scope q = [Active]) as HS.
  { refine (proj2 (runi_keeps _ _ _ _ _ _ _ E1)); [|reflexivity]. apply Forall_forall. intros t Ht. apply in_flat_map in Ht as (l & _ & Ht).
    pose proof (simple_tokens l) as HT. rewrite Forall_forall in HT. auto. }
  rewrite <- HS, resc_self in H2. exact H2.
Qed.
Lemma sim_nil p : p_cur p = [] -> p_dict p = d -> Sim p [] [] (p_scope p).
Proof. intros H1 H2. unfold Sim. cbn [flat_map runi]. repeat split; auto. now rewrite resc_resc, resc_self. Qed.
Lemma sim_line l p S : p_scope p = Active :: S -> p_dict p = d -> Sim p (tokens_of l) [l] (Active :: S).
Proof.
  intros HS HD. unfold Sim. cbn [flat_map]. rewrite app_nil_r.
  pose proof (runi_scope S (tokens_of l) (simple_tokens l) (resc [Active] p) false eq_refl) as E. rewrite resc_resc in E. rewrite <- HS, resc_self in E. rewrite E.
  destruct (runi (resc [Active] p) false (tokens_of l)) as [[q i]|] eqn:Eq; [|reflexivity].
  assert (p_scope (resc [Active] p) = [Active]) as HS1 by reflexivity.
  destruct (line_done l _ q i HS1 Eq) as [-> Hc]. destruct (runi_keeps _ (simple_tokens l) _ _ _ _ HS1 Eq) as [Hd _]. rewrite HS.
  repeat split; auto. rewrite Hd. exact HD.
Qed.
(** Marker lines that are met in an active scope. *)
Lemma sim_marker ind t p S S2 : ok ind -> p_scope p = Active :: S -> p_cur p = [] -> p_dict p = d ->
  (forall q, p_scope q = Active :: S -> p_dict q = d -> handle q t = Some (resc S2 q, blank q)) -> (t <> TNewline) ->
  Sim p [TText ind; t; TNewline] (lo ind) S2.
Proof.
  intros HI HS HC HD HH Ht. unfold Sim. rewrite Hlo by auto. apply Hok in HI. cbn [p_cur p_dict]. repeat split; auto.
  destruct p as [d' lines cur col sc al]. cbn [p_scope p_cur p_dict p_lines p_column p_align] in *. subst.
  cbn [resc p_scope p_cur p_dict p_lines p_column p_align].
  cbn [runi]. change (step (Proc d lines [] col (Active :: S) al) false (TText ind)) with (Some (add_text (Proc d lines [] col (Active :: S) al) ind, false)).
  cbv iota beta. rewrite add_text_plain by now apply indent_newline. cbn [app].
  assert (step (Proc d lines ind (col + length ind) (Active :: S) al) false t = handle (Proc d lines ind (col + length ind) (Active :: S) al) t) as -> by reflexivity.
  rewrite HH by reflexivity. unfold resc. cbn [p_scope p_cur p_dict p_lines p_column p_align].
  assert (forall S, blank (Proc d lines ind (col + length ind) S al) = true) as HBl.
  { intros S'. unfold blank, is_empty_or_space, py_isspace. cbn [p_cur]. destruct ind; [reflexivity|]. now apply indent_space. }
  rewrite HBl. cbn [step]. rewrite HBl. reflexivity.
Qed.
(** Marker lines that are met while skipping. *)
Definition skipping (s : scope_state) : Prop := s <> Active.
Lemma sim_skipped ind t p s S S2 : skipping s -> p_scope p = s :: S -> p_cur p = [] -> p_dict p = d ->
  (handle p t = Some (resc S2 p, true) \/ (S2 = s :: S /\ handle p t = Some (p, false))) -> (t <> TNewline) ->
  Sim p [TText ind; t; TNewline] [] S2.
Proof.
  intros Hs HS HC HD HH Ht. unfold Sim. cbn [flat_map runi]. cbn [resc p_cur p_dict]. repeat split; auto.
  destruct p as [d' lines cur col sc al]. cbn [p_scope p_cur p_dict p_lines p_column p_align] in *. subst.
  cbn [resc p_scope p_cur p_dict p_lines p_column p_align] in *.
  assert (step (Proc d lines [] col (s :: S) al) false (TText ind) = Some (Proc d lines [] col (s :: S) al, false)) as ->.
  { unfold step, handle, top. cbn [p_scope]. destruct s; [now destruct Hs|reflexivity|reflexivity]. }
  cbv iota beta. assert (step (Proc d lines [] col (s :: S) al) false t = handle (Proc d lines [] col (s :: S) al) t) as -> by reflexivity.
  destruct HH as [-> |[-> ->]].
  - reflexivity.
  - cbv iota beta. cbn [step handle]. unfold handle_newline, top. cbn [p_scope]. destruct s; [now destruct Hs|reflexivity|reflexivity].
Qed.
Lemma sim_skipped_line l p s S : skipping s -> p_scope p = s :: S -> p_cur p = [] -> p_dict p = d -> Sim p (tokens_of l) [] (s :: S).
Proof.
  intros Hs HS HC HD. unfold Sim. cbn [flat_map runi]. cbn [resc p_cur p_dict]. repeat split; auto.
  fold (resc (s :: S) (resc [Active] p)). rewrite resc_resc, <- HS, resc_self.
  assert (forall t, simple_token t -> step p false t = Some (p, false)) as K.
  { intros t Ht. unfold step, handle, handle_newline, top. rewrite HS. destruct s; [now destruct Hs| |]; destruct t; try contradiction; reflexivity. }
  pose proof (simple_tokens l) as HT. induction HT as [|t ts Ht HT IH]; [reflexivity|]. cbn [runi]. now rewrite K.
Qed.
Lemma skip_all : (forall t p s S, skipping s -> p_scope p = s :: S -> p_cur p = [] -> p_dict p = d -> Sim p (ttokens t) [] (s :: S)) /\
  (forall b p S, p_scope p = Done :: S -> p_cur p = [] -> p_dict p = d -> Sim p (btokens b) [] (Done :: S)).
Proof.
  assert (SA : forall p ts1 S ts2 S2, Sim p ts1 [] S -> (forall q, p_scope q = S -> p_cur q = [] -> p_dict q = d -> Sim q ts2 [] S2) -> Sim p (ts1 ++ ts2) [] S2).
  { intros p ts1 S ts2 S2 H1 H2. change (@nil tline) with (@nil tline ++ []). now apply sim_app with S. }
  apply tmpl_branches_ind.
  - intros p s S Hs HS HC HD. cbn [ttokens]. rewrite <- HS. now apply sim_nil.
  - intros l rest IH p s S Hs HS HC HD. cbn [ttokens]. apply SA with (s :: S); [now apply sim_skipped_line|]. intros q H1 H2 H3. now apply IH.
  - intros ind key body IH1 more IH2 ind2 rest IH3 p s S Hs HS HC HD. cbn [ttokens].
    apply SA with (Done :: s :: S).
    { apply sim_skipped with s S; auto; [|discriminate]. left. cbn [handle]. unfold handle_if, top. rewrite HS.
      destruct p as [d' lines cur col sc al]. cbn in HS, HC, HD. subst. destruct s; [now destruct Hs| |]; reflexivity. }
    intros q H1 H2 H3. apply SA with (Done :: s :: S); [apply IH1; auto; discriminate|]. intros q2 K1 K2 K3.
    apply SA with (Done :: s :: S); [now apply IH2|]. intros q3 L1 L2 L3. apply SA with (s :: S).
    { apply sim_skipped with Done (s :: S); auto; try discriminate. left. clear - L1 L2. pdone q3. }
    intros q4 M1 M2 M3. now apply IH3.
  - intros p S HS HC HD. cbn [btokens]. rewrite <- HS. now apply sim_nil.
  - intros ind key body IH1 more IH2 p S HS HC HD. cbn [btokens]. apply SA with (Done :: S).
    { apply sim_skipped with Done S; auto; try discriminate. right. split; [reflexivity|]. unfold handle, top. now rewrite HS. }
    intros q H1 H2 H3. apply SA with (Done :: S); [apply IH1; auto; discriminate|]. intros q2 K1 K2 K3. now apply IH2.
  - intros ind body IH p S HS HC HD. cbn [btokens]. apply SA with (Done :: S).
    { apply sim_skipped with Done S; auto; try discriminate. right. split; [reflexivity|]. unfold handle, top. now rewrite HS. }
    intros q H1 H2 H3. apply IH; auto. discriminate.
Qed.

Lemma expand_key p k v : Forall key_char k -> p_dict p = d -> bound d k v -> expand p k = Some v.
Proof. intros HK HD HB. unfold expand. rewrite split1_absent by (apply key_not; [exact HK|not_key]). rewrite HD. now apply bound_get. Qed.
Definition tells (k : str) : Prop := if c k then holds d k else fails d k.
Lemma tells_truth p k : Forall key_char k -> p_dict p = d -> tells k -> exists v, expand p k = Some v /\ truth v = c k.
Proof.
  intros HK HD HT. unfold tells in HT. destruct (c k).
  - destruct HT as (v & HB & Hv). exists v. split; [now apply expand_key|]. destruct v as [|[|]|[|]|s]; try contradiction; try congruence; try reflexivity.
    cbn [truth]. destruct Hv as (b & Hb & Hn). apply negb_true_iff, not_true_iff_false. rewrite forallb_forall. intros H. specialize (H b Hb). apply byte_eqb_true in H. congruence.
  - destruct HT as (v & HB & Hv). exists v. split; [now apply expand_key|]. destruct v as [|[|]|[|]|s]; try discriminate; try reflexivity.
    cbn [truth]. apply negb_false_iff. apply forallb_forall. intros b Hb. apply byte_eqb_true. symmetry. auto.
Qed.

(** The end of an active branch: the next marker closes it, and the rest of the block is skipped. *)
Lemma sim_close more ind2 p S : plain_branches more -> inds_are_branches ok more -> ok ind2 -> p_scope p = Active :: Active :: S -> p_cur p = [] -> p_dict p = d ->
  Sim p (btokens more ++ [TText ind2; TEndif; TNewline]) (lo (next_blanks more ind2)) (Active :: S).
Proof.
  intros HP HR HI HS HC HD.
  assert (E : forall q, p_scope q = Done :: Active :: S -> p_cur q = [] -> p_dict q = d -> Sim q [TText ind2; TEndif; TNewline] [] (Active :: S)).
  { intros q H1 H2 H3. apply sim_skipped with Done (Active :: S); auto; try discriminate. left. clear - H1 H2. pdone q. }
  assert (A : forall ts1 ts2 ts3 l S1, Sim p ts1 l S1 -> (forall q, p_scope q = S1 -> p_cur q = [] -> p_dict q = d -> Sim q ts2 [] S1) ->
     (forall q, p_scope q = S1 -> p_cur q = [] -> p_dict q = d -> Sim q ts3 [] (Active :: S)) -> Sim p ((ts1 ++ ts2) ++ ts3) l (Active :: S)).
  { intros ts1 ts2 ts3 l S1 H1 H2 H3. replace l with ((l ++ []) ++ []) by now rewrite !app_nil_r. apply sim_app with S1; [|exact H3]. now apply sim_app with S1. }
  destruct more as [|ind key body more|ind body]; cbn [btokens next_blanks].
  - cbn [app]. apply sim_marker with (Active :: S); auto; [|discriminate]. intros q H1 H2. cbn [handle]. unfold handle_endif. rewrite H1. reflexivity.
  - destruct HP as (H1 & _ & HK & H4 & H5). destruct HR as (R1 & R2 & R3). refine (A [TText ind; TElif key; TNewline] _ _ _ (Done :: Active :: S) _ _ E).
    + apply sim_marker with (Active :: S); auto; [|discriminate]. intros q K1 K2. unfold handle, top. rewrite K1. unfold handle_elif, top. rewrite K1. cbn [and_ignore set_top]. unfold set_top. rewrite K1. reflexivity.
    + intros q K1 K2 K3. change (@nil tline) with (@nil tline ++ []). apply sim_app with (Done :: Active :: S); [apply skip_all; auto; discriminate|]. intros q2 L1 L2 L3. now apply skip_all.
  - destruct HP as (H1 & H2). destruct HR as (R1 & R2). refine (A [TText ind; TElse; TNewline] _ _ _ (Done :: Active :: S) _ _ E).
    + apply sim_marker with (Active :: S); auto; [|discriminate]. intros q K1 K2. unfold handle, top. rewrite K1. unfold handle_else, top. rewrite K1. cbn [and_ignore set_top]. unfold set_top. rewrite K1. reflexivity.
    + intros q K1 K2 K3. apply skip_all; auto. discriminate.
Qed.

Lemma sim_all : (forall t p S, plain_tmpl t -> inds_are ok t -> Forall tells (asked c t) -> p_scope p = Active :: S -> p_cur p = [] -> p_dict p = d ->
    Sim p (ttokens t) (chosen_gen lo c t) (Active :: S)) /\
  (forall b ind2 p S, plain_branches b -> inds_are_branches ok b -> ok ind2 -> Forall tells (asked_branch c b) -> p_scope p = Inactive :: Active :: S -> p_cur p = [] -> p_dict p = d ->
    Sim p (btokens b ++ [TText ind2; TEndif; TNewline]) (chosen_branch_gen lo c b ind2) (Active :: S)).
Proof.
  apply tmpl_branches_ind.
  - intros p S _ _ _ HS HC HD. cbn [ttokens chosen_gen]. rewrite <- HS. now apply sim_nil.
  - intros l rest IH p S [H1 H2] HR HA HS HC HD. cbn [ttokens chosen_gen asked] in *. change (l :: chosen_gen lo c rest) with ([l] ++ chosen_gen lo c rest).
    apply sim_app with (Active :: S); [now apply sim_line|]. intros q K1 K2 K3. now apply IH.
  - intros ind key body IH1 more IH2 ind2 rest IH3 p S (H1 & H2 & H3 & H4 & H5 & H6 & H7) (R1 & R2 & R3 & R4 & R5) HA HS HC HD. cbn [ttokens chosen_gen asked] in *.
    apply Forall_cons_iff in HA as [Hk HA]. apply Forall_app in HA as [HA1 HA2].
        apply sim_app with ((if c key then Active else Inactive) :: Active :: S).
    { apply sim_marker with S; auto; [|discriminate]. intros q K1 K2. cbn [handle]. unfold handle_if, top. rewrite K1.
      destruct (tells_truth q key H3 K2 Hk) as (v & -> & ->). reflexivity. }
    intros q K1 K2 K3. rewrite (app_assoc (btokens more)). destruct (c key).
    + rewrite <- (app_assoc (chosen_gen lo c body)). apply sim_app with (Active :: Active :: S); [now apply IH1|]. intros q2 L1 L2 L3.
      apply sim_app with (Active :: S); [now apply sim_close|]. intros q3 M1 M2 M3. now apply IH3.
    + rewrite (app_assoc (ttokens body)). apply sim_app with (Active :: S).
      * match goal with |- Sim q _ ?x _ => change x with ([] ++ x) end.
        apply sim_app with (Inactive :: Active :: S); [apply skip_all; auto; discriminate|]. intros q2 L1 L2 L3. now apply IH2.
      * intros q3 M1 M2 M3. now apply IH3.
  - intros ind2 p S _ _ HI _ HS HC HD. cbn [btokens chosen_branch_gen app]. apply sim_skipped with Inactive (Active :: S); auto; try discriminate.
    left. clear - HS HC. pdone p.
  - intros ind key body IH1 more IH2 ind2 p S (H1 & H2 & H3 & H4 & H5) (R1 & R2 & R3) HI HA HS HC HD. cbn [btokens chosen_branch_gen asked_branch] in *.
    apply Forall_cons_iff in HA as [Hk HA]. rewrite <- !app_assoc.
    match goal with |- Sim p _ ?x _ => change x with ([] ++ x) end.
    apply sim_app with ((if c key then Active else Inactive) :: Active :: S).
    { apply sim_skipped with Inactive (Active :: S); auto; try discriminate. destruct (tells_truth p key H3 HD Hk) as (v & Ev & Et).
      left. unfold handle, top. rewrite HS. unfold handle_elif, top. rewrite HS. rewrite Ev, Et.
      destruct (c key); cbn [and_ignore]; unfold blank, set_top; cbn [p_cur]; rewrite HC, ?HS; [unfold resc; rewrite HC; reflexivity|]. rewrite <- HS, resc_self. reflexivity. }
    intros q K1 K2 K3. destruct (c key).
    + apply sim_app with (Active :: Active :: S); [now apply IH1|]. intros q2 L1 L2 L3. now apply sim_close.
    + match goal with |- Sim q _ ?x _ => change x with ([] ++ x) end.
      apply sim_app with (Inactive :: Active :: S); [apply skip_all; auto; discriminate|]. intros q2 L1 L2 L3. now apply IH2.
  - intros ind body IH ind2 p S (H1 & H2) (R1 & R2) HI HA HS HC HD. cbn [btokens chosen_branch_gen asked_branch] in *. rewrite <- !app_assoc.
    match goal with |- Sim p _ ?x _ => change x with ([] ++ x) end.
    apply sim_app with (Active :: Active :: S).
    { apply sim_skipped with Inactive (Active :: S); auto; try discriminate. left. unfold handle, top. rewrite HS. unfold handle_else, top. rewrite HS.
      clear - HS HC. pdone p. }
    intros q K1 K2 K3. apply sim_app with (Active :: Active :: S); [now apply IH|]. intros q2 L1 L2 L3. exact (sim_close b_end ind2 q2 S I I HI L1 L2 L3).
Qed.
End Blocks.

(** ** The whole template *)
Lemma gen_with none c : (forall t, chosen_gen (fun ind => [marker_line none ind]) c t = chosen_with none c t) /\
  (forall b ind2, chosen_branch_gen (fun ind => [marker_line none ind]) c b ind2 = chosen_branch_with none c b ind2).
Proof.
  apply tmpl_branches_ind; cbn [chosen_gen chosen_with chosen_branch_gen chosen_branch_with].
  - reflexivity.
  - intros l rest ->. reflexivity.
  - intros ind key body E1 more E2 ind2 rest E3. now rewrite E1, E2, E3.
  - reflexivity.
  - intros ind key body E1 more E2 ind2. now rewrite E1, E2.
  - intros ind body E ind2. now rewrite E.
Qed.
Lemma gen_chosen c : (forall t, chosen_gen (fun _ => []) c t = chosen c t) /\ (forall b ind2, chosen_branch_gen (fun _ => []) c b ind2 = chosen_branch c b).
Proof.
  apply tmpl_branches_ind; cbn [chosen_gen chosen chosen_branch_gen chosen_branch].
  - reflexivity.
  - intros l rest ->. reflexivity.
  - intros ind key body E1 more E2 ind2 rest E3. now rewrite E1, E2, E3, app_nil_r.
  - reflexivity.
  - intros ind key body E1 more E2 ind2. now rewrite E1, E2, app_nil_r.
  - intros ind body E ind2. now rewrite E, app_nil_r.
Qed.
Lemma inds_indent : (forall t, plain_tmpl t -> inds_are indent t) /\ (forall b, plain_branches b -> inds_are_branches indent b).
Proof. apply tmpl_branches_ind; cbn; intuition. Qed.
Lemma inds_nil : (forall t, unindented t -> inds_are (fun i => i = []) t) /\ (forall b, unindented_branches b -> inds_are_branches (fun i => i = []) b).
Proof. apply tmpl_branches_ind; cbn; intuition. Qed.
Lemma left_out_plain none ind : plain_key none -> indent ind -> plain_tline (marker_line none ind).
Proof.
  intros Pn HI. destruct (indent_no_marker ind HI) as [H1 H2]. split; [|split; [intros []|]].
  - constructor; [|constructor]. cbn [fst snd]. split; [now apply indent_newline|]. auto.
  - intros u v E. destruct u; discriminate.
Qed.
Lemma next_indent more ind2 : plain_branches more -> indent ind2 -> indent (next_blanks more ind2).
Proof. destruct more; cbn; intuition. Qed.
Lemma chosen_with_plain none c : plain_key none -> (forall t, plain_tmpl t -> Forall plain_tline (chosen_with none c t)) /\
  (forall b ind2, plain_branches b -> indent ind2 -> Forall plain_tline (chosen_branch_with none c b ind2)).
Proof.
  intros Pn. apply tmpl_branches_ind; cbn [plain_tmpl plain_branches chosen_with chosen_branch_with].
  - constructor.
  - intros l rest IH [H1 H2]. constructor; auto.
  - intros ind key body IH1 more IH2 ind2 rest IH3 (H1 & H2 & H3 & H4 & H5 & H6 & H7).
    constructor; [now apply left_out_plain|]. apply Forall_app. split; [|auto]. destruct (c key); [|auto].
    apply Forall_app. split; [auto|]. constructor; [|constructor]. apply left_out_plain; [exact Pn|now apply next_indent].
  - constructor.
  - intros ind key body IH1 more IH2 ind2 (H1 & H2 & H3 & H4 & H5) HI. destruct (c key); [|auto].
    apply Forall_app. split; [auto|]. constructor; [|constructor]. apply left_out_plain; [exact Pn|now apply next_indent].
  - intros ind body IH ind2 (H1 & H2) HI. apply Forall_app. split; [auto|]. constructor; [|constructor]. now apply left_out_plain.
Qed.
Lemma chosen_plain c : (forall t, plain_tmpl t -> Forall plain_tline (chosen c t)) /\ (forall b, plain_branches b -> Forall plain_tline (chosen_branch c b)).
Proof.
  apply tmpl_branches_ind; cbn [plain_tmpl plain_branches chosen chosen_branch].
  - constructor.
  - intros l rest IH [H1 H2]. constructor; auto.
  - intros ind key body IH1 more IH2 ind2 rest IH3 (H1 & H2 & H3 & H4 & H5 & H6 & H7). apply Forall_app. split; [|auto]. destruct (c key); auto.
  - constructor.
  - intros ind key body IH1 more IH2 (H1 & H2 & H3 & H4 & H5). destruct (c key); auto.
  - intros ind body IH (H1 & H2). auto.
Qed.
Definition result (r : option (processor * bool)) : option (list str) :=
  match option_map fst r with None => None | Some p => match p_scope p with [_] => Some (p_lines p) | _ => None end end.
Lemma make_lines_runi s d ts : tokenize s = Some ts -> make_lines s d = result (runi (Proc d [] [] 0 [Active] []) false ts).
Proof. intros E. unfold make_lines, result. now rewrite E, run_runi. Qed.
Lemma sim_result d p ts ls : p_scope p = [Active] -> Sim d p ts ls [Active] -> result (runi p false ts) = result (runi p false (flat_map tokens_of ls)).
Proof.
  intros HS H. unfold Sim in H. rewrite <- HS, resc_self in H. rewrite HS in H. destruct (runi p false (flat_map tokens_of ls)) as [[q i]|] eqn:E; [|now rewrite H].
  destruct H as (-> & _ & _ & ->). unfold result. cbn [option_map fst].
  assert (p_scope q = [Active]) as HQ.
  { refine (proj2 (runi_keeps _ _ _ _ _ _ HS E)). apply Forall_forall. intros t Ht. apply in_flat_map in Ht as (l & _ & Ht).
    pose proof (simple_tokens l) as HT. rewrite Forall_forall in HT. auto. }
  now rewrite <- HQ, resc_self.
Qed.
Lemma p_c122_blocks d c none t : plain_tmpl t -> t <> t_end -> Forall (tells d c) (asked c t) -> nothing d none -> plain_key none ->
  make_lines (lines_text (tmpl_lines t)) d = make_lines (lines_text (map tline_text (chosen_with none c t))) d.
Proof.
  intros HP HN HA Hno Pno. rewrite (make_lines_runi _ d _ (tokenize_whole t HP HN)).
  rewrite (make_lines_runi _ d (flat_map tokens_of (chosen_with none c t))) by (apply tokenize_all; [destruct t; [congruence|discriminate..]|now apply chosen_with_plain]).
  rewrite <- (proj1 (gen_with none c) t). apply sim_result with d; [reflexivity|].
  apply (sim_all d (fun ind => [marker_line none ind]) indent c); auto; [|now apply inds_indent].
  intros ind p HI HS HC HD. cbn [flat_map]. rewrite app_nil_r. now apply run_left_out.
Qed.
Lemma p_c122_gen d c t : plain_tmpl t -> t <> t_end -> Forall (tells d c) (asked c t) -> unindented t ->
  make_lines (lines_text (tmpl_lines t)) d = result (runi (Proc d [] [] 0 [Active] []) false (flat_map tokens_of (chosen c t))).
Proof.
  intros HP HN HA HU. rewrite (make_lines_runi _ d _ (tokenize_whole t HP HN)).
  rewrite <- (proj1 (gen_chosen c) t). apply sim_result with d; [reflexivity|].
  apply (sim_all d (fun _ => []) (fun i => i = []) c); auto; [| |now apply inds_nil].
  - intros ind p -> HS HC HD. cbn [flat_map runi length]. rewrite Nat.add_0_r. destruct p; cbn in *; subst; reflexivity.
  - intros ind ->. constructor.
Qed.
Lemma p_c122_unindented d c t : plain_tmpl t -> unindented t -> Forall (tells d c) (asked c t) -> chosen c t <> [] ->
  make_lines (lines_text (tmpl_lines t)) d = make_lines (lines_text (map tline_text (chosen c t))) d.
Proof.
  intros HP HU HA HN. assert (t <> t_end) as Ht by (intros ->; now apply HN). rewrite (p_c122_gen d c t HP Ht HA HU).
  symmetry. apply make_lines_runi. apply tokenize_all; [exact HN|now apply chosen_plain].
Qed.
Lemma p_c122_empty d c t : plain_tmpl t -> unindented t -> Forall (tells d c) (asked c t) -> t <> t_end -> chosen c t = [] ->
  make_lines (lines_text (tmpl_lines t)) d = Some [].
Proof. intros HP HU HA Ht HN. rewrite (p_c122_gen d c t HP Ht HA HU), HN. reflexivity. Qed.

(** ** Nesting *)
Definition mtokens (m : mline) : list token :=
  match m with
  | m_line l => tokens_of l
  | m_if ind key => [TText ind; TIf key; TNewline]
  | m_elif ind key => [TText ind; TElif key; TNewline]
  | m_else ind => [TText ind; TElse; TNewline]
  | m_endif ind => [TText ind; TEndif; TNewline]
  end.
Lemma mline_tokens m : plain_mline m -> tokenize_line (S (length (mline_text m))) (mline_text m) = Some (mtokens m) /\ ~ In x0a (mline_text m).
Proof.
  destruct m as [[ps tail]|ind key|ind key|ind|ind]; cbn [plain_mline mline_text mtokens].
  - intros H. split; [apply tokenize_ok; [exact H|lia]|now apply tline_no_newline].
  - intros (H1 & H2 & H3). split; [|apply marker_no_newline; auto; cbn; intuition discriminate].
    change (#"[[[IF " ++ key ++ #"]]]") with (#"[[[" ++ #"IF " ++ key ++ #"]]]"). rewrite (app_assoc #"IF " key).
    apply tokenize_block_marker; [exact H1|apply word_no_close; [exact H3|cbn; intuition discriminate]|now apply marker_if|lia].
  - intros (H1 & H2 & H3). split; [|apply marker_no_newline; auto; cbn; intuition discriminate].
    change (#"[[[ELIF " ++ key ++ #"]]]") with (#"[[[" ++ #"ELIF " ++ key ++ #"]]]"). rewrite (app_assoc #"ELIF " key).
    apply tokenize_block_marker; [exact H1|apply word_no_close; [exact H3|cbn; intuition discriminate]|now apply marker_elif|lia].
  - intros H1. split; [|rewrite in_app_iff; intros [H|H]; [now apply (indent_newline ind)|cbn in H; intuition discriminate]].
    change #"[[[ELSE]]]" with (#"[[[" ++ #"ELSE" ++ #"]]]"). apply tokenize_block_marker; [exact H1|cbn; intuition discriminate|reflexivity|lia].
  - intros H1. split; [|rewrite in_app_iff; intros [H|H]; [now apply (indent_newline ind)|cbn in H; intuition discriminate]].
    change #"[[[ENDIF]]]" with (#"[[[" ++ #"ENDIF" ++ #"]]]"). apply tokenize_block_marker; [exact H1|cbn; intuition discriminate|reflexivity|lia].
Qed.
Lemma tokenize_mlines ms : ms <> [] -> Forall plain_mline ms -> tokenize (lines_text (map mline_text ms)) = Some (flat_map mtokens ms).
Proof.
  intros HN HP. unfold tokenize. rewrite split_lines_text.
  - induction HP as [|m ms Hm HP IH]; [now destruct HN|]. cbn [map flat_map]. apply tokens_ok; [now apply mline_tokens|].
    destruct ms; [reflexivity|]. apply IH. discriminate.
  - destruct ms; [congruence|discriminate].
  - apply Forall_forall. intros x Hx. apply in_map_iff in Hx as (m & <- & Hm). rewrite Forall_forall in HP. now apply mline_tokens, HP.
Qed.
Lemma add_text_scope p t : p_scope (add_text p t) = p_scope p.
Proof. apply add_text_keeps. Qed.
Lemma add_lines_scope p t : p_scope (add_lines p t) = p_scope p.
Proof. apply add_lines_keeps. Qed.
Definition depth (p : processor) : nat := length (p_scope p).
Definition good (p : processor) : Prop := exists s, p_scope p = s ++ [Active].
Lemma step_simple_scope p ig t q i : simple_token t -> step p ig t = Some (q, i) -> p_scope q = p_scope p.
Proof.
  intros Ht. assert (handle p t = Some (q, i) -> p_scope q = p_scope p) as K.
  { unfold handle, handle_newline. destruct t as [s| |key|key|key| | |s| | |]; try contradiction.
    - destruct (top p); intros E; apply some_fst in E; subst q; rewrite ?add_text_scope; reflexivity.
    - destruct (top p); intros E; apply some_fst in E; subst q; reflexivity.
    - destruct (top p); [|intros E; apply some_fst in E; subst q; reflexivity..]. unfold handle_expand.
      destruct (expand p key) as [[|[|c s]|[|r l]|s]|]; intros E; try discriminate; apply some_fst in E; subst q; rewrite ?add_text_scope, ?add_lines_scope; reflexivity. }
  unfold step. destruct ig; [|exact K]. destruct t; try exact K. intros E. apply some_fst in E. subst q. reflexivity.
Qed.
Lemma runi_simple_scope ts : Forall simple_token ts -> forall p ig q i, runi p ig ts = Some (q, i) -> p_scope q = p_scope p.
Proof.
  induction 1 as [|t ts Ht HT IH]; intros p ig q i E; cbn [runi] in E; [apply some_fst in E; now subst q|].
  destruct (step p ig t) as [[p' i']|] eqn:E'; [|discriminate]. rewrite (IH _ _ _ _ E). exact (step_simple_scope _ _ _ _ _ Ht E').
Qed.
Definition after (m : mline) (n : nat) : nat := match m with m_if _ _ => S n | m_endif _ => pred n | _ => n end.
Lemma runi_three ind t p ig q i : runi p ig [TText ind; t; TNewline] = Some (q, i) -> t <> TNewline ->
  exists p1 p2 j, p_scope p1 = p_scope p /\ handle p1 t = Some (p2, j) /\ p_scope q = p_scope p2.
Proof.
  intros E Ht. cbn [runi] in E. destruct (step p ig (TText ind)) as [[p1 i1]|] eqn:E1; [|discriminate].
  destruct (step p1 i1 t) as [[p2 i2]|] eqn:E2; [|discriminate]. destruct (step p2 i2 TNewline) as [[p3 i3]|] eqn:E3; [|discriminate].
  apply some_fst in E. subst q. exists p1, p2, i2. split; [exact (step_simple_scope _ _ (TText ind) _ _ I E1)|]. split; [|exact (step_simple_scope _ _ TNewline _ _ I E3)].
  rewrite <- E2. unfold step. destruct i1; [|reflexivity]. destruct t; try reflexivity. congruence.
Qed.
Lemma good_cases p : good p -> p_scope p = [Active] \/ exists a b s, p_scope p = a :: b :: s /\ forall x, good (set_top p x).
Proof.
  intros [s E]. destruct s as [|a [|b s]]; [now left|right..].
  - exists a, Active, []. split; [exact E|]. intros x. exists [x]. unfold set_top. cbn [p_scope]. now rewrite E.
  - exists a, b, (s ++ [Active]). split; [exact E|]. intros x. exists (x :: b :: s). unfold set_top. cbn [p_scope]. now rewrite E.
Qed.
Lemma good_scope p q : p_scope q = p_scope p -> good p -> good q.
Proof. intros E [s H]. exists s. congruence. Qed.
Lemma set_top_depth p s : depth p <> 0%nat -> depth (set_top p s) = depth p.
Proof. unfold depth, set_top. cbn [p_scope]. destruct (p_scope p); cbn; congruence. Qed.
Lemma mline_depth m p ig q i : runi p ig (mtokens m) = Some (q, i) -> good p ->
  depth q = after m (depth p) /\ (inside m -> (2 <= depth p)%nat) /\ good q.
Proof.
  intros E HG. destruct m as [l|ind key|ind key|ind|ind]; cbn [mtokens after inside] in *.
  1:{ apply (runi_simple_scope _ (simple_tokens l)) in E. unfold depth. rewrite E. repeat split; [intros []|]. now apply (good_scope p). }
  all: apply runi_three in E as (p1 & p2 & j & H1 & H2 & H3); [|discriminate].
  all: unfold depth; rewrite H3, <- H1; change (length (p_scope p2)) with (depth p2); change (length (p_scope p1)) with (depth p1).
  all: apply (good_scope p p1 H1) in HG; assert (good p2 -> good q) as HQ by (now apply good_scope); clear H1 H3.
  - split; [|split; [intros []|]].
    + cbn [handle] in H2. unfold handle_if in H2. destruct (top p1); [destruct (expand p1 key) as [v|]; [|discriminate]|..]; cbn [and_ignore] in H2; apply some_fst in H2; subst p2; reflexivity.
    + apply HQ. destruct HG as [s HS]. cbn [handle] in H2. unfold handle_if in H2. destruct (top p1); [destruct (expand p1 key) as [v|]; [|discriminate]|..];
        cbn [and_ignore] in H2; apply some_fst in H2; subst p2; unfold good; cbn [p_scope]; rewrite HS; eexists (_ :: s); reflexivity.
  - destruct (good_cases p1 HG) as [ES|(a & b & s & ES & HT)].
    { exfalso. revert H2. unfold handle, handle_elif, top. rewrite ES. discriminate. }
    assert (depth p1 = S (S (length s))) as HD by (unfold depth; now rewrite ES). split; [|split; [lia|apply HQ]]; revert H2; unfold handle, handle_elif, top; rewrite ES.
    + destruct a; cbn [and_ignore].
      * intros E. apply some_fst in E. subst p2. apply set_top_depth. lia.
      * destruct (expand p1 key) as [v|]; [|discriminate]. cbn [and_ignore]. intros E. apply some_fst in E. subst p2. destruct (truth v); [apply set_top_depth; lia|reflexivity].
      * intros E. apply some_fst in E. now subst p2.
    + destruct a; cbn [and_ignore].
      * intros E. apply some_fst in E. subst p2. apply HT.
      * destruct (expand p1 key) as [v|]; [|discriminate]. cbn [and_ignore]. intros E. apply some_fst in E. subst p2. destruct (truth v); [apply HT|exact HG].
      * intros E. apply some_fst in E. now subst p2.
  - destruct (good_cases p1 HG) as [ES|(a & b & s & ES & HT)].
    { exfalso. revert H2. unfold handle, handle_else, top. rewrite ES. discriminate. }
    assert (depth p1 = S (S (length s))) as HD by (unfold depth; now rewrite ES). split; [|split; [lia|apply HQ]]; revert H2; unfold handle, handle_else, top; rewrite ES.
    + destruct a; cbn [and_ignore]; intros E; apply some_fst in E; subst p2; try (apply set_top_depth; lia); reflexivity.
    + destruct a; cbn [and_ignore]; intros E; apply some_fst in E; subst p2; try apply HT; exact HG.
  - cbn [handle] in H2. unfold handle_endif in H2. destruct (good_cases p1 HG) as [ES|(a & b & s & ES & HT)]; rewrite ES in H2; [discriminate|].
    cbn [and_ignore] in H2. apply some_fst in H2. subst p2. unfold depth. rewrite ES. cbn [p_scope length pred]. split; [reflexivity|]. split; [lia|]. apply HQ.
    destruct HG as [s' HS]. rewrite ES in HS. destruct s' as [|y s']; [discriminate|]. exists s'. cbn [p_scope]. now injection HS.
Qed.
Lemma good_depth p : good p -> (1 <= depth p)%nat.
Proof. intros [s E]. unfold depth. rewrite E, app_length. cbn. lia. Qed.
Lemma mlines_depth ms : forall p ig q i, runi p ig (flat_map mtokens ms) = Some (q, i) -> good p ->
  (depth q + endifs ms = depth p + ifs ms)%nat /\
  forall a m b, ms = a ++ m :: b -> (1 + endifs a <= depth p + ifs a)%nat /\ (inside m -> (2 + endifs a <= depth p + ifs a)%nat).
Proof.
  induction ms as [|x ms IH]; intros p ig q i E HG.
  - cbn in E. injection E as <- _. split; [reflexivity|]. intros a m b H. destruct a; discriminate.
  - cbn [flat_map] in E. rewrite runi_app in E. destruct (runi p ig (mtokens x)) as [[p' i']|] eqn:E1; [|discriminate].
    destruct (mline_depth x p ig p' i' E1 HG) as (H1 & H2 & HG'). pose proof (good_depth p HG) as HD. pose proof (good_depth p' HG') as HD'.
    destruct (IH p' i' q i E HG') as [K1 K2]. split.
    + destruct x; cbn [after inside ifs endifs] in *; try lia.
    + intros a m b Hab. destruct a as [|y a]; cbn [app] in Hab; injection Hab as <- Hab.
      * cbn [ifs endifs]. split; [lia|]. intros Hm. specialize (H2 Hm). lia.
      * specialize (K2 a m b Hab). destruct K2 as [K2 K3]. destruct x; cbn [after inside ifs endifs] in *;
          (split; [lia|intros Hm; specialize (K3 Hm); lia]).
Qed.
Lemma p_c122_balanced ms d out : ms <> [] -> Forall plain_mline ms -> make_lines (lines_text (map mline_text ms)) d = Some out -> balanced ms.
Proof.
  intros HN HP E. rewrite (make_lines_runi _ d _ (tokenize_mlines ms HN HP)) in E. unfold result in E.
  destruct (runi _ false (flat_map mtokens ms)) as [[q i]|] eqn:ER; [|discriminate]. cbn [option_map fst] in E.
  destruct (mlines_depth ms _ _ _ _ ER) as [H1 H2]; [now exists []|]. cbn [depth p_scope length] in *. unfold depth in H1.
  destruct (p_scope q) as [|a [|b s]]; try discriminate. cbn [length] in H1. split; [lia|].
  intros x m y Hxy. specialize (H2 x m y Hxy). destruct H2 as [H2 H3]. split; [lia|]. intros Hm. specialize (H3 Hm). lia.
Qed.

(** ** SET *)
Lemma split1_found c a b : ~ In c a -> py_split1 c (a ++ c :: b) = (a, Some b).
Proof.
  induction a as [|x a IH]; intros H; cbn [app py_split1].
  - now rewrite (proj2 (byte_eqb_true c c) eq_refl).
  - assert (byte_eqb x c = false) as -> by (apply byte_eqb_false; intros ->; apply H; now left). rewrite IH; [reflexivity|]. intros Hi. apply H. now right.
Qed.
Lemma p_c122_set d k v s : k <> [] -> Forall key_char k -> ~ In x5d v -> ~ In x0a v ->
  make_lines (#"[[[SET " ++ k ++ #"=" ++ v ++ #"]]]" ++ x0a :: s) d = make_lines s ((k, VStr v) :: d).
Proof.
  intros NK HK Hv1 Hv2. set (inner := #"SET " ++ k ++ #"=" ++ v).
  assert (~ In x0a (#"[[[" ++ inner ++ #"]]]")) as HL.
  { unfold inner. rewrite !in_app_iff. intros [H|[[H|[H|[H|H]]]|H]]; try (cbn in H; intuition discriminate); try contradiction.
    revert H. apply key_not; [exact HK|not_key]. }
  assert (~ In x5d inner) as HC.
  { unfold inner. rewrite !in_app_iff. intros [H|[H|[H|H]]]; try (cbn in H; intuition discriminate); try contradiction.
    revert H. apply key_not; [exact HK|not_key]. }
  assert (#"[[[SET " ++ k ++ #"=" ++ v ++ #"]]]" ++ x0a :: s = (#"[[[" ++ inner ++ #"]]]") ++ x0a :: s) as ->.
  { unfold inner. rewrite <- !app_assoc. reflexivity. }
  assert (marker_token (inner ++ #"]]]") inner = Some (TSet (k ++ x3d :: v))) as HM.
  { unfold inner. change (#"SET " ++ k ++ #"=" ++ v) with (x53 :: x45 :: x54 :: x20 :: (k ++ x3d :: v)).
    unfold marker_token. cbn [app prefix_eqb list_byte_of_string]. cbn. destruct k as [|a k']; [congruence|]. cbn [app].
    apply Forall_cons_iff in HK as [Ha _]. pose proof (key_no_space [a] (Forall_cons _ Ha (Forall_nil _))) as Hs. apply Forall_cons_iff in Hs as [Hs _].
    cbn [py_lstrip]. now rewrite Hs. }
  pose proof (tokenize_block_marker [] inner _ (Forall_nil _) HC HM (S (length (#"[[[" ++ inner ++ #"]]]"))) ltac:(cbn [app]; lia)) as HT. cbn [app] in HT.
  unfold make_lines, tokenize. rewrite split_cons by exact HL. cbn [tokenize_lines]. rewrite HT.
  destruct (tokenize_lines (py_split x0a s)) as [ts|]; [|reflexivity]. cbn [app].
  unfold run. fold run. cbn [step handle top p_scope]. unfold add_text. cbn [py_rcut_newline].
  cbn [p_dict p_lines p_cur p_column p_scope p_align app length Nat.add step handle top].
  unfold handle_set. rewrite split1_found by (apply key_not; [exact HK|not_key]). destruct k as [|a k']; [congruence|]. cbn [and_ignore blank p_cur is_empty_or_space].
  unfold blank. cbn [p_cur is_empty_or_space step]. unfold blank. cbn [p_cur is_empty_or_space]. reflexivity.
Qed.

(** ** Alignment *)
Lemma blanks_prefix s : indent (fst (blanks s)) /\ (length (fst (blanks s)) <= length s)%nat.
Proof.
  induction s as [|c s [IH1 IH2]]; cbn [blanks]; [split; [constructor|cbn; lia]|].
  destruct (byte_eqb c x09 || byte_eqb c x20) eqn:E; [|split; [constructor|cbn; lia]].
  destruct (blanks s) as [b f]. cbn [fst length] in *. split; [|lia]. constructor; [|exact IH1].
  apply orb_true_iff in E as [E|E]; apply byte_eqb_true in E; auto.
Qed.
Lemma indentation_ok s : indent (indentation s) /\ (length (indentation s) <= length s)%nat.
Proof. unfold indentation. pose proof (blanks_prefix s) as H. destruct (blanks s) as [b [|]]; [exact H|]. split; [constructor|cbn; lia]. Qed.
Definition no_part (t : str) : Prop := ~ In x0a t /\ no_marker t.
Lemma tokenize_symbol a w t b : ~ In x0a a -> no_marker a -> (forall u, a <> u ++ #"[") -> no_marker b -> ~ In x5d w ->
  marker_token (w ++ #"]]]" ++ b) w = Some t ->
  tokenize_line (S (length (a ++ #"[[[" ++ w ++ #"]]]" ++ b))) (a ++ #"[[[" ++ w ++ #"]]]" ++ b) =
  Some (TText a :: t :: (match b with [] => [] | _ => [TText b] end) ++ [TNewline]).
Proof.
  intros H1 H2 H3 H4 H5 HM. cbn [tokenize_line]. rewrite cut_found by assumption. rewrite cut_close by exact H5. rewrite HM.
  assert (exists n, length (a ++ #"[[[" ++ w ++ #"]]]" ++ b) = S n) as [n ->].
  { rewrite !app_length. change (length #"[[[") with 3%nat. exists (length a + (2 + (length w + (length #"]]]" + length b))))%nat. lia. }
  cbn [tokenize_line]. rewrite cut_absent; [destruct b; reflexivity|]. intros u v E. exact (H4 u v E).
Qed.
Lemma p_c122_expansion d c t out : plain_tmpl t -> unindented t -> Forall (tells d c) (asked c t) -> chosen c t <> [] -> Expanded d 0 (chosen c t) out ->
  make_lines (lines_text (tmpl_lines t)) d = Some out.
Proof. intros HP HU HA HN HE. rewrite (p_c122_unindented d c t HP HU HA HN). now apply p_c118; [|apply chosen_plain|]. Qed.
Lemma key_check k : forallb key_charb k = true -> Forall key_char k.
Proof.
  rewrite forallb_forall. intros H. apply Forall_forall. intros c Hc. specialize (H c Hc). unfold key_charb in H. unfold key_char. lia.
Qed.
