(** Expanders (C129). *)
From Coq Require Import String.
From Verif Require Import Base Model.PyText Model.Codegen Model.Expanders Spec.Template Spec.Expanders
  Proofs.CodegenLemmas Proofs.BlockLemmas Proofs.ParamLemmas Proofs.AppendLemmas.
Local Notation "'#' s" := (list_byte_of_string s%string) (at level 5, only parsing).

(** ** Expanders that answer the same *)
Section Same.
Context {E F : Type} (X : expander E) (Y : expander F) (R : E -> F -> Prop).
Definition both {A} (x : option (A * E)) (y : option (A * F)) : Prop :=
  match x, y with None, None => True | Some (a, e), Some (b, f) => a = b /\ R e f | _, _ => False end.
Hypothesis asks : forall e f k ps c, R e f -> both (ask X e k ps c) (ask Y f k ps c).
Variable sets : Prop.
Definition told (x : option E) (y : option F) : Prop :=
  match x, y with None, None => True | Some e, Some f => R e f | _, _ => False end.
Hypothesis tells : sets -> forall e f k v, R e f -> told (tell X e k v) (tell Y f k v).

Definition rel (x : option (gproc (E := E) * bool)) (y : option (gproc (E := F) * bool)) : Prop :=
  match x, y with
  | None, None => True
  | Some (g, a), Some (h, b) => a = b /\ g_proc g = g_proc h /\ R (g_state g) (g_state h)
  | _, _ => False
  end.
Lemma expand_rel (g : gproc (E := E)) (h : gproc (E := F)) k : g_proc g = g_proc h -> R (g_state g) (g_state h) -> both (g_expand X g k) (g_expand Y h k).
Proof.
  intros E1 H. unfold g_expand. destruct (split_key k) as [[key ps]|]; [|exact I]. rewrite <- E1. now apply asks.
Qed.
Lemma step_rel g h ig t : g_proc g = g_proc h -> R (g_state g) (g_state h) -> (sets \/ forall s, t <> TSet s) -> rel (g_step X g ig t) (g_step Y h ig t).
Proof.
  destruct g as [e p], h as [f p']. cbn [g_proc g_state]. intros <- H HS.
  assert (G : rel (g_handle X (GProc e p) t) (g_handle Y (GProc f p) t)).
  { pose proof (fun k => expand_rel (GProc e p) (GProc f p) k eq_refl H) as K. unfold both in K.
    assert (Q : forall o : option processor, rel (g_ignore (g_lift (GProc e p) o)) (g_ignore (g_lift (GProc f p) o)) /\ rel (g_keep (g_lift (GProc e p) o)) (g_keep (g_lift (GProc f p) o))).
    { intros [q|]; cbn; auto. }
    unfold g_handle. cbn [g_proc g_state]. destruct t as [s| |key|key|key| | |s| | |]; cbn [g_proc g_state]; try (cbn; now auto).
    - destruct (top p); cbn; auto.
    - destruct (top p); try (cbn; now auto). unfold g_handle_expand. specialize (K key). destruct (g_expand X _ key) as [[v e1]|], (g_expand Y _ key) as [[v' f1]|]; try contradiction; [|exact I].
      destruct K as [<- K]. destruct v as [|[|c s]|[|x l]|s]; cbn; auto.
    - unfold g_handle_if. cbn [g_proc g_state]. destruct (top p); try (cbn; now auto). specialize (K key).
      destruct (g_expand X _ key) as [[v e1]|], (g_expand Y _ key) as [[v' f1]|]; try contradiction; [|exact I]. destruct K as [<- K]. cbn; auto.
    - destruct (top p) eqn:ET; try (cbn; now auto); unfold g_handle_elif; cbn [g_proc g_state]; destruct (p_scope p) as [|a [|b l]]; try exact I; rewrite ET; [cbn; now auto|].
      specialize (K key). destruct (g_expand X _ key) as [[v e1]|], (g_expand Y _ key) as [[v' f1]|]; try contradiction; [|exact I]. destruct K as [<- K]. cbn; auto.
    - destruct (top p); try (cbn; now auto); apply Q.
    - apply Q.
    - destruct (top p); try (cbn; now auto). unfold g_handle_set. cbn [g_state]. destruct HS as [HS|HS]; [|now specialize (HS s)].
      destruct (py_split1 x3d s) as [[|c k] [v|]]; try exact I. specialize (tells HS e f (c :: k) v H). unfold told in tells.
      destruct (tell X e (c :: k) v), (tell Y f (c :: k) v); try contradiction; [|exact I]. cbn; auto.
    - destruct (top p); cbn; auto.
    - destruct (top p); try (cbn; now auto); apply Q.
    - destruct (top p); try (cbn; now auto); apply Q. }
  unfold g_step. destruct ig, t; try exact G. cbn. auto.
Qed.
Lemma run_rel ts : (sets \/ forall s, ~ In (TSet s) ts) -> forall g h ig, g_proc g = g_proc h -> R (g_state g) (g_state h) ->
  match g_run X g ig ts, g_run Y h ig ts with
  | None, None => True | Some g', Some h' => g_proc g' = g_proc h' /\ R (g_state g') (g_state h') | _, _ => False end.
Proof.
  induction ts as [|t ts IH]; intros HS g h ig E1 H; [cbn; auto|]. cbn [g_run].
  assert (H1 : rel (g_step X g ig t) (g_step Y h ig t)).
  { apply step_rel; [exact E1|exact H|]. destruct HS as [HS|HS]; [now left|right]. intros s ->. apply (HS s). now left. }
  unfold rel in H1. destruct (g_step X g ig t) as [[g' a]|], (g_step Y h ig t) as [[h' b]|]; try contradiction; [|exact I].
  destruct H1 as (<- & E2 & H2). apply IH; [|exact E2|exact H2]. destruct HS as [HS|HS]; [now left|right]. intros s Hs. apply (HS s). now right.
Qed.
Lemma make_rel s e f : (sets \/ forall ts t, tokenize s = Some ts -> ~ In (TSet t) ts) -> R e f ->
  both (g_make_lines X s e) (g_make_lines Y s f).
Proof.
  intros HS H. unfold g_make_lines. destruct (tokenize s) as [ts|]; [|exact I].
  pose proof (run_rel ts ltac:(destruct HS as [HS|HS]; [now left|right; intros t; now apply HS]) (GProc e (Proc [] [] [] 0 [Active] [])) (GProc f (Proc [] [] [] 0 [Active] [])) false eq_refl H) as K.
  destruct (g_run X _ _ _) as [g|], (g_run Y _ _ _) as [h|]; try contradiction; [|exact I]. destruct K as [K1 K2]. rewrite <- K1.
  destruct (p_scope (g_proc g)) as [|a [|b l]]; try exact I. cbn. auto.
Qed.
End Same.

(** ** The dictionary *)
Definition setd (d : dict) (p : processor) : processor := Proc d (p_lines p) (p_cur p) (p_column p) (p_scope p) (p_align p).
Definition setg (g : gproc (E := dict)) : processor := setd (g_state g) (g_proc g).
Lemma add_text_setd d p s : add_text (setd d p) s = setd d (add_text p s).
Proof. unfold add_text. destruct (py_rcut_newline s) as [[a b]|]; reflexivity. Qed.
Lemma add_lines_setd d p l : add_lines (setd d p) l = setd d (add_lines p l).
Proof. destruct l as [|x [|y l]]; try reflexivity. unfold add_lines. rewrite <- add_text_setd. reflexivity. Qed.
Lemma expand_setg g k : match g_expand dict_expander g k with None => expand (setg g) k = None | Some (v, d) => expand (setg g) k = Some v /\ d = g_state g end.
Proof.
  unfold g_expand, split_key, expand. cbn [setg setd p_dict].
  destruct (py_split1 x28 k) as [key [r|]]; [destruct (py_split1 x29 r) as [ps [more|]]; [|reflexivity]|]; cbn [dict_expander ask]; destruct (dict_get (g_state g) key); auto.
Qed.
Definition gout (x : option (gproc (E := dict) * bool)) : option (processor * bool) :=
  match x with None => None | Some (g, b) => Some (setg g, b) end.
Lemma lift_ignore g o : gout (g_ignore (g_lift g o)) = and_ignore (match o with None => None | Some q => Some (setd (g_state g) q) end).
Proof. destruct o; reflexivity. Qed.
Lemma lift_keep g o : gout (g_keep (g_lift g o)) = and_keep (match o with None => None | Some q => Some (setd (g_state g) q) end).
Proof. destruct o; reflexivity. Qed.
Lemma step_setg g ig t : step (setg g) ig t = gout (g_step dict_expander g ig t).
Proof.
  assert (G : handle (setg g) t = gout (g_handle dict_expander g t)).
  { destruct g as [d p]. pose proof (expand_setg (GProc d p)) as K.
    assert (ET : top (setg (GProc d p)) = top p) by reflexivity.
    unfold handle, g_handle. rewrite ET. cbn [g_proc]. destruct t as [s| |key|key|key| | |s| | |].
    - destruct (top p); cbn [gout]; try reflexivity. unfold setg. cbn [g_state g_proc]. now rewrite add_text_setd.
    - cbn [gout]. unfold handle_newline. rewrite ET. cbn [g_proc]. now destruct (top p).
    - destruct (top p); try reflexivity. unfold handle_expand, g_handle_expand. specialize (K key).
      destruct (g_expand dict_expander (GProc d p) key) as [[v e]|]; [destruct K as [-> ->]|rewrite K; reflexivity].
      cbn [g_state g_proc]. destruct v as [|[|c s]|[|x l]|s]; try reflexivity; unfold setg; cbn [g_state g_proc]; rewrite ?add_text_setd, ?add_lines_setd; reflexivity.
    - unfold handle_if, g_handle_if. rewrite ET. cbn [g_proc]. destruct (top p); try reflexivity. specialize (K key).
      destruct (g_expand dict_expander (GProc d p) key) as [[v e]|]; [destruct K as [-> ->]|rewrite K]; reflexivity.
    - assert (GE : top p <> Done -> and_ignore (handle_elif (setg (GProc d p)) key) = gout (g_ignore (g_handle_elif dict_expander (GProc d p) key))).
      { intros ND. unfold handle_elif, g_handle_elif. rewrite ET. cbn [setg setd g_proc g_state p_scope]. destruct (p_scope p) as [|a [|b l]]; try reflexivity.
        destruct (top p); try reflexivity. specialize (K key). fold (setd d p). change (setd d p) with (setg (GProc d p)).
        destruct (g_expand dict_expander (GProc d p) key) as [[v e]|]; [destruct K as [-> ->]|rewrite K; reflexivity]. now destruct (truth v). }
      destruct (top p); try reflexivity; apply GE; discriminate.
    - assert (GE : and_ignore (handle_else (setg (GProc d p))) = gout (g_ignore (g_lift (GProc d p) (handle_else p)))).
      { rewrite lift_ignore. unfold handle_else. rewrite ET. cbn [setg setd g_proc g_state p_scope]. destruct (p_scope p) as [|a [|b l]]; try reflexivity. now destruct (top p). }
      destruct (top p); try reflexivity; exact GE.
    - rewrite lift_ignore. unfold handle_endif. cbn [setg setd g_proc g_state p_scope]. destruct (p_scope p) as [|a [|b l]]; reflexivity.
    - destruct (top p); try reflexivity. unfold handle_set, g_handle_set. destruct (py_split1 x3d s) as [[|c k] [v|]]; reflexivity.
    - destruct (top p); reflexivity.
    - destruct (top p); try reflexivity. rewrite lift_keep. unfold align. cbn [setg setd g_proc g_state p_align]. destruct (p_align p); reflexivity.
    - destruct (top p); try reflexivity. rewrite lift_keep. unfold pop_alignment. cbn [setg setd g_proc g_state p_align]. destruct (p_align p); reflexivity. }
  unfold step, g_step. destruct ig, t; try exact G. reflexivity.
Qed.
Lemma run_setg ts : forall g ig, run (setg g) ig ts = option_map setg (g_run dict_expander g ig ts).
Proof.
  induction ts as [|t ts IH]; intros g ig; [reflexivity|]. cbn [run g_run]. rewrite step_setg.
  destruct (g_step dict_expander g ig t) as [[h b]|]; [apply IH|reflexivity].
Qed.
Lemma p_c129_dictionary s d : make_lines s d = option_map fst (g_make_lines dict_expander s d).
Proof.
  unfold make_lines, g_make_lines. destruct (tokenize s) as [ts|]; [|reflexivity].
  change (Proc d [] [] 0 [Active] []) with (setg (GProc d (Proc [] [] [] 0 [Active] []))). rewrite run_setg.
  destruct (g_run dict_expander _ false ts) as [g|]; [|reflexivity]. cbn [option_map setg setd p_scope p_lines].
  destruct (p_scope (g_proc g)) as [|a [|b l]]; reflexivity.
Qed.

(** ** Templates without SET *)
Definition no_set (s : str) : Prop := forall u v, s <> u ++ #"[[[SET " ++ v.
Lemma cut_some t s : forall a b, py_cut t s = Some (a, b) -> s = a ++ t ++ b.
Proof.
  induction s as [|c s IH]; intros a b H; cbn [py_cut] in H.
  - destruct (prefix_eqb t []) eqn:E; [|discriminate]. apply prefix_true in E as [v E]. injection H as <- <-. cbn [app].
    destruct t; [|discriminate]. now rewrite skipn_nil.
  - destruct (prefix_eqb t (c :: s)) eqn:E.
    + apply prefix_true in E as [v E]. injection H as <- <-. rewrite E. cbn [app]. f_equal. rewrite skipn_app, skipn_all, Nat.sub_diag. reflexivity.
    + destruct (py_cut t s) as [[x y]|]; [|discriminate]. injection H as <- <-. cbn [app]. f_equal. now apply IH.
Qed.
Lemma tokens_no_set fuel : forall line ts, tokenize_line fuel line = Some ts -> no_set line -> forall x, ~ In (TSet x) ts.
Proof.
  induction fuel as [|fuel IH]; intros line ts H HN x HI; [discriminate|]. cbn [tokenize_line] in H.
  destruct (py_cut #"[[[" line) as [[text rest]|] eqn:E1.
  - apply cut_some in E1. destruct (py_cut #"]]]" rest) as [[inner after]|] eqn:E2; [|discriminate]. apply cut_some in E2.
    destruct (marker_token rest inner) as [t|] eqn:E3; [|discriminate]. destruct (tokenize_line fuel after) as [ts'|] eqn:E4; [|discriminate].
    injection H as <-. destruct HI as [HI|[HI|HI]]; [discriminate| |].
    + subst t. unfold marker_token in E3.
      repeat match type of E3 with
      | (if prefix_eqb #"SET " _ then _ else _) = _ => fail 1
      | (if ?b then _ else _) = _ => destruct b
      | match ?l with _ => _ end = _ => destruct l
      end; try discriminate.
      destruct (prefix_eqb #"SET " rest) eqn:E5; [|discriminate]. apply prefix_true in E5 as [v E5]. apply (HN text v). rewrite E1, E5. reflexivity.
    + apply (IH _ _ E4) in HI; [exact HI|]. intros u v E. apply (HN (text ++ #"[[[" ++ inner ++ #"]]]" ++ u) v). rewrite E1, E2, E, <- !app_assoc. reflexivity.
  - injection H as <-. destruct line; cbn [In] in HI; intuition discriminate.
Qed.
Lemma split_sub c s : forall l, In l (py_split c s) -> exists u v, s = u ++ l ++ v.
Proof.
  assert (K : forall s, match py_split c s with [] => False | x :: r => (exists v, s = x ++ v) /\ forall l, In l r -> exists u v, s = u ++ l ++ v end).
  { clear s. induction s as [|d s IH]; cbn [py_split]; [split; [now exists []|contradiction]|]. destruct (py_split c s) as [|x r]; [contradiction|].
    destruct IH as [[v Hv] IH]. destruct (byte_eqb d c).
    - split; [now exists (d :: s)|]. intros l [<-|Hl]; [exists [d], v; now rewrite Hv|]. destruct (IH l Hl) as (u & w & ->). now exists (d :: u), w.
    - split; [exists v; now rewrite Hv|]. intros l Hl. destruct (IH l Hl) as (u & w & ->). now exists (d :: u), w. }
  intros l Hl. specialize (K s). destruct (py_split c s) as [|x r]; [contradiction|]. destruct K as [[v ->] K]. destruct Hl as [<-|Hl]; [now exists [], v|now apply K].
Qed.
Lemma tokenize_no_set s ts x : no_set s -> tokenize s = Some ts -> ~ In (TSet x) ts.
Proof.
  intros HN H. unfold tokenize in H. assert (HL : Forall no_set (py_split x0a s)).
  { apply Forall_forall. intros l Hl. destruct (split_sub _ _ _ Hl) as (u & v & ->). intros a b ->. apply (HN (u ++ a) (b ++ v)). rewrite <- !app_assoc. reflexivity. }
  revert ts H. induction HL as [|l ls HL1 HL IH]; intros ts H HI; cbn [tokenize_lines] in H; [injection H as <-; contradiction|].
  destruct (tokenize_line (S (length l)) l) as [a|] eqn:E1; [|discriminate]. destruct (tokenize_lines ls) as [b|]; [|discriminate]. injection H as <-.
  apply in_app_or in HI as [HI|HI]; [exact (tokens_no_set _ _ _ E1 HL1 x HI)|exact (IH b eq_refl HI)].
Qed.

(** ** The theorems *)
Lemma p_c129_function {S : Type} (f : S -> str -> list str -> context -> option (value * S)) assign (s0 : S) d template :
  no_set template -> (forall s k ps ctx, match dict_get d k with None => f s k ps ctx = None | Some v => exists s', f s k ps ctx = Some (v, s') end) ->
  option_map fst (g_make_lines (func_expander f assign) template s0) = make_lines template d.
Proof.
  intros HN HF. rewrite p_c129_dictionary.
  pose proof (make_rel (func_expander f assign) dict_expander (fun _ e => e = d)) as K.
  assert (HA : forall e f0 k ps c, f0 = d -> both (fun _ e0 => e0 = d) (ask (func_expander f assign) e k ps c) (ask dict_expander f0 k ps c)).
  { intros s e k ps c ->. cbn [func_expander dict_expander ask]. unfold both. specialize (HF s k ps c). destruct (dict_get d k) as [v|]; [destruct HF as [s' E]|]; [rewrite E|rewrite HF]; auto. }
  specialize (K HA). clear HA.
  specialize (K False ltac:(contradiction) template s0 d). 
  specialize (K ltac:(right; intros ts t Ht; now apply (tokenize_no_set template)) eq_refl). unfold both in K.
  destruct (g_make_lines (func_expander f assign) template s0) as [[a b]|], (g_make_lines dict_expander template d) as [[a' b']|]; try contradiction; cbn; [|reflexivity].
  now destruct K as [-> _].
Qed.
Lemma p_c129_watched {E : Type} (X : expander E) template e l :
  option_map (fun r => (fst r, fst (snd r))) (g_make_lines (watched X) template (e, l)) = g_make_lines X template e.
Proof.
  pose proof (make_rel (watched X) X (fun s e => fst s = e)) as K.
  assert (HA : forall s f k ps c, fst s = f -> both (fun s e => fst s = e) (ask (watched X) s k ps c) (ask X f k ps c)).
  { intros [s0 w] f k ps c H. cbn [fst] in H. subst f. cbn [watched ask fst snd]. unfold both. destruct (ask X s0 k ps c) as [[v e1]|]; cbn [fst]; auto. }
  specialize (K HA). clear HA.
  assert (HB : True -> forall s f k v, fst s = f -> told (fun s e => fst s = e) (tell (watched X) s k v) (tell X f k v)).
  { intros _ [s0 w] f k v H. cbn [fst] in H. subst f. cbn [watched tell fst snd]. unfold told. destruct (tell X s0 k v) as [e1|]; cbn [fst]; auto. }
  specialize (K True HB).
  specialize (K template (e, l) e (or_introl I) eq_refl). unfold both in K.
  destruct (g_make_lines (watched X) template (e, l)) as [[a [b c]]|], (g_make_lines X template e) as [[a' b']|]; try contradiction; cbn; [|reflexivity].
  destruct K as [-> K]. cbn in K. now rewrite K.
Qed.
Definition plain_attributes (d : dict) : attributes := map (fun p => (fst p, AValue (snd p))) d.
Lemma get_plain d k : get_attribute (plain_attributes d) k = option_map AValue (dict_get d k).
Proof.
  unfold get_attribute, dict_get, plain_attributes. induction d as [|[x v] d IH]; [reflexivity|]. cbn [map find fst snd].
  destruct (str_eqb x k); [reflexivity|exact IH].
Qed.
Lemma p_c129_values own d template : option_map fst (g_make_lines (object_expander own) template (plain_attributes d)) = make_lines template d.
Proof.
  rewrite p_c129_dictionary. pose proof (make_rel (object_expander own) dict_expander (fun a e => a = plain_attributes e)) as K.
  assert (HA : forall a e k ps c, a = plain_attributes e -> both (fun a e => a = plain_attributes e) (ask (object_expander own) a k ps c) (ask dict_expander e k ps c)).
  { intros a e k ps c ->. cbn [object_expander dict_expander ask]. unfold both. rewrite get_plain. destruct (dict_get e k); cbn; auto. }
  specialize (K HA). clear HA.
  assert (HB : True -> forall a e k v, a = plain_attributes e -> told (fun a e => a = plain_attributes e) (tell (object_expander own) a k v) (tell dict_expander e k v)).
  { intros _ a e k v ->. reflexivity. }
  specialize (K True HB template (plain_attributes d) d (or_introl I) eq_refl). unfold both in K.
  destruct (g_make_lines (object_expander own) template _) as [[a b]|], (g_make_lines dict_expander template d) as [[a' b']|]; try contradiction; cbn; [|reflexivity].
  now destruct K as [-> _].
Qed.

(** ** SET *)
Lemma split_line f r : ~ In x0a f -> py_split x0a (f ++ x0a :: r) = f :: py_split x0a r.
Proof.
  induction f as [|c f IH]; intros H; cbn [app py_split].
  - now rewrite (proj2 (byte_eqb_true x0a x0a) eq_refl).
  - rewrite IH by (intros K; apply H; now right).
    assert (byte_eqb c x0a = false) as -> by (apply byte_eqb_false; intros ->; apply H; now left). reflexivity.
Qed.
Lemma set_tokens k v s : k <> [] -> Forall key_char k -> ~ In x5d v -> ~ In x0a v ->
  tokenize (#"[[[SET " ++ k ++ #"=" ++ v ++ #"]]]" ++ x0a :: s) =
  match tokenize s with None => None | Some ts => Some (TText [] :: TSet (k ++ x3d :: v) :: TNewline :: ts) end.
Proof.
  intros NK HK Hv1 Hv2. set (inner := #"SET " ++ k ++ #"=" ++ v).
  assert (~ In x0a (#"[[[" ++ inner ++ #"]]]")) as HL.
  { unfold inner. rewrite !in_app_iff. intros [H|[[H|[H|[H|H]]]|H]]; try (cbn in H; intuition discriminate); try contradiction.
    revert H. apply key_not; [exact HK|not_key]. }
  assert (~ In x5d inner) as HC.
  { unfold inner. rewrite !in_app_iff. intros [H|[H|[H|H]]]; try (cbn in H; intuition discriminate); try contradiction.
    revert H. apply key_not; [exact HK|not_key]. }
  assert (#"[[[SET " ++ k ++ #"=" ++ v ++ #"]]]" ++ x0a :: s = (#"[[[" ++ inner ++ #"]]]") ++ x0a :: s) as ->.
  { unfold inner. rewrite <- !app_assoc. reflexivity. }
  assert (marker_token (inner ++ #"]]]") inner = Some (TSet (k ++ x3d :: v))) as HM.
  { unfold inner. change (#"SET " ++ k ++ #"=" ++ v) with (x53 :: x45 :: x54 :: x20 :: (k ++ x3d :: v)).
    unfold marker_token. cbn [app prefix_eqb list_byte_of_string]. cbn. destruct k as [|a k']; [congruence|]. cbn [app].
    apply Forall_cons_iff in HK as [Ha _]. pose proof (key_no_space [a] (Forall_cons _ Ha (Forall_nil _))) as Hs. apply Forall_cons_iff in Hs as [Hs _].
    cbn [py_lstrip]. now rewrite Hs. }
  pose proof (tokenize_block_marker [] inner _ (Forall_nil _) HC HM (S (length (#"[[[" ++ inner ++ #"]]]"))) ltac:(cbn [app]; lia)) as HT. cbn [app] in HT.
  unfold tokenize. rewrite split_line by exact HL. cbn [tokenize_lines]. rewrite HT.
  destruct (tokenize_lines (py_split x0a s)) as [ts|]; reflexivity.
Qed.
Lemma p_c129_set {E : Type} (X : expander E) e k v s : k <> [] -> Forall key_char k -> ~ In x5d v -> ~ In x0a v ->
  g_make_lines X (#"[[[SET " ++ k ++ #"=" ++ v ++ #"]]]" ++ x0a :: s) e =
  match tell X e k v with None => None | Some e' => g_make_lines X s e' end.
Proof.
  intros NK HK Hv1 Hv2. unfold g_make_lines. rewrite (set_tokens k v s NK HK Hv1 Hv2).
  destruct (tokenize s) as [ts|]; [|now destruct (tell X e k v)]. cbn [g_run g_step g_handle g_proc top p_scope].
  unfold add_text. cbn [py_rcut_newline p_dict p_lines p_cur p_column p_scope p_align app length Nat.add g_proc g_state top].
  unfold g_handle_set. rewrite split1_found by (apply key_not; [exact HK|not_key]). destruct k as [|a k']; [congruence|]. cbn [g_state].
  destruct (tell X e (a :: k') v) as [e'|]; [|reflexivity]. cbn. reflexivity.
Qed.

(** ** The calls *)
Lemma lstrip_white u b : Forall white u -> (forall c r, b = c :: r -> ~ white c) -> py_lstrip (u ++ b) = b.
Proof.
  induction 1 as [|c u H HF IH]; intros HB.
  - destruct b as [|c b]; [reflexivity|]. cbn [app py_lstrip]. destruct (py_space c) eqn:E; [|reflexivity]. apply py_space_white in E. now apply (HB c b) in E.
  - cbn [app py_lstrip]. apply py_space_white in H. rewrite H. now apply IH.
Qed.
Lemma trimmed_strip a b : trimmed a b -> py_strip a = b.
Proof.
  intros (u & w & -> & Hu & Hw & H1 & H2). unfold py_strip. destruct b as [|c b].
  - assert (K : py_lstrip (u ++ [] ++ w) = []).
    { cbn [app]. rewrite <- (app_nil_r (u ++ w)). apply lstrip_white; [now apply Forall_app|discriminate]. }
    rewrite K. reflexivity.
  - rewrite (lstrip_white u ((c :: b) ++ w) Hu).
    + symmetry. apply stripped_fun. exists w. auto.
    + intros c' r E. injection E as <- _. now apply (H1 c b).
Qed.
Lemma split_commas raw : raw <> [] -> Forall (fun x => ~ In x2c x) raw -> py_split x2c (commas raw) = raw.
Proof.
  assert (A : forall x, ~ In x2c x -> py_split x2c x = [x]).
  { induction x as [|c x IH]; intros H; [reflexivity|]. cbn [py_split]. rewrite IH by (intros K; apply H; now right).
    assert (byte_eqb c x2c = false) as -> by (apply byte_eqb_false; intros ->; apply H; now left). reflexivity. }
  assert (B : forall x s, ~ In x2c x -> py_split x2c (x ++ x2c :: s) = x :: py_split x2c s).
  { induction x as [|c x IH]; intros s H; cbn [app py_split].
    - now rewrite (proj2 (byte_eqb_true x2c x2c) eq_refl).
    - rewrite IH by (intros K; apply H; now right).
      assert (byte_eqb c x2c = false) as -> by (apply byte_eqb_false; intros ->; apply H; now left). reflexivity. }
  intros HN HF. destruct raw as [|x raw]; [congruence|]. clear HN. revert x HF. induction raw as [|y raw IH]; intros x HF.
  - cbn [commas]. apply A. now inversion HF.
  - apply Forall_cons_iff in HF as [H1 H2]. change (commas (x :: y :: raw)) with (x ++ x2c :: commas (y :: raw)). rewrite B by exact H1. now rewrite IH.
Qed.
Lemma commas_chars (P : byte -> Prop) raw : P x2c -> Forall (Forall P) raw -> Forall P (commas raw).
Proof.
  intros HP. induction 1 as [|x raw H HF IH]; [constructor|]. destruct raw as [|y raw]; [exact H|].
  change (commas (x :: y :: raw)) with (x ++ x2c :: commas (y :: raw)). apply Forall_app. split; [exact H|now constructor].
Qed.
Lemma call_split m k ps : marker_call m k ps -> split_key m = Some (k, ps).
Proof.
  intros [(HK & _) [[-> ->]|(raw & more & -> & HN & HT & HC & _)]]; unfold split_key; assert (H : ~ In x28 k) by (apply key_not; [exact HK|not_key]).
  - now rewrite split1_absent.
  - change (k ++ #"(" ++ commas raw ++ #")" ++ more) with (k ++ x28 :: (commas raw ++ x29 :: more)). rewrite split1_found by exact H.
    rewrite split1_found.
    + f_equal. f_equal. rewrite split_commas; [|exact HN|].
      * clear - HT. induction HT as [|a b raw ps H HT IH]; [reflexivity|]. cbn [map]. now rewrite (trimmed_strip a b H), IH.
      * eapply Forall_impl; [|exact HC]. cbv beta. intros x Hx HI. rewrite Forall_forall in Hx. now destruct (Hx _ HI) as (_ & _ & _ & Hx').
    + assert (Q : Forall (fun c => c <> x29) (commas raw)).
      { apply commas_chars; [discriminate|]. eapply Forall_impl; [|exact HC]. cbv beta. intros x Hx. eapply Forall_impl; [|exact Hx]. cbv beta. tauto. }
      intros HI. rewrite Forall_forall in Q. now apply (Q x29).
Qed.
Lemma call_good m k ps : marker_call m k ps -> good_marker k m.
Proof.
  intros [_ [[-> ->]|(raw & more & -> & HN & HT & HC & HM)]]; [now left|]. right. exists (commas raw ++ #")" ++ more). split; [reflexivity|].
  apply Forall_app. split; [|apply Forall_app; split; [repeat constructor; discriminate|exact HM]].
  apply commas_chars; [split; discriminate|]. eapply Forall_impl; [|exact HC]. cbv beta. intros x Hx. eapply Forall_impl; [|exact Hx]. cbv beta. unfold param_char. tauto.
Qed.
Lemma calls_tokens {E : Type} (X : expander E) e lines calls e' out : Calls X e lines calls e' out -> lines <> [] -> Forall plain_texts lines ->
  tokenize (lines_text (map tline_text lines)) = Some (flat_map tokens_of lines).
Proof.
  intros H HN HP. assert (K : exists ls, Forall plain_tline ls /\ Forall2 (remarked good_marker) ls lines).
  { clear HN. induction H as [e|e ps tail calls e1 cur o lines calls2 e2 out HL HS HC IH]; [exists []; split; constructor|].
    apply Forall_cons_iff in HP as [[P1 P2] HP]. destruct (IH HP) as (ls & L1 & L2). cbn [fst snd] in *. clear IH HS HC.
    assert (Q : exists qs, Forall (fun p => ~ In x0a (fst p) /\ no_marker (fst p) /\ (forall u, fst p <> u ++ #"[") /\ plain_key (snd p)) qs /\
      Forall2 (fun p p' => fst p = fst p' /\ good_marker (snd p) (snd p')) qs ps).
    { induction HL as [|ea cua t m k params ind v eb tx qs0 ca ec cub HM HI HA HV HL IH]; [exists []; split; constructor|].
      apply Forall_cons_iff in P1 as [A P1]. destruct (IH P1) as (qs & Q1 & Q2). cbn [fst snd] in *. exists ((t, k) :: qs). split.
      - constructor; [|exact Q1]. cbn [fst snd]. destruct HM as [HM _]. tauto.
      - constructor; [|exact Q2]. split; [reflexivity|]. cbn [fst snd]. now apply (call_good _ _ params). }
    destruct Q as (qs & Q1 & Q2).
    exists ((qs, tail) :: ls). split; constructor; try assumption; split; cbn [fst snd]; auto. }
  destruct K as (ls & K1 & K2). apply (remark_all ls); [|exact K1|exact K2]. intros ->. inversion K2; subst. congruence.
Qed.

Lemma run_calls_line {E : Type} (X : expander E) e cur ps calls e1 cur1 : LineCalls X e cur ps calls e1 cur1 ->
  forall S w tail out rest, plain_texts (ps, tail) ->
  g_run (watched X) (GProc (e, w) (Proc [] out cur (length cur) (Active :: S) [])) false (tokens_of (ps, tail) ++ rest) =
  g_run (watched X) (GProc (e1, w ++ calls) (Proc [] (out ++ [py_rstrip (cur1 ++ tail)]) [] 0 (Active :: S) [])) false rest.
Proof.
  induction 1 as [e cur|e cur t m k params ind v e1 tx ps calls e2 cur2 HM HI HA HV HL IH]; intros S w tail out rest [HP [HT1 HT2]]; cbn [fst snd] in *.
  - unfold tokens_of. cbn [fst snd flat_map app]. rewrite !app_nil_r. destruct tail as [|c tail].
    + cbn [app g_run g_step g_handle g_state g_proc]. unfold handle_newline. cbn [top p_scope p_dict p_lines p_cur p_align]. now rewrite app_nil_r.
    + cbn [app g_run g_step g_handle g_state g_proc top p_scope]. rewrite add_text_plain by exact HT1. unfold handle_newline. cbn [top p_scope p_dict p_lines p_cur p_align]. reflexivity.
  - apply Forall_cons_iff in HP as [(A1 & A2 & A3) HP']. cbn [fst snd] in *.
    change (tokens_of ((t, m) :: ps, tail)) with (TText t :: TExpand m :: tokens_of (ps, tail)).
    cbn [app g_run g_step g_handle g_state g_proc top p_scope]. rewrite add_text_plain by exact A1. cbn [g_step g_handle g_proc g_state top p_scope].
    assert (g_handle_expand (watched X) (GProc (e, w) (Proc [] out (cur ++ t) (length cur + length t) (Active :: S) [])) m =
      Some (GProc (e1, w ++ [(k, params, (ind, length (cur ++ t)))]) (Proc [] out ((cur ++ t) ++ tx) (length cur + length t + length tx) (Active :: S) []), true)) as ->.
    { unfold g_handle_expand, g_expand. rewrite (call_split m k params HM). cbn [g_state g_proc p_cur p_column watched ask fst snd].
      destruct (margin_indentation _ _ HI) as [-> _]. rewrite app_length in HA. rewrite HA. cbn [fst snd].
      destruct HV as [HV [-> |[Hn ->]]]; [|destruct tx; [congruence|]]; rewrite add_text_plain by exact HV; now rewrite app_length. }
    cbn [negb andb]. specialize (IH S (w ++ [(k, params, (ind, length (cur ++ t)))]) tail out rest (conj HP' (conj HT1 HT2))).
    rewrite <- !app_assoc in IH. rewrite <- !app_assoc. cbn [app] in IH. rewrite !app_length in IH. rewrite <- Nat.add_assoc. rewrite app_length. exact IH.
Qed.
Lemma p_c129_calls {E : Type} (X : expander E) e lines calls e' out : Calls X e lines calls e' out -> lines <> [] -> Forall plain_texts lines ->
  g_make_lines (watched X) (lines_text (map tline_text lines)) (e, []) = Some (out, (e', calls)).
Proof.
  intros H HN HP. unfold g_make_lines. rewrite (calls_tokens X e lines calls e' out H HN HP). clear HN.
  assert (K : forall w o, g_run (watched X) (GProc (e, w) (Proc [] o [] 0 [Active] [])) false (flat_map tokens_of lines) =
    Some (GProc (e', w ++ calls) (Proc [] (o ++ out) [] 0 [Active] []))).
  { induction H as [e|e ps tail calls e1 cur o lines calls2 e2 out HL HS HC IH]; intros w o0.
    - cbn [flat_map g_run]. now rewrite !app_nil_r.
    - apply Forall_cons_iff in HP as [P1 HP]. cbn [flat_map].
      pose proof (run_calls_line X e [] ps calls e1 cur HL [] w tail o0 (flat_map tokens_of lines) P1) as K. cbn [length] in K. etransitivity; [exact K|].
      rewrite (IH HP). rewrite (stripped_fun _ _ HS), <- !app_assoc. reflexivity. }
  rewrite K. reflexivity.
Qed.

(** ** A branch that is not taken asks nothing *)
Lemma one_line l ts : ~ In x0a l -> tokenize_line (S (length l)) l = Some ts -> tokenize l = Some ts.
Proof.
  intros H E. unfold tokenize. assert (py_split x0a l = [l]) as ->.
  { clear E. induction l as [|c l IH]; [reflexivity|]. cbn [py_split]. rewrite IH by (intros K; apply H; now right).
    assert (byte_eqb c x0a = false) as -> by (apply byte_eqb_false; intros ->; apply H; now left). reflexivity. }
  cbn [tokenize_lines]. rewrite E. now rewrite app_nil_r.
Qed.
Lemma skip_tokens {E : Type} (X : expander E) e out s ts rest : Forall simple_token ts -> s <> Active ->
  g_run X (GProc e (Proc [] out [] 0 [s; Active] [])) false (ts ++ rest) = g_run X (GProc e (Proc [] out [] 0 [s; Active] [])) false rest.
Proof.
  intros H HS. induction H as [|t ts Ht HT IH]; [reflexivity|]. cbn [app g_run].
  assert (g_step X (GProc e (Proc [] out [] 0 [s; Active] [])) false t = Some (GProc e (Proc [] out [] 0 [s; Active] []), false)) as ->; [|exact IH].
  destruct t; try contradiction; destruct s; try congruence; reflexivity.
Qed.
Lemma p_c129_untaken {E : Type} (X : expander E) e k v e1 body s : k <> [] -> Forall key_char k -> body <> [] -> Forall plain_tline body ->
  ask X e k [] ([], 0%nat) = Some (v, e1) -> falsy v ->
  g_make_lines X (#"[[[IF " ++ k ++ #"]]]" ++ x0a :: lines_text (map tline_text body) ++ x0a :: #"[[[ENDIF]]]" ++ x0a :: s) e = g_make_lines X s e1.
Proof.
  intros NK HK NB HB HA HF.
  assert (T1 : tokenize (#"[[[IF " ++ k ++ #"]]]") = Some [TText []; TIf k; TNewline]).
  { apply one_line.
    - rewrite !in_app_iff. intros [H|[H|H]]; try (cbn in H; intuition discriminate). revert H. apply key_not; [exact HK|not_key].
    - change (#"[[[IF " ++ k ++ #"]]]") with ([] ++ #"[[[" ++ (#"IF " ++ k) ++ #"]]]").
      apply (tokenize_block_marker [] (#"IF " ++ k)); [constructor| |now apply marker_if|lia].
      apply word_no_close; [exact HK|cbn; intuition discriminate]. }
  assert (T2 : tokenize (lines_text (map tline_text body)) = Some (flat_map tokens_of body)).
  { apply (remark_all body); [exact NB|exact HB|]. clear. induction body as [|[ps t] body IH]; constructor; [|exact IH].
    split; [|reflexivity]. cbn [fst]. induction ps as [|p ps IHp]; constructor; [|exact IHp]. split; [reflexivity|now left]. }
  assert (T3 : tokenize #"[[[ENDIF]]]" = Some [TText []; TEndif; TNewline]) by reflexivity.
  assert (E1 : #"[[[IF " ++ k ++ #"]]]" ++ x0a :: lines_text (map tline_text body) ++ x0a :: #"[[[ENDIF]]]" ++ x0a :: s =
    (#"[[[IF " ++ k ++ #"]]]") ++ x0a :: (lines_text (map tline_text body) ++ x0a :: (#"[[[ENDIF]]]" ++ x0a :: s))) by now rewrite <- !app_assoc.
  unfold g_make_lines. rewrite E1, !tokenize_app, T1, T2, T3. destruct (tokenize s) as [ts|]; [|reflexivity].
  cbn [app g_run g_step g_handle g_state g_proc top p_scope]. unfold add_text at 1. cbn [py_rcut_newline p_dict p_lines p_cur p_column p_scope p_align app length Nat.add g_state g_proc].
  unfold g_handle_if. cbn [top p_scope g_proc g_state]. unfold g_expand, split_key. rewrite split1_absent by (apply key_not; [exact HK|not_key]).
  cbn [p_cur p_column g_proc g_state]. change (indentation []) with (@nil byte). match goal with |- context [ask X e k ?a ?b] => change (ask X e k a b) with (ask X e k (@nil str) (@nil byte, 0%nat)) end. unfold context in *. match type of HA with ?l = _ => match goal with |- context [ask X e k ?a ?b] => change (ask X e k a b) with l end end. rewrite HA.
  assert (truth v = false) as -> by (destruct HF as [-> |[-> |[-> | ->]]]; reflexivity).
  cbn [g_ignore g_proc push_scope p_dict p_lines p_cur p_column p_scope p_align g_step g_state]. change (blank _) with true. cbn [g_step g_state g_proc p_dict p_lines p_cur p_column p_scope p_align].
  pose proof (skip_tokens X e1 [] Inactive (flat_map tokens_of body) (TText [] :: TEndif :: TNewline :: ts)) as K.
  match goal with |- match ?l with _ => _ end = _ => match type of K with _ -> _ -> ?a = ?b => change l with a end end. rewrite K.
  - reflexivity.
  - apply Forall_flat_map. apply Forall_forall. intros. apply simple_tokens.
  - discriminate.
Qed.
Lemma p_c129_method own a key f ps ctx : (exists u w, a = u ++ (key, AMethod f) :: w /\ Forall (fun p => fst p <> key) u) ->
  ask (object_expander own) a key ps ctx = option_map (fun v => (v, a)) (f ps (fst own ++ fst ctx, snd own + snd ctx)%nat).
Proof.
  intros (u & w & -> & HU). cbn [object_expander ask]. assert (get_attribute (u ++ (key, AMethod f) :: w) key = Some (AMethod f)) as ->.
  { unfold get_attribute. induction HU as [|[x b] u H HU IH]; cbn [app find fst].
    - now rewrite (proj2 (str_eqb_true key key) eq_refl).
    - cbn [fst] in H. assert (str_eqb x key = false) as -> by (apply not_true_iff_false; rewrite str_eqb_true; congruence). exact IH. }
  destruct (f ps _); reflexivity.
Qed.
Lemma p_c129_column {E : Type} (X : expander E) e e1 w v t : ask X e #"a" [] ([], 2%nat) = Some (VNone, e1) ->
  ask X e1 #"b" [] ([], 4%nat) = Some (v, w) -> line_value v t -> (forall u c, t = u ++ [c] -> ~ white c) -> t <> [] ->
  g_make_lines (watched X) (lines_text [#"  [[[a]]]"; #"  [[[b]]]"]) (e, []) = Some ([#"  " ++ t], (w, [(#"a", [], ([], 2%nat)); (#"b", [], ([], 4%nat))])).
Proof.
  intros H1 H2 [HV HC] HW HN. unfold g_make_lines.
  assert (tokenize (lines_text [#"  [[[a]]]"; #"  [[[b]]]"]) = Some [TText #"  "; TExpand #"a"; TNewline; TText #"  "; TExpand #"b"; TNewline]) as -> by reflexivity.
  set (p := Proc [] [] #"  " 2 [Active] []). set (q := Proc [] [] #"  " 4 [Active] []).
  assert (g_handle_expand (watched X) (GProc (e, []) p) #"a" = Some (GProc (e1, [(#"a", [], ([], 2%nat))]) p, false)) as K1.
  { unfold g_handle_expand, g_expand. change (split_key #"a") with (Some (#"a", @nil str)). cbn [watched ask g_state g_proc fst snd]. change (indentation (p_cur p), p_column p) with ([] : str, 2%nat).
    change ([] : str, 2%nat) with (@nil byte, 2%nat) in *. match type of H1 with ?l = _ => match goal with |- context [ask X e ?k ?a ?b] => change (ask X e k a b) with l end end. now rewrite H1. }
  assert (g_handle_expand (watched X) (GProc (e1, [(#"a", [], ([], 2%nat))]) q) #"b" =
    Some (GProc (w, [(#"a", [], ([], 2%nat)); (#"b", [], ([], 4%nat))]) (Proc [] [] (#"  " ++ t) (4 + length t) [Active] []), true)) as K2.
  { unfold g_handle_expand, g_expand. change (split_key #"b") with (Some (#"b", @nil str)). cbn [watched ask g_state g_proc fst snd]. change (indentation (p_cur q), p_column q) with ([] : str, 4%nat).
    match type of H2 with ?l = _ => match goal with |- context [ask X e1 ?k ?a ?b] => change (ask X e1 k a b) with l end end. rewrite H2. cbn [fst snd app].
    unfold q. destruct HC as [-> |[_ ->]]; [|destruct t; [congruence|]]; now rewrite add_text_plain by exact HV. }
  assert (S1 : g_run (watched X) (GProc (e, []) (Proc [] [] [] 0 [Active] [])) false [TText #"  "; TExpand #"a"; TNewline; TText #"  "; TExpand #"b"; TNewline] =
    match g_handle_expand (watched X) (GProc (e, []) p) #"a" with None => None
    | Some (g, done) => g_run (watched X) g (negb done && blank (g_proc g)) [TNewline; TText #"  "; TExpand #"b"; TNewline] end).
  { cbn [g_run g_step g_handle g_proc g_state top p_scope]. change (add_text (Proc [] [] [] 0 [Active] []) #"  ") with p. change (top p) with Active. cbn match.
    destruct (g_handle_expand (watched X) (GProc (e, []) p) #"a") as [[g done]|]; reflexivity. }
  assert (S2 : forall l, g_run (watched X) (GProc (e1, l) p) true [TNewline; TText #"  "; TExpand #"b"; TNewline] =
    match g_handle_expand (watched X) (GProc (e1, l) q) #"b" with None => None
    | Some (g, done) => g_run (watched X) g (negb done && blank (g_proc g)) [TNewline] end).
  { intros l. cbn [g_run]. change (g_step (watched X) (GProc (e1, l) p) true TNewline) with (Some (GProc (e1, l) (Proc [] [] [] 2 [Active] []), false)).
    cbn match. change (g_step (watched X) (GProc (e1, l) (Proc [] [] [] 2 [Active] [])) false (TText #"  ")) with (Some (GProc (e1, l) q, false)). cbn match.
    cbn [g_step g_handle]. change (top (g_proc (GProc (e1, l) q))) with Active. cbn match.
    destruct (g_handle_expand (watched X) (GProc (e1, l) q) #"b") as [[g done]|]; reflexivity. }
  rewrite S1, K1. change (negb false && blank (g_proc (GProc (e1, [(#"a", @nil str, (@nil byte, 2%nat))]) p))) with true. cbn match. rewrite S2.
  match type of K2 with ?l = _ => match goal with |- context [g_handle_expand (watched X) ?a ?b] => change (g_handle_expand (watched X) a b) with l end end. rewrite K2. cbn match. change (negb true && _) with false.
  cbn [g_run g_step g_handle g_proc g_state]. unfold handle_newline. cbn [top p_scope p_dict p_lines p_cur p_align g_proc g_state app].
  assert (py_rstrip (#"  " ++ t) = #"  " ++ t) as K3.
  { symmetry. apply stripped_fun. exists []. rewrite app_nil_r. split; [reflexivity|split; [constructor|]]. intros u c EQ.
    destruct t as [|c' t' _] using rev_ind; [congruence|]. rewrite app_assoc in EQ. apply app_inj_tail in EQ as [_ <-]. now apply (HW t'). }
  cbn [app list_byte_of_string] in K3 |- *. rewrite K3. reflexivity.
Qed.

Definition counter : expander nat := func_expander
  (fun n k ps ctx => match ps with [] => Some (VOther k, S n) | p :: _ => Some (VStr p, S n) end) None.
Definition counted : list tline := [([(#"  x", #"f( ab ,c)"); (#"-", #"g")], #"; "); ([], []); ([([], #"h")], #"!")].
Lemma p_c129_sample : Forall plain_texts counted /\
  Calls counter 0%nat counted
    [(#"f", [#"ab"; #"c"], (#"  ", 3%nat)); (#"g", [], (#"  ", 6%nat)); (#"h", [], ([], 0%nat))] 3%nat [#"  xab-g;"; []; #"h!"].
Proof.
  assert (PK : forall k, In k [#"f"; #"g"; #"h"] -> plain_key k).
  { intros k [<-|[<-|[<-|[]]]]; (split; [apply key_check; reflexivity|split; intros v; discriminate]). }
  assert (M1 : marker_call #"f( ab ,c)" #"f" [#"ab"; #"c"]).
  { split; [apply PK; now left|]. right. exists [#" ab "; #"c"], []. split; [reflexivity|]. split; [discriminate|]. split; [|split].
    - constructor; [|constructor; [|constructor]].
      + exists #" ", #" ". split; [reflexivity|]. split; [repeat constructor|]. split; [repeat constructor|]. split.
        * intros c r EQ. injection EQ as <- _. unfold white. change (u8 x61) with 0x61. lia.
        * intros [|x [|y [|z u]]] c EQ; try discriminate. injection EQ as _ <-. unfold white. change (u8 x62) with 0x62. lia.
      + exists [], []. split; [reflexivity|]. split; [constructor|]. split; [constructor|]. split.
        * intros c r EQ. injection EQ as <- _. unfold white. change (u8 x63) with 0x63. lia.
        * intros [|x [|y u]] c EQ; try discriminate. injection EQ as <-. unfold white. change (u8 x63) with 0x63. lia.
    - repeat constructor; discriminate.
    - constructor. }
  split.
  - assert (T : forall t, In t [#"  x"; #"-"; []; #"; "; #"!"] -> ~ In x0a t /\ no_marker t).
    { intros t Ht. apply textb_ok. repeat (destruct Ht as [<-|Ht]; [reflexivity|]). contradiction. }
    assert (T2 : forall (t : str) c, last t x20 = c -> c <> x5b -> forall u, t <> u ++ #"[").
    { intros t c H1 H2 u ->. change #"[" with [x5b] in H1. rewrite last_last in H1. congruence. }
    assert (T3 : forall t, In t [#"  x"; #"-"; []] -> ~ In x0a t /\ no_marker t /\ (forall u, t <> u ++ #"[")).
    { intros t Ht. destruct (T t) as [A B]; [cbn in *; tauto|]. split; [exact A|]. split; [exact B|].
      repeat (destruct Ht as [<-|Ht]; [eapply T2; [reflexivity|discriminate]|]). contradiction. }
    constructor; [|constructor; [|constructor; [|constructor]]]; (split; cbn [fst snd]; [|apply T; cbn; tauto]).
    + constructor; [apply T3; cbn; tauto|constructor; [apply T3; cbn; tauto|constructor]].
    + constructor.
    + constructor; [apply T3; cbn; tauto|constructor].
  - assert (LV : line_value (VStr #"ab") #"ab" /\ line_value (VOther #"g") #"g" /\ line_value (VOther #"h") #"h").
    { split; [|split]; (split; [cbn; intuition discriminate|]); [right; split; [discriminate|reflexivity]|now left|now left]. }
    destruct LV as (LV1 & LV2 & LV3).
    assert (MG : forall r, margin (#"  x" ++ r) #"  ").
    { intros r. left. exists (#"x" ++ r). split; [reflexivity|]. split; [repeat constructor; now left|]. exists x78, r. split; [reflexivity|]. split; discriminate. }
    assert (L1 : LineCalls counter 0%nat [] [(#"  x", #"f( ab ,c)"); (#"-", #"g")] [(#"f", [#"ab"; #"c"], (#"  ", 3%nat)); (#"g", [], (#"  ", 6%nat))] 2%nat #"  xab-g").
    { eapply (lc_marker counter 0%nat [] #"  x" #"f( ab ,c)" #"f" [#"ab"; #"c"] #"  " (VStr #"ab") 1%nat #"ab"); [exact M1|exact (MG [])|reflexivity|exact LV1|].
      eapply (lc_marker counter 1%nat #"  xab" #"-" #"g" #"g" [] #"  " (VOther #"g") 2%nat #"g"); [|exact (MG #"ab-")|reflexivity|exact LV2|constructor].
      split; [apply PK; cbn; tauto|]. left. auto. }
    assert (L3 : LineCalls counter 2%nat [] [([], #"h")] [(#"h", [], ([], 0%nat))] 3%nat #"h").
    { eapply (lc_marker counter 2%nat [] [] #"h" #"h" [] [] (VOther #"h") 3%nat #"h"); [|right; split; [constructor|reflexivity]|reflexivity|exact LV3|constructor].
      split; [apply PK; cbn; tauto|]. left. auto. }
    apply (calls_line counter 0%nat _ _ _ 2%nat #"  xab-g" #"  xab-g;" _ [(#"h", [], ([], 0%nat))] 3%nat [[]; #"h!"] L1); [now apply stripped_check|].
    apply (calls_line counter 2%nat _ _ [] 2%nat [] [] _ [(#"h", [], ([], 0%nat))] 3%nat [#"h!"] (lc_end _ _ _)); [now apply stripped_check|].
    apply (calls_line counter 2%nat _ _ _ 3%nat #"h" #"h!" _ [] 3%nat [] L3); [now apply stripped_check|]. constructor.
Qed.
