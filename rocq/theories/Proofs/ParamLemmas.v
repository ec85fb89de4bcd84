(** Markers with parameters in templates (C118). *)
From Coq Require Import String.
From Verif Require Import Base Model.PyText Model.Codegen Spec.Template Proofs.CodegenLemmas Proofs.BlockLemmas.
Local Notation "'#' s" := (list_byte_of_string s%string) (at level 5, only parsing).

(** A marker that the scanner takes for a key with or without parameters *)
Definition good_marker (k m : str) : Prop := m = k \/ exists r, m = k ++ x28 :: r /\ Forall param_char r.

Lemma with_params_good k m : with_params k m -> good_marker k m.
Proof.
  intros [->|(ps & more & -> & H1 & H2)]; [now left|]. right. exists (ps ++ x29 :: more). split; [reflexivity|].
  apply Forall_app. split; [exact H1|]. constructor; [split; discriminate|exact H2].
Qed.
Lemma open_params_good k m : open_params k m -> good_marker k m.
Proof. intros (ps & -> & H & _). right. exists ps. split; [reflexivity|exact H]. Qed.

Lemma good_not k m c : Forall key_char k -> good_marker k m -> ~ key_char c -> c <> x28 -> ~ param_char c -> ~ In c m.
Proof.
  intros HK HG H1 H2 H3 HI. destruct HG as [->|(r & -> & HR)]; [exact (key_not _ _ HK H1 HI)|].
  apply in_app_or in HI as [HI|[HI|HI]]; [exact (key_not _ _ HK H1 HI)|now apply H2|]. rewrite Forall_forall in HR. exact (H3 (HR _ HI)).
Qed.
Lemma prefix_blank p k r : Forall key_char k -> (exists a b, p = a ++ x20 :: b /\ ~ In x28 a) -> prefix_eqb p (k ++ x28 :: r) = false.
Proof.
  intros HK (a & b & -> & Ha). apply prefix_false. intros v E. revert k HK E. induction a as [|x a IH]; intros k HK E.
  - destruct k as [|c k]; [discriminate|]. injection E as -> _. apply Forall_cons_iff in HK as [HK _]. revert HK. not_key.
  - destruct k as [|c k]; [injection E as <- _; apply Ha; now left|]. injection E as _ E. apply Forall_cons_iff in HK as [_ HK].
    apply (IH (fun H => Ha (or_intror H)) k HK). exact E.
Qed.
Lemma prefix_keyword p k r : (forall v, k <> p ++ v) -> ~ In x28 p -> prefix_eqb p (k ++ x28 :: r) = false.
Proof.
  intros Hk Hp. apply prefix_false. intros v E. revert k Hk E. induction p as [|a p IH]; intros k Hk E; [now apply (Hk k)|].
  destruct k as [|c k]; [injection E as <- _; apply Hp; now left|]. injection E as -> E.
  apply (IH (fun H => Hp (or_intror H)) k); [|exact E]. intros w ->. now apply (Hk w).
Qed.
Lemma marker_good k m s : plain_key k -> good_marker k m -> marker_token (m ++ #"]]]" ++ s) m = Some (TExpand m).
Proof.
  intros HP [->|(r & -> & HR)]; [now apply marker_expand|]. destruct HP as (HK & H1 & H2). unfold marker_token.
  rewrite <- (app_assoc k (x28 :: r)). cbn [app].
  assert (forall w, In x20 w -> ~ In x28 w -> prefix_eqb w (k ++ x28 :: r ++ x5d :: x5d :: x5d :: s) = false) as HB.
  { intros w Hw Hn. apply prefix_blank; [exact HK|]. apply in_split in Hw as (a & b & ->). exists a, b. split; [reflexivity|]. intros H. apply Hn, in_or_app. now left. }
  change (#"]]]" ++ s) with (x5d :: x5d :: x5d :: s).
  rewrite (HB #"IF "), (HB #"ELIF ") by (cbn; intuition discriminate).
  assert (forall c, c <> x28 -> str_eqb (k ++ x28 :: r) [c] = false) as HC.
  { intros c Hc. apply not_true_iff_false. rewrite str_eqb_true. intros E. destruct k as [|a k]; [injection E; congruence|]. injection E as _ E. destruct k; discriminate. }
  change #"|" with [x7c]. change #">" with [x3e]. change #"<" with [x3c]. rewrite !HC by discriminate.
  rewrite (prefix_keyword #"ELSE"), (prefix_keyword #"ENDIF") by (assumption || (cbn; intuition discriminate)).
  rewrite (HB #"SET ") by (cbn; intuition discriminate). reflexivity.
Qed.

Lemma remark_text ps ps' tail tail' : remarked good_marker (ps, tail) (ps', tail') -> plain_tline (ps, tail) ->
  ~ In x0a (tline_text (ps', tail')) /\
  forall fuel, (length (tline_text (ps', tail')) < fuel)%nat -> tokenize_line fuel (tline_text (ps', tail')) = Some (tokens_of (ps', tail')).
Proof.
  intros [HR ET] [HP [HT1 HT2]]. cbn [fst snd] in *. subst tail'. induction HR as [|[t k] [t' m] ps ps' [E HG] HR IH]; cbn [fst snd] in *.
  - split; [exact HT1|]. intros [|fuel] HL; [lia|]. unfold tline_text, tokens_of. cbn [fst snd map concat flat_map app tokenize_line].
    rewrite cut_absent by exact HT2. now destruct tail.
  - subst t'. apply Forall_cons_iff in HP as [(A1 & A2 & A3 & A4) HP']. cbn [fst snd] in *. destruct (IH HP') as [IH1 IH2].
    assert (tline_text ((t, m) :: ps', tail) = t ++ #"[[[" ++ m ++ #"]]]" ++ tline_text (ps', tail)) as E.
    { unfold tline_text. cbn [fst snd map concat]. now rewrite <- !app_assoc. }
    assert (~ In x5d m) as M1 by (apply (good_not k); [apply A4|exact HG|not_key|discriminate|unfold param_char; tauto]).
    assert (~ In x0a m) as M2 by (apply (good_not k); [apply A4|exact HG|not_key|discriminate|unfold param_char; tauto]).
    rewrite E. split.
    + rewrite !in_app_iff. cbn. intuition discriminate.
    + intros [|fuel] HL; [lia|]. cbn [tokenize_line]. rewrite cut_found by assumption. rewrite cut_close by exact M1.
      rewrite (marker_good k) by assumption. rewrite IH2; [reflexivity|]. rewrite !app_length in HL. change (length #"[[[") with 3%nat in HL. lia.
Qed.
Lemma remark_all ls ls' : ls <> [] -> Forall plain_tline ls -> Forall2 (remarked good_marker) ls ls' ->
  tokenize (lines_text (map tline_text ls')) = Some (flat_map tokens_of ls').
Proof.
  intros HN HF HR. unfold tokenize. rewrite split_lines_text.
  - clear HN. induction HR as [|[ps tail] [ps' tail'] ls ls' H HR IH]; [reflexivity|]. apply Forall_cons_iff in HF as [HF1 HF2].
    cbn [map tokenize_lines flat_map]. rewrite (proj2 (remark_text _ _ _ _ H HF1)) by lia. now rewrite IH.
  - destruct HR; [congruence|discriminate].
  - clear HN. induction HR as [|[ps tail] [ps' tail'] ls ls' H HR IH]; [constructor|]. apply Forall_cons_iff in HF as [HF1 HF2].
    cbn [map]. constructor; [exact (proj1 (remark_text _ _ _ _ H HF1))|now apply IH].
Qed.

Lemma expand_params p k m : Forall key_char k -> with_params k m -> expand p m = expand p k.
Proof.
  intros HK [->|(ps & more & -> & _)]; [reflexivity|]. unfold expand. assert (~ In x28 k) as H by (apply key_not; [exact HK|not_key]).
  change (k ++ #"(" ++ ps ++ #")" ++ more) with (k ++ x28 :: (ps ++ x29 :: more)). rewrite split1_found, (split1_absent _ k) by exact H.
  destruct (py_split1 x29 (ps ++ x29 :: more)) as [a [b|]] eqn:E; [reflexivity|]. exfalso. clear H. revert a E. induction ps as [|c ps IH]; intros a E; cbn [app py_split1] in E.
  - now rewrite (proj2 (byte_eqb_true x29 x29) eq_refl) in E.
  - destruct (byte_eqb c x29); [discriminate|]. destruct (py_split1 x29 (ps ++ x29 :: more)) as [a' b'] eqn:E'. injection E as _ ->. now apply (IH a').
Qed.
Lemma expand_open p k m : Forall key_char k -> open_params k m -> expand p m = None.
Proof.
  intros HK (ps & -> & _ & HN). unfold expand. assert (~ In x28 k) as H by (apply key_not; [exact HK|not_key]).
  change (k ++ #"(" ++ ps) with (k ++ x28 :: ps). rewrite split1_found by exact H. now rewrite split1_absent by exact HN.
Qed.

(** Tokens that do the same *)
Definition same_token (t t' : token) : Prop :=
  t = t' \/ exists k m, t = TExpand k /\ t' = TExpand m /\ forall p, expand p m = expand p k.
Lemma run_same ts ts' : Forall2 same_token ts ts' -> forall p ig, run p ig ts' = run p ig ts.
Proof.
  intros HF. induction HF as [|t t' ts ts' H HF IH]; intros p ig; [reflexivity|]. cbn [run].
  assert (step p ig t' = step p ig t) as ->.
  { destruct H as [->|(k & m & -> & -> & HE)]; [reflexivity|]. unfold step, handle, handle_expand. now destruct ig; rewrite HE. }
  destruct (step p ig t) as [[p' ig']|]; [apply IH|reflexivity].
Qed.
Lemma remarked_tokens l l' : plain_tline l -> remarked with_params l l' -> Forall2 same_token (tokens_of l) (tokens_of l').
Proof.
  destruct l as [ps tail], l' as [ps' tail']. intros [HP _] [HR E]. cbn [fst snd] in *. subst tail'. unfold tokens_of. cbn [fst snd].
  assert (forall l, Forall2 same_token l l) as R by (induction l; constructor; [now left|assumption]).
  apply Forall2_app; [|apply R]. induction HR as [|[t k] [t' m] ps ps' [E H] HR IH]; [constructor|]. cbn [fst snd] in *. subst t'.
  apply Forall_cons_iff in HP as [(_ & _ & _ & A4) HP]. cbn [flat_map app fst snd]. constructor; [now left|]. constructor; [|now apply IH].
  right. exists k, m. split; [reflexivity|]. split; [reflexivity|]. intros p. apply expand_params; [apply A4|exact H].
Qed.
Lemma remarked_impl (R S : str -> str -> Prop) : (forall k m, R k m -> S k m) -> forall ls ls', Forall2 (remarked R) ls ls' -> Forall2 (remarked S) ls ls'.
Proof.
  intros H ls ls' HF. induction HF as [|l l' ls ls' [HR E] HF IH]; constructor; [|exact IH]. split; [|exact E].
  induction HR as [|p p' ps ps' [E1 H1] HR IHR]; constructor; [split; [exact E1|now apply H]|exact IHR].
Qed.

Lemma p_c118_parameters d lines lines' : Forall plain_tline lines -> Forall2 (remarked with_params) lines lines' ->
  make_text (lines_text (map tline_text lines')) d = make_text (lines_text (map tline_text lines)) d.
Proof.
  intros HP HR. destruct lines as [|l lines]; [inversion HR; reflexivity|]. unfold make_text, make_lines.
  rewrite (remark_all (l :: lines)) by (discriminate || exact HP || (revert HR; apply remarked_impl, with_params_good)).
  rewrite tokenize_all by (discriminate || exact HP). rewrite (run_same (flat_map tokens_of (l :: lines))); [reflexivity|].
  induction HR as [|a a' ls ls' H HR IH]; [constructor|]. apply Forall_cons_iff in HP as [HP1 HP2]. cbn [flat_map]. apply Forall2_app; [now apply remarked_tokens|now apply IH].
Qed.

Lemma run_error m : (forall p, expand p m = None) -> forall ts, Forall simple_token ts -> In (TExpand m) ts ->
  forall p ig, p_scope p = [Active] -> run p ig ts = None.
Proof.
  intros HE ts HT HI. induction HT as [|t ts Ht HT IH]; [contradiction|]. intros p ig Es. cbn [run].
  destruct HI as [-> |HI].
  - assert (step p ig (TExpand m) = None) as ->; [|reflexivity]. unfold step, handle, handle_expand, top. rewrite Es, HE. now destruct ig.
  - destruct (step p ig t) as [[p' ig']|] eqn:E; [|reflexivity]. destruct (step_keeps p ig t p' ig' Es Ht E) as [H1 H2]. apply IH; [exact HI|congruence].
Qed.
Lemma p_c118_unclosed d lines lines' ps tail (t m : str) k : Forall plain_tline lines ->
  Forall2 (remarked (fun k m => with_params k m \/ open_params k m)) lines lines' ->
  In (ps, tail) lines' -> In (t, m) ps -> plain_key k -> open_params k m ->
  make_text (lines_text (map tline_text lines')) d = None.
Proof.
  intros HP HR H1 H2 (HK & _) HO. unfold make_text, make_lines.
  rewrite (remark_all lines); [|intros ->; inversion HR; subst; contradiction|exact HP|].
  2: { revert HR. apply remarked_impl. intros a b [H|H]; [now apply with_params_good|now apply open_params_good]. }
  rewrite (run_error m); [reflexivity| | | |reflexivity].
  - intros p. now apply (expand_open p k).
  - apply Forall_forall. intros x Hx. apply in_flat_map in Hx as (l & _ & Ht). unfold tokens_of in Ht. rewrite !in_app_iff in Ht. destruct Ht as [Ht|[Ht|Ht]].
    + apply in_flat_map in Ht as (q & _ & [<-|[<-|[]]]); exact I.
    + destruct (snd l); [contradiction|]. destruct Ht as [<-|[]]. exact I.
    + destruct Ht as [<-|[]]. exact I.
  - apply in_flat_map. exists (ps, tail). split; [exact H1|]. unfold tokens_of. apply in_or_app. left. apply in_flat_map. exists (t, m). split; [exact H2|]. cbn. tauto.
Qed.
