(** C129: every value. *)
From Coq Require Import String.
From Verif Require Import Base Model.PyText Model.Codegen Model.Expanders Spec.Template Spec.Expanders
  Proofs.CodegenLemmas Proofs.MultilineLemmas Proofs.BlockLemmas Proofs.ParamLemmas Proofs.AppendLemmas Proofs.ExpanderLemmas Proofs.ListsLemmas.
Local Notation "'#' s" := (list_byte_of_string s%string) (at level 5, only parsing).

Lemma plain_tokens lines : lines <> [] -> Forall plain_texts lines -> Forall plain_markers lines ->
  tokenize (lines_text (map tline_text lines)) = Some (flat_map tokens_of lines).
Proof.
  intros HN HP HM. assert (K : exists ls, Forall plain_tline ls /\ Forall2 (remarked good_marker) ls lines).
  { clear HN. induction lines as [|[ps tail] lines IH]; [exists []; split; constructor|].
    apply Forall_cons_iff in HP as [[P1 P2] HP]. apply Forall_cons_iff in HM as [M1 HM]. destruct (IH HP HM) as (ls & L1 & L2). unfold plain_markers in M1. cbn [fst snd] in *. clear IH.
    assert (Q : exists qs, Forall (fun p => ~ In x0a (fst p) /\ no_marker (fst p) /\ (forall u, fst p <> u ++ #"[") /\ plain_key (snd p)) qs /\
      Forall2 (fun p p' => fst p = fst p' /\ good_marker (snd p) (snd p')) qs ps).
    { clear L1 L2 P2. induction ps as [|[t m] ps IH]; [exists []; split; constructor|].
      apply Forall_cons_iff in P1 as [A P1]. destruct (IH P1 ltac:(intros p Hp; apply M1; now right)) as (qs & Q1 & Q2). destruct (M1 (t, m) ltac:(now left)) as (k & params & HK).
      cbn [fst snd] in *. exists ((t, k) :: qs). split.
      - constructor; [|exact Q1]. cbn [fst snd]. destruct HK as [HK _]. tauto.
      - constructor; [|exact Q2]. split; [reflexivity|]. cbn [fst snd]. now apply (call_good _ _ params). }
    destruct Q as (qs & Q1 & Q2).
    exists ((qs, tail) :: ls). split; constructor; try assumption; split; cbn [fst snd]; auto. }
  destruct K as (ls & K1 & K2). apply (remark_all ls); [|exact K1|exact K2]. intros ->. inversion K2; subst. congruence.
Qed.
Section Every.
Context {E : Type} (X : expander E).
Local Notation W := (watched X).
Lemma shown_ok e w out cur col m k params ind v e1 em cur' col' : marker_call m k params -> margin cur ind ->
  ask X e k params (ind, col) = Some (v, e1) -> shown cur col v em cur' col' ->
  exists done, g_handle_expand W (GProc (e, w) (Proc [] out cur col [Active] [])) m =
    Some (GProc (e1, w ++ [(k, params, (ind, col))]) (Proc [] (out ++ em) cur' col' [Active] []), done) /\ (done = false <-> no_value v).
Proof.
  intros HM HI HA HS. unfold g_handle_expand, g_expand. rewrite (call_split m k params HM). cbn [g_state g_proc p_cur p_column watched ask fst snd].
  destruct (margin_indentation _ _ HI) as [-> _]. rewrite HA. cbn [fst snd]. destruct HS as [v HN|v t em cur' col' HV HP|r|r rs z ind' pad em cur' col' HM' Hpad HP].
  - exists false. rewrite app_nil_r. split; [destruct HN as [-> |[-> | ->]]; reflexivity|tauto].
  - exists true. split; [destruct HV as [-> |[Hn ->]]; [|destruct t; [congruence|]]; now rewrite (put_ok [] out cur col _ em cur' col' HP)|].
    split; [discriminate|]. destruct HV as [-> |[Hn ->]]; intros [H|[H|H]]; congruence.
  - exists true. cbn [add_lines p_dict p_lines p_cur p_column p_scope p_align]. rewrite app_nil_r. split; [reflexivity|]. split; [discriminate|]. intros [H|[H|H]]; discriminate.
  - exists true. split; [|split; [discriminate|intros [H|[H|H]]; discriminate]].
    unfold add_lines. cbn [p_dict p_lines p_cur p_column p_scope p_align].
    assert (exists x y, rs ++ [z] = x :: y) as (x & y & Exy) by (destruct rs; cbn; eauto). rewrite Exy. rewrite <- Exy. clear x y Exy.
    rewrite removelast_last, last_last. unfold alignment. cbn [p_cur p_column]. destruct (margin_indentation _ _ HM') as [-> _]. rewrite <- Hpad.
    rewrite (put_ok [] _ [] 0 (pad ++ z) em cur' col' HP). do 4 f_equal. rewrite <- !app_assoc. reflexivity.
Qed.
Lemma line_answers e cur col last ps calls em e1 cur1 col1 last1 : LineAnswers X e cur col last ps calls em e1 cur1 col1 last1 ->
  Forall (fun p => ~ In x0a (fst p) /\ no_marker (fst p) /\ (forall u, fst p <> u ++ #"[")) ps -> forall w out ig rest,
  (ig = true <-> exists v, last = Some v /\ no_value v /\ Forall white cur) ->
  exists ig', g_run W (GProc (e, w) (Proc [] out cur col [Active] [])) ig (pair_tokens ps ++ rest) =
    g_run W (GProc (e1, w ++ calls) (Proc [] (out ++ em) cur1 col1 [Active] [])) ig' rest /\ (ig' = true <-> exists v, last1 = Some v /\ no_value v /\ Forall white cur1).
Proof.
  induction 1 as [e cur col last|e cur col last t m k params ind v e1 em cur1 col1 ps calls em2 e2 cur2 col2 last2 HM HI HA HS HL IH]; intros HP w out ig rest HIG.
  - exists ig. rewrite !app_nil_r. auto.
  - apply Forall_cons_iff in HP as [(A1 & A2 & A3) HP']. cbn [fst snd] in *.
    change (pair_tokens ((t, m) :: ps) ++ rest) with (TText t :: TExpand m :: pair_tokens ps ++ rest).
    cbn [g_run]. assert (g_step W (GProc (e, w) (Proc [] out cur col [Active] [])) ig (TText t) = Some (GProc (e, w) (Proc [] out (cur ++ t) (col + length t) [Active] []), false)) as ->.
    { assert (forall g, g_step W g ig (TText t) = g_handle W g (TText t)) as -> by (intros g; destruct ig; reflexivity).
      cbn [g_handle top p_scope g_proc g_state]. now rewrite add_text_plain. }
    cbn [g_run g_step g_handle top p_scope g_proc].
    destruct (shown_ok e w out _ _ m k params ind v e1 em cur1 col1 HM HI HA HS) as (done & -> & HD).
    match goal with |- context [g_run _ _ ?I (pair_tokens ps ++ rest)] => destruct (IH HP' (w ++ [(k, params, (ind, col + length t)%nat)]) (out ++ em) I rest) as (ig' & Eq & H) end.
    { split.
      - intros H. apply andb_true_iff in H as [H1 H2]. apply negb_true_iff in H1. exists v. split; [reflexivity|]. split; [now apply HD|]. now apply white_blank.
      - intros (v' & Ev & Hv & Hw). injection Ev as <-. apply andb_true_iff. split; [now apply negb_true_iff, HD|now apply white_blank]. }
    exists ig'. split; [|exact H]. etransitivity; [exact Eq|]. now rewrite <- !app_assoc.
Qed.
Lemma g_run_tail tail e out cur col ig rest : ~ In x0a tail -> (tail = [] -> ig = false) ->
  g_run W (GProc e (Proc [] out cur col [Active] [])) ig (match tail with [] => [] | _ => [TText tail] end ++ TNewline :: rest) =
  g_run W (GProc e (Proc [] (out ++ [py_rstrip (cur ++ tail)]) [] 0 [Active] [])) false rest.
Proof.
  intros HT HI. destruct tail as [|c tail].
  - rewrite HI by reflexivity. cbn [app g_run g_step g_handle g_state g_proc]. unfold handle_newline. cbn [top p_scope p_dict p_lines p_cur p_align]. now rewrite app_nil_r.
  - cbn [app g_run]. assert (forall g, g_step W g ig (TText (c :: tail)) = g_handle W g (TText (c :: tail))) as -> by (intros g; destruct ig; reflexivity).
    cbn [g_handle g_state g_proc top p_scope]. rewrite add_text_plain by exact HT. cbn [g_step g_handle g_state g_proc]. unfold handle_newline. cbn [top p_scope p_dict p_lines p_cur p_align]. reflexivity.
Qed.
Lemma run_answers e col lines calls e' col' outs : Answers X e col lines calls e' col' outs -> Forall plain_texts lines -> forall w out rest,
  g_run W (GProc (e, w) (Proc [] out [] col [Active] [])) false (flat_map tokens_of lines ++ rest) =
  g_run W (GProc (e', w ++ calls) (Proc [] (out ++ outs) [] col' [Active] [])) false rest.
Proof.
  induction 1 as [e col|e col ps tail calls em e1 cur col1 last o lines calls2 e2 col2 outs HL HD HS HA IH|e col ps tail calls em e1 cur col1 last lines calls2 e2 col2 outs HL HD HA IH];
    intros HP w out rest.
  - now rewrite !app_nil_r.
  - apply Forall_cons_iff in HP as [[P1 [P2 P3]] HP]. cbn [fst snd] in *. cbn [flat_map]. rewrite tokens_pairs, <- !app_assoc.
    match goal with |- context [pair_tokens ps ++ ?R] => destruct (line_answers _ _ _ _ _ _ _ _ _ _ _ HL P1 w out false R) as (ig & Eq & HIG) end.
    { split; [discriminate|]. intros (v & Ev & _). discriminate. }
    rewrite Eq. cbn [app]. rewrite g_run_tail; [|exact P2|].
    2:{ intros ->. apply not_true_iff_false. intros Hig. apply HIG in Hig as (v & H1 & H2 & H3). apply HD. split; [reflexivity|]. split; [now rewrite app_nil_r|eauto]. }
    apply stripped_fun in HS. rewrite <- HS. rewrite IH by exact HP. now rewrite <- !app_assoc.
  - apply Forall_cons_iff in HP as [[P1 [P2 P3]] HP]. cbn [fst snd] in *. cbn [flat_map]. rewrite tokens_pairs, <- !app_assoc.
    match goal with |- context [pair_tokens ps ++ ?R] => destruct (line_answers _ _ _ _ _ _ _ _ _ _ _ HL P1 w out false R) as (ig & Eq & HIG) end.
    { split; [discriminate|]. intros (v & Ev & _). discriminate. }
    rewrite Eq. destruct HD as (-> & Hw & (v & Hv & Hn)). rewrite app_nil_r in Hw. assert (ig = true) as -> by (apply HIG; eauto).
    cbn [app g_run g_step g_proc g_state]. assert (blank (Proc [] (out ++ em) cur col1 [Active] []) = true) as -> by (now apply white_blank).
    cbn [p_dict p_lines p_cur p_column p_scope p_align]. rewrite IH by exact HP. now rewrite <- !app_assoc.
Qed.
Lemma answers_markers e col lines calls e' col' outs : Answers X e col lines calls e' col' outs -> Forall plain_markers lines.
Proof.
  assert (K : forall e cur col last ps calls em e1 cur1 col1 last1, LineAnswers X e cur col last ps calls em e1 cur1 col1 last1 -> forall p, In p ps -> exists k params, marker_call (snd p) k params).
  { induction 1; intros p [<-|Hp] || intros p []; [cbn [snd]; eauto|auto]. }
  induction 1; constructor; auto; intros p Hp; cbn [fst] in Hp; eapply K; eassumption.
Qed.
Lemma p_c129_every e lines calls e' col out : Answers X e 0 lines calls e' col out -> lines <> [] -> Forall plain_texts lines ->
  g_make_lines W (lines_text (map tline_text lines)) (e, []) = Some (out, (e', calls)).
Proof.
  intros H HN HP. unfold g_make_lines. rewrite plain_tokens; [|exact HN|exact HP|now apply answers_markers in H].
  rewrite <- (app_nil_r (flat_map tokens_of lines)). rewrite (run_answers _ _ _ _ _ _ _ H HP). reflexivity.
Qed.
(** A call that is refused. *)
Lemma p_c129_refused e before calls e1 col out ps t m qs tail after calls2 em e2 cur col2 last k params ind : Answers X e 0 before calls e1 col out ->
  LineAnswers X e1 [] col None ps calls2 em e2 cur col2 last -> marker_call m k params -> margin (cur ++ t) ind -> ask X e2 k params (ind, col2 + length t)%nat = None ->
  let lines := before ++ (ps ++ (t, m) :: qs, tail) :: after in
  Forall plain_texts lines -> Forall plain_markers lines -> g_make_lines X (lines_text (map tline_text lines)) e = None.
Proof.
  intros HA HL HM HI HK lines HP HPM. assert (E0 : g_make_lines W (lines_text (map tline_text lines)) (e, []) = None).
  { unfold g_make_lines. rewrite plain_tokens; [|unfold lines; destruct before; discriminate|exact HP|exact HPM]. unfold lines in *. rewrite flat_map_app.
    apply Forall_app in HP as [HP1 HP2]. apply Forall_cons_iff in HP2 as [[HP2 _] _]. cbn [fst snd] in HP2. rewrite (run_answers _ _ _ _ _ _ _ HA HP1). cbn [flat_map].
    rewrite tokens_pairs. unfold pair_tokens. rewrite flat_map_app. fold pair_tokens. rewrite <- !app_assoc. apply Forall_app in HP2 as [Q1 Q2]. apply Forall_cons_iff in Q2 as [(Q2 & _) _]. cbn [fst] in Q2.
    match goal with |- context [g_run W ?g false (?T ++ ?R)] => destruct (line_answers _ _ _ _ _ _ _ _ _ _ _ HL Q1 ([] ++ calls) ([] ++ out) false R) as (ig & Eq & _) end.
    { split; [discriminate|]. intros (v & Ev & _). discriminate. }
    unfold pair_tokens in Eq. rewrite Eq. clear Eq. cbn [flat_map fst snd app g_run].
    match goal with |- context [g_step W ?g ig (TText t)] => assert (g_step W g ig (TText t) = g_handle W g (TText t)) as -> by (destruct ig; reflexivity) end.
    cbn [g_handle top p_scope g_proc g_state]. rewrite add_text_plain by exact Q2. cbn [g_step g_handle top p_scope g_proc g_state].
    unfold g_handle_expand, g_expand. rewrite (call_split m k params HM). cbn [g_state g_proc p_cur p_column watched ask fst snd].
    destruct (margin_indentation _ _ HI) as [-> _]. now rewrite HK. }
  rewrite <- (p_c129_watched X (lines_text (map tline_text lines)) e []). now rewrite E0.
Qed.

(** Either everything is answered, or some call is refused. *)
Lemma no_value_dec v : no_value v \/ ~ no_value v.
Proof. unfold no_value. destruct v as [|[|c s]|[|r l]|s]; try (left; tauto); right; intros [H|[H|H]]; discriminate. Qed.
Lemma shown_total cur col v : exists em cur' col', shown cur col v em cur' col'.
Proof.
  destruct v as [|[|c s]|[|r [|x l]]|s].
  - do 3 eexists. apply shown_nothing. now left.
  - do 3 eexists. apply shown_nothing. right. now left.
  - destruct (put_total cur col (c :: s)) as (em & cur' & col' & HP). do 3 eexists. apply (shown_text cur col _ (c :: s)); [right; split; [discriminate|reflexivity]|exact HP].
  - do 3 eexists. apply shown_nothing. right. now right.
  - do 3 eexists. apply shown_row.
  - destruct (exists_last (l := x :: l)) as (rs & z & Ez); [discriminate|]. rewrite Ez. destruct (margin_total (cur ++ r)) as [ind HM].
    destruct (put_total [] 0 ((ind ++ repeat x20 (col - length ind)) ++ z)) as (em & cur' & col' & HP). do 3 eexists. now apply (shown_rows cur col r rs z ind _ em cur' col' HM eq_refl).
  - destruct (put_total cur col s) as (em & cur' & col' & HP). do 3 eexists. apply (shown_text cur col _ s); [now left|exact HP].
Qed.
Lemma line_either ps : (forall p, In p ps -> exists k params, marker_call (snd p) k params) -> forall e cur col last,
  (exists calls em e1 cur1 col1 last1, LineAnswers X e cur col last ps calls em e1 cur1 col1 last1) \/
  (exists ps1 t m ps2 calls em e1 cur1 col1 last1 k params ind, ps = ps1 ++ (t, m) :: ps2 /\ LineAnswers X e cur col last ps1 calls em e1 cur1 col1 last1 /\
    marker_call m k params /\ margin (cur1 ++ t) ind /\ ask X e1 k params (ind, col1 + length t)%nat = None).
Proof.
  induction ps as [|[t m] ps IH]; intros HM e cur col last; [left; do 6 eexists; constructor|].
  destruct (HM (t, m) ltac:(now left)) as (k & params & HK). cbn [snd] in HK. destruct (margin_total (cur ++ t)) as [ind HI].
  destruct (ask X e k params (ind, col + length t)%nat) as [[v e1]|] eqn:EA.
  2:{ right. exists [], t, m, ps, [], [], e, cur, col, last, k, params, ind. repeat split; auto; try apply HK. constructor. }
  destruct (shown_total (cur ++ t) (col + length t) v) as (em & cur1 & col1 & HS).
  destruct (IH ltac:(intros p Hp; apply HM; now right) e1 cur1 col1 (Some v)) as [(calls & em2 & e2 & cur2 & col2 & last2 & HL)|(ps1 & t' & m' & ps2 & calls & em2 & e2 & cur2 & col2 & last2 & k' & params' & ind' & -> & HL & H1 & H2 & H3)].
  - left. do 6 eexists. eapply la_marker; eassumption.
  - right. exists ((t, m) :: ps1), t', m', ps2. do 6 eexists. exists k', params', ind'. split; [reflexivity|]. split; [eapply la_marker; eassumption|auto].
Qed.
Lemma dropped_dec last tail text : dropped last tail text \/ ~ dropped last tail text.
Proof.
  destruct tail as [|c tail]; [|right; intros (H & _); discriminate]. destruct (is_empty_or_space text) eqn:Et.
  2:{ right. intros (_ & H & _). apply white_blank in H. congruence. }
  destruct last as [v|]; [|right; intros (_ & _ & v & H & _); discriminate]. destruct (no_value_dec v) as [H|H].
  - left. split; [reflexivity|]. split; [now apply white_blank|eauto].
  - right. intros (_ & _ & v' & Ev & H'). injection Ev as <-. contradiction.
Qed.
Lemma answers_app e col l1 calls e1 col1 out1 l2 calls2 e2 col2 out2 : Answers X e col l1 calls e1 col1 out1 -> Answers X e1 col1 l2 calls2 e2 col2 out2 ->
  Answers X e col (l1 ++ l2) (calls ++ calls2) e2 col2 (out1 ++ out2).
Proof.
  induction 1 as [|e col ps tail calls em e1 cur cc last o lines callsb eb cb outs HL HD HS HA IH|e col ps tail calls em e1 cur cc last lines callsb eb cb outs HL HD HA IH]; intros H2; cbn [app]; [exact H2| |].
  - rewrite <- !app_assoc. cbn [app]. eapply an_line; eauto.
  - rewrite <- !app_assoc. eapply an_dropped; eauto.
Qed.
Lemma either lines : Forall plain_markers lines -> forall e col, (exists calls e' col' out, Answers X e col lines calls e' col' out) \/
  (exists before ps t m qs tail after calls e1 col1 out calls2 em e2 cur col2 last k params ind, lines = before ++ (ps ++ (t, m) :: qs, tail) :: after /\
    Answers X e col before calls e1 col1 out /\ LineAnswers X e1 [] col1 None ps calls2 em e2 cur col2 last /\
    marker_call m k params /\ margin (cur ++ t) ind /\ ask X e2 k params (ind, col2 + length t)%nat = None).
Proof.
  induction 1 as [|[ps tail] lines HM HF IH]; intros e col; [left; do 4 eexists; constructor|].
  destruct (line_either ps HM e [] col None) as [(calls & em & e1 & cur & col1 & last & HL)|(ps1 & t & m & ps2 & calls & em & e1 & cur & col1 & last & k & params & ind & -> & HL & H1 & H2 & H3)].
  2:{ right. exists [], ps1, t, m, ps2, tail, lines, [], e, col, [], calls, em, e1, cur, col1, last, k, params, ind. repeat (split; [first [reflexivity|assumption|constructor]|]). assumption. }
  assert (exists col2 o, Answers X e col [(ps, tail)] (calls ++ []) e1 col2 o) as (col2 & o & HA).
  { destruct (dropped_dec last tail (cur ++ tail)) as [HD|HD]; do 2 eexists; [eapply an_dropped; [exact HL|exact HD|constructor]|eapply an_line; [exact HL|exact HD|apply rstrip_spec|constructor]]. }
  destruct (IH e1 col2) as [(calls2 & e2 & col3 & out & HB)|(before & qs1 & t & m & qs2 & tail' & after & callsb & eb & colb & outb & callsc & em' & ec & cur' & colc & last' & k & params & ind & -> & HB & HC & H1 & H2 & H3)].
  - left. do 4 eexists. change ((ps, tail) :: lines) with ([(ps, tail)] ++ lines). eapply answers_app; eassumption.
  - right. exists ((ps, tail) :: before), qs1, t, m, qs2, tail', after. do 10 eexists. exists k, params, ind. split; [reflexivity|].
    split; [change ((ps, tail) :: before) with ([(ps, tail)] ++ before); eapply answers_app; eassumption|]. split; [exact HC|auto].
Qed.
Lemma p_c129_exactly e lines calls e' out : lines <> [] -> Forall plain_texts lines -> Forall plain_markers lines ->
  g_make_lines W (lines_text (map tline_text lines)) (e, []) = Some (out, (e', calls)) <-> exists col, Answers X e 0 lines calls e' col out.
Proof.
  intros HN HP HM. split; [|intros [col H]; now apply (p_c129_every e lines calls e' col out)].
  intros Eq. destruct (either lines HM e 0%nat) as [(calls1 & e1 & col & out1 & HA)|(before & ps & t & m & qs & tail & after & callsb & eb & colb & outb & callsc & em' & ec & cur' & colc & last' & k & params & ind & El & HB & HC & H1 & H2 & H3)].
  - exists col. pose proof (p_c129_every e lines calls1 e1 col out1 HA HN HP) as Eq2. rewrite Eq2 in Eq. injection Eq as <- <- <-. exact HA.
  - exfalso. assert (g_make_lines X (lines_text (map tline_text lines)) e = None) as Eq2.
    { subst lines. exact (p_c129_refused e before callsb eb colb outb ps t m qs tail after callsc em' ec cur' colc last' k params ind HB HC H1 H2 H3 HP HM). }
    pose proof (p_c129_watched X (lines_text (map tline_text lines)) e []) as K. rewrite Eq in K. discriminate (eq_trans K Eq2).
Qed.
End Every.

(** ** For the examples *)
Lemma plain_texts_like ls ls' : Forall plain_tline ls -> Forall2 (fun l l' => map fst (fst l) = map fst (fst l') /\ snd l = snd l') ls ls' -> Forall plain_texts ls'.
Proof.
  intros H F. induction F as [|[ps tail] [ps' tail'] ls ls' [H1 H2] F IH]; [constructor|]. apply Forall_cons_iff in H as [(A & B & C) H]. cbn [fst snd] in *. subst tail'.
  constructor; [|auto]. split; [|split; assumption]. cbn [fst]. clear - A H1. revert ps' H1. induction A as [|p ps Hp A IH]; intros [|p' ps'] E1; try discriminate; [constructor|].
  cbn [map] in E1. injection E1 as E1 E2. constructor; [destruct p, p'; cbn [fst snd] in *; subst; tauto|auto].
Qed.
Lemma key_call k : plain_key k -> marker_call k k [].
Proof. intros H. split; [exact H|now left]. Qed.
