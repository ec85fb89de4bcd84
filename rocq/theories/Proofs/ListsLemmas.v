(** C118: every value and any number of lists in a line. *)
From Coq Require Import String.
From Verif Require Import Base Model.PyText Model.Codegen Spec.Template Proofs.CodegenLemmas Proofs.MultilineLemmas.
From Coq Require Import ZifyBool ZifyNat ZifyN.
Local Notation "'#' s" := (list_byte_of_string s%string) (at level 5, only parsing).

Lemma rcut_found a b : ~ In x0a b -> py_rcut_newline (a ++ x0a :: b) = Some (a, b).
Proof.
  intros Hb. induction a as [|c a IH]; cbn [app py_rcut_newline]; [rewrite rcut_absent by exact Hb; reflexivity|]. now rewrite IH.
Qed.
Lemma put_ok d out cur col t em cur' col' : put cur col t em cur' col' ->
  add_text (Proc d out cur col [Active] []) t = Proc d (out ++ em) cur' col' [Active] [].
Proof.
  intros [t' H|a b H].
  - rewrite add_text_plain by exact H. now rewrite app_nil_r.
  - unfold add_text. cbn [app]. rewrite rcut_found by exact H. cbn [p_dict p_lines p_cur p_scope p_align]. f_equal. rewrite app_length. cbn [length]. lia.
Qed.
Lemma put_total cur col t : exists em cur' col', put cur col t em cur' col'.
Proof.
  pose proof (rcut_spec t) as H. destruct (py_rcut_newline t) as [[a b]|]; [destruct H as [-> H]|]; do 3 eexists; [now apply (put_lines cur col a b)|now apply put_plain].
Qed.
Lemma bound_fun d k v w : bound d k v -> bound d k w -> v = w.
Proof. intros H1 H2. apply bound_get in H1, H2. congruence. Qed.
Lemma filled_ok d out cur col k em cur' col' : plain_key k -> filled d cur col k em cur' col' ->
  exists done, handle_expand (Proc d out cur col [Active] []) k = Some (Proc d (out ++ em) cur' col' [Active] [], done) /\ (done = false <-> nothing d k).
Proof.
  intros HK [HN|t em1 cur1 col1 HV HP|r HB|r rs z ind pad em1 cur1 col1 HB HM Hpad HP]; unfold handle_expand.
  - exists false. rewrite app_nil_r. split; [destruct HN as [HN|[HN|HN]]; now rewrite (expand_get d _ _ _ _ _ k _ HK HN)|tauto].
  - exists true. split; [destruct HV as [HB|[Hn HB]]; rewrite (expand_get d _ _ _ _ _ k _ HK HB); [|destruct t; [congruence|]]; now rewrite (put_ok d out cur col _ em1 cur1 col1 HP)|].
    split; [discriminate|]. intros HN. destruct HV as [HB|[Hn HB]]; destruct HN as [HN|[HN|HN]]; pose proof (bound_fun _ _ _ _ HB HN); congruence.
  - exists true. rewrite (expand_get d _ _ _ _ _ k _ HK HB). cbn [add_lines p_dict p_lines p_cur p_column p_scope p_align]. rewrite app_nil_r. split; [reflexivity|].
    split; [discriminate|]. intros [HN|[HN|HN]]; pose proof (bound_fun _ _ _ _ HB HN); discriminate.
  - exists true. rewrite (expand_get d _ _ _ _ _ k _ HK HB). split.
    2:{ split; [discriminate|]. intros [HN|[HN|HN]]; pose proof (bound_fun _ _ _ _ HB HN); discriminate. }
    unfold add_lines. cbn [p_dict p_lines p_cur p_column p_scope p_align].
    assert (exists x y, rs ++ [z] = x :: y) as (x & y & Exy) by (destruct rs; cbn; eauto). rewrite Exy. rewrite <- Exy. clear x y Exy.
    rewrite removelast_last, last_last. unfold alignment. cbn [p_cur p_column]. destruct (margin_indentation _ _ HM) as [-> _]. rewrite <- Hpad.
    rewrite (put_ok d _ [] 0 (pad ++ z) em1 cur1 col1 HP). do 3 f_equal. rewrite <- !app_assoc. reflexivity.
Qed.
Lemma run_line_run d cur col ps em cur' col' : line_run d cur col ps em cur' col' -> good_pairs ps -> forall out ig rest,
  exists ig', run (Proc d out cur col [Active] []) ig (pair_tokens ps ++ rest) = run (Proc d (out ++ em) cur' col' [Active] []) ig' rest /\
    (ig' = true <-> (ps = [] /\ ig = true) \/ (Forall white cur' /\ exists ps' p, ps = ps' ++ [p] /\ nothing d (snd p))).
Proof.
  induction 1 as [cur col|cur col t k ps em cur1 col1 em' cur' col' HFi HR IH]; intros HP out ig rest.
  - exists ig. rewrite app_nil_r. split; [reflexivity|]. split; [auto|]. intros [[_ H]|(_ & ps' & p & E & _)]; [exact H|]. destruct ps'; discriminate.
  - apply Forall_cons_iff in HP as [(A1 & A2 & A3 & A4) HP']. cbn [fst snd] in *.
    change (pair_tokens ((t, k) :: ps) ++ rest) with (TText t :: TExpand k :: pair_tokens ps ++ rest).
    cbn [run]. assert (step (Proc d out cur col [Active] []) ig (TText t) = Some (Proc d out (cur ++ t) (col + length t) [Active] [], false)) as ->.
    { assert (step (Proc d out cur col [Active] []) ig (TText t) = handle (Proc d out cur col [Active] []) (TText t)) as -> by (destruct ig; reflexivity).
      cbn [handle top p_scope]. now rewrite add_text_plain. }
    cbn [run step handle top p_scope]. destruct (filled_ok d out _ _ k em cur1 col1 A4 HFi) as (done & -> & HD).
    match goal with |- context [run _ ?I (pair_tokens ps ++ rest)] => destruct (IH HP' (out ++ em) I rest) as (ig' & E & HIG) end.
    exists ig'. split; [etransitivity; [exact E|]; now rewrite <- app_assoc|]. rewrite HIG. clear E HIG IH. split.
    + intros [[-> H]|(HW & ps' & p & -> & HN)]; right.
      * apply andb_true_iff in H as [H1 H2]. apply negb_true_iff in H1. inversion HR; subst. split; [unfold blank in H2; cbn [p_cur] in H2; now apply white_blank|].
        exists [], (t, k). split; [reflexivity|]. now apply HD.
      * split; [exact HW|]. exists ((t, k) :: ps'), p. auto.
    + intros [[H _]|(HW & ps' & p & E & HN)]; [discriminate|]. destruct ps' as [|q ps'].
      * injection E as <- ->. left. split; [reflexivity|]. inversion HR; subst. apply andb_true_iff. split; [now apply negb_true_iff, HD|]. unfold blank. cbn [p_cur]. now apply white_blank.
      * injection E as <- ->. right. split; [exact HW|]. eauto.
Qed.
Lemma run_filled_in d col lines outs : filled_in d col lines outs -> Forall plain_tline lines -> forall out,
  exists p, run (Proc d out [] col [Active] []) false (flat_map tokens_of lines) = Some p /\ p_lines p = out ++ outs /\ p_scope p = [Active].
Proof.
  induction 1 as [col|col ps tail lines em cur col' o outs HR HL HS HE IH|col ps tail lines em cur col' outs HR HL HE IH]; intros HP acc.
  - eexists. split; [reflexivity|]. split; [now rewrite app_nil_r|reflexivity].
  - apply Forall_cons_iff in HP as [(H1 & HT & _) H2]. cbn [fst snd] in *. cbn [flat_map]. rewrite tokens_pairs, <- app_assoc.
    match goal with |- context [pair_tokens ps ++ ?R] => destruct (run_line_run d [] col ps em cur col' HR H1 acc false R) as (ig & E & HIG) end.
    rewrite E, run_tail; [|exact HT|].
    2:{ intros ->. apply not_true_iff_false. intros Hig. apply HIG in Hig as [[_ Hig]|(Hw & Hex)]; [discriminate|]. apply HL. split; [reflexivity|]. split; [now rewrite app_nil_r|exact Hex]. }
    apply stripped_fun in HS. rewrite <- HS. destruct (IH H2 ((acc ++ em) ++ [o])) as (p & E2 & El & Es). exists p. split; [exact E2|]. split; [|exact Es]. now rewrite El, <- !app_assoc.
  - apply Forall_cons_iff in HP as [(H1 & HT & _) H2]. cbn [fst snd] in *. cbn [flat_map]. rewrite tokens_pairs, <- app_assoc.
    match goal with |- context [pair_tokens ps ++ ?R] => destruct (run_line_run d [] col ps em cur col' HR H1 acc false R) as (ig & E & HIG) end.
    rewrite E. destruct HL as (-> & Hw & Hex). rewrite app_nil_r in Hw. assert (ig = true) as -> by (apply HIG; right; auto).
    cbn [app run step]. assert (blank (Proc d (acc ++ em) cur col' [Active] []) = true) as -> by (now apply white_blank).
    cbn [p_dict p_lines p_cur p_column p_scope p_align]. destruct (IH H2 (acc ++ em)) as (p & E2 & El & Es). exists p. split; [exact E2|]. split; [|exact Es]. now rewrite El, <- !app_assoc.
Qed.
Lemma p_c118_every d lines outs : lines <> [] -> Forall plain_tline lines -> filled_in d 0 lines outs ->
  make_lines (lines_text (map tline_text lines)) d = Some outs /\ make_text (lines_text (map tline_text lines)) d = Some (lines_text outs).
Proof.
  intros HN HP HE. assert (make_lines (lines_text (map tline_text lines)) d = Some outs) as E.
  { unfold make_lines. rewrite tokenize_all by assumption. destruct (run_filled_in d 0 lines outs HE HP []) as (p & -> & El & Es). now rewrite Es, El. }
  split; [exact E|]. unfold make_text. rewrite E. now rewrite lines_text_join.
Qed.

(** There is always a way. *)
Lemma margin_total s : exists ind, margin s ind.
Proof.
  assert (K : (exists ind r, s = ind ++ r /\ indent ind /\ row_start r) \/ indent s).
  { induction s as [|c s IH]; [right; constructor|]. destruct (byte_eqb c x20 || byte_eqb c x09) eqn:E.
    - assert (c = x20 \/ c = x09) as Hc by (apply orb_true_iff in E; destruct E as [E|E]; apply byte_eqb_true in E; auto).
      destruct IH as [(ind & r & -> & HI & HR)|HI]; [left; exists (c :: ind), r; repeat split; auto; now constructor|right; now constructor].
    - left. exists [], (c :: s). split; [reflexivity|]. split; [constructor|]. apply orb_false_iff in E as [E1 E2]. exists c, s. rewrite byte_eqb_false in E1, E2. auto. }
  destruct K as [(ind & r & E & HI & HR)|HI]; [exists ind; left; eauto|exists []; right; auto].
Qed.
Lemma filled_total d cur col k v : bound d k v -> exists em cur' col', filled d cur col k em cur' col'.
Proof.
  intros HB. destruct v as [|[|c s]|[|r [|x l]]|s].
  - do 3 eexists. apply filled_nothing. now left.
  - do 3 eexists. apply filled_nothing. right. now left.
  - destruct (put_total cur col (c :: s)) as (em & cur' & col' & HP). do 3 eexists. apply (filled_text d cur col k (c :: s)); [right; split; [discriminate|exact HB]|exact HP].
  - do 3 eexists. apply filled_nothing. right. now right.
  - do 3 eexists. now apply (filled_row d cur col k r).
  - destruct (exists_last (l := x :: l)) as (rs & z & E); [discriminate|]. rewrite E in HB. destruct (margin_total (cur ++ r)) as [ind HM].
    destruct (put_total [] 0 ((ind ++ repeat x20 (col - length ind)) ++ z)) as (em & cur' & col' & HP). do 3 eexists. now apply (filled_rows d cur col k r rs z ind _ em cur' col' HB HM eq_refl).
  - destruct (put_total cur col s) as (em & cur' & col' & HP). do 3 eexists. apply (filled_text d cur col k s); [now left|exact HP].
Qed.
Lemma line_run_total d ps : Forall (fun p => exists v, bound d (snd p) v) ps -> forall cur col, exists em cur' col', line_run d cur col ps em cur' col'.
Proof.
  induction 1 as [|[t k] ps [v HB] HF IH]; intros cur col; [do 3 eexists; constructor|]. cbn [snd] in HB.
  destruct (filled_total d (cur ++ t) (col + length t) k v HB) as (em & cur1 & col1 & H1). destruct (IH cur1 col1) as (em' & cur' & col' & H2). do 3 eexists. econstructor; eassumption.
Qed.
Lemma left_out_dec d ps tail text : Forall (fun p => exists v, bound d (snd p) v) ps -> left_out d ps tail text \/ ~ left_out d ps tail text.
Proof.
  intros HF. destruct tail as [|c tail]; [|right; intros (H & _); discriminate]. destruct (is_empty_or_space text) eqn:E.
  2:{ right. intros (_ & H & _). apply white_blank in H. congruence. }
  apply white_blank in E. destruct ps as [|p0 ps0]; [right; intros (_ & _ & ps' & p & E' & _); destruct ps'; discriminate|].
  destruct (exists_last (l := p0 :: ps0)) as (ps' & p & E'); [discriminate|]. rewrite E' in *. apply Forall_app in HF as [_ HF]. inversion HF as [|? ? [v HB] _]; subst.
  assert (nothing d (snd p) \/ ~ nothing d (snd p)) as [HN|HN].
  { destruct v as [|[|c s]|[|r l]|s]; try (left; unfold nothing; tauto); right; intros [HN|[HN|HN]]; pose proof (bound_fun _ _ _ _ HB HN); discriminate. }
  - left. split; [reflexivity|]. split; [exact E|]. eauto.
  - right. intros (_ & _ & qs & q & E2 & HN'). apply app_inj_tail in E2 as [_ <-]. contradiction.
Qed.
Lemma filled_in_total d lines : Forall (fun l : tline => Forall (fun p => exists v, bound d (snd p) v) (fst l)) lines -> forall col, exists out, filled_in d col lines out.
Proof.
  induction 1 as [|[ps tail] lines HP HF IH]; intros col; [eexists; constructor|]. cbn [fst] in HP.
  destruct (line_run_total d ps HP [] col) as (em & cur & col' & HR). destruct (left_out_dec d ps tail (cur ++ tail) HP) as [HL|HL].
  - destruct (IH col') as [out HO]. eexists. eapply filled_in_left_out; eassumption.
  - destruct (IH 0%nat) as [out HO]. eexists. eapply filled_in_line; [exact HR|exact HL|apply rstrip_spec|exact HO].
Qed.
Lemma p_c118_total d lines : Forall (fun l : tline => forall p, In p (fst l) -> exists v, In (snd p, v) d) lines -> exists out, filled_in d 0 lines out.
Proof.
  intros H. apply filled_in_total. eapply Forall_impl; [|exact H]. intros [ps tail] HP. apply Forall_forall. intros p Hp. destruct (HP p Hp) as [v Hv]. clear -Hv.
  induction d as [|[k w] d IH]; [contradiction|]. destruct (str_eqb k (snd p)) eqn:E.
  - apply str_eqb_true in E. subst k. exists w, [], d. split; [reflexivity|constructor].
  - destruct Hv as [Hv|Hv]; [injection Hv as -> ->; exfalso; rewrite (proj2 (str_eqb_true (snd p) (snd p)) eq_refl) in E; discriminate|].
    destruct (IH Hv) as (w' & u & x & -> & HF). exists w', ((k, w) :: u), x. split; [reflexivity|]. constructor; [|exact HF]. cbn [fst]. rewrite <- str_eqb_true. congruence.
Qed.
Lemma p_c118_every_unique d lines out out' : lines <> [] -> Forall plain_tline lines -> filled_in d 0 lines out -> filled_in d 0 lines out' -> out = out'.
Proof.
  intros HN HP H1 H2. destruct (p_c118_every d lines out HN HP H1) as [E1 _]. destruct (p_c118_every d lines out' HN HP H2) as [E2 _]. congruence.
Qed.
