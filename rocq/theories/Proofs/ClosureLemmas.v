(** Valid in, valid out. *)
From Verif Require Import Base Spec.Utf8Spec Spec.Strings Spec.WellFormed Spec.UnicodeData Spec.Case Spec.Slices Spec.Replace Spec.Split Spec.CaseFold Spec.Normalization
  Spec.Escape
  Model.Decode Model.Encode Model.Subrange Model.Search Model.Split Model.CharClass Model.ConvertCase Model.Chars Model.CaseInsensitive Model.Escape Model.Unescape Model.Normalize
  Tables.UnicodeDataTables
  Proofs.Utf8Lemmas Proofs.EncodeLemmas Proofs.CodepointLemmas Proofs.SearchLemmas Proofs.NewlineLemmas Proofs.ReplaceLemmas Proofs.ReplaceCpLemmas
  Proofs.SliceLemmas Proofs.CharLemmas Proofs.PositionProps Proofs.SplitLemmas Proofs.StrayLemmas Proofs.CaseStringLemmas Proofs.UnicodeProps
  Proofs.CiReplaceLemmas Proofs.EscapeLemmas Proofs.UnescapeLoop Proofs.NormLemmas Proofs.ComposeLoop Proofs.NormProps Proofs.NormEquiv Proofs.SyncLemmas.

Local Notation kept := Verif.Spec.Split.kept.

Definition scalarb (c : N) : bool := (c <? 0xD800) || ((0xDFFF <? c) && (c <=? 0x10FFFF)).
Lemma scalarb_spec c : scalarb c = true -> scalar c.
Proof.
  unfold scalarb, scalar. intros H. apply orb_true_iff in H. destruct H as [H|H].
  - apply N.ltb_lt in H. split; [|intros [K _]]; lia.
  - apply andb_true_iff in H. destruct H as [H K]. apply N.ltb_lt in H. apply N.leb_le in K. split; [exact K|intros [_ L]; lia].
Qed.

(** What the two notions have in common; [K] are the code points a text may have. *)
Record closed (V : str -> Prop) (K : N -> Prop) : Prop := {
  cl_nil : V [];
  cl_app : forall s t, V s -> V t -> V (s ++ t);
  cl_text : forall s, V s -> exists cs, Text s cs;
  cl_cut : forall u v us vs, V (u ++ v) -> Text u us -> Text v vs -> V u /\ V v;
  cl_cps : forall s cs, V s -> Text s cs -> Forall (fun c => c <= 0x10FFFF) cs -> Forall K cs;
  cl_enc : forall r rs, Encoded r rs -> Forall K rs -> V r;
  cl_max : forall c, K c -> c <= 0x10FFFF;
  cl_scalar : forall c, scalar c -> K c;
  cl_lower : forall c, K c -> K (simple_lower c);
  cl_upper : forall c, K c -> K (simple_upper c);
  cl_title : forall c, K c -> K (simple_title c) }.

Lemma valid_text s : is_valid_utf8 s = Ok true <-> exists cs, Text s cs.
Proof.
  destruct (is_valid_spec s) as (b & E & H). rewrite E. split.
  - intros K. injection K as ->. now apply H.
  - intros K. apply H in K. now subst.
Qed.

Lemma closed_library : closed (fun s => is_valid_utf8 s = Ok true) (fun c => c <= 0x10FFFF).
Proof.
  constructor; cbv beta; try (intros; assumption).
  - apply valid_text. exists []. constructor.
  - intros s t HS HT. apply valid_text in HS, HT. destruct HS as [cs HS], HT as [ds HT]. apply valid_text. exists (cs ++ ds). now apply Text_app.
  - intros s H. now apply valid_text.
  - intros u v us vs _ HU HV. split; apply valid_text; eauto.
  - intros r rs HE HK. apply valid_text. exists rs. now apply Encoded_Text.
  - intros c [H _]. exact H.
  - exact simple_lower_bound.
  - exact simple_upper_bound.
  - exact simple_title_bound.
Qed.

Lemma scalar_range cs : Forall scalar cs -> Forall (fun c => c <= 0x10FFFF) cs.
Proof. apply Forall_impl. now intros c [H _]. Qed.

Lemma Encoded_app_inv u us v vs cs : Encoded (u ++ v) cs -> Forall (fun c => c <= 0x10FFFF) cs -> Text u us -> Text v vs ->
  Encoded u us /\ Encoded v vs /\ cs = us ++ vs.
Proof.
  intros HE HR HU HV. assert (cs = us ++ vs) as ->.
  { apply (Text_fun (u ++ v)); [now apply Encoded_Text|now apply Text_app]. }
  apply Forall_app in HR. destruct HR as [HR1 HR2].
  destruct (Encoded_split us vs (u ++ v) HE) as (u' & v' & E & HU' & HV').
  assert (Text u' us) as TU by now apply Encoded_Text. assert (length u = length u') as L.
  { clear HE HV HV' HR2. revert us u' v' E HU HU' HR1 TU. intros us u' v' E HU HU' HR1 TU.
    revert u' v' E TU HU' HR1. induction HU as [|g c s cs Hg Hs IH]; intros u' v' E TU HU' HR1.
    - inversion TU; reflexivity.
    - inversion TU as [|g' c' s' cs' Hg' Hs']; subst.
      inversion HU' as [|g2 c2 s2 cs2 Hg2 Hs2]; subst. assert (g2 = g' /\ s2 = s') as [-> ->].
      { pose proof (Forall_inv HR1) as HR0. destruct (uchar_prefix_unique g2 c s2 g' c s') as (A & _ & B); [now apply encodes_uchar|exact Hg'|assumption|auto]. }
      assert (g = g' /\ s ++ v = s' ++ v') as [-> E'].
      { destruct (uchar_prefix_unique g c (s ++ v) g' c (s' ++ v')) as (A & _ & B); [exact Hg|exact Hg'| |auto]. now rewrite !app_assoc. }
      rewrite !app_length. f_equal. apply (IH s' v' E' Hs' Hs2). now apply Forall_inv_tail in HR1. }
  apply app_eq_len in E; [|exact L]. destruct E as [-> ->]. auto.
Qed.

Lemma mapped_scalar table c : forallb (fun p : N * N => scalarb (snd p)) table = true -> scalar c -> scalar (mapped table c).
Proof.
  intros H Hc. apply (mapped_ind (fun _ d => scalar d) (fun p => scalarb (snd p))); [exact H| |exact Hc].
  intros p Hp. now apply scalarb_spec.
Qed.

Lemma closed_rfc : closed rfc3629_valid scalar.
Proof.
  constructor.
  - exists []. split; constructor.
  - intros s t (cs & HS & KS) (ds & HT & KT). exists (cs ++ ds). split; [now apply Encoded_app|now apply Forall_app].
  - exact rfc3629_Text.
  - intros u v us vs (cs & HE & HK) HU HV. destruct (Encoded_app_inv u us v vs cs HE (scalar_range _ HK) HU HV) as (H1 & H2 & ->).
    apply Forall_app in HK. destruct HK. split; [exists us|exists vs]; auto.
  - intros s cs (ds & HE & HK) HT _. assert (cs = ds) as ->; [|exact HK].
    apply (Text_fun s); [exact HT|]. apply Encoded_Text; [exact HE|now apply scalar_range].
  - intros r rs HE HK. exists rs. auto.
  - intros c [H _]. exact H.
  - auto.
  - intros c. apply mapped_scalar. vm_compute. reflexivity.
  - intros c. apply mapped_scalar. vm_compute. reflexivity.
  - intros c. apply mapped_scalar. vm_compute. reflexivity.
Qed.

Lemma validity_closed V : validity V -> exists K, closed V K.
Proof. intros []; eexists; [apply closed_library|apply closed_rfc]. Qed.

Lemma inrange_dec cs : Forall (fun c => c <= 0x10FFFF) cs \/ ~ Forall (fun c => c <= 0x10FFFF) cs.
Proof.
  induction cs as [|c cs [IH|IH]]; [left; constructor| |].
  - destruct (N.le_gt_cases c 0x10FFFF) as [H|H]; [left; now constructor|right]. intros K. apply Forall_inv in K. lia.
  - right. intros K. apply IH. now apply Forall_inv_tail in K.
Qed.

Definition Some_text (p : str) : Prop := exists ps, Text p ps.

Section Closed.
  Variables (V : str -> Prop) (K : N -> Prop).
  Hypothesis C : closed V K.
  Local Definition vapp := cl_app V K C.
  Local Definition vcut := cl_cut V K C.
  Local Definition vtext := cl_text V K C.

  Lemma v_rest u us v : V (u ++ v) -> Text u us -> V u /\ V v.
  Proof.
    intros H HU. destruct (vtext _ H) as [cs HT]. destruct (Text_app_inv u us v cs HU HT) as (vs & _ & HV). exact (vcut u v us vs H HU HV).
  Qed.
  Lemma v_mid u us m ms v : V (u ++ m ++ v) -> Text u us -> Text m ms -> V u /\ V m /\ V v.
  Proof. intros H HU HM. destruct (v_rest u us _ H HU) as [H1 H2]. destruct (v_rest m ms _ H2 HM) as [H3 H4]. auto. Qed.
  Lemma v_concat ps : Forall V ps -> V (concat ps).
  Proof. induction 1 as [|p ps Hp _ IH]; cbn; [exact (cl_nil V K C)|now apply vapp]. Qed.
  Lemma v_pieces ps : V (concat ps) -> Forall (fun p => exists cs, Text p cs) ps -> Forall V ps.
  Proof.
    induction ps as [|p ps IH]; intros H HP; [constructor|]. cbn in H. pose proof (Forall_inv HP) as [cs Hp].
    destruct (v_rest p cs _ H Hp) as [H1 H2]. constructor; [exact H1|]. apply IH; [exact H2|now apply Forall_inv_tail in HP].
  Qed.

  Lemma K_lower cs : Forall K cs -> Forall K (lower_cps cs).
  Proof. intros H. unfold lower_cps. apply Forall_map. eapply Forall_impl; [|exact H]. exact (cl_lower V K C). Qed.
  Lemma K_ascii c : c < 0x80 -> K c.
  Proof. intros H. apply (cl_scalar V K C). split; [|intros [L _]]; lia. Qed.
  Lemma K_upper cs : Forall K cs -> Forall K (upper_cps cs).
  Proof.
    induction 1 as [|c cs Hc _ IH]; [constructor|]. unfold upper_cps in *. cbn [flat_map]. apply Forall_app. split; [|exact IH].
    destruct (c =? 0xDF); repeat constructor; try (apply K_ascii; lia). now apply (cl_upper V K C).
  Qed.
  Lemma K_title f cs : Forall K cs -> forall b, Forall K (title_cps f b cs).
  Proof.
    induction 1 as [|c cs Hc _ IH]; intros b; [constructor|]. cbn [title_cps]. destruct (f c); [|constructor; auto].
    apply Forall_app. split; [|apply IH]. destruct b; [|destruct (c =? 0xDF)]; repeat constructor; try (apply K_ascii; lia).
    - now apply (cl_lower V K C).
    - now apply (cl_title V K C).
  Qed.

  Lemma v_case s r : V s -> to_lower_str s = Ok r \/ to_upper_str s = Ok r \/ to_title_str s = Ok r -> V r.
  Proof.
    intros H E. destruct (vtext s H) as [cs HT]. destruct (inrange_dec cs) as [HR|HR].
    - pose proof (cl_cps V K C s cs H HT HR) as HK.
      destruct (to_lower_str_ok s cs HT HR) as (r1 & E1 & H1). destruct (to_upper_str_ok s cs HT HR) as (r2 & E2 & H2).
      destruct (to_title_str_ok s cs HT HR) as (r3 & E3 & H3). rewrite E1, E2, E3 in E.
      destruct E as [E|[E|E]]; apply Ok_inj in E; subst r;
        [apply (cl_enc V K C _ _ H1); now apply K_lower|apply (cl_enc V K C _ _ H2); now apply K_upper|apply (cl_enc V K C _ _ H3); now apply K_title].
    - destruct (case_all_bad s) as (E1 & E2 & E3).
      { intros ds HD. now rewrite (Text_fun _ _ _ HD HT). }
      rewrite E1, E2, E3 in E. destruct E as [E|[E|E]]; discriminate E.
  Qed.

  Lemma char_texts ps : Characters is_mark ps -> Forall (fun p => exists cs, Text p cs) ps.
  Proof.
    intros [H _]. eapply Forall_impl; [|exact H]. intros p (g & c & u & us & -> & Hg & Hu & _). exists (c :: us). now constructor.
  Qed.
  Lemma cp_texts ps : Codepoints ps -> Forall (fun p => exists cs, Text p cs) ps.
  Proof. apply Forall_impl. intros p (c & Hp). exists [c]. now apply Text_one. Qed.

  Lemma v_reverse s r : V s -> Fits s -> reverse s = Ok r -> V r.
  Proof.
    intros H HF E. destruct (vtext s H) as [cs HT]. destruct (p_c21_exists s cs HT) as (ps & HP & <- & _).
    rewrite (reverse_spec ps HP HF) in E. apply Ok_inj in E. subst r. apply v_concat. apply Forall_rev.
    apply v_pieces; [exact H|now apply char_texts].
  Qed.

  Lemma v_trim_where pred s r : V s -> Fits s ->
    trim_where s pred = Ok r \/ trim_start_where s pred = Ok r \/ trim_end_where s pred = Ok r -> V r.
  Proof.
    intros H HF E. destruct (vtext s H) as [cs HT].
    destruct (p_trim_division pred s cs HT) as (u & us & m & ms & v & vs & -> & HU & HM & HV & AU & AV & FM & LM).
    destruct (v_mid u us m ms v H HU HM) as (H1 & H2 & H3).
    destruct E as [E|[E|E]].
    - rewrite (proj2 (proj2 (p_trim_where pred)) u us m ms v vs HF HU HM HV AU AV FM LM) in E. apply Ok_inj in E. now subst r.
    - destruct m as [|b m'].
      + assert (ms = []) as -> by (inversion HM as [|g c t ts Hg Ht E1 E2]; [reflexivity|]; apply uchar_nonempty in Hg; destruct g; [contradiction|discriminate]).
        cbn [app] in E, HF. rewrite <- (app_nil_r (u ++ v)) in E, HF.
        rewrite (proj1 (p_trim_where pred) (u ++ v) (us ++ vs) [] [] HF (Text_app _ _ _ _ HU HV) Text_nil) in E.
        * apply Ok_inj in E. subst r. exact (cl_nil V K C).
        * now apply Forall_app.
        * exact I.
      + assert (first_out (fun c => pred c = true) (ms ++ vs)) as FO.
        { destruct ms; [apply Text_nil_inv in HM; discriminate|exact FM]. }
        rewrite (proj1 (p_trim_where pred) u us (_ ++ v) (ms ++ vs) HF HU (Text_app _ _ _ _ HM HV) AU FO) in E. apply Ok_inj in E. subst r. now apply vapp.
    - destruct ms as [|c ms'].
      + apply Text_nil_inv in HM. subst m. cbn [app] in *.
        rewrite (proj1 (proj2 (p_trim_where pred)) [] [] (u ++ v) (us ++ vs) HF Text_nil (Text_app _ _ _ _ HU HV) : _ -> _ -> trim_end_where (u ++ v) pred = _) in E.
        * apply Ok_inj in E. subst r. exact (cl_nil V K C).
        * now apply Forall_app.
        * intros ds d D. destruct ds; discriminate.
      + rewrite app_assoc in E, HF.
        rewrite (proj1 (proj2 (p_trim_where pred)) (u ++ m) (us ++ c :: ms') v vs HF (Text_app _ _ _ _ HU HM) HV AV) in E.
        * apply Ok_inj in E. subst r. now apply vapp.
        * intros ds d D. destruct (exists_last (l := c :: ms')) as (q & e & Eq); [discriminate|]. rewrite Eq in D. rewrite app_assoc in D.
          apply app_inj_tail in D. destruct D as [_ <-]. exact (LM q e Eq).
  Qed.

  Lemma v_suffix u v vs : V (u ++ v) -> Text v vs -> V u /\ V v.
  Proof.
    intros H HV. destruct (vtext _ H) as [cs HT]. destruct (text_cut (u ++ v) cs HT u v eq_refl (Text_at_lead v vs HV)) as (us & vs' & _ & HU & HV').
    exact (vcut u v us vs' H HU HV').
  Qed.
  Lemma v_occ u p v : V (u ++ p ++ v) -> Some_text p -> p <> [] -> V u /\ V v.
  Proof.
    intros H [ps Hp] HN. destruct (vtext _ H) as [cs HT].
    destruct (sync _ cs p ps u v HT Hp HN eq_refl) as (us & vs & HU & HV & _). destruct (v_mid u us p ps v H HU Hp) as (A & _ & B). auto.
  Qed.

  (** Splitting *)
  Lemma v_kept ign ps : Forall V ps -> Forall V (kept ign ps).
  Proof. intros H. destruct ign; cbn; [|exact H]. apply Forall_forall. intros x Hx. apply filter_In in Hx. rewrite Forall_forall in H. now apply H. Qed.
  Lemma v_cuts (first : str -> str -> str -> Prop) s cuts rest :
    (forall u g v, first u g v -> V (u ++ g ++ v) -> V u /\ V v) -> Cuts first s cuts rest -> V s -> Forall V (map fst cuts) /\ V rest.
  Proof.
    intros HC. induction 1 as [s|u g v cuts rest HF _ IH]; intros H; [split; [constructor|exact H]|].
    destruct (HC u g v HF H) as [H1 H2]. destruct (IH H2) as [H3 H4]. split; [constructor; assumption|exact H4].
  Qed.
  Lemma v_parts (first : str -> str -> str -> Prop) ign s cuts rest :
    (forall u g v, first u g v -> V (u ++ g ++ v) -> V u /\ V v) -> Cuts first s cuts rest -> V s -> Forall V (kept ign (map fst cuts ++ [rest])).
  Proof. intros HC H HS. apply v_kept. destruct (v_cuts first s cuts rest HC H HS) as [A B]. apply Forall_app. split; [exact A|repeat constructor; exact B]. Qed.
  Lemma v_first_text (first : str -> str -> str -> Prop) : (forall u g v, first u g v -> exists us gs, Text u us /\ Text g gs) ->
    forall u g v, first u g v -> V (u ++ g ++ v) -> V u /\ V v.
  Proof. intros HF u g v F H. destruct (HF u g v F) as (us & gs & HU & HG). destruct (v_mid u us g gs v H HU HG) as (A & _ & B). auto. Qed.

  Lemma zero_or_more n : n = 0 \/ 1 <= n.
  Proof. lia. Qed.

  Lemma v_split_sep s sep n ign parts : V s -> Some_text sep -> Fits s -> split_sep s sep n ign = Ok parts -> Forall V parts.
  Proof.
    intros H HSep HF E. destruct (zero_or_more n) as [->|Hn]; [injection E as <-; constructor|].
    destruct sep as [|b sep'].
    - rewrite (p_c36_empty s n ign HF Hn) in E. apply Ok_inj in E. subst parts. apply v_kept. repeat constructor. exact H.
    - set (sep := b :: sep') in *. assert (sep <> []) as Hs by discriminate.
      destruct (cuts_limited (first_sep sep) (fun t => forall i, ~ occurs_at sep t i) ign n s Hn) as (cuts & rest & H1 & H2).
      { intros u g v [-> _]. exact Hs. } { intros t. now apply sep_cases. }
      rewrite (p_c39_limit s sep n ign cuts rest Hs HF H1 H2) in E. apply Ok_inj in E. subst parts.
      apply (v_parts (first_sep sep) ign s cuts rest); [|exact H1|exact H]. intros u g v [-> _] HV. now apply (v_occ u sep v).
  Qed.
  Lemma v_split_chars s chars n ign parts : V s -> Fits s -> split_chars s chars n ign = Ok parts -> Forall V parts.
  Proof.
    intros H HF E. destruct (zero_or_more n) as [->|Hn]; [injection E as <-; constructor|]. destruct (vtext s H) as [cs HT].
    destruct (p_c37_exists s cs chars n ign HT Hn) as (cuts & rest & H1 & H2). rewrite (p_c37 s chars n ign cuts rest HF H1 H2) in E.
    apply Ok_inj in E. subst parts. apply (v_parts (first_char chars) ign s cuts rest); [|exact H1|exact H].
    apply v_first_text. exact (first_char_text chars).
  Qed.
  Lemma v_split_lines after s n ign parts : V s -> Fits s -> split_lines after s n ign = Ok parts -> Forall V parts.
  Proof.
    intros H HF E. destruct (zero_or_more n) as [->|Hn]; [injection E as <-; constructor|]. destruct (vtext s H) as [cs HT].
    destruct (memory_cases after) as [HZ|(extra & more & -> & HZ)]; [rewrite (split_UB after s n ign HZ) in E by lia; discriminate E|].
    destruct (x_p_c38_exists extra s cs n ign HT Hn) as (cuts & rest & H1 & H2). rewrite (x_p_c38 extra more HZ s n ign cuts rest HF H1 H2) in E.
    apply Ok_inj in E. subst parts. apply (v_parts (first_line_end_of extra) ign s cuts rest); [|exact H1|exact H].
    apply v_first_text. exact (x_first_line_text extra).
  Qed.
  Lemma v_ci_split_sep s sep n ign parts : V s -> Some_text sep -> Fits s -> ci_split_sep s sep n ign = Ok parts -> Forall V parts.
  Proof.
    intros H HSep HF E. destruct (zero_or_more n) as [->|Hn]; [injection E as <-; constructor|].
    destruct (vtext s H) as [cs HT]. destruct HSep as [ps HP]. destruct ps as [|c ps].
    - apply Text_nil_inv in HP. subst sep. rewrite (p_c52_empty s n ign HF Hn) in E. apply Ok_inj in E. subst parts. apply v_kept. repeat constructor. exact H.
    - assert (c :: ps <> []) as Hs by discriminate.
      destruct (p_c52_exists (c :: ps) sep Hs HP s cs n ign HT Hn) as (cuts & rest & H1 & H2).
      rewrite (p_c52 (c :: ps) sep Hs HP s n ign cuts rest HF H1 H2) in E. apply Ok_inj in E. subst parts.
      apply (v_parts (first_ci (c :: ps)) ign s cuts rest); [|exact H1|exact H]. apply v_first_text.
      intros u g v (us & gs & HU & HG & _). eauto.
  Qed.
  Lemma v_ci_split_chars s chars n ign parts : Forall (fun d => d < 0x100000000) chars -> V s -> Fits s ->
    ci_split_chars s chars n ign = Ok parts -> Forall V parts.
  Proof.
    intros HB H HF E. destruct (zero_or_more n) as [->|Hn]; [injection E as <-; constructor|]. destruct (vtext s H) as [cs HT].
    destruct (p_c52_chars_exists chars HB s cs n ign HT Hn) as (cuts & rest & H1 & H2).
    rewrite (p_c52_chars chars HB s n ign cuts rest HF H1 H2) in E.
    apply Ok_inj in E. subst parts. apply (v_parts (first_ci_char chars) ign s cuts rest); [|exact H1|exact H].
    apply v_first_text. intros u g v (us & c & HU & _ & HG & _). exists us, [c]. split; [exact HU|now apply Text_one].
  Qed.
  Lemma v_join l d : Forall V l -> V d -> V (join l d).
  Proof.
    intros HL HD. rewrite join_spec. induction HL as [|x l Hx HL IH]; [exact (cl_nil V K C)|]. destruct l as [|y l]; [exact Hx|].
    change (V (x ++ d ++ interleave d (y :: l))). apply vapp; [exact Hx|]. now apply vapp.
  Qed.

  (** Replacing *)
  Lemma v_replace_front from to n s r : from <> [] -> Some_text from -> V to -> ReplaceFront from to n s r -> V s -> V r.
  Proof.
    intros HN HF HT. induction 1 as [s|n s HO|n u v r HO HR IH]; intros H; try exact H.
    destruct (v_occ u from v H HF HN) as [H1 H2]. apply vapp; [exact H1|]. apply vapp; [exact HT|]. now apply IH.
  Qed.
  Lemma v_replace_back from to n s r : from <> [] -> Some_text from -> V to -> ReplaceBack from to n s r -> V s -> V r.
  Proof.
    intros HN HF HT. induction 1 as [s|n s HO|n u v r HO HR IH]; intros H; try exact H.
    destruct (v_occ v from u H HF HN) as [H1 H2]. apply vapp; [now apply IH|]. now apply vapp.
  Qed.
  Lemma v_repeat to n : V to -> V (concat (repeat to n)).
  Proof. intros H. apply v_concat. apply Forall_forall. intros x Hx. apply repeat_spec in Hx. now subst x. Qed.
  Lemma v_replace s from to m r : V s -> Some_text from -> V to -> Fits s -> replace s from to m = Ok r -> V r.
  Proof.
    intros H HF HT HS E. destruct from as [|b from'].
    - destruct (Z_lt_le_dec m 0) as [L|L].
      + destruct (Z_lt_le_dec PTRDIFF_MIN m) as [L2|L2].
        * rewrite replace_back_empty in E by (split; assumption). apply Ok_inj in E. now subst r.
        * exfalso. revert E. unfold replace. replace (0 <=? m)%Z with false by (symmetry; apply Z.leb_gt; exact L).
          unfold signed, is_ptrdiff. replace (- m <=? PTRDIFF_MAX)%Z with false by (symmetry; apply Z.leb_gt; unfold PTRDIFF_MIN, PTRDIFF_MAX in *; lia).
          rewrite andb_false_r. cbn [bind]. discriminate.
      + destruct s as [|c s'].
        * assert (replace [] [] to m = Ok []) as E2; [|rewrite E2 in E; apply Ok_inj in E; now subst r].
          unfold replace. replace (0 <=? m)%Z with true by (symmetry; apply Z.leb_le; exact L). cbn [replace_front_loop].
          destruct (0 <? m)%Z; reflexivity.
        * rewrite (replace_front_empty (c :: s') to m) in E by (discriminate || exact L). apply Ok_inj in E. subst r. apply vapp; [now apply v_repeat|exact H].
    - set (from := b :: from') in *. assert (from <> []) as HN by discriminate.
      destruct (Z_lt_le_dec m 0) as [L|L].
      + destruct (Z_lt_le_dec PTRDIFF_MIN m) as [L2|L2].
        * destruct (replace_back s from to m HN HS (conj L2 L)) as (r' & E' & HR). rewrite E' in E. apply Ok_inj in E. subst r'.
          now apply (v_replace_back from to _ s r HN HF HT HR).
        * exfalso. revert E. unfold replace. replace (0 <=? m)%Z with false by (symmetry; apply Z.leb_gt; exact L).
          unfold signed, is_ptrdiff. replace (- m <=? PTRDIFF_MAX)%Z with false by (symmetry; apply Z.leb_gt; unfold PTRDIFF_MIN, PTRDIFF_MAX in *; lia).
          rewrite andb_false_r. cbn [bind]. discriminate.
      + destruct (replace_front s from to m HN L) as (r' & E' & HR). rewrite E' in E. apply Ok_inj in E. subst r'.
        now apply (v_replace_front from to _ s r HN HF HT HR).
  Qed.

  Lemma v_ci_front ps to n s r : V to -> CiReplaceFront ps to n s r -> V s -> V r.
  Proof.
    intros HT. induction 1 as [s|n s HO|n u g v r (us & gs & HU & HG & _) HR IH]; intros H; try exact H.
    destruct (v_mid u us g gs v H HU HG) as (H1 & _ & H3). apply vapp; [exact H1|]. apply vapp; [exact HT|]. now apply IH.
  Qed.
  Lemma v_ci_back ps to n s r : V to -> CiReplaceBack ps to n s r -> V s -> V r.
  Proof.
    intros HT. induction 1 as [s|n s HO|n u g v r (gs & vs & HV & HG & _) HR IH]; intros H; try exact H.
    destruct (v_suffix u (g ++ v) (gs ++ vs) H (Text_app _ _ _ _ HG HV)) as [H1 H2]. destruct (v_suffix g v vs H2 HV) as [_ H3].
    apply vapp; [now apply IH|]. now apply vapp.
  Qed.
  Lemma v_ci_replace s from to m r : V s -> Some_text from -> V to -> Fits s -> ci_replace s from to m = Ok r -> V r.
  Proof.
    intros H HF HT HS E. destruct (vtext s H) as [cs HC]. destruct HF as [ps HP]. destruct ps as [|c ps].
    - apply Text_nil_inv in HP. subst from. rewrite (p_c51_empty s to m HS) in E. apply Ok_inj in E. now subst r.
    - assert (c :: ps <> []) as HN by discriminate. destruct (Z_lt_le_dec m 0) as [L|L].
      + destruct (p_c51_back_exists s cs (c :: ps) to HN HC (Z.to_N (- m))) as (r' & HR).
        rewrite (p_c51_back s from (c :: ps) to m r' HN HP HS L HR) in E. apply Ok_inj in E. subst r'. exact (v_ci_back _ _ _ _ _ HT HR H).
      + destruct (p_c51_front_exists s cs (c :: ps) to HN HC (Z.to_N m)) as (r' & HR).
        rewrite (p_c51_front s from (c :: ps) to m r' HN HP HS L HR) in E. apply Ok_inj in E. subst r'. exact (v_ci_front _ _ _ _ _ HT HR H).
  Qed.

  Lemma K_encodes g c : K c -> encodes g c -> V g.
  Proof. intros HK HG. apply (cl_enc V K C g [c]); [now apply Encoded_one|repeat constructor; exact HK]. Qed.
  Lemma v_append s c r : V s -> K c -> append s c = Ok r -> V r.
  Proof.
    intros H HK E. destruct (append_ok s c (cl_max V K C c HK)) as (g & HG & _ & E'). rewrite E' in E. apply Ok_inj in E. subst r.
    apply vapp; [exact H|]. now apply (K_encodes g c).
  Qed.

  (** Positions *)
  Lemma v_sub_list ps qs : incl qs ps -> Forall V ps -> V (concat qs).
  Proof. intros HI H. apply v_concat. apply Forall_forall. intros x Hx. rewrite Forall_forall in H. apply H. now apply HI. Qed.
  Lemma incl_firstn {A} n (l : list A) : incl (firstn n l) l.
  Proof. intros x Hx. rewrite <- (firstn_skipn n l). apply in_or_app. now left. Qed.
  Lemma incl_skipn {A} n (l : list A) : incl (skipn n l) l.
  Proof. intros x Hx. rewrite <- (firstn_skipn n l). apply in_or_app. now right. Qed.
  Lemma v_between ps i j : Forall V ps -> V (concat (units_between ps i j)).
  Proof. apply v_sub_list. unfold units_between. eapply incl_tran; [apply incl_firstn|apply incl_skipn]. Qed.
  Lemma v_before ps i : Forall V ps -> V (concat (units_before ps i)).
  Proof. apply v_sub_list. apply incl_firstn. Qed.
  Lemma v_after ps i j : Forall V ps -> V (concat (units_after ps i j)).
  Proof. apply v_sub_list. apply incl_skipn. Qed.
  Lemma v_skip ps n : Forall V ps -> V (concat (skipn n ps)).
  Proof. apply v_sub_list. apply incl_skipn. Qed.

  Lemma v_codepoint_units s : V s -> exists ps, Codepoints ps /\ concat ps = s /\ Forall V ps.
  Proof.
    intros H. destruct (vtext s H) as [cs HT]. apply codepoint_list in HT. destruct HT as (ps & <- & HP).
    assert (Codepoints ps) as HC. { clear H. induction HP as [|g c ps cs Hg _ IH]; constructor; eauto. }
    exists ps. split; [exact HC|]. split; [reflexivity|]. apply v_pieces; [exact H|now apply cp_texts].
  Qed.
  Lemma v_char_units s : V s -> exists ps, Characters is_mark ps /\ concat ps = s /\ Forall V ps.
  Proof.
    intros H. destruct (vtext s H) as [cs HT]. destruct (p_c21_exists s cs HT) as (ps & HP & <- & _).
    exists ps. split; [exact HP|]. split; [reflexivity|]. apply v_pieces; [exact H|now apply char_texts].
  Qed.

  Lemma v_cp_substring s i j r : V s -> Fits s -> cp_ok i -> cp_ok j -> ~ (i < 0 <= j)%Z -> get_codepoint_substring s i j = Ok r -> V r.
  Proof.
    intros H HF Hi Hj HX E. destruct (v_codepoint_units s H) as (ps & HC0 & <- & HV). assert (CodeUnits ps) as HC by now left.
    assert (in_order i j \/ (j <= i < 0)%Z) as [O|O] by (unfold in_order; lia).
    - rewrite (cp_substring_ok ps i j HC HF Hi Hj O) in E. apply Ok_inj in E. subst r. now apply v_between.
    - rewrite (cp_substring_reversed ps i j HC HF Hi Hj O) in E. apply Ok_inj in E. subst r. now apply v_before.
  Qed.
  Lemma v_char_substring s i j r : V s -> Fits s -> isz i -> isz j -> ~ (j < 0 <= i)%Z -> get_char_substring s i j = Ok r -> V r.
  Proof.
    intros H HF Hi Hj HX E. destruct (v_char_units s H) as (ps & HC & <- & HV).
    assert (char_in_order i j \/ (j <= i < 0)%Z) as [O|O] by (unfold char_in_order; lia).
    - rewrite (char_substring_ok ps i j HC HF Hi Hj O) in E. apply Ok_inj in E. subst r. now apply v_between.
    - rewrite (char_substring_reversed ps i j HC HF O) in E. apply Ok_inj in E. subst r. now apply v_before.
  Qed.
  Lemma v_cp_replace s i j t r : V s -> V t -> Fits s -> cp_ok i -> cp_ok j -> ~ (i < 0 <= j)%Z -> replace_codepoints s i j t = Ok r -> V r.
  Proof.
    intros H HT HF Hi Hj HX E. destruct (v_codepoint_units s H) as (ps & HC0 & <- & HV). assert (CodeUnits ps) as HC by now left.
    assert (in_order i j \/ (j <= i < 0)%Z) as [O|O] by (unfold in_order; lia).
    - rewrite (cp_replace_ok ps i j t HC HF Hi Hj O) in E. apply Ok_inj in E. subst r.
      apply vapp; [now apply v_before|]. apply vapp; [exact HT|now apply v_after].
    - rewrite (proj1 (p_c30_reversed ps i j t HF O) HC Hi Hj) in E. apply Ok_inj in E. subst r. apply vapp; [exact HT|now apply v_skip].
  Qed.
  Lemma v_char_replace s i j t r : V s -> V t -> Fits s -> isz i -> isz j -> ~ (j < 0 <= i)%Z -> replace_chars s i j t = Ok r -> V r.
  Proof.
    intros H HT HF Hi Hj HX E. destruct (v_char_units s H) as (ps & HC & <- & HV).
    assert (char_in_order i j \/ (j <= i < 0)%Z) as [O|O] by (unfold char_in_order; lia).
    - rewrite (char_replace_ok ps i j t HC HF Hi Hj O) in E. apply Ok_inj in E. subst r.
      apply vapp; [now apply v_before|]. apply vapp; [exact HT|now apply v_after].
    - rewrite (proj2 (p_c30_reversed ps i j t HF O) HC) in E. apply Ok_inj in E. subst r. apply vapp; [exact HT|now apply v_skip].
  Qed.
  Lemma v_insert_cp s k c t r : V s -> Fits s -> cp_ok k -> K c -> V t ->
    insert_codepoint s k c = Ok r \/ insert_codepoints s k t = Ok r -> V r.
  Proof.
    intros H HF Hk HK HT E. destruct (v_codepoint_units s H) as (ps & HC0 & <- & HV). assert (CodeUnits ps) as HC by now left.
    destruct (Z_le_gt_dec (Z.abs k) (Z.of_nat (length ps))) as [L|L].
    - destruct E as [E|E].
      + destruct (cp_insert_cp ps k c HC HF Hk L (cl_max V K C c HK)) as (g & Hg & E'). rewrite E' in E. apply Ok_inj in E. subst r.
        apply vapp; [now apply v_before|]. apply vapp; [now apply (K_encodes g c)|now apply v_after].
      + rewrite (cp_insert_str ps k t HC HF Hk L) in E. apply Ok_inj in E. subst r.
        apply vapp; [now apply v_before|]. apply vapp; [exact HT|now apply v_after].
    - destruct (cp_insert_out ps k c t HC HF Hk ltac:(lia)) as (E1 & E2 & E3). destruct E as [E|E].
      + rewrite E1 in E. discriminate.
      + destruct t; [rewrite E3 in E; apply Ok_inj in E; now subst r|]. rewrite E2 in E by discriminate. discriminate.
  Qed.
  Lemma v_insert_char s k c t r : V s -> Fits s -> K c -> V t ->
    insert_char s k c = Ok r \/ insert_chars s k t = Ok r -> V r.
  Proof.
    intros H HF HK HT E. destruct (v_char_units s H) as (ps & HC & <- & HV).
    destruct (Z_le_gt_dec (Z.abs k) (Z.of_nat (length ps))) as [L|L].
    - destruct E as [E|E].
      + destruct (char_insert_cp ps k c HC HF L (cl_max V K C c HK)) as (g & Hg & E'). rewrite E' in E. apply Ok_inj in E. subst r.
        apply vapp; [now apply v_before|]. apply vapp; [now apply (K_encodes g c)|now apply v_after].
      + rewrite (char_insert_str ps k t HC HF L) in E. apply Ok_inj in E. subst r.
        apply vapp; [now apply v_before|]. apply vapp; [exact HT|now apply v_after].
    - destruct (char_insert_out ps k c t HC HF ltac:(lia)) as (E1 & E2 & E3). destruct E as [E|E].
      + rewrite E1 in E. discriminate.
      + destruct t; [rewrite E3 in E; apply Ok_inj in E; now subst r|]. rewrite E2 in E by discriminate. discriminate.
  Qed.
End Closed.
