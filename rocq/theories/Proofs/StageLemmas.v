(** C136: splitting in stages. *)
From Verif Require Import Base Spec.Utf8Spec Spec.Strings Spec.Newline Spec.Split Model.Decode Model.Encode Model.Subrange Model.Search Model.CharClass Model.Split
  Proofs.Utf8Lemmas Proofs.SearchLemmas Proofs.SplitLemmas Proofs.StrayLemmas Proofs.TrimLemmas Proofs.ConcatLemmas.
From Verif Require Import Spec.UnicodeData Spec.CaseFold Model.CaseInsensitive Proofs.CiLemmas Proofs.CiFindLemmas Proofs.CiReplaceLemmas Proofs.CiTotal Proofs.CiTotal2.

Lemma ok_inj {A} (a b : A) : Ok a = Ok b -> a = b.
Proof. congruence. Qed.
Lemma kept_concat ign (l : list (list str)) : kept ign (concat l) = concat (map (kept ign) l).
Proof. induction l as [|x l IH]; [now destruct ign|]. cbn [concat map]. now rewrite kept_app, IH. Qed.
Lemma chars_full s chars ign cuts rest : Fits s -> Cuts (first_char chars) s cuts rest -> no_char chars rest ->
  split_chars s chars SIZE_MAX ign = Ok (kept ign (map fst cuts ++ [rest])).
Proof.
  intros HF HC HR. apply p_c37; auto. left. split; [|exact HR]. eapply kept_lt_max; eauto. apply first_char_ne.
Qed.
Lemma cuts_extend chars s cuts rest w : Cuts (first_char chars) s cuts rest -> Cuts (first_char chars) (s ++ w) cuts (rest ++ w).
Proof. induction 1 as [|u g v cuts rest F H IH]; [constructor|]. rewrite <- !app_assoc. now constructor. Qed.
Lemma cuts_more A B s cuts rest : Cuts (first_char B) s cuts rest -> no_char A s -> Cuts (first_char (A ++ B)) s cuts rest.
Proof.
  induction 1 as [|u g v cuts rest F H IH]; intros (us & HT & HA); [constructor|].
  destruct F as (ps & c & HP & HN & Hg & Hc).
  destruct (Text_app_inv u ps (g ++ v) us HP HT) as (qs & -> & HQ).
  apply Forall_app in HA as [HA1 HA2].
  assert (exists ws, Text v ws /\ qs = c :: ws) as (ws & HW & ->).
  { rewrite <- (app_nil_r g) in HQ. rewrite <- app_assoc in HQ. change ([] ++ v) with v in HQ.
    destruct (Text_app_inv g [c] v qs) as (ws & E & HW); [|exact HQ|]; [rewrite <- (app_nil_r g); constructor; [exact Hg|constructor]|]. eauto. }
  inversion HA2; subst. constructor.
  - exists ps, c. split; [exact HP|]. split; [|split; [exact Hg|apply in_or_app; auto]].
    rewrite Forall_forall in *. intros x Hx Hin. apply in_app_or in Hin as [Hin|Hin]; [exact (HA1 x Hx Hin)|exact (HN x Hx Hin)].
  - apply IH. exists ws. auto.
Qed.
Lemma cuts_rest_text chars s cuts rest us : Cuts (first_char chars) s cuts rest -> Text s us ->
  exists ps qs, us = ps ++ qs /\ Text rest qs /\ Forall (fun p => exists xs, Text p xs /\ incl xs us) (map fst cuts).
Proof.
  intros H. revert us. induction H as [|u g v cuts rest F H IH]; intros us HT.
  - exists [], us. repeat split; auto. constructor.
  - destruct F as (ps & c & HP & HN & Hg & Hc). destruct (Text_app_inv u ps (g ++ v) us HP HT) as (qs & -> & HQ).
    destruct (Text_app_inv g [c] v qs) as (ws & -> & HW); [rewrite <- (app_nil_r g); constructor; [exact Hg|constructor]|exact HQ|].
    destruct (IH ws HW) as (ps' & qs' & -> & HR & HF). exists (ps ++ [c] ++ ps'), qs'. rewrite <- !app_assoc. split; [reflexivity|]. split; [exact HR|].
    cbn [map fst]. constructor.
    + exists ps. split; [exact HP|]. intros x Hx. apply in_or_app. auto.
    + rewrite Forall_forall in *. intros p Hp. destruct (HF p Hp) as (xs & HX & HI). exists xs. split; [exact HX|].
      intros x Hx. apply in_or_app. right. apply in_or_app. right. now apply HI.
Qed.
Lemma no_both A B s : no_char A s -> no_char B s -> no_char (A ++ B) s.
Proof.
  intros (us & HT & HA) (vs & HV & HB). assert (us = vs) as <- by (apply (text_prefix_unique s us [] s vs []); auto). exists us. split; [exact HT|].
  rewrite Forall_forall in *. intros x Hx Hin. apply in_app_or in Hin as [Hin|Hin]; [exact (HA x Hx Hin)|exact (HB x Hx Hin)].
Qed.
Lemma cuts_rest_no A B s cuts rest : Cuts (first_char B) s cuts rest -> no_char A s -> no_char A rest.
Proof.
  intros HC (us & HT & HA). destruct (cuts_rest_text _ _ _ _ us HC HT) as (ps & qs & -> & HR & _). exists qs. split; [exact HR|].
  now apply Forall_app in HA.
Qed.
Lemma char_cuts s chars : (exists cs, Text s cs) -> exists cuts rest, Cuts (first_char chars) s cuts rest /\ no_char chars rest.
Proof.
  intros (cs & HT). destruct (cuts_exist (first_char chars) (fun t => no_char chars t \/ bad_char chars t) (first_char_ne chars) (char_cases chars) s)
    as (cuts & rest & HC & [S|S]); [eauto|]. exfalso.
  destruct S as (u & us & r & -> & HU & _ & HM). destruct (cuts_rest_text _ _ _ _ cs HC HT) as (_ & qs & _ & HR & _).
  destruct (Text_app_inv u us r qs HU HR) as (vs & _ & HV). destruct HM as [Hn HM]. inversion HV; subst; [contradiction|]. eapply HM; [|reflexivity]. eassumption.
Qed.
(** Cutting at [A], then each part at [B] *)
Lemma stage A B s cuts rest : Cuts (first_char A) s cuts rest -> no_char A rest ->
  exists crs, Forall2 (fun p cr => Cuts (first_char B) p (fst cr) (snd cr) /\ no_char B (snd cr)) (map fst cuts ++ [rest]) crs /\
  exists cuts' rest', Cuts (first_char (A ++ B)) s cuts' rest' /\ no_char (A ++ B) rest' /\
    map fst cuts' ++ [rest'] = concat (map (fun cr : list (str * str) * str => map fst (fst cr) ++ [snd cr]) crs).
Proof.
  induction 1 as [s|u g v cuts rest F H IH]; intros HR.
  - destruct (char_cuts s B) as (cb & rb & HB & NB); [destruct HR as (us & HT & _); eauto|].
    exists [(cb, rb)]. split; [constructor; [auto|constructor]|]. exists cb, rb. split; [now apply cuts_more|]. split.
    + apply no_both; [|exact NB]. now apply (cuts_rest_no A B s cb).
    + cbn. now rewrite app_nil_r.
  - destruct (IH HR) as (crs & H2 & cuts' & rest' & HC' & HN' & E).
    destruct F as (us & c & HU & NA & Hg & Hc). assert (no_char A u) as NU by (exists us; auto).
    destruct (char_cuts u B) as (cb & rb & HB & NB); [eauto|].
    exists ((cb, rb) :: crs). split; [constructor; [auto|exact H2]|]. exists (cb ++ (rb, g) :: cuts'), rest'. split; [|split; [exact HN'|]].
    + eapply Cuts_app; [apply cuts_extend; apply cuts_more; [exact HB|exact NU]|]. constructor; [|exact HC'].
      destruct (no_both A B rb) as (xs & HX & HY); [now apply (cuts_rest_no A B u cb)|exact NB|]. exists xs, c. repeat split; auto. apply in_or_app. auto.
    + cbn [map concat fst snd]. rewrite map_app, <- E. cbn [map fst]. now rewrite <- !app_assoc.
Qed.
Lemma fits_part chars s cuts rest p : Cuts (first_char chars) s cuts rest -> Fits s -> In p (map fst cuts ++ [rest]) -> Fits p.
Proof.
  induction 1 as [s|u g v cuts rest F H IH]; intros HF Hin.
  - destruct Hin as [->|[]]. exact HF.
  - cbn in Hin. destruct Hin as [<-|Hin]; [now apply Fits_app_l in HF|]. apply IH; [|exact Hin]. apply Fits_app_r in HF. now apply Fits_app_r in HF.
Qed.
Lemma p_c136_two s A B ign qs : Fits s -> split_chars s A SIZE_MAX ign = Ok qs ->
  exists rs, Forall2 (fun q r => split_chars q B SIZE_MAX ign = Ok r) qs rs /\ split_chars s (A ++ B) SIZE_MAX ign = Ok (concat rs).
Proof.
  intros HF E. destruct (text_dec s) as [HT|HN]; [|rewrite (p_c37_malformed s A HN HF) in E; discriminate].
  destruct (char_cuts s A HT) as (cuts & rest & HC & HR). rewrite (chars_full s A ign cuts rest HF HC HR) in E. injection E as <-.
  destruct (stage A B s cuts rest HC HR) as (crs & H2 & cuts' & rest' & HC' & HN' & E').
  pose proof (fits_part A s cuts rest) as HP. specialize (fun p => HP p HC HF).
  rewrite (chars_full s (A ++ B) ign cuts' rest' HF HC' HN'), E', kept_concat, map_map. clear E' HC' HN' HC HR.
  induction H2 as [|p [cb rb] ps crs [H HN] H2 IH].
  - exists []. split; [destruct ign; constructor|reflexivity].
  - destruct IH as (rs & HRS & E); [intros q Hq; apply HP; now right|].
    assert (split_chars p B SIZE_MAX ign = Ok (kept ign (map fst cb ++ [rb]))) as Ep.
    { cbn [fst snd] in *. apply chars_full; auto. apply HP. now left. }
    cbn [fst snd map concat] in *. apply ok_inj in E.
    destruct ign.
    + destruct p as [|b p].
      * exists rs. split; [exact HRS|]. rewrite E. replace (kept true (map fst cb ++ [rb])) with (@nil str); [reflexivity|].
        enough (split_chars [] B SIZE_MAX true = Ok []) by congruence. reflexivity.
      * exists (kept true (map fst cb ++ [rb]) :: rs). split; [constructor; [exact Ep|exact HRS]|]. cbn [concat]. now rewrite E.
    + exists (kept false (map fst cb ++ [rb]) :: rs). split; [constructor; [exact Ep|exact HRS]|]. cbn [concat]. now rewrite E.
Qed.

(** *** Trimming first *)
Lemma all_separators chars u us v cuts rest : Text u us -> Forall (fun c => In c chars) us -> Cuts (first_char chars) v cuts rest ->
  exists cuts', Cuts (first_char chars) (u ++ v) cuts' rest /\ kept true (map fst cuts') = kept true (map fst cuts).
Proof.
  induction 1 as [|g c u us Hg HT IH]; intros HA HC; [exists cuts; auto|]. inversion HA; subst.
  destruct IH as (cuts' & HC' & E); auto. exists (([], g) :: cuts'). split; [|exact E].
  rewrite <- app_assoc. change (g ++ u ++ v) with ([] ++ g ++ u ++ v). constructor; [|exact HC']. exists [], c. repeat split; auto. constructor.
Qed.
Lemma p_c136_trim s t chars : Fits s -> trim s chars = Ok t -> split_chars t chars SIZE_MAX true = split_chars s chars SIZE_MAX true.
Proof.
  intros HF E. unfold trim in E. destruct (trim_inv _ s t HF E) as (u & us & w & ws & -> & HU & SU & HW & SW & _). clear E.
  assert (forall l, Forall (fun c => u32_contains chars c = true) l -> Forall (fun c => In c chars) l) as KS.
  { intros l. apply Forall_impl. intros a Ha. unfold u32_contains in Ha. apply existsb_exists in Ha as (x & Hx & E). apply N.eqb_eq in E. now subst. }
  apply KS in SU, SW. clear KS.
  assert (Fits t) as HFt by (apply Fits_app_r in HF; now apply Fits_app_l in HF).
  destruct (text_dec t) as [HT|HN].
  - destruct (char_cuts t chars HT) as (cuts & rest & HC & HR).
    assert (exists cuts2 rest2, Cuts (first_char chars) (t ++ w) cuts2 rest2 /\ no_char chars rest2 /\
              kept true (map fst cuts2 ++ [rest2]) = kept true (map fst cuts ++ [rest])) as (c2 & r2 & HC2 & HR2 & E2).
    { destruct HW as [|g c w ws Hg HW].
      - exists cuts, rest. rewrite app_nil_r. auto.
      - inversion SW; subst. destruct (all_separators chars w ws [] [] [] HW) as (cw & HCw & Ew); [assumption|constructor|]. rewrite app_nil_r in HCw.
        exists (cuts ++ (rest, g) :: cw), []. split; [|split].
        + eapply Cuts_app; [apply cuts_extend; exact HC|]. constructor; [|exact HCw]. destruct HR as (xs & HX & HY). exists xs, c. auto.
        + exists []. split; constructor.
        + rewrite map_app, <- app_assoc, !(kept_app true). f_equal. cbn [map fst]. change (rest :: map fst cw) with ([rest] ++ map fst cw).
          rewrite kept_app, Ew. cbn [map]. change (kept true []) with (@nil str). change (kept true [[]]) with (@nil str). now rewrite !app_nil_r. }
    destruct (all_separators chars u us (t ++ w) c2 r2 HU SU HC2) as (c3 & HC3 & E3).
    rewrite (chars_full t chars true cuts rest HFt HC HR), (chars_full _ chars true c3 r2 HF HC3 HR2). f_equal.
    rewrite <- E2, !(kept_app true). now rewrite E3.
  - rewrite (p_c37_malformed t chars HN HFt), p_c37_malformed; auto. intros cs H.
    destruct (Text_app_inv u us (t ++ w) cs HU H) as (vs & _ & HV).
    destruct (text_prefix t) as (x & xs & r & -> & HX & [->|Hr]); [rewrite app_nil_r in *; exact (HN xs HX)|].
    rewrite <- app_assoc in HV. destruct (Text_app_inv x xs (r ++ w) vs HX HV) as (ys & _ & HY).
    inversion HY as [E1|g c q qs Hg HQ E1 E2].
    + destruct Hr as [Hr _]. symmetry in E1. apply app_eq_nil in E1 as [E1 _]. contradiction.
    + subst. destruct Hr as [Hrn Hr]. destruct (app_eq_app _ _ _ _ E1) as (l & [[-> El]|[-> El]]); [|eapply (Hr g c l); [exact Hg|reflexivity]].
      destruct l as [|b l]; [rewrite app_nil_r in *; apply (Hr r c []); [exact Hg|now rewrite app_nil_r]|].
      destruct (uchar_cut (r ++ b :: l) c r (b :: l) Hg eq_refl Hrn) as (b' & y' & E & Hb); [discriminate|]. injection E as <- <-.
      cbn in El. exact (text_head w ws b (l ++ q) HW El Hb).
Qed.

(** *** Splitting the remainder *)
Section rest.
Context (sp : str -> N -> bool -> outcome (list str)) (first : str -> str -> str -> Prop) (stop bad : str -> Prop) (ex : exn).
Context (first_ne : forall u g v, first u g v -> g <> []) (bad_ne : forall r, bad r -> r <> []).
Context (sp_ok : forall s n ign cuts rest, Fits s -> Cuts first s cuts rest -> stopped stop ign n cuts rest -> sp s n ign = Ok (kept ign (map fst cuts ++ [rest]))).
Context (sp_bad : forall s n ign cuts rest, Fits s -> Cuts first s cuts rest -> bad rest -> N.of_nat (length (kept ign (map fst cuts))) < n -> sp s n ign = Throw ex).
Context (sp_all : forall s n ign, Fits s -> 1 <= n -> exists cuts rest, Cuts first s cuts rest /\
  (stopped stop ign n cuts rest \/ N.of_nat (length (kept ign (map fst cuts))) < n /\ bad rest)).

Lemma rest_gen s n ign ps : Fits s -> 1 <= n -> sp s n ign = Ok ps ->
  (N.of_nat (length ps) <= n -> sp s SIZE_MAX ign = Ok ps) /\
  (forall init last, ps = init ++ [last] -> N.of_nat (length init) = n ->
     sp s SIZE_MAX ign = omap (app init) (sp last SIZE_MAX ign)) /\
  N.of_nat (length ps) <= n + 1.
Proof using All.
  intros HF Hn E. destruct (sp_all s n ign HF Hn) as (cuts & rest & HC & [HS|[L HB]]); [|rewrite (sp_bad s n ign cuts rest) in E by assumption; discriminate].
  rewrite (sp_ok s n ign cuts rest) in E by assumption. apply ok_inj in E. subst ps.
  assert (forall t c r, Fits t -> Cuts first t c r -> N.of_nat (length (kept ign (map fst c))) < SIZE_MAX) as HM by (intros; eapply kept_lt_max; eauto).
  assert (Fits rest) as HFr by (rewrite (Cuts_concat _ _ _ _ HC) in HF; now apply Fits_app_r in HF).
  assert (sp s SIZE_MAX ign = omap (app (kept ign (map fst cuts))) (sp rest SIZE_MAX ign)) as EF.
  { destruct (sp_all rest SIZE_MAX ign HFr) as (c2 & r2 & HC2 & H2); [discriminate|].
    pose proof (Cuts_app _ _ _ _ _ _ HC HC2) as HA. destruct H2 as [[[L S]|(c & u & g & -> & _ & E)]|[L HB]].
    - rewrite (sp_ok rest SIZE_MAX ign c2 r2) by (auto; left; auto). rewrite (sp_ok s SIZE_MAX ign (cuts ++ c2) r2); auto.
      + cbn [omap]. now rewrite map_app, <- app_assoc, kept_app.
      + left. split; [now apply (HM s _ r2)|exact S].
    - exfalso. specialize (HM rest _ r2 HFr HC2). rewrite E in HM. lia.
    - rewrite (sp_bad rest SIZE_MAX ign c2 r2), (sp_bad s SIZE_MAX ign (cuts ++ c2) r2); auto. now apply (HM s _ r2). }
  rewrite kept_app, app_length.
  assert ((length (kept ign [rest]) <= 1)%nat) as H1 by apply kept_length.
  destruct HS as [[L S]|(c & u & g & -> & L & EN)].
  - split; [|split; [|lia]].
    + intros _. rewrite <- kept_app. apply sp_ok; auto. left. split; [now apply (HM s _ rest)|exact S].
    + intros init last E Ei. apply (f_equal (@length str)) in E. rewrite !app_length in E. cbn [length] in E. lia.
  - split; [|split; [|lia]].
    + intros Hl. rewrite EF. destruct (kept ign [rest]) eqn:K; [|cbn in Hl; lia].
      destruct ign; [|discriminate]. destruct rest; [|discriminate].
      assert (sp [] SIZE_MAX true = Ok []) as ->.
      { destruct (sp_all [] SIZE_MAX true HFr) as (c2 & r2 & HC2 & H2); [discriminate|].
        assert (c2 = [] /\ r2 = []) as [-> ->].
        { inversion HC2 as [|u' g' v' c' r' F' HC' EC]; [auto|]. apply first_ne in F'. apply app_eq_nil in EC as [_ EC]. apply app_eq_nil in EC as [EC _]. contradiction. }
        destruct H2 as [H2|[H2 HB]]; [rewrite (sp_ok [] SIZE_MAX true [] []); auto|].
        exfalso. now apply (bad_ne [] HB). }
      cbn [omap]. reflexivity.
    + intros init last E Ei. assert (kept ign [rest] = [rest]) as K.
      { destruct (kept ign [rest]) as [|x l] eqn:K; [|destruct ign, rest; cbn in K; congruence]. exfalso.
        apply (f_equal (@length str)) in E. rewrite !app_length in E. cbn [length] in E. lia. }
      rewrite K in E. apply app_inj_tail in E as [<- <-]. exact EF.
Qed.
End rest.
Lemma p_c136_rest_chars s chars n ign ps : Fits s -> 1 <= n -> split_chars s chars n ign = Ok ps ->
  (N.of_nat (length ps) <= n -> split_chars s chars SIZE_MAX ign = Ok ps) /\
  (forall init last, ps = init ++ [last] -> N.of_nat (length init) = n ->
     split_chars s chars SIZE_MAX ign = omap (app init) (split_chars last chars SIZE_MAX ign)) /\
  N.of_nat (length ps) <= n + 1.
Proof.
  apply (rest_gen (fun s n ign => split_chars s chars n ign) (first_char chars) (no_char chars) (malformed_first chars) YstringException).
  - apply first_char_ne.
  - intros r (u & us & q & -> & _ & _ & [Hq _]) E. apply app_eq_nil in E as [_ E]. contradiction.
  - intros s0 n0 ign0 cuts rest. apply p_c37.
  - intros s0 n0 ign0 cuts rest HF HC (u & us & q & -> & HU & HA & HM) L. eapply p_c37_throw; eauto.
  - intros s0 n0 ign0 HF Hn. destruct (p_c37_all s0 chars n0 ign0 HF Hn) as (cuts & rest & HC & [[HS _]|(L & HB & _)]); exists cuts, rest; auto.
Qed.
Lemma p_c136_rest_sep s sep n ign ps : Fits s -> 1 <= n -> split_sep s sep n ign = Ok ps ->
  (N.of_nat (length ps) <= n -> split_sep s sep SIZE_MAX ign = Ok ps) /\
  (forall init last, ps = init ++ [last] -> N.of_nat (length init) = n ->
     split_sep s sep SIZE_MAX ign = omap (app init) (split_sep last sep SIZE_MAX ign)) /\
  N.of_nat (length ps) <= n + 1.
Proof.
  destruct sep as [|b sep'].
  - apply (rest_gen (fun s n ign => split_sep s [] n ign) (fun _ _ _ => False) (fun _ => True) (fun _ => False) YstringException).
    + intros u g v [].
    + intros r [].
    + intros s0 n0 ign0 cuts rest HF HC HS. unfold split_sep.
      apply (split_stopped (fun t => find_first t [] 0) (fun _ _ _ => False) (fun _ => True) (fun _ _ _ F => match F with end) (fun _ _ _ _ F => match F with end)) with (cuts := cuts); auto.
      intros t _. exists 0. apply (find_first_empty t 0). lia.
    + intros s0 n0 ign0 cuts rest HF HC [].
    + intros s0 n0 ign0 HF Hn. exists [], s0. split; [constructor|]. left. left. split; [|exact I]. destruct ign0; cbn; lia.
  - set (sep := b :: sep'). assert (sep <> []) as Hs by discriminate.
    apply (rest_gen (fun s n ign => split_sep s sep n ign) (first_sep sep) (fun t => forall i, ~ occurs_at sep t i) (fun _ => False) YstringException).
    + intros u g v [-> _]. exact Hs.
    + intros r [].
    + intros s0 n0 ign0 cuts rest. now apply p_c39_limit.
    + intros s0 n0 ign0 cuts rest HF HC [].
    + intros s0 n0 ign0 HF Hn. destruct (cuts_limited (first_sep sep) (fun t => forall i, ~ occurs_at sep t i) ign0 n0 s0 Hn) as (cuts & rest & HC & HS).
      * intros u g v [-> _]. exact Hs.
      * intros t. now apply sep_cases.
      * exists cuts, rest. auto.
Qed.
Lemma p_c136_rest_lines after extra s n ign ps : followed_by after extra -> Fits s -> 1 <= n -> split_lines after s n ign = Ok ps ->
  (N.of_nat (length ps) <= n -> split_lines after s SIZE_MAX ign = Ok ps) /\
  (forall init last, ps = init ++ [last] -> N.of_nat (length init) = n ->
     split_lines after s SIZE_MAX ign = omap (app init) (split_lines after last SIZE_MAX ign)) /\
  N.of_nat (length ps) <= n + 1.
Proof.
  intros Ha. apply (rest_gen (fun s n ign => split_lines after s n ign) (first_line_end_of extra) (no_line_end_of extra) (malformed_in_line extra) YstringException).
  - apply x_first_line_ne.
  - intros r (u & us & _ & _ & [(q & -> & [Hq _])|(cr & q & -> & _ & [Hq _])]) E.
    + apply app_eq_nil in E as [_ E]. contradiction.
    + apply app_eq_nil in E as [_ E]. apply app_eq_nil in E as [_ E]. contradiction.
  - destruct Ha as (rest0 & -> & HE). intros s0 n0 ign0 cuts rest. now apply x_p_c38.
  - destruct Ha as (rest0 & -> & HE). intros s0 n0 ign0 cuts rest HF HC HB L. unfold split_lines.
    eapply split_throw; [exact (x_first_line_ne extra)|exact (x_first_line_ok extra rest0 HE)|exact HF|exact HC| |exact L].
    apply x_bad_line_ok; [exact HE| |exact HB]. rewrite (Cuts_concat _ _ _ _ HC) in HF. now apply Fits_app_r in HF.
  - intros s0 n0 ign0 HF Hn. destruct (p_c38_every after extra s0 n0 ign0 Ha HF Hn) as (cuts & rest & HC & [[HS _]|(L & HB & _)]); exists cuts, rest; auto.
Qed.

Lemma p_c136_rest_ci_sep sep sps s n ign ps : sps <> [] -> Text sep sps -> Fits s -> 1 <= n -> ci_split_sep s sep n ign = Ok ps ->
  (N.of_nat (length ps) <= n -> ci_split_sep s sep SIZE_MAX ign = Ok ps) /\
  (forall init last, ps = init ++ [last] -> N.of_nat (length init) = n ->
     ci_split_sep s sep SIZE_MAX ign = omap (app init) (ci_split_sep last sep SIZE_MAX ign)) /\
  N.of_nat (length ps) <= n + 1.
Proof.
  intros Hs HT. apply (rest_gen (fun s n ign => ci_split_sep s sep n ign) (first_ci sps) (no_ci sps)
    (fun rest => exists u us r, rest = u ++ r /\ Text u us /\ Malformed r /\ only_at_end sps us) YstringException).
  - intros u g v. now apply first_ci_ne.
  - intros r (u & us & q & -> & _ & [Hq _] & _) E. apply app_eq_nil in E as [_ E]. contradiction.
  - intros s0 n0 ign0 cuts rest. now apply (p_c52 sps sep).
  - intros s0 n0 ign0 cuts rest HF HC (u & us & q & -> & HU & HM & HO) L. eapply p_c52_throw; eauto.
  - intros s0 n0 ign0 HF Hn. exact (p_c52_all sps s0 n0 ign0 Hs Hn).
Qed.

Lemma p_c136_rest_ci_chars s chars n ign ps : Forall (fun d => d < 0x100000000) chars -> Fits s -> 1 <= n -> ci_split_chars s chars n ign = Ok ps ->
  (N.of_nat (length ps) <= n -> ci_split_chars s chars SIZE_MAX ign = Ok ps) /\
  (forall init last, ps = init ++ [last] -> N.of_nat (length init) = n ->
     ci_split_chars s chars SIZE_MAX ign = omap (app init) (ci_split_chars last chars SIZE_MAX ign)) /\
  N.of_nat (length ps) <= n + 1.
Proof.
  intros Hc. apply (rest_gen (fun s n ign => ci_split_chars s chars n ign) (first_ci_char chars) (no_ci_char chars)
    (fun rest => exists u us r, rest = u ++ r /\ Text u us /\ Forall (fun x => ~ ci_in chars x) us /\ Malformed r) YstringException).
  - intros u g v (us & c & _ & _ & Hg & _) ->. inversion Hg.
  - intros r (u & us & q & -> & _ & _ & [Hq _]) E. apply app_eq_nil in E as [_ E]. contradiction.
  - intros s0 n0 ign0 cuts rest. now apply (p_c52_chars chars).
  - intros s0 n0 ign0 cuts rest HF HC (u & us & q & -> & HU & HA & HM) L. eapply p_c52_chars_throw; eauto.
  - intros s0 n0 ign0 HF Hn. exact (p_c52_chars_all chars s0 n0 ign0 Hc Hn).
Qed.
