(** C114, C115: conversions and the functions that cut texts. *)
From Verif Require Import Base Spec.Category Spec.UnicodeData Spec.Utf8Spec Spec.Strings Spec.Newline Spec.Slices Spec.Split Spec.Case Spec.Counts Spec.Commute
  Model.Decode Model.Encode Model.Subrange Model.Search Model.Split Model.CharClass Model.ConvertCase Model.Chars
  Proofs.Utf8Lemmas Proofs.EncodeLemmas Proofs.CodepointLemmas Proofs.SearchLemmas Proofs.NewlineLemmas Proofs.SplitLemmas Proofs.SliceLemmas Proofs.CharLemmas Proofs.PositionProps
  Proofs.CaseStringLemmas Proofs.CharClassLemmas Proofs.UnicodeProps Proofs.CountLemmas.
From Coq Require Import ZifyBool ZifyNat ZifyN.
Ltac Zify.zify_post_hook ::= Z.div_mod_to_equations.

Section Conv.
  Variable F : str -> outcome str.
  Variable h : list N -> list N.
  Variable dom : N -> Prop.
  Variable ok_at : list N -> list N -> Prop.
  Hypothesis F_ok : forall s cs, Text s cs -> Forall dom cs -> exists r, F s = Ok r /\ Text r (h cs).
  Hypothesis F_app : forall s cs t ds a b, Text s cs -> Text t ds -> Forall dom cs -> Forall dom ds -> ok_at cs ds ->
    F s = Ok a -> F t = Ok b -> F (s ++ t) = Ok (a ++ b).
  Hypothesis h_nil : h [] = [].
  Hypothesis h_ne : forall cs, Forall dom cs -> h cs = [] -> cs = [].

  Lemma F_text s cs r : Text s cs -> Forall dom cs -> F s = Ok r -> Text r (h cs).
  Proof using F_ok. intros HT HD E. destruct (F_ok s cs HT HD) as (r' & E' & Hr). rewrite E in E'. injection E' as ->. exact Hr. Qed.
  Lemma F_empty s cs r : Text s cs -> Forall dom cs -> F s = Ok r -> (r = [] <-> s = []).
  Proof using F_ok h_nil h_ne.
    intros HT HD E. pose proof (F_text s cs r HT HD E) as Hr. split; intros ->.
    - assert (h cs = []) as Hn by (apply (Text_fun _ _ _ Hr), Text_nil). apply h_ne in Hn; [|exact HD]. subst. now apply Text_nil_inv.
    - assert (cs = []) as -> by (apply (Text_fun _ _ _ HT), Text_nil). rewrite h_nil in Hr. now apply Text_nil_inv.
  Qed.

  Section Cutting.
    Variable first : str -> str -> str -> Prop.
    Variable stop : str -> Prop.
    Hypothesis first_text : forall u g v, first u g v -> exists us gs, Text u us /\ Text g gs /\
      (forall vs, ok_at us (gs ++ vs)) /\ forall vs, ok_at gs vs.
    Hypothesis first_step : forall u us g gs v vs u' g' v', first u g v -> Text u us -> Text g gs -> Text v vs ->
      Forall dom us -> Forall dom gs -> Forall dom vs -> F u = Ok u' -> F g = Ok g' -> F v = Ok v' -> first u' g' v'.
    Hypothesis stop_step : forall t ts t', stop t -> Text t ts -> Forall dom ts -> F t = Ok t' -> stop t'.

    Lemma cuts_conv s cuts rest : Cuts first s cuts rest -> forall cs, Text s cs -> Forall dom cs -> exists s' cuts' rest',
      F s = Ok s' /\ Cuts first s' cuts' rest' /\ Forall2 (fun p q => F (fst p) = Ok (fst q)) cuts cuts' /\ F rest = Ok rest' /\
      Forall (fun p => exists us, Text (fst p) us /\ Forall dom us) cuts /\ exists rs, Text rest rs /\ Forall dom rs.
    Proof using F_ok F_app first_text first_step.
      induction 1 as [s|u g v cuts rest HF HC IH]; intros cs HT HD.
      - destruct (F_ok s cs HT HD) as (r & E & Hr). exists r, [], r. repeat split; auto; try constructor. eauto.
      - destruct (first_text u g v HF) as (us & gs & Hu & Hg & O1 & O2).
        destruct (Text_app_inv u us (g ++ v) cs Hu HT) as (ws & -> & Hw). destruct (Text_app_inv g gs v ws Hg Hw) as (vs & -> & Hv).
        rewrite !Forall_app in HD. destruct HD as (D1 & D2 & D3).
        destruct (IH vs Hv D3) as (v' & cuts' & rest' & E & C & A & R & T & TR).
        destruct (F_ok u us Hu D1) as (u' & Eu & _). destruct (F_ok g gs Hg D2) as (g' & Eg & _).
        exists (u' ++ g' ++ v'), ((u', g') :: cuts'), rest'. repeat split.
        + apply (F_app u us (g ++ v) (gs ++ vs)); auto; [now apply Forall_app|]. apply (F_app g gs v vs); auto.
        + constructor; [|exact C]. apply (first_step u us g gs v vs); auto.
        + constructor; [exact Eu|exact A].
        + exact R.
        + constructor; [|exact T]. cbn [fst]. eauto.
        + exact TR.
    Qed.
    Lemma non_empty_conv u us u' : Text u us -> Forall dom us -> F u = Ok u' -> non_empty u' = non_empty u.
    Proof using F_ok h_nil h_ne.
      intros HT HD E. pose proof (F_empty u us u' HT HD E) as HE. destruct u, u'; cbn [non_empty]; auto; exfalso.
      - assert (b :: u' = []) by tauto. discriminate.
      - assert (b :: u = []) by tauto. discriminate.
    Qed.
    Lemma kept_conv ign ps qs : each F ps qs -> Forall (fun p => exists us, Text p us /\ Forall dom us) ps -> each F (kept ign ps) (kept ign qs).
    Proof using F_ok h_nil h_ne.
      intros HE HT. destruct ign; [|exact HE]. unfold kept. induction HE as [|p q ps qs E HE IH]; [constructor|].
      inversion HT as [|? ? (us & Hu & Hd) HT']; subst. cbn [filter]. rewrite (non_empty_conv p us q Hu Hd E).
      destruct (non_empty p); [constructor; [exact E|]|]; now apply IH.
    Qed.
    Lemma each_length ps qs : each F ps qs -> length ps = length qs.
    Proof using. induction 1; cbn [length]; congruence. Qed.
    Lemma each_map cuts cuts' : Forall2 (fun p q : str * str => F (fst p) = Ok (fst q)) cuts cuts' -> each F (map fst cuts) (map fst cuts').
    Proof using. induction 1; cbn [map]; constructor; auto. Qed.
    Lemma stopped_conv ign n (cuts : list (str * str)) rest (cuts' : list (str * str)) rest' : stopped stop ign n cuts rest ->
      Forall2 (fun p q => F (fst p) = Ok (fst q)) cuts cuts' -> F rest = Ok rest' ->
      Forall (fun p => exists us, Text (fst p) us /\ Forall dom us) cuts -> (exists rs, Text rest rs /\ Forall dom rs) ->
      stopped stop ign n cuts' rest'.
    Proof using F_ok h_nil h_ne stop_step.
      assert (forall c c', Forall2 (fun p q : str * str => F (fst p) = Ok (fst q)) c c' -> Forall (fun p => exists us, Text (fst p) us /\ Forall dom us) c ->
        length (kept ign (map fst c')) = length (kept ign (map fst c))) as HL.
      { intros c c' H HT. symmetry. apply each_length. apply kept_conv; [now apply each_map|]. rewrite Forall_map. exact HT. }
      intros HS H2 ER HT (rs & HR & HD). unfold stopped in *. cbv zeta in *. destruct HS as [[L S]|(c & u & g & -> & L & E)].
      - left. rewrite (HL cuts cuts' H2 HT). split; [exact L|]. now apply (stop_step rest rs).
      - right. pose proof (HL _ _ H2 HT) as L2. apply Forall2_app_inv_l in H2. destruct H2 as (c' & l2 & H1 & H2 & ->).
        inversion H2 as [|? [u' g'] ? ? _ HN]; subst. inversion HN; subst. apply Forall_app in HT. destruct HT as [HT _].
        exists c', u', g'. rewrite L2, (HL c c' H1 HT). auto.
    Qed.
    Lemma result_conv ign cuts rest cuts' rest' : Forall2 (fun p q : str * str => F (fst p) = Ok (fst q)) cuts cuts' -> F rest = Ok rest' ->
      Forall (fun p => exists us, Text (fst p) us /\ Forall dom us) cuts -> (exists rs, Text rest rs /\ Forall dom rs) ->
      each F (kept ign (map fst cuts ++ [rest])) (kept ign (map fst cuts' ++ [rest'])).
    Proof using F_ok h_nil h_ne.
      intros H2 ER HT HR. apply kept_conv.
      - apply Forall2_app; [now apply each_map|]. constructor; [exact ER|constructor].
      - apply Forall_app. split; [now rewrite Forall_map|]. constructor; [exact HR|constructor].
    Qed.
  End Cutting.

  (** Sets of separators *)
  Section Set_.
    Variable chars : list N.
    Hypothesis set_in : forall c, dom c -> In c chars -> exists d, h [c] = [d] /\ In d chars.
    Hypothesis set_out : forall cs, Forall dom cs -> Forall (fun c => ~ In c chars) cs -> Forall (fun c => ~ In c chars) (h cs).
    Hypothesis set_ok : forall c cs vs, In c chars -> ok_at cs (c :: vs) /\ ok_at [c] vs.

    Lemma split_chars_conv s cs n ign : Text s cs -> Forall dom cs -> Fits s -> exists s' ps qs, F s = Ok s' /\
      (Fits s' -> split_chars s chars n ign = Ok ps /\ split_chars s' chars n ign = Ok qs /\ each F ps qs).
    Proof using All.
      intros HT HD HF. destruct (N.eq_0_gt_0_cases n) as [->|Hn].
      { destruct (F_ok s cs HT HD) as (r & E & _). exists r, [], []. split; [exact E|]. intros _. repeat split. constructor. }
      destruct (p_c37_exists s cs chars n ign HT ltac:(lia)) as (cuts & rest & HC & HS).
      destruct (cuts_conv (first_char chars)) with (s := s) (cuts := cuts) (rest := rest) (cs := cs) as (s' & cuts' & rest' & E & C & A & R & T & TR); auto.
      - intros u g v (us & c & Hu & Ho & Hg & Hi). exists us, [c]. split; [exact Hu|]. split; [now apply Text_one|].
        split; intros vs; [exact (proj1 (set_ok c us vs Hi))|exact (proj2 (set_ok c us vs Hi))].
      - intros u us g gs v vs u' g' v' (us0 & c & Hu0 & Ho & Hg0 & Hi) Hu Hg Hv D1 D2 D3 E1 E2 E3.
        rewrite (Text_fun _ _ _ Hu0 Hu) in *. assert (gs = [c]) as -> by (apply (Text_fun _ _ _ Hg), Text_one, Hg0).
        inversion D2 as [|? ? Dc _]; subst. destruct (set_in c Dc Hi) as (d & Ed & Hd).
        exists (h us), d. split; [now apply (F_text u)|]. split; [now apply set_out|]. split; [|exact Hd].
        pose proof (F_text g [c] g' Hg D2 E2) as HG. rewrite Ed in HG. destruct (Text_cons_inv _ _ _ HG) as (g0 & t & -> & Hg' & Ht).
        apply Text_nil_inv in Ht. subst. now rewrite app_nil_r.
      - exists s', (kept ign (map fst cuts ++ [rest])), (kept ign (map fst cuts' ++ [rest'])). split; [exact E|]. intros HF'.
        split; [now apply p_c37|]. split; [apply p_c37; auto|].
        + apply (stopped_conv (no_char chars)) with (cuts := cuts) (rest := rest); auto.
          intros t ts t' (us & Hu & Ho) Ht Dt Et. rewrite (Text_fun _ _ _ Hu Ht) in *. exists (h ts). split; [now apply (F_text t)|now apply set_out].
        + now apply result_conv.
    Qed.

    Hypothesis set_all : forall cs, Forall dom cs -> Forall (fun c => In c chars) cs -> Forall (fun c => In c chars) (h cs).
    Hypothesis set_first : forall cs, Forall dom cs -> first_out (fun c => In c chars) cs -> first_out (fun c => In c chars) (h cs).
    Hypothesis set_last : forall cs, Forall dom cs -> last_out (fun c => In c chars) cs -> last_out (fun c => In c chars) (h cs).
    Hypothesis ok_l : forall us cs, Forall (fun c => In c chars) us -> ok_at us cs.
    Hypothesis ok_r : forall us cs, Forall (fun c => In c chars) us -> ok_at cs us.

    Lemma trim_conv s cs : Text s cs -> Forall dom cs -> Fits s -> exists s' a b c a' b' c', F s = Ok s' /\ (Fits s' ->
      trim_start s chars = Ok a /\ trim_start s' chars = Ok a' /\ F a = Ok a' /\
      trim_end s chars = Ok b /\ trim_end s' chars = Ok b' /\ F b = Ok b' /\
      trim s chars = Ok c /\ trim s' chars = Ok c' /\ F c = Ok c').
    Proof using All.
      intros HT HD HF. destruct (p_trim_set chars) as (P1 & P2 & P3).
      assert (forall cs : list N, Forall (fun c => existsb (N.eqb c) chars = true) cs -> Forall (fun c => In c chars) cs) as B.
      { intros l. apply Forall_impl. intros c Hc. apply existsb_exists in Hc. destruct Hc as (x & Hx & Ex). apply N.eqb_eq in Ex. now subst. }
      assert (forall c, In c chars -> existsb (N.eqb c) chars = true) as B2.
      { intros c Hc. apply existsb_exists. exists c. split; [exact Hc|apply N.eqb_refl]. }
      destruct (p_trim_division (fun c => existsb (N.eqb c) chars) s cs HT) as (u & us & m & ms & v & vs & -> & Hu & Hm & Hv & Iu & Iv & O1 & O2).
      apply B in Iu, Iv.
      assert (first_out (fun c => In c chars) ms) as O1' by (destruct ms; cbn in *; auto).
      assert (last_out (fun c => In c chars) ms) as O2' by (intros ds c E Hc; exact (O2 ds c E (B2 c Hc))). clear O1 O2.
      assert (cs = us ++ ms ++ vs) as -> by (apply (Text_fun _ _ _ HT); repeat apply Text_app; auto).
      rewrite !Forall_app in HD. destruct HD as (D1 & D2 & D3).
      destruct (F_ok u us Hu D1) as (u' & Eu & Hu'). destruct (F_ok m ms Hm D2) as (m' & Em & Hm'). destruct (F_ok v vs Hv D3) as (v' & Ev & Hv').
      assert (F (m ++ v) = Ok (m' ++ v')) as Emv by (apply (F_app m ms v vs); auto).
      assert (F (u ++ m) = Ok (u' ++ m')) as Eum by (apply (F_app u us m ms); auto).
      assert (F (u ++ m ++ v) = Ok (u' ++ m' ++ v')) as E by (apply (F_app u us (m ++ v) (ms ++ vs)); auto; [now apply Text_app|now apply Forall_app]).
      assert (forall x xs y ys, Text x xs -> Text y ys -> (first_out (fun c => In c chars) xs /\ (xs = [] -> first_out (fun c => In c chars) ys)) -> True) as _ by auto.
      destruct ms as [|mc ms].
      - apply Text_nil_inv in Hm. subst m. assert (m' = []) as -> by (rewrite h_nil in Hm'; now apply Text_nil_inv). cbn [app] in *. rewrite ?app_nil_r in *.
        exists (u' ++ v'), [], [], [], [], [], []. split; [exact E|]. intros HF'.
        assert (Text (u ++ v) (us ++ vs)) as T1 by (now apply Text_app). assert (Text (u' ++ v') (h us ++ h vs)) as T2 by (now apply Text_app).
        assert (Forall (fun c => In c chars) (us ++ vs)) as A1 by (now apply Forall_app).
        assert (Forall (fun c => In c chars) (h us ++ h vs)) as A2 by (apply Forall_app; split; now apply set_all).
        pose proof Text_nil as TN. assert (last_out (fun c => In c chars) []) as LN by (intros [|] ? ?; discriminate).
        pose proof (P1 (u ++ v) _ [] [] ltac:(rewrite app_nil_r; exact HF) T1 TN A1 I) as Q1.
        pose proof (P1 (u' ++ v') _ [] [] ltac:(rewrite app_nil_r; exact HF') T2 TN A2 I) as Q2. rewrite app_nil_r in Q1, Q2.
        pose proof (P3 (u ++ v) _ [] [] [] [] ltac:(cbn [app]; rewrite app_nil_r; exact HF) T1 TN TN A1 (Forall_nil _) I LN) as Q3.
        pose proof (P3 (u' ++ v') _ [] [] [] [] ltac:(cbn [app]; rewrite app_nil_r; exact HF') T2 TN TN A2 (Forall_nil _) I LN) as Q4. cbn [app] in Q3, Q4. rewrite app_nil_r in Q3, Q4.
        split; [exact Q1|]. split; [exact Q2|]. split; [exact Em|].
        split; [exact (P2 [] [] (u ++ v) _ HF TN T1 A1 LN)|]. split; [exact (P2 [] [] (u' ++ v') _ HF' TN T2 A2 LN)|]. split; [exact Em|].
        split; [exact Q3|]. split; [exact Q4|exact Em].
      - assert (h (mc :: ms) <> []) as Hne by (intros Hx; apply h_ne in Hx; [discriminate|exact D2]).
        exists (u' ++ m' ++ v'), (m ++ v), (u ++ m), m, (m' ++ v'), (u' ++ m'), m'. split; [exact E|]. intros HF'.
        assert (forall xs ys, xs <> [] -> first_out (fun c => In c chars) xs -> first_out (fun c => In c chars) (xs ++ ys)) as FA by (intros [|x xs] ys Hx; [congruence|]; auto).
        assert (forall xs ys, ys <> [] -> last_out (fun c => In c chars) ys -> last_out (fun c => In c chars) (xs ++ ys)) as LA.
        { intros xs ys Hy L ds c Ec. destruct (exists_last Hy) as (zs & z & ->). rewrite app_assoc in Ec. apply app_inj_tail in Ec. destruct Ec as [_ <-]. now apply (L zs). }
        pose proof (set_all us D1 Iu) as Iu'. pose proof (set_all vs D3 Iv) as Iv'. pose proof (set_first _ D2 O1') as O1''. pose proof (set_last _ D2 O2') as O2''.
        assert (mc :: ms <> []) as Hne0 by discriminate.
        split; [apply (P1 u us (m ++ v) ((mc :: ms) ++ vs)); auto; now apply Text_app|].
        split; [apply (P1 u' (h us) (m' ++ v') (h (mc :: ms) ++ h vs)); auto; now apply Text_app|]. split; [exact Emv|].
        split; [rewrite app_assoc; apply (P2 (u ++ m) (us ++ mc :: ms) v vs); [now rewrite <- app_assoc|now apply Text_app|exact Hv|exact Iv|now apply LA]|].
        split; [rewrite app_assoc; apply (P2 (u' ++ m') (h us ++ h (mc :: ms)) v' (h vs)); [now rewrite <- app_assoc|now apply Text_app|exact Hv'|exact Iv'|now apply LA]|].
        split; [exact Eum|]. split; [now apply (P3 u us m (mc :: ms) v vs)|]. split; [now apply (P3 u' (h us) m' (h (mc :: ms)) v' (h vs))|exact Em].
    Qed.
  End Set_.

  (** Lines *)
  Section Lines.
    Hypothesis nl_in : forall c, newline c -> h [c] = [c].
    Hypothesis nl_crlf : h [0x0D; 0x0A] = [0x0D; 0x0A].
    Hypothesis nl_out : forall cs, Forall dom cs -> no_newline cs -> no_newline (h cs).
    Hypothesis nl_next : forall d ds, Forall dom (d :: ds) -> d <> 0x0A -> exists e es, h (d :: ds) = e :: es /\ e <> 0x0A.
    Hypothesis nl_ok : forall cs c vs, newline c -> ok_at cs (c :: vs) /\ ok_at (cs ++ [c]) vs.
    Lemma split_lines_conv after s cs n ign : Text s cs -> Forall dom cs -> Fits s -> exists s' ps qs, F s = Ok s' /\
      (Fits s' -> split_lines (0 :: after) s n ign = Ok ps /\ split_lines (0 :: after) s' n ign = Ok qs /\ each F ps qs).
    Proof using All.
      intros HT HD HF. destruct (N.eq_0_gt_0_cases n) as [->|Hn].
      { destruct (F_ok s cs HT HD) as (r & E & _). exists r, [], []. split; [exact E|]. intros _. repeat split. constructor. }
      destruct (p_c38_exists s cs n ign HT ltac:(lia)) as (cuts & rest & HC & HS).
      assert (newline 0x0D) as NCR by (unfold newline; auto). assert (newline 0x0A) as NLF by (unfold newline; auto).
      destruct (cuts_conv first_line_end) with (s := s) (cuts := cuts) (rest := rest) (cs := cs) as (s' & cuts' & rest' & E & C & A & R & T & TR); auto.
      - intros u g v (us & Hu & Ho & [(c & Hg & Hc & _)|(cr & lf & -> & Hcr & Hlf)]); exists us.
        + exists [c]. split; [exact Hu|]. split; [now apply Text_one|]. split; intros vs; [exact (proj1 (nl_ok us c vs Hc))|exact (proj2 (nl_ok [] c vs Hc))].
        + exists [0x0D; 0x0A]. split; [exact Hu|]. split; [apply (Text_app cr [0x0D]); now apply Text_one|].
          split; intros vs; [exact (proj1 (nl_ok us 0x0D _ NCR))|exact (proj2 (nl_ok [0x0D] 0x0A vs NLF))].
      - intros u us g gs v vs u' g' v' (us0 & Hu0 & Ho & Hg0) Hu Hg Hv D1 D2 D3 E1 E2 E3.
        rewrite (Text_fun _ _ _ Hu0 Hu) in *. exists (h us). split; [now apply (F_text u)|]. split; [now apply nl_out|].
        destruct Hg0 as [(c & Hgc & Hc & Hn')|(cr & lf & -> & Hcr & Hlf)].
        + left. assert (gs = [c]) as -> by (apply (Text_fun _ _ _ Hg), Text_one, Hgc). exists c.
          pose proof (F_text g [c] g' Hg D2 E2) as HG. rewrite nl_in in HG by exact Hc. destruct (Text_cons_inv _ _ _ HG) as (g0 & t & -> & Hg' & Ht).
          apply Text_nil_inv in Ht. subst. rewrite app_nil_r. split; [exact Hg'|]. split; [exact Hc|].
          destruct Hn' as [Hn'|[->|(d & w & Hd & g1 & -> & Hg1)]]; [now left| |].
          * right. left. apply (F_empty [] vs v' Hv D3 E3). reflexivity.
          * right. right. destruct (Text_app_inv g1 [d] w vs (Text_one _ _ Hg1) Hv) as (ds & -> & Hw). cbn [app] in *.
            destruct (nl_next d ds D3 Hd) as (e & es & Ee & He). pose proof (F_text _ _ _ Hv D3 E3) as HV. rewrite Ee in HV.
            destruct (Text_cons_inv _ _ _ HV) as (g2 & w2 & -> & Hg2 & Hw2). exists e, w2. split; [exact He|]. exists g2. auto.
        + right. assert (gs = [0x0D; 0x0A]) as -> by (apply (Text_fun _ _ _ Hg), (Text_app cr [0x0D]); now apply Text_one).
          pose proof (F_text _ _ _ Hg D2 E2) as HG. rewrite nl_crlf in HG. destruct (Text_cons_inv _ _ _ HG) as (g0 & t & -> & Hg' & Ht).
          destruct (Text_cons_inv _ _ _ Ht) as (g1 & t1 & -> & Hg1 & Ht1). apply Text_nil_inv in Ht1. subst. rewrite app_nil_r. exists g0, g1. auto.
      - exists s', (kept ign (map fst cuts ++ [rest])), (kept ign (map fst cuts' ++ [rest'])). split; [exact E|]. intros HF'.
        split; [now apply p_c38|]. split; [apply p_c38; auto|].
        + apply (stopped_conv no_line_end) with (cuts := cuts) (rest := rest); auto.
          intros t ts t' (us & Hu & Ho) Ht Dt Et. rewrite (Text_fun _ _ _ Hu Ht) in *. exists (h ts). split; [now apply (F_text t)|now apply nl_out].
        + now apply result_conv.
    Qed.
  End Lines.

  (** Joining *)
  Hypothesis ok_all : forall a b, ok_at a b.
  Lemma interleave_conv ps qs d d' : each F ps qs -> Forall (fun p => exists us, Text p us /\ Forall dom us) ps ->
    (exists ds, Text d ds /\ Forall dom ds) -> F d = Ok d' -> F (interleave d ps) = Ok (interleave d' qs) /\ exists us, Text (interleave d ps) us /\ Forall dom us.
  Proof using F_ok F_app h_nil ok_all.
    intros HE HT (ds & Hd & Dd) Ed. induction HE as [|p q ps qs E HE IH].
    - cbn [interleave]. split; [|exists []; split; constructor]. destruct (F_ok [] [] Text_nil (Forall_nil _)) as (r & -> & Hr).
      rewrite h_nil in Hr. apply Text_nil_inv in Hr. now subst.
    - inversion HT as [|? ? (us & Hu & Du) HT']; subst. destruct (IH HT') as (E2 & us2 & Hu2 & Du2). destruct HE as [|p2 q2 ps qs E' HE].
      + cbn [interleave]. split; [exact E|eauto].
      + change (interleave d (p :: p2 :: ps)) with (p ++ d ++ interleave d (p2 :: ps)). change (interleave d' (q :: q2 :: qs)) with (q ++ d' ++ interleave d' (q2 :: qs)).
        assert (Text (d ++ interleave d (p2 :: ps)) (ds ++ us2)) as HX by (now apply Text_app). split.
        * apply (F_app p us _ (ds ++ us2)); auto; [now apply Forall_app|]. apply (F_app d ds _ us2); auto.
        * exists (us ++ ds ++ us2). split; [now apply Text_app|]. rewrite !Forall_app. auto.
  Qed.
  Lemma concat_conv ps qs : each F ps qs -> Forall (fun p => exists us, Text p us /\ Forall dom us) ps -> F (concat ps) = Ok (concat qs).
  Proof using F_ok F_app h_nil ok_all.
    assert (F [] = Ok []) as HN.
    { destruct (F_ok [] [] Text_nil (Forall_nil _)) as (r & -> & Hr). rewrite h_nil in Hr. apply Text_nil_inv in Hr. now subst. }
    intros HE HT. destruct (interleave_conv ps qs [] [] HE HT) as [E _]; [exists []; split; constructor|exact HN|].
    assert (forall l : list str, interleave [] l = concat l) as HI.
    { induction l as [|x l IH]; [reflexivity|]. destruct l as [|y l]; [cbn; now rewrite app_nil_r|]. cbn [interleave concat app] in *. now rewrite IH. }
    now rewrite !HI in E.
  Qed.
End Conv.
