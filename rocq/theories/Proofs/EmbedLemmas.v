(** C117 *)
From Verif Require Import Base Spec.Utf8Spec Spec.Strings Spec.Escape Spec.Embed Model.Escape Model.Unescape
  Proofs.Utf8Lemmas Proofs.NumeralLemmas Proofs.EscapeScan Proofs.UnescapeLemmas Proofs.UnescapeStep Proofs.UnescapeLoop Proofs.EscapeLemmas Spec.Iterate Proofs.UnescapeNext Proofs.EncodeLemmas.
From Coq Require Import ZifyBool ZifyNat ZifyN.

Lemma closed_handled e q t : closed e q -> handled e (q ++ t).
Proof.
  intros [H1 H2]. split.
  - intros (E & ds & v & H). apply app_eq_nil in E. destruct E as [-> ->]. apply (proj2 (H1 eq_refl)). eauto.
  - intros (HO & He). destruct (H2 He) as [HL HN]. apply HN. destruct HO as [(lits & w & E & Hi & HB)|E].
    + left. exists lits, w. split; [|auto]. rewrite <- E. rewrite firstn_app. replace (6 - length q)%nat with 0%nat by lia. cbn [firstn]. now rewrite app_nil_r.
    + apply (f_equal (@length byte)) in E. rewrite app_length in E. cbn in E. lia.
Qed.
Lemma stops_app d q t : q <> [] -> stops d q -> stops d (q ++ t).
Proof. destruct q; [congruence|]. intros _ H. exact H. Qed.
Lemma low_app q t : (6 <= length q)%nat -> starts_low (q ++ t) -> starts_low q.
Proof.
  intros HL (ds & v & r' & E & H1 & H2). exists ds, v, (skipn 6 q). split; [|auto].
  assert (firstn 6 q = [x5c; x75] ++ ds) as Eq.
  { change ([x5c; x75] ++ ds ++ r') with (x5c :: x75 :: ds ++ r') in E. destruct ds as [|a [|b [|c [|d [|? ?]]]]]; try discriminate H1.
    do 6 (destruct q as [|? q]; [cbn [length] in HL; lia|]). cbn [app] in E. injection E as -> -> -> -> -> -> _. reflexivity. }
  rewrite <- (firstn_skipn 6 q) at 1. now rewrite Eq, <- app_assoc.
Qed.
Lemma closed_denotes e q v t : closed e q -> Denotes e q v -> Denotes e (q ++ t) v.
Proof.
  intros [H1 H2] HD. destruct HD as [c v r Hi|c r Hc Hn Hl|x ds v r Hx HL HH HV HS|ds v r HL HH|ds v r HL HH HN|ds1 hi ds2 lo r A1 A2 A3 B1 B2 B3|ds v r HL HH HV HN|ds v r HL HO HS].
  - now constructor.
  - now constructor.
  - constructor; auto. apply stops_app; [|assumption]. intros ->. apply (proj1 (H1 eq_refl)). eauto.
  - now constructor.
  - now apply den_u.
  - now constructor.
  - assert (6 <= length r)%nat by (apply H2; eauto 6). apply den_lone; auto. intros HL'. apply low_app in HL'; auto.
  - apply den_oct; auto. destruct (Nat.eq_dec (length ds) 3) as [E|E]; [now left|]. right. destruct HS as [HS|HS]; [contradiction|].
    apply stops_app; [|exact HS]. intros ->. apply (proj2 (H1 eq_refl)). exists ds, v. split; [reflexivity|]. split; [lia|exact HO].
Qed.
Lemma reads_app s a t r b : Reads closed s [] a -> Reads handled t r b -> Reads handled (s ++ t) r (a ++ b).
Proof.
  intros H HT. remember [] as z eqn:Ez. induction H as [s|c s z a Hc H IH|e v bs s z a HD HC HW H IH]; subst.
  - exact HT.
  - cbn [app]. constructor; auto.
  - rewrite <- !app_assoc. apply (reads_escape _ e v); auto; [now apply closed_denotes|now apply closed_handled].
Qed.
Lemma p_c117 s a t : Fits (s ++ t) -> Reads closed s [] a -> unescape (s ++ t) = omap (app a) (unescape t).
Proof.
  intros HF HR. assert (Fits t) as HF' by (unfold Fits, size in *; rewrite app_length in HF; lia).
  destruct (p_c60_total t HF') as [(b & E)|[E|E]]; rewrite E; cbn [omap].
  - apply p_c61_ok; [exact HF|]. apply reads_app; [exact HR|]. now apply p_c61_ok.
  - apply p_c61_throw; [exact HF|]. apply p_c61_throw in E; [|exact HF']. destruct E as (r & b & H1 & H2). exists r, (a ++ b). split; [now apply reads_app|exact H2].
  - apply p_c60_ub; [exact HF|]. apply p_c60_ub in E; [|exact HF']. destruct E as (r & b & H1 & H2). exists r, (a ++ b). split; [now apply reads_app|exact H2].
Qed.
Lemma reads_lits lits : ~ In x5c lits -> Reads closed lits [] lits.
Proof.
  induction lits as [|c l IH]; intros H; [constructor|]. constructor; [intros ->; apply H; now left|]. apply IH. intros Hi. apply H. now right.
Qed.
Lemma JsonOf_closed s e : JsonOf s e -> Reads closed e [] s.
Proof.
  induction 1 as [|c s e Hc H IH|c l s e Hc H IH|c ds s e Hc Hn Hl Hd H IH].
  - constructor.
  - constructor; [|exact IH]. unfold must_escape in Hc. intros ->. tauto.
  - change (x5c :: l :: e) with ([x5c; l] ++ e). change (c :: s) with ([c] ++ s).
    assert (K : u8 c < 0x80 /\ Denotes [x5c; l] e (u8 c) /\ ~ In l numeric_letters).
    { cbn [json_letters In] in Hc.
      repeat (destruct Hc as [Hc|Hc]; [injection Hc as <- <-; split; [reflexivity|split; [|cbn; intuition discriminate]];
        first [apply den_letter; cbn; tauto | apply (den_self x22); [reflexivity|cbn; intuition discriminate|cbn; intuition discriminate]
          | apply (den_self x5c); [reflexivity|cbn; intuition discriminate|cbn; intuition discriminate]]|]).
      destruct Hc. }
    destruct K as (K1 & K2 & K3). apply (reads_escape closed _ (u8 c)); [exact K2| |now apply byte_written|exact IH].
    pose proof (handled_two l [] K3) as [HT _]. split.
    + intros _. split; [|intros (ds & v & Hd); apply HT; split; [reflexivity|eauto]].
      intros (x & ds & E & Hx). injection E as -> _. apply K3. destruct Hx as [-> | ->]; cbn; tauto.
    + intros (ds & v & E & HL & _). injection E as _ <-. discriminate HL.
  - change (c :: s) with ([c] ++ s).
    assert (B : u8 c < 0x80).
    { destruct Hc as [Hc|[-> | ->]]; [lia|reflexivity|reflexivity]. }
    assert (NH : ~ high_surrogate (u8 c)) by (unfold high_surrogate; lia).
    apply (reads_escape closed _ (u8 c)); [now apply den_u| |now apply byte_written|exact IH]. split.
    + intros _. split; [intros (x & ds' & E & [-> | ->]); discriminate E|]. intros (ds' & v & E & HL & _). injection E as <-. cbn [length] in HL. lia.
    + intros (ds' & v & E & HL & HH & HS). injection E as <-. pose proof (Hex_fun _ _ _ HH Hd). congruence.
Qed.
Lemma p_c117_embed x e t : Fits x -> Fits (e ++ t) -> escape_json x = Ok e -> unescape (e ++ t) = omap (app x) (unescape t).
Proof.
  intros HX HF E. apply p_c117; [exact HF|]. apply JsonOf_closed. rewrite escape_json_eq in E by exact HX. injection E as <-. apply esc_JsonOf.
Qed.
Lemma p_c117_literal l t : Fits (l ++ t) -> ~ In x5c l -> unescape (l ++ t) = omap (app l) (unescape t).
Proof. intros HF H. apply p_c117; [exact HF|]. now apply reads_lits. Qed.
Lemma last_hex ds v p x : Hex ds v -> ds <> [] -> exists q c d, p ++ x :: ds = q ++ [c] /\ hex_digit c d.
Proof.
  intros H HN. destruct H as [|ds v c d H Hd]; [congruence|]. exists (p ++ x :: ds), c, d. split; [now rewrite <- app_assoc|exact Hd].
Qed.
Lemma not_loose_closed s a : Reads handled s [] a -> forall p, ~ loose_end (p ++ s) -> Reads closed s [] a.
Proof.
  intros H. remember [] as z eqn:Ez. induction H as [s|c s z a Hc H IH|e v bs s z a HD [HC1 HC2] HW H IH]; intros p HN; subst.
  - constructor.
  - constructor; [exact Hc|]. apply (IH eq_refl (p ++ [c])). now rewrite <- app_assoc.
  - apply (reads_escape _ e v); auto; [|apply (IH eq_refl (p ++ e)); now rewrite <- app_assoc]. split.
    + intros ->. split; [|intros He; apply HC1; auto]. intros (x & ds & -> & Hx). apply HN. left. rewrite app_nil_r.
      inversion HD as [c v' r Hi|c r Hc' Hn Hl|x' ds' v' r Hx' HL HH HV HS|ds' v' r HL HH|ds' v' r HL HH HN'|ds1 hi ds2 lo r A1 A2 A3 B1 B2 B3|ds' v' r HL HH HV HN'|ds' v' r HL HO HS]; subst.
      * exfalso. destruct Hx as [-> | ->]; cbn in Hi; intuition discriminate.
      * exfalso. apply Hn. destruct Hx as [-> | ->]; cbn; tauto.
      * change (p ++ x5c :: x :: ds) with (p ++ [x5c] ++ x :: ds). rewrite app_assoc. apply (last_hex ds v); [exact HH|]. intros ->. cbn in HL. lia.
      * destruct Hx; discriminate.
      * destruct Hx; discriminate.
      * destruct Hx; discriminate.
      * destruct Hx; discriminate.
      * exfalso. destruct (oct_head (x :: ds) v HO) as (c & d & ds' & E & Hd); [cbn; lia|]. injection E as <- _. apply (xu_not_octal x d); [tauto|exact Hd].
    + intros (ds & w & -> & HL & HH & HS). destruct (le_lt_dec 6 (length s)) as [L|L].
      * split; [exact L|]. intros HO. apply HC2. split; [exact HO|]. exists ds, w. auto.
      * exfalso. apply HN. right. exists p, ds, w, s. split; [reflexivity|auto].
Qed.
Lemma p_c117_concat s a t : Fits (s ++ t) -> unescape s = Ok a -> ~ loose_end s -> unescape (s ++ t) = omap (app a) (unescape t).
Proof.
  intros HF E HN. apply p_c117; [exact HF|]. apply (not_loose_closed s a) with (p := []); [|exact HN].
  apply p_c61_ok; [|exact E]. unfold Fits, size in *. rewrite app_length in HF. lia.
Qed.
Lemma p_c117_template p a x e q b : Fits x -> Fits (p ++ e ++ q) ->
  unescape p = Ok a -> ~ loose_end p -> escape_json x = Ok e -> unescape q = Ok b ->
  unescape (p ++ e ++ q) = Ok (a ++ x ++ b).
Proof.
  intros HX HF Ep HN Ee Eq. rewrite (p_c117_concat p a) by assumption.
  rewrite (p_c117_embed x e q HX) by (first [exact Ee | unfold Fits, size in *; rewrite app_length in HF; lia]).
  rewrite Eq. reflexivity.
Qed.
Lemma unescape_nil : unescape [] = Ok [].
Proof. vm_compute. reflexivity. Qed.
Lemma p_c117_all ls es xs : length ls = length xs ->
  Forall2 (fun x e => Fits x /\ escape_json x = Ok e) xs es -> Forall (fun l => ~ In x5c l) ls ->
  Fits (concat (interleave ls es)) ->
  unescape (concat (interleave ls es)) = Ok (concat (interleave ls xs)).
Proof.
  intros HL HF. revert ls HL. induction HF as [|x e xs es [HX He] HF IH]; intros ls HL HA HFit.
  - destruct ls; [|discriminate]. exact unescape_nil.
  - destruct ls as [|l ls]; [discriminate|]. cbn [interleave concat] in *. injection HL as HL. inversion_clear HA as [|? ? H1 H2].
    rewrite p_c117_literal by assumption.
    assert (Fits (e ++ concat (interleave ls es))) as HF1 by (unfold Fits, size in *; rewrite app_length in HFit; lia).
    rewrite (p_c117_embed x e _ HX HF1 He).
    rewrite IH; [reflexivity|exact HL|exact H2|]. unfold Fits, size in *; rewrite app_length in HF1; lia.
Qed.

(** * Iterating *)
Lemma reads_conts_r g : forall s r t, Reads common s r t -> Forall cont g -> forall t', t = g ++ t' ->
  exists s', s = g ++ s' /\ Reads common s' r t'.
Proof.
  induction g as [|a g IH]; intros s r t HR HF t' Et; [exists s; split; [reflexivity|]; now subst|].
  inversion HF as [|? ? Ha HF']; subst. remember ((a :: g) ++ t') as tt eqn:Et.
  destruct HR as [w|c w r t Hc HR|e v b w r t HD Hok Hw HR].
  - discriminate Et.
  - cbn [app] in Et. apply EncodeLemmas.cons_eq in Et as [-> Et]. destruct (IH w r t HR HF' t' Et) as (s' & -> & HR'). exists s'. auto.
  - exfalso. destruct (written_head v b t) as (a' & q & E & Hn); [now apply Hok|exact Hw|]. rewrite E in Et. cbn [app] in Et. injection Et as -> _. contradiction.
Qed.
Lemma iterated_step s c s' b L : unescape_next s = ((Ok (Some c), s'), b) -> Iterated s L <-> exists M, L = c :: M /\ Iterated s' M.
Proof.
  intros E. split.
  - intros H. inversion H as [? ? ? E'|? ? ? ? ? E' H']; subst; rewrite E in E'; [discriminate E'|]. injection E' as <- <- <-. eauto.
  - intros (M & -> & H). econstructor; eauto.
Qed.
Lemma iterated_front n : forall s, (length s <= n)%nat -> forall r t cs, Reads common s r t -> Text t cs ->
  forall L, Iterated s L <-> exists ds, L = cs ++ ds /\ Iterated r ds.
Proof.
  induction n as [n IH] using lt_wf_ind. intros s Hn r t cs HR HT L.
  destruct HR as [w|a s r t Hc HR|e v b w r t HD Hok Hw HR].
  - destruct cs as [|c cs]; [|now apply Text_nonempty in HT]. cbn [app]. split; [intros H; eauto|]. intros (ds & -> & H). exact H.
  - destruct cs as [|c cs]; [apply Text_nil_inv in HT; discriminate HT|].
    destruct (Text_cons_inv _ _ _ HT) as (g & t2 & E & Hg & HT2).
    pose proof (uchar_nonempty _ _ Hg) as NE. destruct g as [|a' g]; [congruence|].
    cbn [app] in E. apply EncodeLemmas.cons_eq in E as [<- E].
    assert (HF : Forall cont g) by (inversion Hg; subst; repeat (apply Forall_cons; [assumption|]); apply Forall_nil).
    destruct (reads_conts_r g s r t HR HF t2 E) as (s' & -> & HR').
    cbn [length] in Hn. rewrite app_length in Hn.
    rewrite (iterated_step (a :: g ++ s') c s' (Some false)).
    + split.
      * intros (M & -> & H). apply (IH (length s') ltac:(lia) s' (le_n _) r t2 cs HR' HT2 M) in H as (ds & -> & H). now exists ds.
      * intros (ds & -> & H). exists (cs ++ ds). split; [reflexivity|]. apply (IH (length s') ltac:(lia) s' (le_n _) r t2 cs HR' HT2). eauto.
    + apply next_ok. apply (nc_plain (a :: g) c s' Hg). intros g' Eg. injection Eg as Eg _. congruence.
  - pose proof (common_next e w v HD Hok) as HC. pose proof (next_ok _ _ _ _ HC) as E'.
    assert (Hv : v <= 0x10FFFF) by now apply Hok.
    pose proof (written_uchar v b Hv Hw) as Hb.
    destruct cs as [|c cs]; [apply Text_nil_inv in HT; apply app_eq_nil in HT as [-> _]; now apply uchar_nonempty in Hb|].
    destruct (Text_cons_inv _ _ _ HT) as (g & t2 & E & Hg & HT2).
    destruct (uchar_prefix_unique _ _ _ _ _ _ Hb Hg E) as (-> & -> & ->).
    destruct (Denotes_bs _ _ _ HD) as (c1 & q1 & ->). rewrite app_length in Hn. cbn [length] in Hn.
    rewrite (iterated_step _ c w (Some true) L E').
    split.
    + intros (M & -> & H). apply (IH (length w) ltac:(lia) w (le_n _) r t2 cs HR HT2 M) in H as (ds & -> & H). now exists ds.
    + intros (ds & -> & H). exists (cs ++ ds). split; [reflexivity|]. apply (IH (length w) ltac:(lia) w (le_n _) r t2 cs HR HT2). eauto.
Qed.
Lemma JsonOf_common_app s e t : JsonOf s e -> Reads common (e ++ t) t s.
Proof.
  induction 1 as [|c s e Hc H IH|c l s e Hc H IH|c ds s e Hc Hn Hl Hd H IH].
  - constructor.
  - cbn [app]. constructor; [|exact IH]. unfold must_escape in Hc. intros ->. tauto.
  - change ((x5c :: l :: e) ++ t) with ([x5c; l] ++ (e ++ t)). change (c :: s) with ([c] ++ s).
    assert (K : u8 c < 0x80 /\ Denotes [x5c; l] (e ++ t) (u8 c) /\ ~ In l numeric_letters /\ l <> x0a).
    { cbn [json_letters In] in Hc.
      repeat (destruct Hc as [Hc|Hc]; [injection Hc as <- <-; split; [reflexivity|split; [|split; [cbn; intuition discriminate|discriminate]]];
        first [apply den_letter; cbn; tauto | apply (den_self x22); [reflexivity|cbn; intuition discriminate|cbn; intuition discriminate]
          | apply (den_self x5c); [reflexivity|cbn; intuition discriminate|cbn; intuition discriminate]]|]).
      destruct Hc. }
    destruct K as (K1 & K2 & K3 & K4). apply (reads_escape common _ (u8 c)); [exact K2| |now apply byte_written|exact IH].
    split; [now apply handled_two|]. split; [intros E; injection E as ->; congruence|]. split.
    + intros x ds E _. injection E as _ <-. cbn. lia.
    + intros v HD. now apply (Denotes_two_bound l (e ++ t) v).
  - change (c :: s) with ([c] ++ s). rewrite <- app_assoc.
    assert (B : u8 c < 0x80).
    { destruct Hc as [Hc|[-> | ->]]; [lia|reflexivity|reflexivity]. }
    assert (NH : ~ high_surrogate (u8 c)) by (unfold high_surrogate; lia).
    apply (reads_escape common _ (u8 c)); [now apply den_u| |now apply byte_written|exact IH].
    split; [apply (handled_u ds (u8 c)); tauto|]. split; [intros E; discriminate E|]. split.
    + intros x ds' E Hx. injection E as <- _. destruct Hx; discriminate.
    + intros v HD. rewrite (Denotes_fun_u ds (u8 c) (e ++ t) Hl Hd NH v HD). lia.
Qed.
Lemma p_c117_iterate x cs e t L : Fits x -> Text x cs -> escape_json x = Ok e ->
  Iterated (e ++ t) L <-> exists ds, L = cs ++ ds /\ Iterated t ds.
Proof.
  intros HF HT E. rewrite escape_json_eq in E by exact HF. injection E as <-.
  apply (iterated_front _ _ (le_n _) t x cs); [|exact HT]. apply JsonOf_common_app, esc_JsonOf.
Qed.
