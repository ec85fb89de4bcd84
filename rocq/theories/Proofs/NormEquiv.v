(** Canonical equivalence is kept: C76, C77. *)
From Verif Require Import Base Spec.Utf8Spec Spec.Strings Spec.Normalization Tables.UnicodeDataTables
  Model.Decode Model.Encode Model.Normalize
  Proofs.Utf8Lemmas Proofs.DecodeLemmas Proofs.EncodeLemmas Proofs.CodepointLemmas Proofs.SearchLemmas Proofs.ReplaceLemmas Proofs.ReplaceCpLemmas
  Proofs.NormLemmas Proofs.ComposeLemmas Proofs.ComposeLoop Proofs.NormProps.
From Coq Require Import ZifyBool ZifyNat ZifyN.

(** ** C76 *)
Lemma shape_atoms c ds : Shape c ds -> Forall (fun d => FullDecomp d [d]) ds.
Proof.
  intros H. destruct H as [c H|c a b H1 H2|c a b a2 b2 H1 H2 H3|c a b a2 b2 a3 b3 H1 H2 H3 H4];
  repeat (apply Forall_cons; [apply full_atom; first [assumption | match goal with HP : has_pair _ _ ?b |- forall _ _, ~ has_pair ?b _ _ => exact (second_atom _ _ _ HP) end]|]); constructor.
Qed.
Lemma dec_atoms b ds : Encoded b ds -> Forall (fun d => FullDecomp d [d]) ds -> Forall (fun d => d < 2 ^ 20) ds ->
  forall s t, DecomposedTo s [] t -> DecomposedTo (b ++ s) [] (b ++ t).
Proof.
  induction 1 as [|g c b ds Hg H IH]; intros HA HS s t HD; [exact HD|]. inversion HA; subst. inversion HS; subst.
  rewrite <- !app_assoc. apply (dec_keep g c); [apply encodes_uchar; [lia|exact Hg]|assumption|]. now apply IH.
Qed.
Lemma p_c76 s t : DecomposedTo s [] t -> DecomposedTo t [] t.
Proof.
  remember [] as fin eqn:Ef. induction 1 as [s|g c s r t Hg HF H IH|g c ds b s r t Hg HF HL HE H IH]; subst.
  - constructor.
  - apply (dec_keep g c); auto.
  - rewrite full_shape in HF. apply (dec_atoms b ds HE); [now apply (shape_atoms c)|apply (shape_small c ds HF); intros ->; cbn in HL; lia|auto].
Qed.
Lemma p_c76_result inner s t : to_decomposed inner s = Ok t -> to_decomposed inner t = Ok t.
Proof.
  intros E. destruct (p_c67_cases s) as (r & u & HD & [-> |[HM|(g & c & ds & r' & -> & Hg & HF & HL)]]).
  - rewrite (p_c67_ok inner s u HD) in E. apply Ok_inj in E. subst u. apply p_c67_ok. now apply (p_c76 s).
  - rewrite (p_c67_throw inner s r u HD HM) in E. discriminate E.
  - rewrite (p_c67_loops inner s g c ds r' u HD Hg HF) in E by lia. discriminate E.
Qed.

(** ** C77 *)
Definition F (c : N) : list N := full 3 c.
Lemma F_ok c : FullDecomp c (F c).
Proof.
  unfold F. cbn [full]. destruct (shape_total c) as [ds H].
  replace (match lookup c with Some (_, (a, b)) => _ | None => [c] end) with ds; [now apply full_shape|].
  destruct H as [c H|c a b H1 H2|c a b a2 b2 H1 H2 H3|c a b a2 b2 a3 b3 H1 H2 H3 H4].
  - destruct (lookup c) as [p|] eqn:E; [|reflexivity]. apply lookup_some in E as (a & b & _ & E). now apply H in E.
  - rewrite (lookup_pair _ _ _ H1). destruct (lookup a) as [p|] eqn:E; [|reflexivity]. apply lookup_some in E as (x & y & _ & E). now apply H2 in E.
  - rewrite (lookup_pair _ _ _ H1), (lookup_pair _ _ _ H2). destruct (lookup a2) as [p|] eqn:E; [|reflexivity]. apply lookup_some in E as (x & y & _ & E). now apply H3 in E.
  - rewrite (lookup_pair _ _ _ H1), (lookup_pair _ _ _ H2), (lookup_pair _ _ _ H3). reflexivity.
Qed.
Lemma F_fun c ds : FullDecomp c ds -> F c = ds.
Proof. intros H. now apply (FullDecomp_fun c (F c) (F_ok c)). Qed.
Lemma F_pair c a b : has_pair c a b -> F c = F a ++ [b].
Proof. intros H. apply F_fun. apply (full_pair c a b); [exact H|apply F_ok]. Qed.
Lemma F_second c a b : has_pair c a b -> F b = [b].
Proof. intros H. apply F_fun. constructor. now apply (second_atom c a). Qed.
Definition short (c : N) : Prop := (length (F c) <= 3)%nat /\ c < 0x110000.
Lemma short_composed c a b : has_pair c a b -> a < 0x1000 -> short c.
Proof.
  intros H S. split; [|apply has_pair_bounds in H; lia]. rewrite (F_pair _ _ _ H), app_length. cbn [length].
  pose proof (F_ok a) as K. apply full_shape in K. destruct (nested c a b H) as [_ NN]. specialize (NN S).
  remember (F a) as l. destruct K as [a' H'|a' x y H1 H2|a' x y x2 y2 H1 H2 H3|a' x y x2 y2 x3 y3 H1 H2 H3 H4]; cbn [length]; try lia;
  destruct (NN x y H1) as [_ Z]; now apply Z in H2.
Qed.

Lemma dec_text s cs : Encoded s cs -> Forall short cs -> DecomposedTo s [] (from_utf32 (flat_map F cs)).
Proof.
  induction 1 as [|g c s cs Hg H IH]; intros HS; [constructor|]. inversion HS as [|? ? [HL HB] HS']; subst. cbn [flat_map].
  assert (FA : forall a b, from_utf32 (a ++ b) = from_utf32 a ++ from_utf32 b).
  { induction a as [|x a IHa]; intros b; [reflexivity|]. cbn [app from_utf32]. now rewrite IHa, app_assoc. }
  rewrite FA. assert (Ug : uchar g c) by (apply encodes_uchar; [lia|exact Hg]).
  pose proof (F_ok c) as HF. pose proof HF as HSh. rewrite full_shape in HSh.
  destruct (list_eq_dec N.eq_dec (F c) [c]) as [E|E].
  - rewrite E in *. cbn [from_utf32]. rewrite app_nil_r. rewrite (enc_ok g c); [|lia|exact Hg]. apply (dec_keep g c); auto.
  - apply (dec_split g c (F c)); auto.
    + remember (F c) as l eqn:El. destruct HSh; cbn [length] in *; try lia; congruence.
    + apply encode_all. now apply (shape_small c).
Qed.
Lemma dec_short s r t : DecomposedTo s r t -> r = [] -> forall cs, Encoded s cs -> Forall (fun c => c < 0x110000) cs -> Forall short cs.
Proof.
  induction 1 as [s|g c s r t Hg HF H IH|g c ds b s r t Hg HF HL HE H IH]; intros -> cs HC HB.
  - inversion HC as [|g c s' cs' Hg Hs E]; [constructor|]. subst. apply app_eq_nil in E as [-> _]. inversion HB; subst. now apply encodes_len in Hg; [|lia].
  - pose proof (Encoded_Text _ _ HC) as HT. destruct cs as [|c' cs].
    { inversion HC as [E|]. symmetry in E. apply app_eq_nil in E as [-> _]. now apply uchar_nonempty in Hg. }
    inversion HC as [|g' ? s' ? Hg' Hs' E]; subst. inversion HB; subst.
    assert (Ug : uchar g' c') by (apply encodes_uchar; [lia|exact Hg']).
    destruct (uchar_prefix_unique _ _ _ _ _ _ Ug Hg E) as (-> & -> & ->). constructor; [|now apply IH].
    split; [rewrite (F_fun c [c] HF); cbn; lia|assumption].
  - destruct cs as [|c' cs].
    { inversion HC as [E|]. symmetry in E. apply app_eq_nil in E as [-> _]. now apply uchar_nonempty in Hg. }
    inversion HC as [|g' ? s' ? Hg' Hs' E]; subst. inversion HB; subst.
    assert (Ug : uchar g' c') by (apply encodes_uchar; [lia|exact Hg']).
    destruct (uchar_prefix_unique _ _ _ _ _ _ Ug Hg E) as (-> & -> & ->). constructor; [|now apply IH].
    split; [rewrite (F_fun c ds HF); lia|assumption].
Qed.

Lemma Encoded_none vs : Encoded [] vs -> Forall (fun c => c < 0x100000) vs -> vs = [].
Proof.
  intros H HB. inversion H as [|g c s cs Hg Hs E]; [reflexivity|]. subst. apply app_eq_nil in E as [-> _]. inversion HB; subst.
  now apply encodes_len in Hg; [|lia].
Qed.
Lemma Composing_encoded adj s segs c : Composing adj s segs c -> forall cs, Encoded s cs -> Forall (fun c => c < 0x100000) cs -> Forall short cs ->
  exists A x ds, segs = A ++ [x] /\ Encoded (whole A) ds /\ encodes (whole [x]) c /\ Forall short (ds ++ [c]) /\ flat_map F (ds ++ [c]) = flat_map F cs.
Proof.
  induction 1 as [g c Hg|s segs x c g m d b H IH Hg HC HB|s segs c g m H IH Hg HC HO]; intros cs HE HL HS.
  - assert (HT : Text g cs) by (apply Encoded_Text; [exact HE|eapply Forall_impl; [|exact HL]; cbv beta; intros; lia]).
    pose proof (Text_fun _ _ _ HT (Text1 _ _ Hg)) as ->. exists [], (Copied g), [].
    repeat split; try reflexivity; [constructor| |exact HS]. unfold whole. cbn [flat_map]. rewrite app_nil_r. now apply Encoded1.
  - assert (HR : inrange cs) by (eapply Forall_impl; [|exact HL]; cbv beta; intros; lia).
    destruct (Encoded_aligned g m (s ++ g) cs s [] HR Hg HE) as (us & vs & -> & E1 & E2 & E3); [now rewrite app_nil_r|].
    apply Forall_app in HL as [HL1 HL2]. pose proof (Encoded_none vs E3 ltac:(now inversion HL2)) as ->. apply Forall_app in HS as [HS1 HS2]. inversion HL2 as [|? ? Hm _]; subst. inversion HS2 as [|? ? Sm _]; subst.
    destruct (IH us E1 HL1 HS1) as (A & x' & ds & EA & W1 & W2 & W3 & W4). apply app_inj_tail in EA as [-> ->].
    apply composes_small in HC as (HP & HA & _); [|exact Hm].
    exists A, (Made b), ds. split; [reflexivity|]. split; [exact W1|]. split; [unfold whole; cbn [flat_map]; now rewrite app_nil_r|].
    apply Forall_app in W3 as [W3 _]. split; [apply Forall_app; split; [exact W3|constructor; [now apply (short_composed d c m)|constructor]]|].
    rewrite flat_map_app in W4 |- *. cbn [flat_map] in W4 |- *. rewrite app_nil_r in W4 |- *. rewrite flat_map_app. cbn [flat_map]. rewrite app_nil_r.
    rewrite (F_pair _ _ _ HP), (F_second _ _ _ HP), app_assoc, W4. reflexivity.
  - assert (HR : inrange cs) by (eapply Forall_impl; [|exact HL]; cbv beta; intros; lia).
    destruct (Encoded_aligned g m (s ++ g) cs s [] HR Hg HE) as (us & vs & -> & E1 & E2 & E3); [now rewrite app_nil_r|].
    apply Forall_app in HL as [HL1 HL2]. pose proof (Encoded_none vs E3 ltac:(now inversion HL2)) as ->. apply Forall_app in HS as [HS1 HS2].
    destruct (IH us E1 HL1 HS1) as (A & x' & ds & -> & W1 & W2 & W3 & W4).
    exists (A ++ [x']), (Copied g), (ds ++ [c]). split; [reflexivity|]. split.
    { unfold whole. rewrite flat_map_app. apply Encoded_app; [exact W1|]. rewrite <- (app_nil_r (flat_map _ [x'])). constructor; [exact W2|constructor]. }
    split; [unfold whole; cbn [flat_map]; now rewrite app_nil_r|]. split; [apply Forall_app; split; [exact W3|exact HS2]|].
    rewrite (flat_map_app F (ds ++ [c])), (flat_map_app F us), W4. reflexivity.
Qed.

Lemma p_c77 adj inner s cs segs c t : Encoded s cs -> Forall (fun c => c < 0x100000) cs -> Composing adj s segs c -> 
  to_decomposed inner s = Ok t -> to_decomposed inner (whole segs) = Ok t.
Proof.
  intros HE HL HC HD.
  assert (HS : Forall short cs).
  { destruct (p_c67_cases s) as (r & u & HD' & [-> |[HM|(g & c' & ds & r' & -> & Hg & HF & HL')]]).
    - eapply dec_short; [exact HD'|reflexivity|exact HE|]. eapply Forall_impl; [|exact HL]. cbv beta. intros; lia.
    - rewrite (p_c67_throw inner s r u HD' HM) in HD. discriminate HD.
    - rewrite (p_c67_loops inner s g c' ds r' u HD' Hg HF) in HD by lia. discriminate HD. }
  rewrite (p_c67_ok inner s _ (dec_text s cs HE HS)) in HD. apply Ok_inj in HD. subst t.
  destruct (Composing_encoded adj s segs c HC cs HE HL HS) as (A & x & ds & -> & W1 & W2 & W3 & W4).
  rewrite <- W4. apply p_c67_ok. apply dec_text; [|exact W3]. unfold whole in *. rewrite flat_map_app. apply Encoded_app; [exact W1|].
  rewrite <- (app_nil_r (flat_map _ [x])). constructor; [exact W2|constructor].
Qed.
