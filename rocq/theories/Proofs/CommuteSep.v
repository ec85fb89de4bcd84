(** C114, C115: splitting at a separator string. *)
From Verif Require Import Base Spec.Utf8Spec Spec.Strings Spec.Split Spec.Commute
  Model.Decode Model.Subrange Model.Search Model.Split
  Proofs.Utf8Lemmas Proofs.EncodeLemmas Proofs.CodepointLemmas Proofs.SearchLemmas Proofs.ReplaceCpLemmas Proofs.SyncLemmas Proofs.SplitLemmas Proofs.ClosureLemmas Proofs.CommuteLemmas.
From Coq Require Import ZifyBool ZifyNat ZifyN.
Ltac Zify.zify_post_hook ::= Z.div_mod_to_equations.

Section Factor.
  Variable f : N -> list N.
  Variable dom : N -> Prop.
  Variable seps : list N.
  Hypothesis f_ne : forall c, f c <> [].
  Hypothesis keep : forall c, In c seps -> f c = [c].
  Hypothesis out : forall c, dom c -> ~ In c seps -> Forall (fun d => ~ In d seps) (f c).
  Lemma from_itself c d : dom c -> In d (f c) -> In d seps -> c = d /\ f c = [c].
  Proof using keep out.
    intros Dc Hd Hs. destruct (in_dec N.eq_dec c seps) as [Hc|Hc].
    - rewrite (keep c Hc) in *. destruct Hd as [->|[]]. auto.
    - pose proof (out c Dc Hc) as HO. rewrite Forall_forall in HO. now destruct (HO d Hd).
  Qed.
  Lemma factor_prefix ss : forall cs ys, Forall dom cs -> (forall d, In d ss -> In d seps) -> flat_map f cs = ss ++ ys ->
    exists ys0, cs = ss ++ ys0 /\ flat_map f ys0 = ys.
  Proof using f_ne keep out.
    induction ss as [|x ss IH]; intros cs ys HD HS E.
    - exists cs. auto.
    - destruct cs as [|c cs]; [discriminate E|]. inversion HD as [|? ? Dc HD']; subst. cbn [flat_map] in E.
      assert (In x (f c)) as Hx. { pose proof (f_ne c). destruct (f c) as [|y l]; [congruence|]. cbn [app] in E. injection E as -> _. now left. }
      destruct (from_itself c x Dc Hx (HS x (or_introl eq_refl))) as [-> Ef]. rewrite Ef in E. cbn [app] in E. injection E as E.
      destruct (IH cs ys HD' (fun d Hd => HS d (or_intror Hd)) E) as (ys0 & -> & E'). exists ys0. auto.
  Qed.
  Lemma factor cs : forall xs ys, seps <> [] -> Forall dom cs -> flat_map f cs = xs ++ seps ++ ys ->
    exists xs0 ys0, cs = xs0 ++ seps ++ ys0 /\ flat_map f xs0 = xs /\ flat_map f ys0 = ys.
  Proof using f_ne keep out.
    induction cs as [|c cs IH]; intros xs ys HS HD E.
    - destruct xs; [|discriminate E]. destruct seps; [congruence|discriminate E].
    - destruct xs as [|x xs].
      + destruct (factor_prefix seps (c :: cs) ys HD (fun d Hd => Hd) E) as (ys0 & E1 & E2). exists [], ys0. auto.
      + inversion HD as [|? ? Dc HD']; subst. cbn [flat_map] in E. apply app_eq_app in E. destruct E as (l & [[E1 E2]|[E1 E2]]).
        * destruct l as [|y l].
          -- cbn [app] in E2. rewrite app_nil_r in E1. destruct (IH [] ys HS HD' (eq_sym E2)) as (xs0 & ys0 & -> & E3 & E4).
             exists (c :: xs0), ys0. split; [reflexivity|]. split; [|exact E4]. cbn [flat_map]. now rewrite E3, app_nil_r.
          -- exfalso. assert (In y seps) as Hy. { destruct seps; [congruence|]. injection E2 as -> _. now left. }
             assert (In y (f c)) as Hyc by (rewrite E1; apply in_or_app; right; now left).
             destruct (from_itself c y Dc Hyc Hy) as [-> Ef]. rewrite Ef in E1. destruct xs; discriminate E1.
        * destruct (IH l ys HS HD' E2) as (xs0 & ys0 & -> & E3 & E4). exists (c :: xs0), ys0. split; [reflexivity|]. split; [|exact E4]. cbn [flat_map]. now rewrite E3.
  Qed.
End Factor.

Section Sep.
  Variable F : str -> outcome str.
  Variable f : N -> list N.
  Variable dom : N -> Prop.
  Hypothesis F_ok : forall s cs, Text s cs -> Forall dom cs -> exists r, F s = Ok r /\ Text r (flat_map f cs).
  Hypothesis F_enc : forall s cs r, Encoded s cs -> Forall dom cs -> F s = Ok r -> Encoded r (flat_map f cs).
  Hypothesis F_app : forall s cs t ds a b, Text s cs -> Text t ds -> Forall dom cs -> Forall dom ds ->
    F s = Ok a -> F t = Ok b -> F (s ++ t) = Ok (a ++ b).
  Hypothesis f_ne : forall c, f c <> [].
  Hypothesis dom_uni : forall c, dom c -> c <= 0x10FFFF.
  Hypothesis f_dom : forall c, dom c -> Forall dom (f c).
  Variable sep : str.
  Variable seps : list N.
  Hypothesis sep_enc : Encoded sep seps.
  Hypothesis sep_dom : Forall dom seps.
  Hypothesis sep_ne : sep <> [].
  Hypothesis keep : forall c, In c seps -> f c = [c].
  Hypothesis out : forall c, dom c -> ~ In c seps -> Forall (fun d => ~ In d seps) (f c).

  Lemma dom_text s cs : Encoded s cs -> Forall dom cs -> Text s cs.
  Proof using dom_uni. intros HE HD. apply Encoded_Text; [exact HE|]. revert HD. apply Forall_impl. exact dom_uni. Qed.
  Lemma flat_dom cs : Forall dom cs -> Forall dom (flat_map f cs).
  Proof using f_dom. induction 1; [constructor|]. cbn [flat_map]. apply Forall_app. auto. Qed.
  Lemma seps_ne : seps <> [].
  Proof using sep_enc sep_ne. intros E. apply sep_ne. pose proof sep_enc as H. rewrite E in H. now inversion H. Qed.
  Lemma F_sep : F sep = Ok sep.
  Proof using F_ok F_enc dom_uni sep_enc sep_dom keep.
    destruct (F_ok sep seps (dom_text _ _ sep_enc sep_dom) sep_dom) as (r & E & _). rewrite E. f_equal.
    pose proof (F_enc sep seps r sep_enc sep_dom E) as HE. replace (flat_map f seps) with seps in HE; [exact (Encoded_fun _ _ _ HE sep_enc)|].
    clear -keep. induction seps as [|c l IH]; [reflexivity|]. cbn [flat_map]. rewrite (keep c) by (now left). cbn [app]. f_equal. apply IH. intros d Hd. apply keep. now right.
  Qed.
  (** An occurrence in the converted text comes from one in the text. *)
  Lemma occurs_back s cs s' i : Encoded s cs -> Forall dom cs -> F s = Ok s' -> occurs_at sep s' i -> exists x y, s = x ++ sep ++ y /\
    exists xs ys x' y', Encoded x xs /\ Encoded y ys /\ Forall dom xs /\ Forall dom ys /\ F x = Ok x' /\ F y = Ok y' /\ s' = x' ++ sep ++ y' /\ length x' = i.
  Proof using All.
    intros HE HD E (x' & y' & -> & Hi). pose proof (F_enc s cs _ HE HD E) as HE'.
    destruct (sync _ _ sep seps x' y' (dom_text _ _ HE' (flat_dom _ HD)) (dom_text _ _ sep_enc sep_dom) sep_ne eq_refl) as (xs' & ys' & Hx & Hy & EC).
    destruct (factor f dom seps f_ne keep out cs xs' ys' seps_ne HD EC) as (xs & ys & -> & Ex & Ey).
    apply Encoded_split in HE. destruct HE as (x & w & -> & HEx & Hw). apply Encoded_split in Hw. destruct Hw as (p & y & -> & HEp & HEy).
    assert (p = sep) as -> by (exact (Encoded_fun _ _ _ HEp sep_enc)).
    rewrite !Forall_app in HD. destruct HD as (D1 & D2 & D3).
    destruct (F_ok x xs (dom_text _ _ HEx D1) D1) as (x0 & E0 & _). destruct (F_ok y ys (dom_text _ _ HEy D3) D3) as (y0 & E1 & _).
    assert (F (x ++ sep ++ y) = Ok (x0 ++ sep ++ y0)) as E2.
    { apply (F_app x xs _ (seps ++ ys)); auto using dom_text; [apply Text_app; auto using dom_text|now apply Forall_app|].
      apply (F_app sep seps y ys); auto using dom_text. exact F_sep. }
    rewrite E in E2. injection E2 as E2.
    assert (Encoded x' xs' /\ Encoded y' ys') as [HEx' HEy'].
    { assert (Forall dom (flat_map f (xs ++ seps ++ ys))) as DD by (apply flat_dom; rewrite !Forall_app; auto).
      destruct (Encoded_app_inv x' xs' (sep ++ y') (seps ++ ys') _ HE') as (A & B & _); auto.
      - revert DD. apply Forall_impl. exact dom_uni.
      - apply Text_app; [now apply dom_text|exact Hy].
      - rewrite EC in DD. rewrite !Forall_app in DD. destruct DD as (_ & D4 & D5).
        destruct (Encoded_app_inv sep seps y' ys' _ B) as (_ & B2 & _); auto; [|now apply dom_text].
        apply Forall_app. split; [revert D4|revert D5]; apply Forall_impl; exact dom_uni. }
    assert (x0 = x') as -> by (apply (Encoded_fun _ xs'); [rewrite <- Ex; now apply (F_enc x)|exact HEx']).
    assert (y0 = y') as -> by (apply (Encoded_fun _ ys'); [rewrite <- Ey; now apply (F_enc y)|exact HEy']).
    exists x, y. split; [reflexivity|]. exists xs, ys, x', y'. split; [exact HEx|]. split; [exact HEy|]. split; [exact D1|]. split; [exact D3|]. split; [exact E0|]. split; [exact E1|]. split; [reflexivity|exact Hi].
  Qed.
  Definition enc (s : str) : Prop := exists cs, Encoded s cs /\ Forall dom cs.
  Definition first' (u g v : str) : Prop := first_sep sep u g v /\ enc u /\ enc v.
  Definition stop' (t : str) : Prop := (forall i, ~ occurs_at sep t i) /\ enc t.
  Lemma cuts' s cuts rest : Cuts (first_sep sep) s cuts rest -> enc s -> Cuts first' s cuts rest /\ enc rest.
  Proof using dom_uni sep_enc sep_dom sep_ne.
    induction 1 as [s|u g v cuts rest HF HC IH]; intros HE; [split; [constructor|exact HE]|].
    assert (enc u /\ enc v) as [Hu Hv].
    { destruct HE as (cs & HE & HD). destruct HF as [-> _].
      destruct (sync _ _ sep seps u v (dom_text _ _ HE HD) (dom_text _ _ sep_enc sep_dom) sep_ne eq_refl) as (us & vs & Hu & Hv & ->).
      assert (Forall (fun c => c <= 0x10FFFF) (us ++ seps ++ vs)) as HU by (revert HD; apply Forall_impl; exact dom_uni).
      destruct (Encoded_app_inv u us (sep ++ v) (seps ++ vs) _ HE HU Hu) as (A & B & _); [apply Text_app; auto using dom_text|].
      rewrite !Forall_app in HD, HU. destruct HD as (D1 & D2 & D3), HU as (U1 & U2 & U3).
      destruct (Encoded_app_inv sep seps v vs _ B) as (_ & B2 & _); auto; [now apply Forall_app|now apply dom_text|].
      split; [exists us|exists vs]; auto. }
    destruct (IH Hv) as [H1 H2]. split; [|exact H2]. constructor; [|exact H1]. repeat split; auto; apply HF.
  Qed.
  Lemma split_sep_conv s cs n ign : Encoded s cs -> Forall dom cs -> Fits s -> exists s' ps qs, F s = Ok s' /\
    (Fits s' -> split_sep s sep n ign = Ok ps /\ split_sep s' sep n ign = Ok qs /\ each F ps qs).
  Proof using All.
    intros HE HD HF. destruct (N.eq_dec n 0) as [->|Hn0].
    { destruct (F_ok s cs (dom_text _ _ HE HD) HD) as (s' & E & _). exists s', [], []. split; [exact E|]. intros _. split; [reflexivity|]. split; [reflexivity|constructor]. }
    assert (1 <= n) as Hn by lia. assert (enc s) as HS by (exists cs; auto).
    destruct (cuts_limited (first_sep sep) (fun t => forall i, ~ occurs_at sep t i) ign n s Hn) as (cuts & rest & HC & HT).
    { intros u g v [-> _]. exact sep_ne. }
    { intros t. destruct (sep_cases sep t sep_ne) as [(u & g & v & -> & H)|H]; [left; eauto|now right]. }
    destruct (cuts' s cuts rest HC HS) as [HC' HR].
    assert (forall cs, Forall dom cs -> flat_map f cs = [] -> cs = []) as NE.
    { intros ds _ E. destruct ds as [|c ds]; [reflexivity|]. cbn [flat_map] in E. apply app_eq_nil in E. now destruct (f_ne c). }
    destruct (cuts_conv F (flat_map f) dom (fun _ _ => True) F_ok ltac:(intros; now apply (F_app s0 cs0 t ds)) first') with (s := s) (cuts := cuts) (rest := rest) (cs := cs)
      as (s' & cuts'' & rest' & E & C & A & R & T & TR); auto.
    - intros u g v ([-> _] & (us & Hu & Du) & _). exists us, seps. repeat split; auto using dom_text.
    - intros u us g gs v vs u' g' v' ([-> HN] & (us0 & Hu0 & Du0) & (vs0 & Hv0 & Dv0)) Hu Hg Hv D1 D2 D3 E1 E2 E3.
      rewrite F_sep in E2. injection E2 as <-.
      split; [|split; [exists (flat_map f us0)|exists (flat_map f vs0)]; split; auto using flat_dom; [now apply (F_enc u)|now apply (F_enc v)]].
      split; [reflexivity|]. intros i Hi Ho.
      assert (F (u ++ sep ++ v) = Ok (u' ++ sep ++ v')) as EE.
      { apply (F_app u us _ (seps ++ vs)); auto; [apply Text_app; auto using dom_text|now apply Forall_app|]. apply (F_app sep seps v vs); auto using dom_text. exact F_sep. }
      assert (Encoded (u ++ sep ++ v) (us0 ++ seps ++ vs0)) as HEE by (apply Encoded_app; [exact Hu0|now apply Encoded_app]).
      assert (Forall dom (us0 ++ seps ++ vs0)) as DEE by (rewrite !Forall_app; auto).
      destruct (occurs_back (u ++ sep ++ v) (us0 ++ seps ++ vs0) _ i HEE DEE EE Ho)
        as (x & y & EX & xs & ys & x' & y' & Hx & Hy & Dx & Dy & Fx & Fy & ES & HL).
      assert (~ (length x < length u)%nat) as HN'. { intros HL'. apply (HN (length x) HL'). exists x, y. auto. }
      (* u is a prefix of x *)
      assert (exists z, x = u ++ z) as (z & ->).
      { apply app_eq_app in EX. destruct EX as (l & [[Eu _]|[Ex _]]); [|now exists l]. exists []. rewrite Eu in HN'. rewrite app_length in HN'. assert (l = []) as -> by (destruct l; [reflexivity|cbn [length] in HN'; lia]). now rewrite !app_nil_r in *. }
      assert (Text (u ++ z) xs) as TX by (now apply dom_text). destruct (Text_app_inv u us z xs Hu TX) as (zs & -> & Hz).
      apply Forall_app in Dx. destruct Dx as [_ Dz]. destruct (F_ok z zs Hz Dz) as (z' & Ez & _).
      pose proof (F_app u us z zs u' z' Hu Hz D1 Dz E1 Ez) as EF. rewrite Fx in EF. injection EF as EF. rewrite EF, app_length in HL. lia.
    - now apply dom_text.
    - exists s', (kept ign (map fst cuts ++ [rest])), (kept ign (map fst cuts'' ++ [rest'])). split; [exact E|]. intros HF'.
      split; [now apply p_c39_limit|]. split; [apply p_c39_limit; auto|].
      + apply (Cuts_impl first'); [|exact C]. intros u g v H. apply H.
      + assert (stopped stop' ign n cuts rest) as HT' by (destruct HT as [[L S]|HT]; [left; split; [exact L|split; [exact S|exact HR]]|right; exact HT]).
        assert (stopped stop' ign n cuts'' rest') as HT''.
        { apply (stopped_conv F (flat_map f) dom F_ok) with (cuts := cuts) (rest := rest); auto.
          intros t ts t' [Ho (ts0 & Ht0 & Dt0)] Ht Dt Et. split; [|exists (flat_map f ts0); split; [now apply (F_enc t)|now apply flat_dom]].
          intros i Hi. destruct (occurs_back t ts0 t' i Ht0 Dt0 Et Hi) as (x & y & -> & _). apply (Ho (length x)). exists x, y. auto. }
        destruct HT'' as [[L [S _]]|H]; [left; auto|right; exact H].
      + apply (result_conv F (flat_map f) dom); auto.
  Qed.
End Sep.
