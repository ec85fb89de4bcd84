(** Consequences: C68-C71, C76, C77. *)
From Verif Require Import Base Spec.Utf8Spec Spec.Strings Spec.Normalization Tables.UnicodeDataTables Tables.NormalizationTables
  Model.Decode Model.Encode Model.Normalize
  Proofs.Utf8Lemmas Proofs.DecodeLemmas Proofs.EncodeLemmas Proofs.CodepointLemmas Proofs.SearchLemmas Proofs.ReplaceLemmas Proofs.ReplaceCpLemmas Proofs.TableLemmas
  Proofs.NormLemmas Proofs.ComposeLemmas Proofs.ComposeLoop.
From Coq Require Import ZifyBool ZifyNat ZifyN.

Section Adj.
Variable adj : bool.

(** ** C68 *)
Lemma p_c68_lossless segs : (forall u b g v, segs = u ++ Made b :: Copied g :: v -> exists h w, v = Copied h :: w) -> kept false segs = whole segs.
Proof.
  assert (K : forall l am, (am = true -> forall g v, l = Copied g :: v -> exists h w, v = Copied h :: w) ->
    (forall u b g v, l = u ++ Made b :: Copied g :: v -> exists h w, v = Copied h :: w) -> kept am l = whole l).
  { induction l as [|x l IH]; intros am H1 H2; [reflexivity|]. unfold whole in *. destruct x as [g|b]; cbn [kept flat_map].
    - rewrite (IH false) by (try discriminate; intros u b g' v E; apply (H2 (Copied g :: u) b g' v); now rewrite E). f_equal.
      destruct am; [|now destruct l as [|[]]]. destruct (H1 eq_refl g l eq_refl) as (h & w & ->). reflexivity.
    - rewrite (IH true); [reflexivity| |].
      + intros _ g v ->. apply (H2 [] b g v eq_refl).
      + intros u b' g' v E. apply (H2 (Made b :: u) b' g' v). now rewrite E. }
  intros H. apply K; [discriminate|exact H].
Qed.
Lemma p_c68_none s cs : Text s cs ->
  (forall u a m v, cs = u ++ a :: m :: v -> (forall d, ~ composes adj a m d) /\ ~ off_table a m) -> to_composed adj s = Ok s.
Proof.
  intros HT H. destruct HT as [|g c s cs Hg HT]; [reflexivity|].
  assert (K : forall s cs, Text s cs -> forall t segs c ts, Composing adj t (map Copied segs) c -> t = concat segs ->
    (forall u a m v, ts ++ c :: cs = u ++ a :: m :: v -> (forall d, ~ composes adj a m d) /\ ~ off_table a m) ->
    exists segs' c', Composing adj (t ++ s) (map Copied segs') c' /\ t ++ s = concat segs').
  { clear. induction 1 as [|g m s cs Hg HT IH]; intros t segs c ts HC HE H; [rewrite app_nil_r; eauto|].
    destruct (H ts c m cs eq_refl) as [H1 H2]. rewrite app_assoc. apply (IH (t ++ g) (segs ++ [g]) m (ts ++ [c])).
    - rewrite map_app. cbn [map]. now apply (comp_next adj t (map Copied segs) c).
    - rewrite concat_app, HE. cbn [concat]. now rewrite app_nil_r.
    - intros u a m' v E. apply (H u a m' v). rewrite <- E, <- app_assoc. reflexivity. }
  destruct (K s cs HT g [g] c [] (comp_first adj g c Hg)) as (segs & c' & HC & E).
  - cbn. now rewrite app_nil_r.
  - exact H.
  - rewrite (p_c68_result adj _ _ _ HC). rewrite p_c68_lossless.
    + f_equal. rewrite E. clear. unfold whole. rewrite flat_map_concat_map, map_map, map_id. reflexivity.
    + clear. intros u b g v E. exfalso. assert (HI : In (Made b) (map Copied segs)) by (rewrite E; apply in_elt).
      apply in_map_iff in HI as (x & HI & _). discriminate HI.
Qed.

(** ** C70 *)
Lemma outcome_ub s : to_composed adj s = UB -> exists t segs c g m r, s = t ++ g ++ r /\ Composing adj t segs c /\ uchar g m /\ off_table c m.
Proof.
  intros E. destruct (p_c70_cases adj s) as [-> |[H|[(segs & c & H)|[(t & segs & c & r & -> & H & HM)|H]]]].
  - discriminate E.
  - rewrite p_c68_throw0 in E by exact H. discriminate E.
  - rewrite (p_c68_result adj _ _ _ H) in E. discriminate E.
  - rewrite (p_c68_throw adj _ _ _ _ H HM) in E. discriminate E.
  - exact H.
Qed.
Lemma p_c70_iff s : to_composed adj s = UB <-> exists t segs c g m r, s = t ++ g ++ r /\ Composing adj t segs c /\ uchar g m /\ off_table c m.
Proof.
  split; [apply outcome_ub|]. intros (t & segs & c & g & m & r & -> & H & Hg & HO). now apply (p_c70_ub adj t segs c g m r).
Qed.

(** ** C69 *)
Lemma p_c69 g a h m : uchar g a -> uchar h m ->
  (forall d b, composes adj a m d -> encodes b d -> to_composed adj (g ++ h) = Ok b) /\
  (off_table a m -> to_composed adj (g ++ h) = UB) /\
  ((forall d, ~ composes adj a m d) -> ~ off_table a m -> to_composed adj (g ++ h) = Ok (g ++ h)).
Proof.
  intros Hg Hh. pose proof (comp_first adj g a Hg) as HC. split; [|split].
  - intros d b HD HB. pose proof (comp_join adj g [] (Copied g) a h m d b HC Hh HD HB) as K. rewrite (p_c68_result adj _ _ _ K). cbn [app kept].
    now rewrite app_nil_r.
  - intros HO. pose proof (p_c70_ub adj g [Copied g] a h m [] HC Hh HO) as K. now rewrite app_nil_r in K.
  - intros H1 H2. pose proof (comp_next adj g [Copied g] a h m HC Hh H1 H2) as K. rewrite (p_c68_result adj _ _ _ K). cbn [app kept]. now rewrite app_nil_r.
Qed.
Lemma looked_up_small a m : m < 0x100000 -> looked_up a m = (a, m).
Proof. intros H. unfold looked_up. rewrite N.div_small, N.mod_small by exact H. now rewrite N.lor_0_r. Qed.
Lemma composes_small a m d : m < 0x100000 -> (composes adj a m d <-> has_pair d a m /\ a < 0x1000 /\ ~ (adj = true /\ d = 0x226E)).
Proof.
  intros H. unfold composes. rewrite looked_up_small by exact H. cbn [fst snd]. split; [tauto|]. intros (H1 & H2 & H3).
  apply has_pair_bounds in H1 as HB. repeat split; try tauto; lia.
Qed.
Lemma in_table d a m : has_pair d a m -> ~ off_table a m.
Proof.
  intros H HO. pose proof (has_pair_bounds _ _ _ H) as HB. destruct HO as [_ HO]. rewrite looked_up_small in HO by lia. cbn [fst snd] in HO.
  pose proof (find_pair _ _ _ H) as F. apply find_some in F as [F _]. pose proof (proj1 (forallb_forall _ _) (proj1 composed_last) _ F) as Q.
  cbv beta in Q. apply N.leb_le in Q. rewrite (proj2 (unpack_pack _ _ _ H)) in Q. lia.
Qed.

(** ** C71 *)
(** If the first element is below U+1000 so is its own first element, which does
    not decompose; and U+226E is no first element. *)
Definition nested_ok (p : N * (N * N)) : bool :=
  let '(_, (a, _)) := p in
  negb (a =? 0x226E) &&
  ((0x1000 <=? a) || match lookup a with None => true | Some (_, (a2, _)) => (a2 <? 0x1000) && match lookup a2 with None => true | Some _ => false end end).
Lemma pairs_nested : forallb nested_ok UD_PAIRS = true.
Proof using. vm_compute. reflexivity. Qed.
Lemma nested c a b : has_pair c a b -> a <> 0x226E /\ (a < 0x1000 -> forall a2 b2, has_pair a a2 b2 -> a2 < 0x1000 /\ forall x y, ~ has_pair a2 x y).
Proof using.
  intros H. pose proof (proj1 (forallb_forall _ _) pairs_nested _ H) as K. cbn [nested_ok] in K. apply andb_true_iff in K as [K1 K2].
  split; [lia|]. intros L a2 b2 H2. rewrite (lookup_pair _ _ _ H2) in K2. apply orb_true_iff in K2 as [K2|K2]; [lia|].
  apply andb_true_iff in K2 as [K2 K3]. split; [lia|]. destruct (lookup a2) eqn:E; [discriminate|]. now apply lookup_none.
Qed.
Definition doubles_ok (p : N * (N * N)) : bool :=
  let '(_, (a, b)) := p in
  (b <? 0x1D1BC) &&
  match lookup a with
  | None => true
  | Some (_, (a2, b2)) => (a2 <? 0x1000) || (0x1000 <=? b2) || negb (existsb (fun q : N * (N * N) => let '(_, (x, y)) := q in (x =? b2) && (y =? b)) UD_PAIRS)
  end.
Lemma pairs_doubles : forallb doubles_ok UD_PAIRS = true.
Proof using. vm_compute. reflexivity. Qed.
Lemma second_small c a b : has_pair c a b -> b < 0x1D1BC.
Proof using. intros H. pose proof (proj1 (forallb_forall _ _) pairs_doubles _ H) as K. cbn [doubles_ok] in K. apply andb_true_iff in K as [K _]. lia. Qed.
Lemma no_double c a b a2 b2 d : has_pair c a b -> has_pair a a2 b2 -> 0x1000 <= a2 -> has_pair d b2 b -> 0x1000 <= b2.
Proof using.
  intros H1 H2 L H3. pose proof (proj1 (forallb_forall _ _) pairs_doubles _ H1) as K. cbn [doubles_ok] in K. apply andb_true_iff in K as [_ K].
  rewrite (lookup_pair _ _ _ H2) in K. apply orb_true_iff in K as [K|K]; [lia|]. exfalso. apply negb_true_iff in K.
  apply Bool.not_true_iff_false in K. apply K. apply existsb_exists. exists (d, (b2, b)). split; [exact H3|]. now rewrite !N.eqb_refl.
Qed.
Lemma Ok_inj {A} (x y : A) : Ok x = Ok y -> x = y.
Proof using. congruence. Qed.
Lemma Encoded1 g c : Encoded g [c] -> encodes g c.
Proof using. intros H. inversion H as [|g' c' s cs Hg Hs]; subst. inversion Hs; subst. now rewrite app_nil_r. Qed.
Lemma encodes_len g c : c <= 0x10FFFF -> encodes g c -> g <> [].
Proof using. intros H HE E. apply (encodes_uchar g c H) in HE. apply uchar_nonempty in HE. contradiction. Qed.
Lemma Text1 g c : uchar g c -> Text g [c].
Proof using. intros H. rewrite <- (app_nil_r g). constructor; [exact H|constructor]. Qed.
Lemma Text2 g c h d : uchar g c -> uchar h d -> Text (g ++ h) [c; d].
Proof using. intros H H'. constructor; [exact H|now apply Text1]. Qed.

Lemma p_c71 inner c a b g ds t : has_pair c a b -> encodes g c -> FullDecomp c ds -> (length ds <= 3)%nat ->
  to_decomposed inner g = Ok t -> (to_composed adj t = Ok g <-> a < 0x1000 /\ ~ (adj = true /\ c = 0x226E)).
Proof.
  intros HP Hg HF HL HT. pose proof (has_pair_bounds _ _ _ HP) as (Bc & Ba & Bb).
  assert (Ug : uchar g c) by (apply encodes_uchar; [lia|exact Hg]).
  rewrite full_shape in HF.
  assert (L2 : (2 <= length ds <= 3)%nat).
  { split; [|exact HL]. destruct HF; cbn [length] in *; try lia. now apply H in HP. }
  assert (SM : Forall (fun d => d < 2 ^ 20) ds) by (apply (shape_small c ds HF); intros ->; cbn in L2; lia).
  assert (HD : DecomposedTo g [] (from_utf32 ds)).
  { rewrite <- (app_nil_r g), <- (app_nil_r (from_utf32 ds)). apply (dec_split g c ds); auto; [now apply full_shape|now apply encode_all|constructor]. }
  rewrite (p_c67_ok inner g _ HD) in HT. apply Ok_inj in HT. subst t.
  destruct HF as [c H|c a' b' H1 H2|c a' b' a2 b2 H1 H2 H3|c a' b' a2 b2 a3 b3 H1 H2 H3 H4]; cbn [length] in L2; try lia.
  - destruct (has_pair_fun _ _ _ _ _ HP H1) as [<- <-].
    assert (Ea : encodes (fst (encode_utf8 a)) a) by (apply encode_encodes; lia).
    assert (Eb : encodes (fst (encode_utf8 b)) b) by (apply encode_encodes; lia).
    cbn [from_utf32]. rewrite app_nil_r.
    assert (Ua : uchar (fst (encode_utf8 a)) a) by (apply encodes_uchar; [lia|exact Ea]).
    assert (Ub : uchar (fst (encode_utf8 b)) b) by (apply encodes_uchar; [lia|exact Eb]).
    destruct (p_c69 _ _ _ _ Ua Ub) as (P1 & _ & P3). split.
    + intros E. assert (D : composes adj a b c \/ ~ composes adj a b c).
      { destruct (consult adj a b) as [O|[[d D]|[_ D]]]; [lia|lia|now apply (in_table c a b) in O| |now right; apply D].
        destruct (N.eq_dec d c) as [-> |NE]; [now left|]. right. intros D'. apply NE. exact (composes_fun adj a b d c D D'). }
      destruct D as [D|D]; [apply composes_small in D; [tauto|lia]|].
      exfalso. rewrite P3 in E; [|intros d D'; apply D; replace c with d; [exact D'|]|now apply (in_table c)].
      * apply Ok_inj in E. pose proof (Text2 _ _ _ _ Ua Ub) as T2. rewrite E in T2. pose proof (Text_fun _ _ _ T2 (Text1 _ _ Ug)) as K. discriminate K.
      * apply composes_small in D' as [D' _]; [|lia]. exact (has_pair_inj _ _ _ _ D' HP).
    + intros [S NA]. apply (P1 c g); [|exact Hg]. apply composes_small; [lia|]. auto.
  - destruct (has_pair_fun _ _ _ _ _ HP H1) as [<- <-]. pose proof (has_pair_bounds _ _ _ H2) as (Ba' & Ba2 & Bb2).
    assert (Ea : encodes (fst (encode_utf8 a)) a) by (apply encode_encodes; lia).
    assert (Eb : encodes (fst (encode_utf8 b)) b) by (apply encode_encodes; lia).
    assert (Ea2 : encodes (fst (encode_utf8 a2)) a2) by (apply encode_encodes; lia).
    assert (Eb2 : encodes (fst (encode_utf8 b2)) b2) by (apply encode_encodes; lia).
    assert (Ua : uchar (fst (encode_utf8 a)) a) by (apply encodes_uchar; [lia|exact Ea]).
    assert (Ub : uchar (fst (encode_utf8 b)) b) by (apply encodes_uchar; [lia|exact Eb]).
    assert (Ua2 : uchar (fst (encode_utf8 a2)) a2) by (apply encodes_uchar; [lia|exact Ea2]).
    assert (Ub2 : uchar (fst (encode_utf8 b2)) b2) by (apply encodes_uchar; [lia|exact Eb2]).
    cbn [from_utf32]. rewrite app_nil_r. set (ga := fst (encode_utf8 a)) in *. set (gb := fst (encode_utf8 b)) in *.
    set (ga2 := fst (encode_utf8 a2)) in *. set (gb2 := fst (encode_utf8 b2)) in *.
    destruct (nested c a b HP) as [NF NN]. pose proof (comp_first adj ga2 a2 Ua2) as C0.
    assert (NC : c <> 0x226E) by (intros ->; apply first_pair in HP as [-> _]; apply has_pair_bounds in H2; lia).
    split.
    + intros E. split; [|tauto]. destruct (N.lt_ge_cases a 0x1000) as [S|S]; [exact S|exfalso].
      assert (ND : forall d, ~ composes adj a b d) by (intros d D; apply composes_small in D; lia).
      destruct (N.lt_ge_cases a2 0x1000) as [S2|S2].
      * assert (D2 : composes adj a2 b2 a) by (apply composes_small; [lia|]; tauto).
        pose proof (comp_join adj ga2 [] (Copied ga2) a2 gb2 b2 a ga C0 Ub2 D2 Ea) as C1.
        pose proof (comp_next adj _ _ _ gb b C1 Ub ND (in_table _ _ _ HP)) as C2. rewrite <- app_assoc in C2.
        rewrite (p_c68_result adj _ _ _ C2) in E. cbn [app kept] in E. apply Ok_inj in E. rewrite app_nil_r in E.
        pose proof (Text1 _ _ Ua) as TT. rewrite E in TT. pose proof (Text_fun _ _ _ TT (Text1 _ _ Ug)) as K.
        injection K as K. rewrite <- K in HP. pose proof (N.lt_irrefl) as LI.
        assert (F : FullDecomp a [a2; b2]) by (apply full_shape; now constructor).
        assert (F3 : FullDecomp a [a2; b2; b]) by (apply full_shape; apply (shape3 a a b); [exact HP|exact H2|exact H3]).
        pose proof (FullDecomp_fun _ _ F _ F3) as Z. discriminate Z.
      * assert (ND2 : forall d, ~ composes adj a2 b2 d) by (intros d D; apply composes_small in D; lia).
        pose proof (comp_next adj _ _ _ gb2 b2 C0 Ub2 ND2 (in_table _ _ _ H2)) as C1.
        assert (ND3 : forall d, ~ composes adj b2 b d).
        { intros d D. apply composes_small in D as (D1 & D2 & _); [|lia]. pose proof (no_double c a b a2 b2 d HP H2 S2 D1). lia. }
        assert (NO3 : ~ off_table b2 b) by (intros [_ O]; rewrite looked_up_small in O by lia; cbn [fst snd] in O; pose proof (second_small _ _ _ H2); lia).
        pose proof (comp_next adj _ _ _ gb b C1 Ub ND3 NO3) as C2. rewrite <- app_assoc in C2.
        rewrite (p_c68_result adj _ _ _ C2) in E. cbn [app kept] in E. apply Ok_inj in E. rewrite app_nil_r in E.
        pose proof (Text_cons _ _ _ _ Ua2 (Text2 _ _ _ _ Ub2 Ub)) as TT. rewrite E in TT. pose proof (Text_fun _ _ _ TT (Text1 _ _ Ug)) as K. discriminate K.
    + intros [S _]. destruct (NN S a2 b2 H2) as [S2 _].
      assert (D2 : composes adj a2 b2 a) by (apply composes_small; [lia|]; tauto).
      assert (D1 : composes adj a b c) by (apply composes_small; [lia|]; tauto).
      pose proof (comp_join adj ga2 [] (Copied ga2) a2 gb2 b2 a ga C0 Ub2 D2 Ea) as C1.
      pose proof (comp_join adj _ [] _ _ gb b c g C1 Ub D1 Hg) as C2. rewrite <- app_assoc in C2.
      rewrite (p_c68_result adj _ _ _ C2). cbn [app kept]. now rewrite app_nil_r.
Qed.
End Adj.
