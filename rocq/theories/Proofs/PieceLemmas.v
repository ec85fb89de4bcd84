(** The pieces of arbitrary byte strings, stepped over in both directions. *)
From Verif Require Import Base Spec.Utf8Spec Spec.Strings Spec.Slices Spec.Boundaries Model.Decode Model.Encode Model.Subrange Model.Search
  Proofs.Utf8Lemmas Proofs.DecodeLemmas Proofs.SkipLemmas Proofs.EncodeLemmas Proofs.CodepointLemmas Proofs.SearchLemmas.
From Coq Require Import ZifyBool ZifyNat ZifyN.
Ltac Zify.zify_post_hook ::= Z.div_mod_to_equations.

(** From [i] the pieces [ps] are stepped over in both directions. *)
Fixpoint steps (s : str) (i : nat) (ps : list str) : Prop :=
  match ps with
  | [] => True
  | p :: r => skip_next s i = Ok (Some (i + length p)%nat) /\ skip_prev s (i + length p) = Ok (Some i) /\
              steps s (i + length p) r
  end.

Lemma steps_app s ps : forall i qs, steps s i (ps ++ qs) <-> steps s i ps /\ steps s (i + length (concat ps)) qs.
Proof.
  induction ps as [|p ps IH]; intros i qs.
  - cbn. rewrite Nat.add_0_r. tauto.
  - cbn [app steps concat]. rewrite IH, app_length, Nat.add_assoc. tauto.
Qed.

Lemma steps_exist n : forall pre post, (length post <= n)%nat -> bnd pre post ->
  N.of_nat (length (pre ++ post)) < UINT32_MAX ->
  exists ps : list str, concat ps = post /\ Forall (fun p => p <> []) ps /\ steps (pre ++ post) (length pre) ps.
Proof.
  induction n as [|n IH]; intros pre post Hn HB HS.
  - exists []. destruct post; [|cbn in Hn; lia]. repeat split; constructor.
  - destruct post as [|b post]; [exists []; repeat split; constructor|].
    destruct (skip_step pre (b :: post) HB ltac:(discriminate) HS) as (g & r & E & Hg & H1 & H2 & HB2).
    assert (length r <= n)%nat as Hr.
    { apply (f_equal (@length byte)) in E. rewrite app_length in E. cbn in *. destruct g; [congruence|cbn in *; lia]. }
    rewrite E in *. rewrite app_assoc in HS.
    destruct (IH (pre ++ g) r Hr HB2 HS) as (ps & E2 & HF & HC).
    exists (g :: ps). split; [cbn; now rewrite E2|]. split; [now constructor|].
    cbn [steps]. rewrite app_length in H1, H2, HC. rewrite <- app_assoc in HC. auto.
Qed.

Lemma nonempty_length (ps : list str) : Forall (fun p => p <> []) ps -> (length ps <= length (concat ps))%nat.
Proof.
  induction 1 as [|p ps Hp H IH]; [cbn; lia|]. cbn [concat length]. rewrite app_length. destruct p; [congruence|cbn; lia].
Qed.

Lemma fwd_steps s (ps : list str) : forall i fuel k, steps s i ps -> (i + length (concat ps))%nat = length s ->
  (length ps < fuel)%nat -> (0 <= k)%Z ->
  skip_next_n fuel s k i = Ok ((k - Z.min k (Z.of_nat (length ps)))%Z, (i + length (concat (firstn (Z.to_nat k) ps)))%nat).
Proof.
  induction ps as [|p ps IH]; intros i [|fuel] k HS He Hf Hk; try (cbn in Hf; lia); cbn [skip_next_n].
  - rewrite firstn_nil. cbn [concat length] in *. destruct (Z.ltb_spec 0 k).
    + replace i with (length s) by lia. rewrite skip_next_end. cbn [bind]. do 2 f_equal; lia.
    + do 2 f_equal; lia.
  - cbn [steps concat] in *. destruct HS as (H1 & _ & HS). rewrite app_length in He. cbn [length] in Hf.
    destruct (Z.ltb_spec 0 k) as [L|L].
    + rewrite H1. cbn [bind]. rewrite IH by (assumption || lia). do 2 f_equal.
      * cbn [length]. lia.
      * replace (Z.to_nat k) with (S (Z.to_nat (k - 1))) by lia. cbn [firstn concat]. rewrite app_length. lia.
    + replace k with 0%Z by lia. cbn. do 2 f_equal. lia.
Qed.

Lemma bwd_steps_lim s (ps : list str) : forall fuel lim k, steps s 0 ps ->
  (length ps < fuel)%nat -> (k <= lim)%Z ->
  skip_prev_n fuel s lim k (length (concat ps))
  = Ok (k + Z.min (lim - k) (Z.of_nat (length ps)), length (concat (firstn (length ps - Z.to_nat (lim - k)) ps)))%Z.
Proof.
  induction ps as [|p ps IH] using rev_ind; intros [|fuel] lim k HS Hf Hk; try (cbn in Hf; lia); cbn [skip_prev_n].
  - cbn [length concat]. rewrite firstn_nil. cbn [concat length].
    destruct (Z.ltb_spec k lim); cbn [bind]; [rewrite skip_prev_begin; cbn [bind]|]; do 2 f_equal; lia.
  - apply steps_app in HS. destruct HS as (HS & _ & H2 & _). cbn [Nat.add] in H2.
    rewrite snoc_length in Hf |- *. destruct (Z.ltb_spec k lim) as [L|L].
    + rewrite concat_app at 1. cbn [concat]. rewrite app_nil_r, app_length, H2. cbn [bind].
      rewrite IH by (assumption || lia). do 2 f_equal; [lia|].
      replace (S (length ps) - Z.to_nat (lim - k))%nat with (length ps - Z.to_nat (lim - (k + 1)))%nat by lia.
      rewrite firstn_app. replace (_ - _ - length ps)%nat with 0%nat by lia. cbn [firstn]. now rewrite app_nil_r.
    + replace (lim - k)%Z with 0%Z by lia. cbn [Z.to_nat]. rewrite Nat.sub_0_r, <- snoc_length with (a := p), firstn_all.
      do 2 f_equal. lia.
Qed.
Lemma bwd_steps s (ps : list str) : forall fuel k, steps s 0 ps ->
  (length ps < fuel)%nat -> (k <= 0)%Z ->
  skip_prev_n fuel s 0 k (length (concat ps))
  = Ok (k + Z.min (- k) (Z.of_nat (length ps)), length (concat (firstn (length ps - Z.to_nat (- k)) ps)))%Z.
Proof.
  intros fuel k HS Hf Hk. rewrite bwd_steps_lim by assumption.
  replace (0 - k)%Z with (- k)%Z by lia. reflexivity.
Qed.

Lemma count_steps s (ps : list str) : forall i fuel n, steps s i ps -> (i + length (concat ps))%nat = length s ->
  (length ps < fuel)%nat -> n + N.of_nat (length ps) < W64 ->
  count_codepoints_loop fuel s i n = Ok (n + N.of_nat (length ps)).
Proof.
  induction ps as [|p ps IH]; intros i [|fuel] n HS He Hf Hn; try (cbn in Hf; lia); cbn [count_codepoints_loop].
  - cbn [concat length] in *. replace i with (length s) by lia. rewrite skip_next_end. cbn [bind]. f_equal. lia.
  - cbn [steps concat] in *. destruct HS as (H1 & _ & HS). rewrite app_length in He. cbn [length] in *.
    rewrite H1. cbn [bind]. rewrite add64_small by (unfold W64 in *; lia). rewrite IH by (assumption || lia). f_equal. lia.
Qed.

(** ** Pieces *)
Lemma announced_allow b : match announced b with Some n => allow b = N.of_nat n | None => allow b = UINT32_MAX end.
Proof.
  unfold announced, allow.
  destruct (N.ltb_spec (u8 b) 0x80); [reflexivity|].
  destruct (N.ltb_spec (u8 b) 0xC0).
  { replace (192 <=? u8 b) with false by lia. replace (224 <=? u8 b) with false by lia. replace (240 <=? u8 b) with false by lia. reflexivity. }
  replace (192 <=? u8 b) with true by lia. cbn [andb].
  destruct (N.ltb_spec (u8 b) 0xE0); [reflexivity|].
  replace (224 <=? u8 b) with true by lia. cbn [andb].
  destruct (N.ltb_spec (u8 b) 0xF0); [reflexivity|].
  replace (240 <=? u8 b) with true by lia. cbn [andb].
  destruct (N.ltb_spec (u8 b) 0xF8); reflexivity.
Qed.

Lemma piece_conts b g r : Forall cont g -> (forall n, announced b = Some n -> (length g <= n)%nat) ->
  (announced b = Some (length g) \/ forall x t, r = x :: t -> ~ cont x) -> N.of_nat (length g) < UINT32_MAX ->
  lead_conts (g ++ r) (allow b) = g.
Proof.
  intros Hg Hn Hm Hs. pose proof (announced_allow b) as HA.
  destruct Hm as [Hm|Hm].
  - rewrite Hm in HA. rewrite HA. now apply lead_conts_full.
  - assert (HL : N.of_nat (length g) <= allow b).
    { destruct (announced b) as [n|]; [specialize (Hn n eq_refl); lia|lia]. }
    clear Hn HA Hs. revert HL. generalize (allow b). induction Hg as [|x g Hx Hg IH]; intros n HL.
    + cbn [app]. destruct r as [|x r]; [reflexivity|]. cbn [lead_conts].
      assert (contb x = false) as -> by (apply contb_false; exact (Hm x r eq_refl)). reflexivity.
    + cbn [app lead_conts]. apply contb_cont in Hx. rewrite Hx. cbn [length] in HL.
      replace (n =? 0) with false by lia. f_equal. apply IH. lia.
Qed.

Lemma pieces_steps (ps : list str) : Pieces ps -> forall pre, bnd pre (concat ps) ->
  N.of_nat (length (pre ++ concat ps)) < UINT32_MAX -> steps (pre ++ concat ps) (length pre) ps.
Proof.
  induction 1 as [|b g ps Hg Hn Hm HP IH]; intros pre HB HS; [exact I|].
  cbn [steps]. cbn [concat] in HB, HS |- *.
  destruct (skip_step pre ((b :: g) ++ concat ps) HB ltac:(discriminate) HS) as (g' & r & E & Hg' & H1 & H2 & HB2).
  assert (HLg : N.of_nat (length g) < UINT32_MAX) by (rewrite !app_length in HS; cbn [length] in HS; lia).
  pose proof H1 as H1'. cbn [app] in H1'. rewrite skip_next_at, piece_conts in H1' by assumption.
  injection H1' as H1'. rewrite app_length in H1'.
  assert (length g' = length (b :: g)) as EL by (cbn [length]; lia).
  assert (g' = b :: g /\ r = concat ps) as [-> ->].
  { assert (firstn (length g') ((b :: g) ++ concat ps) = firstn (length g') (g' ++ r)) as F by (now rewrite E).
    rewrite EL in F at 1. rewrite !firstn_app, !firstn_all, !Nat.sub_diag, !firstn_O, !app_nil_r in F. subst g'. split; [reflexivity|].
    now apply app_inv_head in E. }
  rewrite app_length in H1, H2. split; [exact H1|]. split; [exact H2|].
  rewrite <- app_length. rewrite app_assoc in HS |- *. now apply IH.
Qed.

Lemma bnd_begin post : bnd [] post.
Proof. right. now left. Qed.

Lemma pieces_steps0 (ps : list str) : Pieces ps -> size (concat ps) < 0xFFFFFFFF -> steps (concat ps) 0 ps.
Proof. intros HP HS. apply (pieces_steps ps HP []); [apply bnd_begin|exact HS]. Qed.

Lemma pieces_nonempty (ps : list str) : Pieces ps -> Forall (fun p => p <> []) ps.
Proof. induction 1; constructor; [discriminate|assumption]. Qed.

Lemma pieces_exist s : exists ps, Pieces ps /\ concat ps = s.
Proof.
  remember (length s) as n eqn:En. assert (length s <= n)%nat as Hn by lia. clear En. revert s Hn.
  induction n as [|n IH]; intros s Hn.
  - destruct s; [|cbn in Hn; lia]. exists []. split; [constructor|reflexivity].
  - destruct s as [|b s]; [exists []; split; [constructor|reflexivity]|]. cbn [length] in Hn.
    destruct (lead_conts_split s (match announced b with Some n => N.of_nat n | None => N.of_nat (length s) end)) as (r & E & Hf & Hl & Hm).
    set (g := lead_conts s _) in *.
    assert (length s = length g + length r)%nat as HLs by (rewrite E at 1; now rewrite app_length).
    destruct (IH r ltac:(lia)) as (ps & HP & HC).
    exists ((b :: g) :: ps). split; [|cbn [concat app]; now rewrite HC, <- E].
    constructor; [exact Hf| | |exact HP].
    + intros k Hk. rewrite Hk in Hl. lia.
    + rewrite HC. destruct Hm as [Hm|Hm].
      * destruct (announced b) as [k|]; [left; f_equal; lia|]. right. intros x t ->. cbn [length] in HLs. lia.
      * right. intros x t ->. cbn [starts_cont] in Hm. now apply contb_false.
Qed.

Lemma pieces_unique (ps : list str) : Pieces ps -> forall qs, Pieces qs -> concat ps = concat qs -> ps = qs.
Proof.
  induction 1 as [|b g ps Hg Hn Hm HP IH]; intros qs HQ E.
  - destruct HQ as [|b' g' qs]; [reflexivity|discriminate].
  - destruct HQ as [|b' g' qs Hg' Hn' Hm' HQ]; [discriminate|]. cbn [concat app] in E. injection E as <- E.
    assert (K : forall (g g' : str) (r r' : str), Forall cont g -> g ++ r = g' ++ r' ->
              (forall n, announced b = Some n -> (length g <= n)%nat) ->
              (announced b = Some (length g') \/ forall x t, r' = x :: t -> ~ cont x) -> (length g <= length g')%nat).
    { intros h h' r r' Hh Ehr Hnh [Hmh|Hmh]; [now apply Hnh|].
      destruct (Nat.le_gt_cases (length h) (length h')) as [L|L]; [exact L|exfalso].
      assert (Es : h = h' ++ skipn (length h') h).
      { rewrite <- (firstn_skipn (length h') h) at 1. f_equal.
        assert (F : firstn (length h') (h ++ r) = firstn (length h') (h' ++ r')) by (now rewrite Ehr).
        rewrite !firstn_app, firstn_all, Nat.sub_diag, firstn_O, app_nil_r in F.
        replace (length h' - length h)%nat with 0%nat in F by lia. now rewrite firstn_O, app_nil_r in F. }
      destruct (skipn (length h') h) as [|x w] eqn:Ex; [apply (f_equal (@length byte)) in Es; rewrite app_nil_r in Es; lia|].
      rewrite Es in Ehr. rewrite <- app_assoc in Ehr. apply app_inv_head in Ehr. symmetry in Ehr.
      apply (Hmh x (w ++ r)); [exact Ehr|]. rewrite Es in Hh. apply Forall_app in Hh. destruct Hh as [_ Hh]. now apply Forall_inv in Hh. }
    assert (L1 := K g g' _ _ Hg E Hn Hm'). symmetry in E. assert (L2 := K g' g _ _ Hg' E Hn' Hm). symmetry in E.
    assert (g = g').
    { assert (F : firstn (length g) (g ++ concat ps) = firstn (length g) (g' ++ concat qs)) by (now rewrite E).
      replace (length g) with (length g') in F at 2 by lia.
      rewrite !firstn_app, !firstn_all, !Nat.sub_diag, !firstn_O, !app_nil_r in F. exact F. }
    subst g'. apply app_inv_head in E. f_equal. now apply IH.
Qed.

Lemma pieces_skipn (ps : list str) k : Pieces ps -> Pieces (skipn k ps).
Proof.
  intros H. revert k. induction H as [|b g ps Hg Hn Hm HP IH]; intros [|k]; cbn [skipn]; try constructor; auto.
Qed.
Lemma pieces_firstn (ps : list str) k : Pieces ps -> Pieces (firstn k ps).
Proof.
  intros H. revert k. induction H as [|b g ps Hg Hn Hm HP IH]; intros [|k]; cbn [firstn]; try constructor; auto.
  destruct Hm as [Hm|Hm]; [now left|right]. intros x t E.
  assert (concat ps = x :: t ++ concat (skipn k ps)) as E2.
  { assert (concat ps = concat (firstn k ps) ++ concat (skipn k ps)) as -> by (rewrite <- concat_app, firstn_skipn; reflexivity).
    unfold str in *. rewrite E. reflexivity. }
  exact (Hm _ _ E2).
Qed.

Lemma uchar_piece g c : uchar g c -> exists b t, g = b :: t /\ Forall cont t /\ announced b = Some (length t).
Proof.
  intros H. destruct (uchar_allow g c H) as (a & t & -> & Ha & Ht & Hl & _ & H3). exists a, t. split; [reflexivity|]. split; [exact Ht|].
  pose proof (announced_allow a) as HA. destruct (announced a) as [n|]; [f_equal; lia|unfold UINT32_MAX in HA; lia].
Qed.
Lemma codepoints_pieces (ps : list str) : Codepoints ps -> Pieces ps.
Proof.
  induction 1 as [|p ps (c & Hc) H IH]; [constructor|].
  destruct (uchar_piece p c Hc) as (b & t & -> & Ht & Hb). constructor; auto. intros n E. rewrite Hb in E. injection E as <-. lia.
Qed.
Lemma count_pieces (ps : list str) : Pieces ps -> Fits (concat ps) -> size (concat ps) < 0xFFFFFFFF ->
  count_codepoints (concat ps) = Ok (N.of_nat (length ps)).
Proof.
  intros HP HF HS. unfold count_codepoints. pose proof (nonempty_length ps (pieces_nonempty ps HP)) as HL.
  rewrite (count_steps (concat ps) ps 0); [f_equal; lia|now apply pieces_steps0|reflexivity|lia|unfold size, W64 in *; lia].
Qed.

(** A piece that is not a sequence is malformed from either side. *)
Lemma pieces_app (qs rs : list str) : Pieces qs -> Pieces rs -> (forall x t, concat rs = x :: t -> ~ cont x) -> Pieces (qs ++ rs).
Proof.
  intros HQ HR Hx. induction HQ as [|b g qs Hg Hn Hm HQ IH]; [exact HR|]. cbn [app]. constructor; auto.
  destruct Hm as [Hm|Hm]; [now left|right]. intros x t E. rewrite concat_app in E.
  destruct (concat qs) as [|y u] eqn:Eq; [cbn in E; eauto|]. cbn in E. injection E as <- _. eauto.
Qed.
Lemma piece_malformed p ps : Pieces (p :: ps) -> (forall c, ~ uchar p c) -> Malformed (concat (p :: ps)).
Proof.
  intros HP Hp. split.
  - inversion HP. cbn. discriminate.
  - intros g c t Hg E. destruct (pieces_exist t) as (qs & HQ & <-).
    assert (Pieces (g :: qs)) as HG.
    { destruct (uchar_piece g c Hg) as (b & u & -> & Hu & Hb). constructor; auto. intros n En. rewrite Hb in En. injection En as <-. lia. }
    pose proof (pieces_unique _ HP _ HG E) as EE. injection EE as -> _. now apply (Hp c).
Qed.
Lemma uchar_lead b t c : uchar (b :: t) c -> ~ cont b.
Proof. intros H. inversion H; subst; unfold cont in *; lia. Qed.
Lemma piece_malformed_end qs p : Pieces (qs ++ [p]) -> (forall c, ~ uchar p c) -> MalformedEnd (concat (qs ++ [p])).
Proof.
  intros HP Hp. split.
  - pose proof (pieces_nonempty _ HP) as HN. apply Forall_app in HN. destruct HN as [_ HN]. apply Forall_inv in HN.
    rewrite concat_app. cbn [concat]. rewrite app_nil_r. intros E. apply app_eq_nil in E. tauto.
  - intros g c t Hg E. destruct (pieces_exist t) as (rs & HR & <-).
    assert (Pieces (rs ++ [g])) as HG.
    { apply pieces_app; [exact HR| |].
      - destruct (uchar_piece g c Hg) as (b & u & -> & Hu & Hb). constructor; auto; [|constructor]. intros n En. rewrite Hb in En. injection En as <-. lia.
      - intros x u Ex. cbn in Ex. rewrite app_nil_r in Ex. subst g. now apply uchar_lead in Hg. }
    assert (concat (rs ++ [g]) = concat rs ++ g) as EG by (rewrite concat_app; cbn; now rewrite app_nil_r).
    rewrite <- EG in E. pose proof (pieces_unique _ HP _ HG E) as EE. apply app_inj_tail in EE. destruct EE as [_ ->]. now apply (Hp c).
Qed.

Lemma count_pieces' (ps : list str) : Pieces ps -> size (concat ps) < 0xFFFFFFFF -> count_codepoints (concat ps) = Ok (N.of_nat (length ps)).
Proof. intros HP HS. apply count_pieces; auto. unfold Fits. lia. Qed.
Lemma steps_at s (ps : list str) i k : steps s i ps -> (k < length ps)%nat ->
  skip_next s (i + length (concat (firstn k ps))) = Ok (Some (i + length (concat (firstn (S k) ps)))%nat).
Proof.
  revert i k. induction ps as [|p ps IH]; intros i k HS Hk; [cbn in Hk; lia|]. cbn [steps] in HS. destruct HS as (H1 & _ & HS).
  destruct k as [|k]; cbn [firstn concat].
  - rewrite app_nil_r, Nat.add_0_r. exact H1.
  - rewrite !app_length, !Nat.add_assoc. apply IH; [exact HS|cbn in Hk; lia].
Qed.
Lemma fwd_boundary_pieces (ps : list str) i : Pieces ps -> size (concat ps) < 0xFFFFFFFF ->
  (fwd_boundary (concat ps) i <-> exists k, length (concat (firstn k ps)) = i).
Proof.
  intros HP HS. pose proof (pieces_steps0 ps HP HS) as HC. split.
  - induction 1 as [|i j H (k & <-) E]; [now exists 0%nat|]. destruct (Nat.lt_ge_cases k (length ps)) as [L|L].
    + pose proof (steps_at _ ps 0 k HC L) as E2. cbn [Nat.add] in E2. rewrite E2 in E. exists (S k). congruence.
    + rewrite firstn_all2 in E by lia. rewrite skip_next_end in E. discriminate.
  - intros (k & <-). induction k as [|k IH]; [constructor|]. destruct (Nat.lt_ge_cases k (length ps)) as [L|L].
    + eapply fwd_step; [exact IH|]. exact (steps_at _ ps 0 k HC L).
    + rewrite firstn_all2 in IH |- * by lia. exact IH.
Qed.
