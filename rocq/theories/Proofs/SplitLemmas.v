(** Lemmas about TokenIterator and the split functions. *)
From Verif Require Import Base Spec.Utf8Spec Spec.Strings Spec.Newline Spec.Split
  Model.Decode Model.Encode Model.Subrange Model.Search Model.Split
  Proofs.Utf8Lemmas Proofs.DecodeLemmas Proofs.SkipLemmas Proofs.EncodeLemmas Proofs.CodepointLemmas
  Proofs.SearchLemmas Proofs.NewlineLemmas.

Lemma Cuts_concat first s cuts rest : Cuts first s cuts rest ->
  s = concat (map (fun p => fst p ++ snd p) cuts) ++ rest.
Proof.
  induction 1 as [|u g v cuts rest F H IH]; [reflexivity|].
  cbn [map concat fst snd]. rewrite <- !app_assoc. now rewrite <- IH.
Qed.
Lemma Cuts_app first s c1 : forall m c2 rest, Cuts first s c1 m -> Cuts first m c2 rest -> Cuts first s (c1 ++ c2) rest.
Proof.
  intros m c2 rest H. induction H as [|u g v cuts rest' F H IH]; intros H2; [exact H2|].
  cbn [app]. constructor; auto.
Qed.
Lemma Cuts_split first s c1 : forall c2 rest, Cuts first s (c1 ++ c2) rest -> exists m, Cuts first s c1 m /\ Cuts first m c2 rest.
Proof.
  revert s. induction c1 as [|[u g] c1 IH]; intros s c2 rest H.
  - exists s. split; [constructor|exact H].
  - inversion H; subst. destruct (IH _ _ _ H6) as (m & H1 & H2). exists m. split; [constructor; auto|exact H2].
Qed.
Lemma Cuts_impl (f1 f2 : str -> str -> str -> Prop) s cuts rest : (forall u g v, f1 u g v -> f2 u g v) ->
  Cuts f1 s cuts rest -> Cuts f2 s cuts rest.
Proof. intros HH. induction 1; constructor; auto. Qed.

Lemma kept_app ign a b : kept ign (a ++ b) = kept ign a ++ kept ign b.
Proof. destruct ign; [apply filter_app|reflexivity]. Qed.
Lemma kept_one ign (p : str) : (if negb ign || negb (is_nil p) then [p] else []) = kept ign [p].
Proof. destruct ign, p; reflexivity. Qed.
Lemma kept_push ign res (p : str) :
  (if negb ign || negb (is_nil p) then res ++ [p] else res) = res ++ kept ign [p].
Proof. destruct ign, p; cbn; rewrite ?app_nil_r; reflexivity. Qed.
Lemma kept_length ign l : (length (kept ign l) <= length l)%nat.
Proof. destruct ign; cbn [kept]; [|lia]. induction l as [|a l IH]; cbn [filter length]; [lia|]. destruct (non_empty a); cbn [length]; lia. Qed.

Lemma sub_end_fits (u g v : str) : Fits (u ++ g ++ v) -> sub_end (Sub (size u) (size g)) = size (u ++ g).
Proof.
  unfold Fits, sub_end, size. cbn [sub_offset sub_length]. rewrite !app_length. intros H.
  rewrite add64_small; unfold W64; lia.
Qed.
Lemma sub_bool_ne o (g : str) : g <> [] -> sub_bool (Sub o (size g)) = true.
Proof. unfold sub_bool, size. destruct g; [congruence|]. intros _. cbn [sub_length length]. rewrite (proj2 (N.eqb_neq _ _)); [reflexivity|lia]. Qed.

(** The iterator is about to look for a token in [v]. *)
Definition ready (t : token_iterator) (v : str) : Prop :=
  t = TI v (Sub 0 0) \/ exists u g, g <> [] /\ Fits (u ++ g ++ v) /\ t = TI (u ++ g ++ v) (Sub (size u) (size g)).

Section Iterator.
Variable finder : str -> outcome subrange.

Lemma next_ready t v : ready t v ->
  ti_next finder t =
    (let* tok := finder v in Ok (true, TI v (if negb (sub_bool tok) then Sub SIZE_MAX (sub_length tok) else tok))).
Proof.
  intros [->|(u & g & Hg & HF & ->)]; unfold ti_next; cbn [ti_str ti_token]; [reflexivity|].
  rewrite sub_bool_ne by exact Hg. rewrite (sub_end_fits u g v HF), app_assoc, substr_from_app; [reflexivity|reflexivity|].
  now rewrite <- app_assoc.
Qed.

Lemma next_found t u g v : ready t (u ++ g ++ v) -> g <> [] ->
  finder (u ++ g ++ v) = Ok (Sub (size u) (size g)) ->
  ti_next finder t = Ok (true, TI (u ++ g ++ v) (Sub (size u) (size g))).
Proof. intros HR Hg HF. rewrite (next_ready t _ HR), HF. cbn [bind]. rewrite sub_bool_ne by exact Hg. reflexivity. Qed.
Lemma next_none t v o : ready t v -> finder v = Ok (Sub o 0) -> ti_next finder t = Ok (true, TI v (Sub SIZE_MAX 0)).
Proof. intros HR HF. rewrite (next_ready t _ HR), HF. reflexivity. Qed.
Lemma next_throw t v e : ready t v -> finder v = Throw e -> ti_next finder t = Throw e.
Proof. intros HR HF. rewrite (next_ready t _ HR), HF. reflexivity. Qed.

Lemma part_found (u g v : str) : g <> [] -> ti_part (TI (u ++ g ++ v) (Sub (size u) (size g))) = Ok u.
Proof. intros Hg. unfold ti_part. cbn [ti_token ti_str]. rewrite sub_bool_ne by exact Hg. apply substr_prefix. reflexivity. Qed.
Lemma remainder_found (u g v : str) : g <> [] -> Fits (u ++ g ++ v) ->
  ti_remainder (TI (u ++ g ++ v) (Sub (size u) (size g))) = Ok v.
Proof.
  intros Hg HF. unfold ti_remainder. cbn [ti_token ti_str]. rewrite sub_bool_ne by exact Hg. cbn [orb].
  rewrite (sub_end_fits u g v HF), app_assoc, substr_from_app; [reflexivity|reflexivity|]. now rewrite <- app_assoc.
Qed.

Variable first : str -> str -> str -> Prop.
Hypothesis first_ne : forall u g v, first u g v -> g <> [].
Hypothesis first_ok : forall u g v, Fits (u ++ g ++ v) -> first u g v -> finder (u ++ g ++ v) = Ok (Sub (size u) (size g)).

Lemma Cuts_length s cuts rest : Cuts first s cuts rest -> (length cuts + length rest <= length s)%nat.
Proof using All.
  induction 1 as [|u g v cuts rest F H IH]; [cbn; lia|].
  specialize (first_ne _ _ _ F). destruct g; [congruence|]. rewrite !app_length. cbn [length]. lia.
Qed.

Lemma loop_cuts max ign s cuts rest : Cuts first s cuts rest -> forall t res fuel,
  Fits s -> ready t s -> N.of_nat (length res) + N.of_nat (length (kept ign (map fst cuts))) < max ->
  exists t', ready t' rest /\
    split_loop (length cuts + fuel) finder max ign t res = split_loop fuel finder max ign t' (res ++ kept ign (map fst cuts)).
Proof using All.
  induction 1 as [s|u g v cuts rest F H IH]; intros t res fuel HF HR Hm.
  - exists t. split; [exact HR|]. cbn [map]. replace (kept ign []) with (@nil str) by (destruct ign; reflexivity).
    rewrite app_nil_r. reflexivity.
  - change (map fst ((u, g) :: cuts)) with ([u] ++ map fst cuts) in *.
    rewrite kept_app, app_length in Hm.
    assert (Hg := first_ne _ _ _ F).
    destruct (IH (TI (u ++ g ++ v) (Sub (size u) (size g))) (res ++ kept ign [u]) fuel) as (t' & HR' & E).
    + apply Fits_app_r with (u := u ++ g). now rewrite <- app_assoc.
    + right. exists u, g. auto.
    + rewrite app_length. lia.
    + exists t'. split; [exact HR'|]. cbn [length plus split_loop].
      rewrite (proj2 (N.ltb_lt _ _)) by lia.
      rewrite (next_found t u g v HR Hg (first_ok u g v HF F)). cbn [bind].
      rewrite part_found by exact Hg. cbn [bind]. rewrite kept_push, E, kept_app, app_assoc. reflexivity.
Qed.

(** All cuts made. *)
Lemma split_all max ign s cuts rest o : Fits s -> Cuts first s cuts rest ->
  finder rest = Ok (Sub o 0) -> N.of_nat (length (kept ign (map fst cuts))) < max ->
  split_where s finder max ign = Ok (kept ign (map fst cuts ++ [rest])).
Proof using All.
  intros HF HC Hn Hm. unfold split_where.
  assert (HL := Cuts_length _ _ _ HC).
  replace (S (S (length s))) with (length cuts + (S (S (length s - length cuts))))%nat by lia.
  destruct (loop_cuts max ign s cuts rest HC (ti_init s) [] (S (S (length s - length cuts))) HF) as (t' & HR & ->).
  - left. reflexivity.
  - cbn [length]. lia.
  - cbn [split_loop app]. rewrite (proj2 (N.ltb_lt _ _)) by exact Hm.
    rewrite (next_none t' rest o HR Hn). cbn [bind].
    change (ti_part (TI rest (Sub SIZE_MAX 0))) with (Ok rest). cbn [bind].
    rewrite kept_push, kept_app.
    change (ti_next finder (TI rest (Sub SIZE_MAX 0))) with (Ok (false, TI rest (Sub SIZE_MAX 0))).
    destruct (_ <? _); reflexivity.
Qed.

(** The limit reached. *)
Lemma split_limit max ign s cuts u g rest : Fits s -> Cuts first s (cuts ++ [(u, g)]) rest ->
  N.of_nat (length (kept ign (map fst cuts))) < max ->
  N.of_nat (length (kept ign (map fst (cuts ++ [(u, g)])))) = max ->
  split_where s finder max ign = Ok (kept ign (map fst (cuts ++ [(u, g)]) ++ [rest])).
Proof using All.
  intros HF HC Hm HE. unfold split_where.
  assert (HL := Cuts_length _ _ _ HC). rewrite app_length in HL. cbn [length] in HL.
  destruct (Cuts_split _ _ _ _ _ HC) as (m & H1 & H2).
  assert (exists r, m = u ++ g ++ r /\ first u g r /\ rest = r) as (r & -> & F & ->).
  { clear -H2. inversion H2 as [|u' g' v cuts' rest' F H2' E1 E2 E3]; subst. inversion H2'; subst. eauto. }
  assert (HFm : Fits (u ++ g ++ r)).
  { rewrite (Cuts_concat _ _ _ _ H1) in HF. now apply Fits_app_r in HF. }
  assert (Hg := first_ne _ _ _ F).
  replace (S (S (length s))) with (length cuts + (S (S (length s - length cuts))))%nat by lia.
  destruct (loop_cuts max ign s cuts (u ++ g ++ r) H1 (ti_init s) [] (S (S (length s - length cuts))) HF) as (t' & HR & ->).
  - left. reflexivity.
  - cbn [length]. exact Hm.
  - cbn [split_loop app]. rewrite (proj2 (N.ltb_lt _ _)) by exact Hm.
    rewrite (next_found t' u g r HR Hg (first_ok u g r HFm F)). cbn [bind].
    rewrite part_found by exact Hg. cbn [bind]. rewrite kept_push.
    rewrite map_app in *. cbn [map fst] in *. rewrite kept_app in *.
    rewrite (proj2 (N.ltb_ge _ _)) by lia. cbn [bind].
    unfold ti_bool. cbn [ti_token]. rewrite sub_bool_ne by exact Hg.
    rewrite remainder_found by assumption. cbn [bind]. rewrite kept_push, ?kept_app, <- ?app_assoc. reflexivity.
Qed.

Lemma split_throw max ign s cuts rest e : Fits s -> Cuts first s cuts rest ->
  finder rest = Throw e -> N.of_nat (length (kept ign (map fst cuts))) < max ->
  split_where s finder max ign = Throw e.
Proof using All.
  intros HF HC Hn Hm. unfold split_where.
  assert (HL := Cuts_length _ _ _ HC).
  replace (S (S (length s))) with (length cuts + (S (S (length s - length cuts))))%nat by lia.
  destruct (loop_cuts max ign s cuts rest HC (ti_init s) [] (S (S (length s - length cuts))) HF) as (t' & HR & ->).
  - left. reflexivity.
  - cbn [length]. lia.
  - cbn [split_loop app]. rewrite (proj2 (N.ltb_lt _ _)) by exact Hm.
    rewrite (next_throw t' rest e HR Hn). reflexivity.
Qed.
End Iterator.

Lemma split_zero s finder ign : split_where s finder 0 ign = Ok [].
Proof. reflexivity. Qed.

(** *** Existence of the cuts *)
Lemma cuts_exist (first : str -> str -> str -> Prop) (stop : str -> Prop) :
  (forall u g v, first u g v -> g <> []) ->
  (forall t, (exists u g v, t = u ++ g ++ v /\ first u g v) \/ stop t) ->
  forall s, exists cuts rest, Cuts first s cuts rest /\ stop rest.
Proof.
  intros Hne Hc s. remember (length s) as n eqn:En. revert s En.
  induction n as [n IH] using lt_wf_ind. intros s ->.
  destruct (Hc s) as [(u & g & v & -> & F)|S].
  - destruct (IH (length v)) with (s := v) as (cuts & rest & H1 & H2); [|reflexivity|].
    + specialize (Hne _ _ _ F). destruct g; [congruence|]. rewrite !app_length. cbn [length]. lia.
    + exists ((u, g) :: cuts), rest. split; [constructor; assumption|assumption].
  - exists [], s. split; [constructor|exact S].
Qed.

Lemma prefix_count ign (cuts : list (str * str)) n :
  1 <= n <= N.of_nat (length (kept ign (map fst cuts))) ->
  exists c u g c2, cuts = c ++ (u, g) :: c2 /\ N.of_nat (length (kept ign (map fst c))) < n /\
    N.of_nat (length (kept ign (map fst (c ++ [(u, g)])))) = n.
Proof.
  revert n. induction cuts as [|[u g] cuts IH] using rev_ind; intros n Hn.
  - destruct ign; cbn in Hn; lia.
  - destruct (N.le_gt_cases n (N.of_nat (length (kept ign (map fst cuts))))) as [L|L].
    + destruct (IH n) as (c & u' & g' & c2 & -> & H1 & H2); [lia|].
      exists c, u', g', (c2 ++ [(u, g)]). rewrite <- app_assoc. auto.
    + exists cuts, u, g, []. split; [reflexivity|]. split; [exact L|].
      rewrite map_app, kept_app, app_length in *. cbn [map fst] in *.
      assert (HH := kept_length ign [u]). cbn [length] in HH. lia.
Qed.

Lemma cuts_limited (first : str -> str -> str -> Prop) (stop : str -> Prop) ign n s : 1 <= n ->
  (forall u g v, first u g v -> g <> []) ->
  (forall t, (exists u g v, t = u ++ g ++ v /\ first u g v) \/ stop t) ->
  exists cuts rest, Cuts first s cuts rest /\ stopped stop ign n cuts rest.
Proof.
  intros Hn Hne Hc. destruct (cuts_exist first stop Hne Hc s) as (cuts & rest & H1 & H2).
  destruct (N.le_gt_cases n (N.of_nat (length (kept ign (map fst cuts))))) as [L|L].
  - destruct (prefix_count ign cuts n) as (c & u & g & c2 & -> & E1 & E2); [lia|].
    replace (c ++ (u, g) :: c2) with ((c ++ [(u, g)]) ++ c2) in H1 by (rewrite <- app_assoc; reflexivity).
    destruct (Cuts_split _ _ _ _ _ H1) as (m & HA & HB).
    exists (c ++ [(u, g)]), m. split; [exact HA|]. right. exists c, u, g. auto.
  - exists cuts, rest. split; [exact H1|]. left. auto.
Qed.

Section General.
Variable finder : str -> outcome subrange.
Variable first : str -> str -> str -> Prop.
Variable stop : str -> Prop.
Hypothesis first_ne : forall u g v, first u g v -> g <> [].
Hypothesis first_ok : forall u g v, Fits (u ++ g ++ v) -> first u g v -> finder (u ++ g ++ v) = Ok (Sub (size u) (size g)).
Hypothesis stop_ok : forall t, stop t -> exists o, finder t = Ok (Sub o 0).

Lemma split_stopped max ign s cuts rest : Fits s -> Cuts first s cuts rest -> stopped stop ign max cuts rest ->
  split_where s finder max ign = Ok (kept ign (map fst cuts ++ [rest])).
Proof using All.
  intros HF HC [[L S]|(c & u & g & -> & L & E)].
  - destruct (stop_ok _ S) as [o So]. now apply (split_all finder first first_ne first_ok max ign s cuts rest o).
  - now apply (split_limit finder first first_ne first_ok).
Qed.
End General.

Lemma kept_lt_max (first : str -> str -> str -> Prop) ign s cuts rest : (forall u g v, first u g v -> g <> []) ->
  Fits s -> Cuts first s cuts rest -> N.of_nat (length (kept ign (map fst cuts))) < SIZE_MAX.
Proof.
  intros Hne HF HC. assert (H := kept_length ign (map fst cuts)). rewrite map_length in H.
  assert (L : (length cuts <= length s)%nat).
  { clear -HC Hne. induction HC as [|u g v cuts rest F H IH]; [cbn; lia|].
    specialize (Hne _ _ _ F). destruct g; [congruence|]. rewrite !app_length. cbn [length]. lia. }
  unfold Fits, size in HF. unfold SIZE_MAX. lia.
Qed.

(** C39: any finder *)
Lemma split_where_ignore finder s : finds_range Sub finder -> Fits s ->
  split_where s finder SIZE_MAX true = omap (filter non_empty) (split_where s finder SIZE_MAX false).
Proof.
  intros Hr HF.
  set (first := fun u g v : str => g <> [] /\ finder (u ++ g ++ v) = Ok (Sub (size u) (size g))).
  assert (Hne : forall u g v, first u g v -> g <> []) by (intros u g v [H _]; exact H).
  assert (Hok : forall u g v, Fits (u ++ g ++ v) -> first u g v -> finder (u ++ g ++ v) = Ok (Sub (size u) (size g)))
    by (intros u g v _ [_ H]; exact H).
  destruct (cuts_exist first (fun t => (exists o, finder t = Ok (Sub o 0)) \/ exists e, finder t = Throw e) Hne) with (s := s)
    as (cuts & rest & HC & [[o E]|[e E]]).
  - intros t. destruct (Hr t) as [H|[H|(u & g & v & -> & H)]]; [right; left; exact H|right; right; exact H|left].
    exists u, g, v. split; [reflexivity|exact H].
  - rewrite (split_all finder first Hne Hok SIZE_MAX true s cuts rest o HF HC E) by (eapply kept_lt_max; eauto).
    rewrite (split_all finder first Hne Hok SIZE_MAX false s cuts rest o HF HC E) by (eapply kept_lt_max; eauto).
    reflexivity.
  - rewrite (split_throw finder first Hne Hok SIZE_MAX true s cuts rest e HF HC E) by (eapply kept_lt_max; eauto).
    rewrite (split_throw finder first Hne Hok SIZE_MAX false s cuts rest e HF HC E) by (eapply kept_lt_max; eauto).
    reflexivity.
Qed.

(** *** Separators *)
Lemma first_sep_ok sep u g v : sep <> [] -> first_sep sep u g v -> find_first (u ++ g ++ v) sep 0 = Ok (Sub (size u) (size g)).
Proof.
  intros Hs [-> H].
  destruct (find_first_spec (u ++ sep ++ v) sep 0 Hs) as [(i & Hi & Ho & Hb & E)|[Hn E]]; [lia| |].
  - change (N.of_nat 0) with 0 in E. rewrite E.
    assert (i = length u) as ->; [|reflexivity].
    destruct (lt_eq_lt_dec i (length u)) as [[L|L]|L]; [|exact L|].
    + exfalso. exact (H i L Ho).
    + exfalso. apply (Hb (length u)); [lia|]. exists u, v. auto.
  - exfalso. apply (Hn (length u)); [lia|]. exists u, v. auto.
Qed.
Lemma no_sep_ok sep t : sep <> [] -> (forall i, ~ occurs_at sep t i) -> exists o, find_first t sep 0 = Ok (Sub o 0).
Proof.
  intros Hs H. destruct (find_first_spec t sep 0 Hs) as [(i & Hi & Ho & Hb & E)|[Hn E]]; [lia| |].
  - exfalso. exact (H i Ho).
  - eexists. exact E.
Qed.
Lemma sep_cases sep t : sep <> [] ->
  (exists u g v, t = u ++ g ++ v /\ first_sep sep u g v) \/ (forall i, ~ occurs_at sep t i).
Proof.
  intros Hs. destruct (find_first_spec t sep 0 Hs) as [(i & Hi & Ho & Hb & E)|[Hn E]]; [lia| |].
  - left. destruct Ho as (u & v & -> & <-). exists u, sep, v. split; [reflexivity|]. split; [reflexivity|].
    intros j Hj. apply Hb. lia.
  - right. intros i. apply Hn. lia.
Qed.
Lemma first_sep_part sep u v : sep <> [] -> first_sep sep u sep v -> forall i, ~ occurs_at sep u i.
Proof.
  intros Hs [_ H] i Ho. assert (L := occurs_at_lt _ _ _ Hs Ho). apply (H i); [lia|].
  destruct Ho as (x & y & -> & <-). exists x, (y ++ sep ++ v). rewrite <- !app_assoc. auto.
Qed.
Lemma interleave_cuts sep s cuts rest : Cuts (first_sep sep) s cuts rest -> interleave sep (map fst cuts ++ [rest]) = s.
Proof.
  induction 1 as [|u g v cuts rest [-> F] H IH]; [reflexivity|].
  cbn [map fst app]. rewrite <- IH. destruct (map fst cuts); reflexivity.
Qed.

Lemma p_c36 s sep n : sep <> [] -> Fits s -> 1 <= n ->
  exists cuts rest, Cuts (first_sep sep) s cuts rest /\
    stopped (fun t => forall i, ~ occurs_at sep t i) false n cuts rest /\
    split_sep s sep n false = Ok (map fst cuts ++ [rest]).
Proof.
  intros Hs HF Hn.
  assert (Hne : forall u g v, first_sep sep u g v -> g <> []) by (intros u g v [-> _]; exact Hs).
  destruct (cuts_limited (first_sep sep) (fun t => forall i, ~ occurs_at sep t i) false n s Hn Hne) as (cuts & rest & H1 & H2).
  - intros t. now apply sep_cases.
  - exists cuts, rest. split; [exact H1|]. split; [exact H2|].
    unfold split_sep. eapply split_stopped with (ign := false); eauto.
    + intros u g v _ F. now apply first_sep_ok.
    + intros t Ht. apply no_sep_ok; assumption.
Qed.

Lemma p_c36_join s sep n : sep <> [] -> Fits s -> 1 <= n ->
  exists parts, split_sep s sep n false = Ok parts /\ join parts sep = s /\
    N.of_nat (length parts) <= n + 1 /\ (size s < n -> Forall (fun p => forall i, ~ occurs_at sep p i) parts).
Proof.
  intros Hs HF Hn. destruct (p_c36 s sep n Hs HF Hn) as (cuts & rest & HC & HS & E).
  exists (map fst cuts ++ [rest]). split; [exact E|]. split; [rewrite join_spec; now apply interleave_cuts|].
  rewrite app_length, map_length. cbn [length].
  assert (L : N.of_nat (length cuts) <= n).
  { destruct HS as [[L _]|(c & u & g & E1 & _ & L)]; cbn [kept] in L; rewrite map_length in L; lia. }
  split; [lia|]. intros Hsz.
  assert (Hne : forall u g v, first_sep sep u g v -> g <> []) by (intros u g v [-> _]; exact Hs).
  assert (LC : (length cuts + length rest <= length s)%nat).
  { clear -HC Hne. induction HC as [|u g v cuts rest F H IH]; [cbn; lia|].
    specialize (Hne _ _ _ F). destruct g; [congruence|]. rewrite !app_length. cbn [length]. lia. }
  apply Forall_app. split.
  - clear -HC Hs. induction HC as [|u g v cuts rest F H IH]; [constructor|].
    cbn [map fst]. constructor; [|exact IH]. destruct F as [-> F]. eapply first_sep_part; [exact Hs|split; [reflexivity|exact F]].
  - constructor; [|constructor]. destruct HS as [[_ S]|(c & u & g & E1 & _ & L')]; [exact S|].
    exfalso. cbn [kept] in L'. rewrite map_length in L'. unfold size in Hsz. lia.
Qed.

Lemma p_c36_empty s n ign : Fits s -> 1 <= n -> split_sep s [] n ign = Ok (kept ign [s]).
Proof.
  intros HF Hn. unfold split_sep.
  eapply (split_all (fun t => find_first t [] 0) (fun _ g _ => g <> [] /\ False)) with (cuts := []) (o := 0).
  - intros u g v [H _]. exact H.
  - intros u g v _ [_ []].
  - exact HF.
  - constructor.
  - apply (find_first_empty s 0). lia.
  - destruct ign; cbn; lia.
Qed.

(** *** Characters *)
Lemma first_char_ne chars u g v : first_char chars u g v -> g <> [].
Proof. intros (us & c & _ & _ & Hg & _). intros ->. inversion Hg. Qed.
Lemma first_char_ok chars u g v : first_char chars u g v ->
  (let* p := find_first_of (u ++ g ++ v) chars 0 in Ok (fst p)) = Ok (Sub (size u) (size g)).
Proof.
  intros (us & c & Hu & Hus & Hg & Hc). destruct (p_first_of chars []) as (H & _ & _).
  specialize (H u us g c v Hu Hus Hg Hc). cbn [app] in H. change (size []) with 0 in H. rewrite H. reflexivity.
Qed.
Lemma no_char_ok chars t : no_char chars t -> (let* p := find_first_of t chars 0 in Ok (fst p)) = Ok (Sub npos 0).
Proof.
  intros (us & Hu & Hus). destruct (p_first_of chars []) as (_ & H & _).
  specialize (H t us Hu Hus). cbn [app] in H. change (size []) with 0 in H. rewrite H. reflexivity.
Qed.
Definition bad_char (chars : list N) (t : str) : Prop :=
  exists u us r, t = u ++ r /\ Text u us /\ Forall (fun x => ~ In x chars) us /\ Malformed r.
Lemma bad_char_ok chars t : bad_char chars t -> (let* p := find_first_of t chars 0 in Ok (fst p)) = Throw YstringException.
Proof.
  intros (u & us & r & -> & Hu & Hus & Hr). destruct (p_first_of chars []) as (_ & _ & H).
  specialize (H u us r Hu Hus Hr). cbn [app] in H. change (size []) with 0 in H. rewrite H. reflexivity.
Qed.
Lemma char_cases chars t : (exists u g v, t = u ++ g ++ v /\ first_char chars u g v) \/ no_char chars t \/ bad_char chars t.
Proof.
  destruct (first_where_cases (u32_contains chars) t) as [(u & us & g & c & v & -> & H1 & H2 & H3 & H4)|[(us & H1 & H2)|(u & us & r & -> & H1 & H2 & H3)]].
  - left. exists u, g, v. split; [reflexivity|]. exists us, c. apply set_nonep in H2. apply u32_contains_spec in H4. auto.
  - right. left. exists us. apply set_nonep in H2. auto.
  - right. right. exists u, us, r. apply set_nonep in H2. auto.
Qed.

(** In a valid string every rest of cutting is valid. *)
Lemma Cuts_text (first : str -> str -> str -> Prop) s cuts rest :
  (forall u g v, first u g v -> exists us gs, Text u us /\ Text g gs) ->
  Cuts first s cuts rest -> forall cs, Text s cs -> exists rs, Text rest rs.
Proof.
  intros Hf. induction 1 as [|u g v cuts rest F H IH]; intros cs HT; [eauto|].
  destruct (Hf _ _ _ F) as (us & gs & Hu & Hg).
  destruct (Text_app_inv u us (g ++ v) cs Hu HT) as (vs & E & HT').
  destruct (Text_app_inv g gs v vs Hg HT') as (vs' & E' & HT''). eauto.
Qed.

Lemma first_char_text chars u g v : first_char chars u g v -> exists us gs, Text u us /\ Text g gs.
Proof. intros (us & c & Hu & _ & Hg & _). exists us, [c]. split; [exact Hu|now apply Text_one]. Qed.

Lemma p_c37 s chars n ign cuts rest : Fits s -> Cuts (first_char chars) s cuts rest ->
  stopped (no_char chars) ign n cuts rest ->
  split_chars s chars n ign = Ok (kept ign (map fst cuts ++ [rest])).
Proof.
  intros HF HC HS. unfold split_chars. eapply split_stopped; eauto.
  - apply first_char_ne.
  - intros u g v _ F. now apply first_char_ok.
  - intros t Ht. exists npos. now apply no_char_ok.
Qed.

Lemma bad_char_not_text chars t cs : Text t cs -> ~ bad_char chars t.
Proof.
  intros HT (u & us & r & -> & Hu & _ & [Hr Hm]).
  destruct (Text_app_inv u us r cs Hu HT) as (vs & _ & HT'). inversion HT' as [|g c s' cs' Hg _ E]; subst; [congruence|].
  exact (Hm _ _ _ Hg eq_refl).
Qed.

Lemma p_c37_exists s cs chars n ign : Text s cs -> 1 <= n ->
  exists cuts rest, Cuts (first_char chars) s cuts rest /\ stopped (no_char chars) ign n cuts rest.
Proof.
  intros HT Hn.
  destruct (cuts_limited (first_char chars) (fun t => no_char chars t \/ bad_char chars t) ign n s Hn (first_char_ne chars) (char_cases chars))
    as (cuts & rest & HC & HS).
  exists cuts, rest. split; [exact HC|].
  destruct HS as [[L [S|S]]|HS]; [left; auto| |right; exact HS].
  exfalso. destruct (Cuts_text _ _ _ _ (first_char_text chars) HC cs HT) as [rs Hrs].
  exact (bad_char_not_text _ _ _ Hrs S).
Qed.

Lemma p_c37_throw s chars n ign cuts u us r : Fits s -> Cuts (first_char chars) s cuts (u ++ r) ->
  Text u us -> Forall (fun x => ~ In x chars) us -> Malformed r ->
  N.of_nat (length (kept ign (map fst cuts))) < n ->
  split_chars s chars n ign = Throw YstringException.
Proof.
  intros HF HC Hu Hus Hr L. unfold split_chars. eapply split_throw; eauto.
  - apply first_char_ne.
  - intros; now apply first_char_ok.
  - apply bad_char_ok. exists u, us, r. auto.
Qed.

(** Every malformed string is cut down to its malformed part. *)
Lemma p_c37_malformed s chars : (forall cs, ~ Text s cs) -> Fits s -> forall ign, split_chars s chars SIZE_MAX ign = Throw YstringException.
Proof.
  intros HT HF ign.
  destruct (cuts_exist (first_char chars) (fun t => no_char chars t \/ bad_char chars t) (first_char_ne chars) (char_cases chars) s)
    as (cuts & rest & HC & [S|S]).
  - exfalso. destruct S as (us & Hus & _).
    assert (exists cs, Text s cs) as [cs Hcs]; [|exact (HT cs Hcs)]. clear -HC Hus.
    induction HC as [|u g v cuts rest F H IH]; [eauto|].
    destruct (IH Hus) as [vs Hvs]. destruct (first_char_text _ _ _ _ F) as (x & y & Hx & Hy).
    exists (x ++ y ++ vs). auto using Text_app.
  - destruct S as (u & us & r & -> & Hu & Hus & Hr). eapply p_c37_throw; eauto.
    eapply kept_lt_max; eauto using first_char_ne.
Qed.

Lemma split_on_out p us : Forall (fun c => p c = false) us -> split_on p us = [us].
Proof. induction 1 as [|c us Hc H IH]; [reflexivity|]. cbn [split_on]. rewrite Hc, IH. reflexivity. Qed.
Lemma split_on_cut p us c vs : Forall (fun c => p c = false) us -> p c = true ->
  split_on p (us ++ c :: vs) = us :: split_on p vs.
Proof. intros H Hc. induction H as [|d us Hd H IH]; cbn [app split_on]; [now rewrite Hc|]. rewrite Hd, IH. reflexivity. Qed.
Lemma in_chars_false chars us : Forall (fun x => ~ In x chars) us -> Forall (fun c => existsb (N.eqb c) chars = false) us.
Proof.
  intros H. eapply Forall_impl; [|exact H]. intros c Hc. apply not_true_is_false. intros E. apply Hc.
  apply existsb_exists in E. destruct E as (x & Hx & E). apply N.eqb_eq in E. now subst.
Qed.
Lemma cuts_split_on chars s cuts rest : Cuts (first_char chars) s cuts rest -> no_char chars rest -> forall cs, Text s cs ->
  Forall2 Text (map fst cuts ++ [rest]) (split_on (fun c => existsb (N.eqb c) chars) cs).
Proof.
  induction 1 as [s|u g v cuts rest (us & c & Hu & Hus & Hg & Hc) H IH]; intros Hn cs HT.
  - destruct Hn as (us & Hus & Hn). assert (cs = us) as -> by (eapply Text_fun; eauto).
    rewrite split_on_out by now apply in_chars_false. cbn. repeat constructor. exact Hus.
  - destruct (Text_app_inv _ _ _ _ Hu HT) as (vs & -> & HT').
    destruct (Text_app_inv _ _ _ _ (Text_one _ _ Hg) HT') as (ws & -> & HT'').
    change ([c] ++ ws) with (c :: ws). rewrite split_on_cut.
    + cbn [map fst app]. constructor; [exact Hu|]. now apply IH.
    + now apply in_chars_false.
    + apply existsb_exists. exists c. split; [exact Hc|apply N.eqb_refl].
Qed.

Lemma p_c37_codepoints s cs chars ign : Fits s -> Text s cs ->
  exists parts, Forall2 Text parts (split_on (fun c => existsb (N.eqb c) chars) cs) /\
    split_chars s chars SIZE_MAX ign = Ok (kept ign parts).
Proof.
  intros HF HT. destruct (p_c37_exists s cs chars SIZE_MAX ign HT) as (cuts & rest & HC & HS); [unfold SIZE_MAX; lia|].
  exists (map fst cuts ++ [rest]). split; [|now apply p_c37].
  apply (cuts_split_on chars s); [exact HC| |exact HT].
  destruct HS as [[_ S]|(c & u & g & _ & _ & E)]; [exact S|].
  exfalso. assert (HL := kept_lt_max _ ign _ _ _ (first_char_ne chars) HF HC). rewrite E in HL. lia.
Qed.

(** *** Lines *)
Section Lines.
Variable after : list N.
Notation ffn := (find_first_newline (0 :: after)).

Lemma first_line_ne u g v : first_line_end u g v -> g <> [].
Proof using.
  intros (us & _ & _ & [(c & Hg & _)|(cr & lf & -> & Hg & _)]) E; [subst; inversion Hg|].
  apply app_eq_nil in E. destruct E as [-> _]. inversion Hg.
Qed.
Lemma first_line_ok u g v : Fits (u ++ g ++ v) -> first_line_end u g v -> ffn (u ++ g ++ v) 0 = Ok (Sub (size u) (size g)).
Proof using.
  intros HF (us & Hu & Hus & [(c & Hg & Hc & Hv)|(cr & lf & -> & Hcr & Hlf)]); destruct (p_c18 after []) as (H1 & H2 & _).
  - specialize (H1 u us g c v). cbn [app] in H1. change (size []) with 0 in H1. now apply H1.
  - specialize (H2 u us cr lf v). cbn [app] in H2. change (size []) with 0 in H2. rewrite <- app_assoc in *. now apply H2.
Qed.
Lemma no_line_ok t : no_line_end t -> ffn t 0 = Ok (Sub npos 0).
Proof using.
  intros (us & Hu & Hus). destruct (p_c18 after []) as (_ & _ & H & _).
  specialize (H t us Hu Hus). exact H.
Qed.
Definition bad_line (t : str) : Prop :=
  exists u us, Text u us /\ no_newline us /\
    ((exists r, t = u ++ r /\ Malformed r) \/ exists cr r, t = u ++ cr ++ r /\ uchar cr 0x0D /\ Malformed r).
Lemma bad_line_ok t : Fits t -> bad_line t -> ffn t 0 = Throw YstringException.
Proof using.
  intros HF (u & us & Hu & Hus & [(r & -> & Hr)|(cr & r & -> & Hcr & Hr)]); destruct (p_c18 after []) as (_ & _ & _ & H1 & H2).
  - exact (H1 u us r Hu Hus Hr).
  - exact (H2 u us cr r HF Hu Hus Hcr Hr).
Qed.
Lemma line_cases t : (exists u g v, t = u ++ g ++ v /\ first_line_end u g v) \/ no_line_end t \/ bad_line t.
Proof using.
  destruct (first_where_cases (u32_contains NEWLINES) t) as [(u & us & g & c & v & -> & H1 & H2 & H3 & H4)|[(us & H1 & H2)|(u & us & r & -> & H1 & H2 & H3)]];
    apply no_newline_nonep in H2.
  - apply newline_contains in H4. destruct (N.eq_dec c 0x0D) as [->|Hc].
    + destruct (text_prefix v) as (x & xs & r & -> & HT & Hr).
      inversion HT as [|g' d s' cs' Hg' HT' E1 E2]; subst.
      * cbn [app]. destruct Hr as [->|Hr].
        -- left. exists u, g, []. split; [reflexivity|]. exists us. split; [exact H1|]. split; [exact H2|]. left. exists 0x0D. auto.
        -- right. right. exists u, us. split; [exact H1|]. split; [exact H2|]. right. exists g, r. auto.
      * left. destruct (N.eq_dec d 0x0A) as [->|Hd].
        -- exists u, (g ++ g'), (s' ++ r). split; [now rewrite <- !app_assoc|]. exists us. split; [exact H1|]. split; [exact H2|].
           right. exists g, g'. auto.
        -- exists u, g, ((g' ++ s') ++ r). split; [reflexivity|]. exists us. split; [exact H1|]. split; [exact H2|].
           left. exists 0x0D. split; [exact H3|]. split; [exact H4|]. right. right. exists d, (s' ++ r). split; [exact Hd|].
           exists g'. split; [now rewrite <- app_assoc|exact Hg'].
    + left. exists u, g, v. split; [reflexivity|]. exists us. split; [exact H1|]. split; [exact H2|]. left. exists c. auto.
  - right. left. exists us. auto.
  - right. right. exists u, us. split; [exact H1|]. split; [exact H2|]. left. exists r. auto.
Qed.
Lemma first_line_text u g v : first_line_end u g v -> exists us gs, Text u us /\ Text g gs.
Proof using.
  intros (us & Hu & _ & [(c & Hg & _)|(cr & lf & -> & Hcr & Hlf)]); exists us.
  - exists [c]. split; [exact Hu|now apply Text_one].
  - exists ([0x0D] ++ [0x0A]). split; [exact Hu|]. apply Text_app; now apply Text_one.
Qed.

Lemma p_c38 s n ign cuts rest : Fits s -> Cuts first_line_end s cuts rest ->
  stopped no_line_end ign n cuts rest ->
  split_lines (0 :: after) s n ign = Ok (kept ign (map fst cuts ++ [rest])).
Proof using.
  intros HF HC HS. unfold split_lines. eapply split_stopped; eauto.
  - apply first_line_ne.
  - intros u g v H F. now apply first_line_ok.
  - intros t Ht. exists npos. now apply no_line_ok.
Qed.
Lemma bad_line_not_text t cs : Text t cs -> ~ bad_line t.
Proof using.
  intros HT (u & us & Hu & _ & [(r & -> & [Hr Hm])|(cr & r & -> & Hcr & [Hr Hm])]);
    destruct (Text_app_inv u us _ cs Hu HT) as (vs & _ & HT').
  - inversion HT' as [|g c s' cs' Hg _ E]; subst; [congruence|]. exact (Hm _ _ _ Hg eq_refl).
  - destruct (Text_app_inv cr _ r vs (Text_one _ _ Hcr) HT') as (ws & _ & HT'').
    inversion HT'' as [|g c s' cs' Hg _ E]; subst; [congruence|]. exact (Hm _ _ _ Hg eq_refl).
Qed.
Lemma p_c38_exists s cs n ign : Text s cs -> 1 <= n ->
  exists cuts rest, Cuts first_line_end s cuts rest /\ stopped no_line_end ign n cuts rest.
Proof using.
  intros HT Hn.
  destruct (cuts_limited first_line_end (fun t => no_line_end t \/ bad_line t) ign n s Hn first_line_ne line_cases)
    as (cuts & rest & HC & HS).
  exists cuts, rest. split; [exact HC|].
  destruct HS as [[L [S|S]]|HS]; [left; auto| |right; exact HS].
  exfalso. destruct (Cuts_text _ _ _ _ first_line_text HC cs HT) as [rs Hrs].
  exact (bad_line_not_text _ _ Hrs S).
Qed.
Lemma p_c38_malformed s : (forall cs, ~ Text s cs) -> Fits s -> forall ign, split_lines (0 :: after) s SIZE_MAX ign = Throw YstringException.
Proof using.
  intros HT HF ign.
  destruct (cuts_exist first_line_end (fun t => no_line_end t \/ bad_line t) first_line_ne line_cases s)
    as (cuts & rest & HC & [S|S]).
  - exfalso. destruct S as (us & Hus & _).
    assert (exists cs, Text s cs) as [cs Hcs]; [|exact (HT cs Hcs)]. clear -HC Hus.
    induction HC as [|u g v cuts rest F H IH]; [eauto|].
    destruct (IH Hus) as [vs Hvs]. destruct (first_line_text _ _ _ F) as (x & y & Hx & Hy).
    exists (x ++ y ++ vs). auto using Text_app.
  - unfold split_lines. eapply split_throw; [exact first_line_ne|exact first_line_ok|exact HF|exact HC| |].
    + apply bad_line_ok; [|exact S]. rewrite (Cuts_concat _ _ _ _ HC) in HF. now apply Fits_app_r in HF.
    + eapply kept_lt_max; eauto using first_line_ne.
Qed.
End Lines.

Lemma is_newline_cp_spec c : is_newline_cp c = true <-> newline c.
Proof.
  unfold is_newline_cp, newline. cbn [existsb]. rewrite !orb_true_iff, !N.eqb_eq. intuition congruence.
Qed.
Lemma san_out us : no_newline us -> split_at_newlines us = [us].
Proof.
  unfold no_newline. induction 1 as [|c us Hc H IH]; [reflexivity|]. cbn [split_at_newlines].
  rewrite IH. destruct (is_newline_cp c) eqn:E; [apply is_newline_cp_spec in E; contradiction|reflexivity].
Qed.
Lemma san_prefix us ws x r : no_newline us -> split_at_newlines ws = [] :: r -> x = us -> split_at_newlines (us ++ ws) = x :: r.
Proof.
  intros H E ->. unfold no_newline in H. induction H as [|c us Hc H IH]; [exact E|]. cbn [app split_at_newlines].
  rewrite IH. destruct (is_newline_cp c) eqn:E'; [apply is_newline_cp_spec in E'; contradiction|reflexivity].
Qed.
Lemma cuts_split_lines s cuts rest : Cuts first_line_end s cuts rest -> no_line_end rest -> forall cs, Text s cs ->
  Forall2 Text (map fst cuts ++ [rest]) (split_at_newlines cs).
Proof.
  induction 1 as [s|u g v cuts rest (us & Hu & Hus & Hg) H IH]; intros Hn cs HT.
  - destruct Hn as (us & Hus & Hn). assert (cs = us) as -> by (eapply Text_fun; eauto).
    rewrite san_out by assumption. cbn. repeat constructor. exact Hus.
  - destruct (Text_app_inv _ _ _ _ Hu HT) as (vs & -> & HT').
    destruct Hg as [(c & Hg & Hc & Hv)|(cr & lf & -> & Hcr & Hlf)].
    + destruct (Text_app_inv _ _ _ _ (Text_one _ _ Hg) HT') as (ws & -> & HT'').
      change ([c] ++ ws) with (c :: ws).
      rewrite (san_prefix us (c :: ws) us (split_at_newlines ws) Hus); [|clear IH|reflexivity].
      * cbn [map fst app]. constructor; [exact Hu|]. now apply IH.
      * cbn [split_at_newlines]. rewrite (proj2 (is_newline_cp_spec c) Hc).
        destruct ws as [|d ws]; [reflexivity|].
        assert ((c =? 0x0D) && (d =? 0x0A) = false) as ->; [|reflexivity].
        destruct (N.eqb_spec c 0x0D) as [->|]; [cbn [andb]|reflexivity].
        destruct Hv as [Hv|[Hv|(e & w & He & (g' & Ev & Hg'))]]; [congruence|exfalso; exact (Text_nonempty _ _ _ HT'' Hv)|rewrite Ev in HT''].
        destruct (Text_app_inv _ _ _ _ (Text_one _ _ Hg') HT'') as (zs & E & _).
        apply N.eqb_neq. cbn [app] in E. congruence.
    + destruct (Text_app_inv _ _ _ _ (Text_app _ _ _ _ (Text_one _ _ Hcr) (Text_one _ _ Hlf)) HT') as (ws & -> & HT'').
      rewrite (san_prefix us (([0x0D] ++ [0x0A]) ++ ws) us (split_at_newlines ws) Hus); [|reflexivity|reflexivity].
      cbn [map fst app]. constructor; [exact Hu|]. now apply IH.
Qed.
Lemma p_c38_codepoints after s cs ign : Fits s -> Text s cs ->
  exists parts, Forall2 Text parts (split_at_newlines cs) /\ split_lines (0 :: after) s SIZE_MAX ign = Ok (kept ign parts).
Proof.
  intros HF HT. destruct (p_c38_exists s cs SIZE_MAX ign HT) as (cuts & rest & HC & HS); [unfold SIZE_MAX; lia|].
  exists (map fst cuts ++ [rest]). split; [|now apply p_c38].
  apply (cuts_split_lines s); [exact HC| |exact HT].
  destruct HS as [[_ S]|(c & u & g & _ & _ & E)]; [exact S|].
  exfalso. assert (HL := kept_lt_max _ ign _ _ _ first_line_ne HF HC). rewrite E in HL. lia.
Qed.

(** *** C39 *)
Lemma finds_sep sep : finds_range Sub (fun t => find_first t sep 0).
Proof.
  intros t. destruct sep as [|b sep].
  - left. exists 0. apply (find_first_empty t 0). lia.
  - destruct (sep_cases (b :: sep) t) as [(u & g & v & -> & F)|N]; [discriminate| |].
    + right. right. exists u, g, v. split; [reflexivity|]. split; [destruct F as [-> _]; discriminate|].
      apply first_sep_ok; [discriminate|exact F].
    + left. apply no_sep_ok; [discriminate|exact N].
Qed.
Lemma finds_chars chars : finds_range Sub (fun t => let* p := find_first_of t chars 0 in Ok (fst p)).
Proof.
  intros t. destruct (char_cases chars t) as [(u & g & v & -> & F)|[H|H]].
  - right. right. exists u, g, v. split; [reflexivity|]. split; [eapply first_char_ne; eauto|now apply first_char_ok].
  - left. exists npos. now apply no_char_ok.
  - right. left. exists YstringException. now apply bad_char_ok.
Qed.
Lemma p_c39_sep s sep : Fits s -> split_sep s sep SIZE_MAX true = omap (filter non_empty) (split_sep s sep SIZE_MAX false).
Proof. intros HF. apply (split_where_ignore (fun t => find_first t sep 0) s); [apply finds_sep|exact HF]. Qed.
Lemma p_c39_chars s chars : Fits s -> split_chars s chars SIZE_MAX true = omap (filter non_empty) (split_chars s chars SIZE_MAX false).
Proof. intros HF. apply (split_where_ignore (fun t => let* p := find_first_of t chars 0 in Ok (fst p)) s); [apply finds_chars|exact HF]. Qed.
(** *** C40 *)
Lemma p_c39_limit s sep n ign cuts rest : sep <> [] -> Fits s -> Cuts (first_sep sep) s cuts rest ->
  stopped (fun t => forall i, ~ occurs_at sep t i) ign n cuts rest ->
  split_sep s sep n ign = Ok (kept ign (map fst cuts ++ [rest])).
Proof.
  intros Hs HF HC HS. unfold split_sep. eapply split_stopped; eauto.
  - intros u g v [-> _]. exact Hs.
  - intros u g v _ F. now apply first_sep_ok.
  - intros t Ht. apply no_sep_ok; assumption.
Qed.
