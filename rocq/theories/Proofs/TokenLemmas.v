(** C40 *)
From Verif Require Import Base Spec.Strings Spec.Split Spec.Tokens
  Model.Subrange Model.Split Proofs.SearchLemmas Proofs.SplitLemmas.

Lemma run_ready finder s t v tokens : Fits s -> TokenRun finder s t v tokens ->
  ready t v /\ s = concat (map (fun p => fst p ++ snd p) tokens) ++ v.
Proof.
  intros HF. induction 1 as [|t t' u g v tokens HT [HR IH] Hf Hg Hn].
  - split; [left; reflexivity|reflexivity].
  - rewrite (next_found finder t u g v HR Hg Hf) in Hn. injection Hn as <-.
    split.
    + right. exists u, g. split; [exact Hg|]. split; [|reflexivity]. rewrite IH in HF. now apply Fits_app_r in HF.
    + rewrite map_app, concat_app. cbn [map concat fst snd]. rewrite app_nil_r, <- !app_assoc. exact IH.
Qed.

Lemma token_found u g v : g <> [] -> Fits (u ++ g ++ v) ->
  ti_get_token (TI (u ++ g ++ v) (Sub (size u) (size g))) = Ok (firstn (length u + length g) (g ++ v)).
Proof.
  intros Hg HF. unfold ti_get_token. cbn [ti_token ti_str]. rewrite sub_bool_ne by exact Hg. cbn [negb].
  rewrite (sub_end_fits u g v HF). unfold substr. cbn [sub_start sub_offset].
  rewrite (proj2 (N.ltb_ge _ _)) by (unfold size; rewrite !app_length; lia).
  f_equal. unfold size. rewrite Nnat.Nat2N.id, CodepointLemmas.skipn_length_app, !app_length.
  destruct (Nat.le_ge_cases (length u + length g) (length g + length v)) as [L|L].
  - f_equal. lia.
  - rewrite !firstn_all2; [reflexivity| |]; rewrite app_length; lia.
Qed.

Lemma p_c40 finder s t v tokens : Fits s -> TokenRun finder s t v tokens ->
  s = concat (map (fun p => fst p ++ snd p) tokens) ++ v /\
  (forall u g w, v = u ++ g ++ w -> g <> [] -> finder v = Ok (Sub (size u) (size g)) ->
     exists t', ti_next finder t = Ok (true, t') /\ ti_bool t' = true /\
       ti_part t' = Ok u /\ ti_remainder t' = Ok w /\ TokenRun finder s t' w (tokens ++ [(u, g)])) /\
  (forall o, finder v = Ok (Sub o 0) ->
     exists t', ti_next finder t = Ok (true, t') /\ ti_bool t' = false /\
       ti_part t' = Ok v /\ ti_get_token t' = Ok [] /\ ti_remainder t' = Ok [] /\
       ti_next finder t' = Ok (false, t')) /\
  (forall e, finder v = Throw e -> ti_next finder t = Throw e).
Proof.
  intros HF HT. destruct (run_ready _ _ _ _ _ HF HT) as [HR HE].
  split; [exact HE|]. split; [|split].
  - intros u g w -> Hg Hf. exists (TI (u ++ g ++ w) (Sub (size u) (size g))).
    assert (HF' : Fits (u ++ g ++ w)) by (rewrite HE in HF; now apply Fits_app_r in HF).
    assert (HN := next_found finder t u g w HR Hg Hf).
    split; [exact HN|]. split; [unfold ti_bool; cbn [ti_token]; now apply sub_bool_ne|].
    split; [now apply part_found|]. split; [now apply remainder_found|]. now apply run_next with (t := t).
  - intros o Hf. exists (TI v (Sub SIZE_MAX 0)). rewrite (next_none finder t v o HR Hf).
    split; [reflexivity|]. do 3 (split; [reflexivity|]). split; reflexivity.
  - intros e Hf. exact (next_throw finder t v e HR Hf).
Qed.

Lemma p_c40_token finder s t v tokens u g w t' : Fits s -> TokenRun finder s t v tokens ->
  v = u ++ g ++ w -> g <> [] -> finder v = Ok (Sub (size u) (size g)) -> ti_next finder t = Ok (true, t') ->
  ti_get_token t' = Ok (firstn (length u + length g) (g ++ w)).
Proof.
  intros HF HT -> Hg Hf Hn. destruct (run_ready _ _ _ _ _ HF HT) as [HR HE].
  rewrite (next_found finder t u g w HR Hg Hf) in Hn. injection Hn as <-.
  apply token_found; [exact Hg|]. rewrite HE in HF. now apply Fits_app_r in HF.
Qed.
Lemma p_c40_token_ok finder s t v tokens u g w t' : Fits s -> TokenRun finder s t v tokens ->
  v = u ++ g ++ w -> g <> [] -> finder v = Ok (Sub (size u) (size g)) -> ti_next finder t = Ok (true, t') ->
  u = [] \/ w = [] -> ti_get_token t' = Ok g.
Proof.
  intros HF HT E Hg Hf Hn Huw. rewrite (p_c40_token _ _ _ _ _ _ _ _ _ HF HT E Hg Hf Hn). f_equal.
  destruct Huw as [-> | ->].
  - cbn [length plus]. apply CodepointLemmas.firstn_length_app.
  - rewrite app_nil_r. apply firstn_all2. lia.
Qed.
Lemma p_c40_token_bad finder s t v tokens u g w t' : Fits s -> TokenRun finder s t v tokens ->
  v = u ++ g ++ w -> g <> [] -> finder v = Ok (Sub (size u) (size g)) -> ti_next finder t = Ok (true, t') ->
  u <> [] -> w <> [] -> exists x, ti_get_token t' = Ok (g ++ x) /\ x <> [].
Proof.
  intros HF HT E Hg Hf Hn Hu Hw. rewrite (p_c40_token _ _ _ _ _ _ _ _ _ HF HT E Hg Hf Hn).
  exists (firstn (length u) w). split.
  - f_equal. rewrite firstn_app. rewrite firstn_all2 by lia. f_equal. f_equal. lia.
  - destruct u; [congruence|]. destruct w; [congruence|]. discriminate.
Qed.

Lemma p_c40_remainder finder s t v tokens : Fits s -> TokenRun finder s t v tokens ->
  ti_remainder t = Ok v /\ (tokens = [] -> ti_bool t = false /\ ti_part t = Ok [] /\ ti_get_token t = Ok []).
Proof.
  intros HF HT. inversion HT; subst.
  - split; [|intros _; repeat split; reflexivity]. change (substr_from v 0 = Ok v). unfold substr_from, substr. rewrite (proj2 (N.ltb_ge (size v) 0)) by lia.
    f_equal. change (skipn (N.to_nat 0) v) with v. apply firstn_all2. unfold Fits, npos, SIZE_MAX, PTRDIFF_MAX, size in *. lia.
  - split; [|intros E; now destruct tokens0]. destruct (p_c40 finder s t0 (u ++ g ++ v) tokens0 HF H) as (_ & K & _).
    destruct (K u g v eq_refl H1 H0) as (t2 & E & _ & _ & R & _). rewrite H2 in E. injection E as E. now rewrite E.
Qed.
