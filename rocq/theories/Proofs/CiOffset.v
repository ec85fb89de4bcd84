(** Case-insensitive searches from an offset: C97, C98. *)
From Verif Require Import Base Spec.Utf8Spec Spec.Strings Spec.Safety Spec.Offsets Model.Decode Model.Encode Model.Subrange Model.Search
  Model.CharClass Model.ConvertCase Model.CaseInsensitive Proofs.Utf8Lemmas Proofs.SearchLemmas Proofs.SafeLemmas Proofs.SafeLemmas2 Proofs.SafeLemmas3 Proofs.SafeLemmas4
  Proofs.SafeProps Proofs.OffsetLemmas Proofs.OffsetProps Proofs.CaseRelate Proofs.CiSimLemmas.

Lemma min_split (t post : str) o : N.min o (size (t ++ post)) = size t -> o = size t \/ (post = [] /\ size t <= o).
Proof.
  intros H. destruct (N.le_gt_cases o (size (t ++ post))) as [L|L]; [left; lia|right].
  rewrite N.min_r in H by lia. unfold size in *. rewrite app_length in *. destruct post; [|cbn [length] in H; lia]. cbn [length] in *. split; [reflexivity|lia].
Qed.
Lemma last_offset t post p o : Fits t -> N.min o (size (t ++ post)) = size t ->
  find_last (t ++ post) p o = find_last t p npos /\ ci_find_last (t ++ post) p o = ci_find_last t p npos.
Proof.
  intros HF H. assert (size t <= npos) as HN by (unfold Fits in HF; unfold npos, SIZE_MAX, W64; lia).
  destruct (p_c102_beyond t npos HN) as (B1 & _ & _ & _ & B2 & _). rewrite B1, B2.
  destruct (min_split t post o H) as [->|[-> L]].
  - split; [apply (p_c102_backward t post (size t)); lia|apply (p_c102_backward_ci t post (size t)); lia].
  - rewrite app_nil_r. destruct (p_c102_beyond t o L) as (C1 & _ & _ & _ & C2 & _). now rewrite C1, C2.
Qed.
Lemma cut_range t r u m : Fits t -> inside t r -> sub_bool r = true -> substr t 0 (sub_start r) = Ok u -> substr t (sub_start r) (sub_length r) = Ok m ->
  exists v, t = u ++ m ++ v /\ r = Sub (size u) (size m).
Proof.
  intros HF HI HB E1 E2. unfold sub_bool in HB. destruct HI as [HI|HI]; [rewrite HI in HB; discriminate HB|].
  destruct r as [o n]. unfold sub_start in *. cbn [sub_offset sub_length] in *. unfold substr in *.
  replace (size t <? 0) with false in E1 by lia. replace (size t <? o) with false in E2 by lia. injection E1 as <-. injection E2 as <-.
  rewrite N.sub_0_r, !N.min_l by lia. change (N.to_nat 0) with 0%nat. cbn [skipn].
  exists (skipn (N.to_nat n) (skipn (N.to_nat o) t)). split; [now rewrite !firstn_skipn|].
  unfold size in *. rewrite !firstn_length, skipn_length. f_equal; lia.
Qed.
Definition Found (t t' : str) (r r' : subrange) (k k' : N) : Prop :=
  sub_bool r = sub_bool r' /\
  (sub_bool r = true -> exists u m v u' m' v', t = u ++ m ++ v /\ t' = u' ++ m' ++ v' /\ ci_equal u u' = Ok true /\ ci_equal m m' = Ok true /\
     r = Sub (k + size u) (size m) /\ r' = Sub (k' + size u') (size m')).
Lemma moved_bool k r : sub_bool (moved k r) = sub_bool r.
Proof. unfold moved. destruct (sub_offset r =? npos); reflexivity. Qed.
Lemma moved_sub k (u m v : str) t : Fits t -> t = u ++ m ++ v -> moved k (Sub (size u) (size m)) = Sub (k + size u) (size m).
Proof.
  intros HF ->. unfold moved. cbn [sub_offset sub_length]. destruct (N.eqb_spec (size u) npos) as [E|E]; [|reflexivity].
  unfold Fits, size in *. rewrite app_length in HF. unfold npos, SIZE_MAX, W64 in E. lia.
Qed.
Lemma Fits_tail (pre t : str) : Fits (pre ++ t) -> Fits t.
Proof. unfold Fits, size. rewrite app_length. lia. Qed.
Lemma Fits_head (pre t : str) : Fits (pre ++ t) -> Fits pre.
Proof. unfold Fits, size. rewrite app_length. lia. Qed.
Lemma p_c97_from pre t pre' t' p ps : Fits (pre ++ t) -> Fits (pre' ++ t') -> ci_equal t t' = Ok true -> Text p ps -> exists r r',
  ci_find_first (pre ++ t) p (size pre) = Ok r /\ ci_find_first (pre' ++ t') p (size pre') = Ok r' /\ Found t t' r r' (size pre) (size pre').
Proof.
  intros HF HF' HE HP. pose proof (Fits_tail _ _ HF) as Ht. pose proof (Fits_tail _ _ HF') as Ht'.
  destruct (p_c97_found t t' p ps HE HP) as (r & r' & E1 & E2 & HB & K).
  pose proof (proj1 (p_c102_forward_ci pre t 0 HF) p) as M. pose proof (proj1 (p_c102_forward_ci pre' t' 0 HF') p) as M'.
  rewrite N.add_0_r in M, M'. rewrite E1 in M. rewrite E2 in M'. cbn [moved_result omap] in M, M'.
  eexists _, _. split; [exact M|]. split; [exact M'|]. split; [now rewrite !moved_bool|]. rewrite moved_bool. intros HT.
  destruct (K HT) as (u & u' & m & m' & S1 & S2 & A1 & S3 & S4 & A2).
  pose proof (ci_find_first_runs False t p 0 ltac:(lia)) as R. rewrite E1 in R. cbn [runs] in R.
  pose proof (ci_find_first_runs False t' p 0 ltac:(lia)) as R'. rewrite E2 in R'. cbn [runs] in R'.
  destruct (cut_range t r u m Ht (proj1 R) HT S1 S3) as (v & Dt & Dr).
  destruct (cut_range t' r' u' m' Ht' (proj1 R') ltac:(congruence) S2 S4) as (v' & Dt' & Dr').
  exists u, m, v, u', m', v'. repeat (split; [assumption|]). rewrite Dr, Dr'. split; [now apply (moved_sub _ u m v t)|now apply (moved_sub _ u' m' v' t')].
Qed.
Lemma p_c97_before t post t' post' p ps o o' : Fits t -> Fits t' -> N.min o (size (t ++ post)) = size t -> N.min o' (size (t' ++ post')) = size t' ->
  ci_equal t t' = Ok true -> Text p ps -> exists r r',
  ci_find_last (t ++ post) p o = Ok r /\ ci_find_last (t' ++ post') p o' = Ok r' /\ Found t t' r r' 0 0.
Proof.
  intros Ht Ht' Ho Ho' HE HP. rewrite (proj2 (last_offset t post p o Ht Ho)), (proj2 (last_offset t' post' p o' Ht' Ho')).
  destruct (p_c97_found_last t t' p ps Ht Ht' HE HP) as (r & r' & E1 & E2 & HB & K).
  exists r, r'. repeat (split; [assumption|]). intros HT. destruct (K HT) as (u & u' & m & m' & S1 & S2 & A1 & S3 & S4 & A2).
  assert (IN : forall x rx, Fits x -> ci_find_last x p npos = Ok rx -> inside x rx).
  { intros x rx Hx Ex. pose proof (ci_find_last_runs x p npos) as R. rewrite Ex in R. cbn [runs] in R. exact (proj1 R). }
  destruct (cut_range t r u m Ht (IN _ _ Ht E1) HT S1 S3) as (v & Dt & Dr).
  destruct (cut_range t' r' u' m' Ht' (IN _ _ Ht' E2) ltac:(congruence) S2 S4) as (v' & Dt' & Dr').
  exists u, m, v, u', m', v'. repeat (split; [assumption|]). rewrite !N.add_0_l. auto.
Qed.
Lemma p_c98_last_offset t post cs p ps o r : Text t cs -> Text p ps -> p <> [] -> Fits t -> N.min o (size (t ++ post)) = size t ->
  find_last (t ++ post) p o = Ok r -> sub_bool r = true ->
  exists r', ci_find_last (t ++ post) p o = Ok r' /\ sub_bool r' = true /\ sub_start r <= sub_start r'.
Proof.
  intros HT HP Hp HF Ho. destruct (last_offset t post p o HF Ho) as [-> ->]. now apply (p_c98_last t cs p ps).
Qed.
