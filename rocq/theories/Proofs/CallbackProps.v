(** What the callbacks are asked. *)
From Verif Require Import Base Model.Decode Model.Subrange Model.Search Model.Split Model.Callbacks.
From Verif Require Import Spec.Utf8Spec Spec.Strings Spec.Split Spec.Calls.
From Verif Require Import Proofs.Utf8Lemmas Proofs.DecodeLemmas Proofs.EncodeLemmas Proofs.CodepointLemmas Proofs.SearchLemmas
  Proofs.SplitLemmas Proofs.CallbackLemmas.

Section Where.
Context {I X : Type} (pred : N -> fx (I * X) bool).

Lemma first_enter pre t i x : find_first_where_cb (pre ++ t) pred i (size pre) x
  = let (o, p) := find_first_where_cb_loop (S (length (pre ++ t))) (pre ++ t) pred (length pre) (length pre) (i, x) in (o, snd p).
Proof.
  unfold find_first_where_cb, by_value, fx_bind, fx_lift. unfold size.
  rewrite begin_plus_ok by (rewrite app_length; lia). destruct (find_first_where_cb_loop _ _ _ _ _ _) as [[| | |] p]; reflexivity.
Qed.

Lemma first_after pre u us r i x i1 x1 : Text u us -> Answers pred false (i, x) us (i1, x1) ->
  exists k, find_first_where_cb (pre ++ u ++ r) pred i (size pre) x
  = let (o, p) := find_first_where_cb_loop (S k) ((pre ++ u) ++ r) pred (length (pre ++ u)) (length (pre ++ u)) (i1, x1) in (o, snd p).
Proof.
  intros HT HA. pose proof (Text_length _ _ HT) as HL. rewrite first_enter.
  rewrite (ffc_loop pred us pre u r _ (i, x) (i1, x1) HT HA) by (rewrite !app_length; lia).
  exists (length (pre ++ u ++ r) - length us)%nat. replace (S (length (pre ++ u ++ r)) - length us)%nat with (S (length (pre ++ u ++ r) - length us)) by (rewrite !app_length; lia).
  reflexivity.
Qed.

Lemma p_first pre u us i x i1 x1 : Text u us -> Answers pred false (i, x) us (i1, x1) ->
  (forall g c v i2 x2, uchar g c -> pred c (i1, x1) = (Ok true, (i2, x2)) ->
     find_first_where_cb (pre ++ u ++ g ++ v) pred i (size pre) x = (Ok (Sub (size (pre ++ u)) (size g), c), x2)) /\
  (forall g c v e i2 x2, uchar g c -> pred c (i1, x1) = (Throw e, (i2, x2)) ->
     find_first_where_cb (pre ++ u ++ g ++ v) pred i (size pre) x = (Throw e, x2)) /\
  find_first_where_cb (pre ++ u) pred i (size pre) x = (Ok (Sub npos 0, INVALID_CHAR), x1) /\
  (forall r, Malformed r -> find_first_where_cb (pre ++ u ++ r) pred i (size pre) x = (Throw YstringException, x1)).
Proof.
  intros HT HA. repeat split.
  - intros g c v i2 x2 Hg Hc. destruct (first_after pre u us (g ++ v) i x i1 x1 HT HA) as (k & ->).
    rewrite ffc_step with (c := c) by exact Hg. unfold fx_bind. rewrite Hc. reflexivity.
  - intros g c v e i2 x2 Hg Hc. destruct (first_after pre u us (g ++ v) i x i1 x1 HT HA) as (k & ->).
    rewrite ffc_step with (c := c) by exact Hg. unfold fx_bind. rewrite Hc. reflexivity.
  - rewrite <- (app_nil_r u) at 1. destruct (first_after pre u us [] i x i1 x1 HT HA) as (k & ->).
    cbn [find_first_where_cb_loop]. unfold fx_bind, fx_lift. rewrite app_nil_r, safe_decode_next_end. reflexivity.
  - intros r Hr. destruct (first_after pre u us r i x i1 x1 HT HA) as (k & ->).
    cbn [find_first_where_cb_loop]. unfold fx_bind, fx_lift. rewrite safe_decode_next_malformed by exact Hr. reflexivity.
Qed.

Lemma last_after pre u us post o i x i1 x1 : N.min o (size (pre ++ u ++ post)) = size (pre ++ u) ->
  Text u us -> Answers pred false (i, x) (rev us) (i1, x1) ->
  exists k, find_last_where_cb (pre ++ u ++ post) pred i o x
  = let (o, p) := find_last_where_cb_loop (S k) (pre ++ u ++ post) pred (length pre) (length pre) (i1, x1) in (o, snd p).
Proof.
  intros Ho HT HA. pose proof (Text_length _ _ HT) as HL.
  unfold find_last_where_cb, by_value, fx_bind at 1, fx_lift at 1. rewrite Ho. unfold size.
  rewrite begin_plus_ok by (rewrite !app_length; lia).
  exists (length (pre ++ u ++ post) - length us)%nat.
  replace (S (length (pre ++ u ++ post) - length us)) with (S (length (pre ++ u ++ post)) - length us)%nat by (rewrite !app_length; lia).
  rewrite <- (flc_loop pred u us HT pre post _ (i, x) (i1, x1) HA) by (rewrite !app_length; lia).
  rewrite <- !app_assoc. reflexivity.
Qed.

Lemma p_last u us post o i x i1 x1 : Text u us -> Answers pred false (i, x) (rev us) (i1, x1) ->
  (forall pre g c i2 x2, N.min o (size (pre ++ g ++ u ++ post)) = size (pre ++ g ++ u) -> uchar g c ->
     pred c (i1, x1) = (Ok true, (i2, x2)) ->
     find_last_where_cb (pre ++ g ++ u ++ post) pred i o x = (Ok (Sub (size pre) (size g), c), x2)) /\
  (forall pre g c e i2 x2, N.min o (size (pre ++ g ++ u ++ post)) = size (pre ++ g ++ u) -> uchar g c ->
     pred c (i1, x1) = (Throw e, (i2, x2)) -> find_last_where_cb (pre ++ g ++ u ++ post) pred i o x = (Throw e, x2)) /\
  (N.min o (size (u ++ post)) = size u ->
     find_last_where_cb (u ++ post) pred i o x = (Ok (Sub npos 0, INVALID_CHAR), x1)) /\
  (forall r, N.min o (size (r ++ u ++ post)) = size (r ++ u) -> MalformedEnd r -> ~ long_cont_tail r ->
     find_last_where_cb (r ++ u ++ post) pred i o x = (Throw YstringException, x1)).
Proof.
  intros HT HA. repeat split.
  - intros pre g c i2 x2 Ho Hg Hc. rewrite !app_assoc in Ho. rewrite <- (app_assoc (pre ++ g)) in Ho.
    destruct (last_after (pre ++ g) u us post o i x i1 x1 Ho HT HA) as (k & E). rewrite <- !app_assoc in E. rewrite E. clear E.
    rewrite flc_step with (c := c) by exact Hg. unfold fx_bind. rewrite Hc. reflexivity.
  - intros pre g c e i2 x2 Ho Hg Hc. rewrite !app_assoc in Ho. rewrite <- (app_assoc (pre ++ g)) in Ho.
    destruct (last_after (pre ++ g) u us post o i x i1 x1 Ho HT HA) as (k & E). rewrite <- !app_assoc in E. rewrite E. clear E.
    rewrite flc_step with (c := c) by exact Hg. unfold fx_bind. rewrite Hc. reflexivity.
  - intros Ho. destruct (last_after [] u us post o i x i1 x1 Ho HT HA) as (k & E). cbn [app] in E. rewrite E. reflexivity.
  - intros r Ho Hr HL. destruct (last_after r u us post o i x i1 x1 Ho HT HA) as (k & ->).
    cbn [find_last_where_cb_loop]. unfold fx_bind, fx_lift. rewrite safe_decode_prev_malformed by assumption. reflexivity.
Qed.
End Where.

(** ** trim *)
Section Trim.
Context {I X : Type} (pred : N -> fx (I * X) bool).
Lemma not_answers us : forall st st', Answers pred true st us st' -> Answers (not_pred pred) false (tt, st) us (tt, st').
Proof.
  induction us as [|c us IH]; intros st st' H; inversion H as [|? ? x1 ? ? Hc HA]; subst; [constructor|].
  apply answers_cons with (tt, x1); [|now apply IH]. unfold not_pred, fx_bind. cbn [snd fst]. rewrite Hc. reflexivity.
Qed.
Lemma not_false c st st' : pred c st = (Ok false, st') -> not_pred pred c (tt, st) = (Ok true, (tt, st')).
Proof. intros H. unfold not_pred, fx_bind. cbn [snd fst]. rewrite H. reflexivity. Qed.
Lemma not_throw c st st' e : pred c st = (Throw e, st') -> not_pred pred c (tt, st) = (Throw e, (tt, st')).
Proof. intros H. unfold not_pred, fx_bind. cbn [snd fst]. rewrite H. reflexivity. Qed.

Lemma p_trim_start u us i x i1 x1 : Text u us -> Answers pred true (i, x) us (i1, x1) ->
  (forall g c v i2 x2, Fits (u ++ g ++ v) -> uchar g c -> pred c (i1, x1) = (Ok false, (i2, x2)) ->
     trim_start_where_cb (u ++ g ++ v) pred i x = (Ok (g ++ v), x2)) /\
  (forall g c v e i2 x2, uchar g c -> pred c (i1, x1) = (Throw e, (i2, x2)) ->
     trim_start_where_cb (u ++ g ++ v) pred i x = (Throw e, x2)) /\
  trim_start_where_cb u pred i x = (Ok [], x1) /\
  (forall r, Malformed r -> trim_start_where_cb (u ++ r) pred i x = (Throw YstringException, x1)).
Proof.
  intros HT HA. destruct (p_first (not_pred pred) [] u us tt (i, x) tt (i1, x1) HT (not_answers us _ _ HA)) as (H1 & H2 & H3 & H4).
  cbn [app] in *. change (size []) with 0 in *.
  repeat split.
  - intros g c v i2 x2 HF Hg Hc. unfold trim_start_where_cb, by_value, fx_bind at 1.
    rewrite (H1 g c v tt (i2, x2) Hg) by now apply not_false. unfold fx_lift. cbn [snd fst]. f_equal.
    rewrite (sub_bool_uchar _ _ _ Hg). cbn [negb sub_start sub_offset]. now apply substr_from_app.
  - intros g c v e i2 x2 Hg Hc. unfold trim_start_where_cb, by_value, fx_bind at 1.
    rewrite (H2 g c v e tt (i2, x2) Hg) by now apply not_throw. reflexivity.
  - unfold trim_start_where_cb, by_value, fx_bind at 1. rewrite H3. reflexivity.
  - intros r Hr. unfold trim_start_where_cb, by_value, fx_bind at 1. rewrite (H4 r Hr). reflexivity.
Qed.

Lemma p_trim_end u us i x i1 x1 : Text u us -> Answers pred true (i, x) (rev us) (i1, x1) ->
  (forall v g c i2 x2, Fits (v ++ g ++ u) -> uchar g c -> pred c (i1, x1) = (Ok false, (i2, x2)) ->
     trim_end_where_cb (v ++ g ++ u) pred i x = (Ok (v ++ g), x2)) /\
  (forall v g c e i2 x2, Fits (v ++ g ++ u) -> uchar g c -> pred c (i1, x1) = (Throw e, (i2, x2)) ->
     trim_end_where_cb (v ++ g ++ u) pred i x = (Throw e, x2)) /\
  (Fits u -> trim_end_where_cb u pred i x = (Ok [], x1)) /\
  (forall r, Fits (r ++ u) -> MalformedEnd r -> ~ long_cont_tail r ->
     trim_end_where_cb (r ++ u) pred i x = (Throw YstringException, x1)).
Proof.
  intros HT HA.
  destruct (p_last (not_pred pred) u us [] npos tt (i, x) tt (i1, x1) HT (not_answers (rev us) _ _ HA)) as (H1 & H2 & H3 & H4).
  rewrite !app_nil_r in *.
  repeat split.
  - intros v g c i2 x2 HF Hg Hc. unfold trim_end_where_cb, by_value, fx_bind at 1.
    specialize (H1 v g c tt (i2, x2)).
    rewrite H1; [|now apply min_npos|exact Hg|now apply not_false]. unfold fx_lift. cbn [snd fst]. f_equal.
    rewrite (sub_bool_uchar _ _ _ Hg). cbn [negb]. unfold sub_end. cbn [sub_offset sub_length].
    rewrite add64_small by (unfold Fits, size, W64 in *; rewrite !app_length in HF; lia).
    rewrite app_assoc. apply substr_prefix. unfold size. rewrite app_length. lia.
  - intros v g c e i2 x2 HF Hg Hc. unfold trim_end_where_cb, by_value, fx_bind at 1.
    specialize (H2 v g c e tt (i2, x2)).
    rewrite H2; [|now apply min_npos|exact Hg|now apply not_throw]. reflexivity.
  - intros HF. unfold trim_end_where_cb, by_value, fx_bind at 1.
    rewrite H3 by now apply min_npos. reflexivity.
  - intros r HF Hr HL. unfold trim_end_where_cb, by_value, fx_bind at 1.
    specialize (H4 r). rewrite H4; [reflexivity|now apply min_npos|exact Hr|exact HL].
Qed.

(** Both ends: the passes follow each other, each with a copy of the predicate. *)
Lemma p_trim s i x : (forall t x1, trim_start_where_cb s pred i x = (Ok t, x1) ->
    trim_where_cb s pred i x = trim_end_where_cb t pred i x1) /\
  (forall e x1, trim_start_where_cb s pred i x = (Throw e, x1) -> trim_where_cb s pred i x = (Throw e, x1)).
Proof. unfold trim_where_cb, fx_bind. split; intros ? ? ->; reflexivity. Qed.

(** Every predicate and text is in one of the cases. *)
Lemma answers_cases b : answers_or_throws pred -> forall cs st,
  (exists st', Answers pred b st cs st') \/
  (exists us c vs st1 st2, cs = us ++ c :: vs /\ Answers pred b st us st1 /\
     (pred c st1 = (Ok (negb b), st2) \/ exists e, pred c st1 = (Throw e, st2))).
Proof.
  intros H. induction cs as [|c cs IH]; intros st; [left; exists st; constructor|].
  destruct (H c st) as [(b' & st1 & E)|(e & st1 & E)].
  - destruct (Bool.bool_dec b' b) as [->|D].
    + destruct (IH st1) as [(st' & HA)|(us & d & vs & st2 & st3 & -> & HA & HE)].
      * left. exists st'. now apply answers_cons with st1.
      * right. exists (c :: us), d, vs, st2, st3. split; [reflexivity|]. split; [now apply answers_cons with st1|exact HE].
    + right. exists [], c, cs, st, st1. split; [reflexivity|]. split; [constructor|]. left.
      rewrite E. destruct b', b; try reflexivity; now contradiction D.
  - right. exists [], c, cs, st, st1. split; [reflexivity|]. split; [constructor|]. right. now exists e.
Qed.
End Trim.

(** ** split_where *)
Section Split.
Context {X : Type} (finder : str -> fx X subrange).

Lemma next_cb_ready t v x : ready t v ->
  ti_next_cb finder t x =
    match finder v x with
    | (Ok tok, x') => (Ok true, (TI v (if negb (sub_bool tok) then Sub SIZE_MAX (sub_length tok) else tok), x'))
    | (Throw e, x') => (Throw e, (TI v (ti_token t), x'))
    | (UB, x') => (UB, (TI v (ti_token t), x'))
    | (OutOfFuel, x') => (OutOfFuel, (TI v (ti_token t), x'))
    end.
Proof.
  intros [->|(u & g & Hg & HF & ->)]; unfold ti_next_cb; cbn [ti_str ti_token]; [reflexivity|].
  rewrite sub_bool_ne by exact Hg. rewrite (sub_end_fits u g v HF), app_assoc, substr_from_app; [reflexivity|reflexivity|].
  now rewrite <- app_assoc.
Qed.

Lemma Finds_concat x s cuts rest x' : Finds finder x s cuts rest x' ->
  s = concat (map (fun p => fst p ++ snd p) cuts) ++ rest.
Proof.
  induction 1 as [|x u g v x1 cuts rest x2 Hg F H IH]; [reflexivity|].
  cbn [map concat fst snd]. rewrite <- !app_assoc. now rewrite <- IH.
Qed.
Lemma Finds_length x s cuts rest x' : Finds finder x s cuts rest x' -> (length cuts + length rest <= length s)%nat.
Proof.
  induction 1 as [|x u g v x1 cuts rest x2 Hg F H IH]; [cbn; lia|].
  destruct g; [congruence|]. rewrite !app_length. cbn [length]. lia.
Qed.
Lemma Finds_snoc c : forall u g x s rest x', Finds finder x s (c ++ [(u, g)]) rest x' ->
  exists x1, Finds finder x s c (u ++ g ++ rest) x1 /\ g <> [] /\ finder (u ++ g ++ rest) x1 = (Ok (Sub (size u) (size g)), x').
Proof.
  induction c as [|[u' g'] c IH]; intros u g x s rest x' H.
  - inversion H as [|? ? ? v x1 ? ? ? Hg F H']; subst. inversion H'; subst.
    exists x. split; [constructor|]. auto.
  - inversion H as [|? ? ? v x1 ? ? ? Hg F H']; subst. destruct (IH _ _ _ _ _ _ H') as (x3 & H1 & H2 & H3).
    exists x3. split; [now apply finds_cons with x1|auto].
Qed.

Lemma cb_loop_cuts max ign x s cuts rest x' : Finds finder x s cuts rest x' -> forall t res fuel,
  Fits s -> ready t s -> N.of_nat (length res) + N.of_nat (length (kept ign (map fst cuts))) < max ->
  exists t', ready t' rest /\
    split_cb_loop (length cuts + fuel) finder max ign res (t, x) = split_cb_loop fuel finder max ign (res ++ kept ign (map fst cuts)) (t', x').
Proof.
  induction 1 as [x s|x u g v x1 cuts rest x2 Hg F H IH]; intros t res fuel HF HR Hm.
  - exists t. split; [exact HR|]. cbn [map]. replace (kept ign []) with (@nil str) by (destruct ign; reflexivity).
    rewrite app_nil_r. reflexivity.
  - change (map fst ((u, g) :: cuts)) with ([u] ++ map fst cuts) in *.
    rewrite kept_app, app_length in Hm.
    destruct (IH (TI (u ++ g ++ v) (Sub (size u) (size g))) (res ++ kept ign [u]) fuel) as (t' & HR' & E).
    + apply Fits_app_r with (u := u ++ g). now rewrite <- app_assoc.
    + right. exists u, g. auto.
    + rewrite app_length. lia.
    + exists t'. split; [exact HR'|]. cbn [length plus split_cb_loop].
      rewrite (proj2 (N.ltb_lt _ _)) by lia. unfold fx_bind. cbn [fst snd].
      rewrite (next_cb_ready t _ x HR), F. rewrite sub_bool_ne by exact Hg. cbn [negb fst].
      rewrite part_found by exact Hg. rewrite kept_push, kept_app. rewrite <- (app_assoc res) in E. exact E.
Qed.
End Split.

Section SplitWhere.
Context {I X : Type} (finder : str -> fx (I * X) subrange).

Lemma p_split max ign s cuts rest i x i1 x1 : Fits s -> Finds finder (i, x) s cuts rest (i1, x1) ->
  N.of_nat (length (kept ign (map fst cuts))) < max ->
  (forall o i2 x2, finder rest (i1, x1) = (Ok (Sub o 0), (i2, x2)) ->
     split_where_cb s finder i max ign x = (Ok (kept ign (map fst cuts ++ [rest])), x2)) /\
  (forall e i2 x2, finder rest (i1, x1) = (Throw e, (i2, x2)) -> split_where_cb s finder i max ign x = (Throw e, x2)) /\
  (forall u g v i2 x2, rest = u ++ g ++ v -> g <> [] -> finder rest (i1, x1) = (Ok (Sub (size u) (size g)), (i2, x2)) ->
     N.of_nat (length (kept ign (map fst cuts ++ [u]))) = max ->
     split_where_cb s finder i max ign x = (Ok (kept ign (map fst cuts ++ [u; v])), x2)).
Proof.
  intros HF HC Hm. unfold split_where_cb.
  assert (HL := Finds_length _ _ _ _ _ _ HC).
  replace (S (S (length s))) with (length cuts + (S (S (length s - length cuts))))%nat by lia.
  destruct (cb_loop_cuts finder max ign (i, x) s cuts rest (i1, x1) HC (ti_init s) [] (S (S (length s - length cuts))) HF) as (t' & HR & ->).
  { left. reflexivity. }
  { cbn [length]. lia. }
  assert (HFr : Fits rest) by (rewrite (Finds_concat _ _ _ _ _ _ HC) in HF; now apply Fits_app_r in HF).
  repeat split.
  - intros o i2 x2 E. cbn [split_cb_loop app]. rewrite (proj2 (N.ltb_lt _ _)) by exact Hm.
    unfold fx_bind. cbn [fst snd]. rewrite (next_cb_ready finder t' rest _ HR), E. cbn [sub_bool sub_length N.eqb negb fst].
    change (ti_part (TI rest (Sub SIZE_MAX 0))) with (Ok rest). cbv iota beta.
    rewrite kept_push, kept_app.
    change (ti_next_cb finder (TI rest (Sub SIZE_MAX 0)) (i2, x2)) with (@Ok bool false, (TI rest (Sub SIZE_MAX 0), (i2, x2))).
    destruct (_ <? _); reflexivity.
  - intros e i2 x2 E. cbn [split_cb_loop app]. rewrite (proj2 (N.ltb_lt _ _)) by exact Hm.
    unfold fx_bind. cbn [fst snd]. rewrite (next_cb_ready finder t' rest _ HR), E. reflexivity.
  - intros u g v i2 x2 -> Hg E HE. cbn [split_cb_loop app]. rewrite (proj2 (N.ltb_lt _ _)) by exact Hm.
    unfold fx_bind. cbn [fst snd]. rewrite (next_cb_ready finder t' _ _ HR), E. rewrite sub_bool_ne by exact Hg. cbn [negb fst].
    rewrite part_found by exact Hg. rewrite kept_push. rewrite kept_app in HE.
    rewrite (proj2 (N.ltb_ge _ _)) by (apply N.eq_le_incl, eq_sym; exact HE). unfold fx_lift. cbn [bind].
    unfold ti_bool. cbn [ti_token]. rewrite sub_bool_ne by exact Hg.
    rewrite remainder_found by assumption. cbn [bind]. rewrite kept_push.
    change [u; v] with ([u] ++ [v]). rewrite !kept_app, <- ?app_assoc. reflexivity.
Qed.

Lemma p_split_zero s i x ign : split_where_cb s finder i 0 ign x = (Ok [], x).
Proof. reflexivity. Qed.
End SplitWhere.

(** ** The iterator *)
Section Iterator.
Context {X : Type} (finder : str -> fx X subrange).

Lemma run_shape x0 s t x v tokens : Fits s -> CbRun finder x0 s t x v tokens ->
  s = concat (map (fun p => fst p ++ snd p) tokens) ++ v /\
  ((tokens = [] /\ t = ti_init v /\ v = s) \/
   exists l u g, tokens = l ++ [(u, g)] /\ g <> [] /\ Fits (u ++ g ++ v) /\ t = TI (u ++ g ++ v) (Sub (size u) (size g))).
Proof.
  intros HF H. induction H as [|t x u g v tokens t' x' H IH F Hg HN].
  - split; [reflexivity|]. left. auto.
  - destruct IH as [IH1 IH2].
    assert (HFv : Fits (u ++ g ++ v)) by (rewrite IH1 in HF; now apply Fits_app_r in HF).
    assert (HR : ready t (u ++ g ++ v)).
    { destruct IH2 as [(_ & E & _)|(l & u' & g' & _ & Hg' & HF' & E)]; [left; exact E|right; exists u', g'; auto]. }
    split.
    + rewrite map_app, concat_app. cbn [map concat fst snd]. rewrite app_nil_r, <- !app_assoc. exact IH1.
    + right. exists tokens, u, g. split; [reflexivity|]. split; [exact Hg|]. split; [exact HFv|].
      rewrite (next_cb_ready finder t _ x HR), F in HN. rewrite sub_bool_ne in HN by exact Hg. cbn [negb] in HN. congruence.
Qed.
Lemma run_ready x0 s t x v tokens : Fits s -> CbRun finder x0 s t x v tokens -> ready t v.
Proof.
  intros HF H. destruct (run_shape _ _ _ _ _ _ HF H) as [_ [(_ & E & _)|(l & u' & g' & _ & Hg' & HF' & E)]]; [left; exact E|right; exists u', g'; auto].
Qed.

Lemma p_next x0 s t x v tokens : Fits s -> CbRun finder x0 s t x v tokens ->
  s = concat (map (fun p => fst p ++ snd p) tokens) ++ v /\ ti_remainder t = Ok v /\
  (forall u g w x', v = u ++ g ++ w -> g <> [] -> finder v x = (Ok (Sub (size u) (size g)), x') ->
     exists t', ti_next_cb finder t x = (Ok true, (t', x')) /\ ti_bool t' = true /\
       ti_part t' = Ok u /\ ti_remainder t' = Ok w /\ CbRun finder x0 s t' x' w (tokens ++ [(u, g)])) /\
  (forall o x', finder v x = (Ok (Sub o 0), x') ->
     exists t', ti_next_cb finder t x = (Ok true, (t', x')) /\ ti_bool t' = false /\
       ti_part t' = Ok v /\ ti_get_token t' = Ok [] /\ ti_remainder t' = Ok [] /\
       forall y, ti_next_cb finder t' y = (Ok false, (t', y))) /\
  (forall e x', finder v x = (Throw e, x') -> exists t', ti_next_cb finder t x = (Throw e, (t', x'))).
Proof.
  intros HF H. destruct (run_shape _ _ _ _ _ _ HF H) as [E HS]. pose proof (run_ready _ _ _ _ _ _ HF H) as HR.
  assert (HFv : Fits v) by (rewrite E in HF; now apply Fits_app_r in HF).
  split; [exact E|]. split.
  { destruct HS as [(_ & -> & _)|(l & u' & g' & _ & Hg' & HF' & ->)].
    - unfold ti_remainder, ti_init, sub_end. cbn [ti_token ti_str sub_bool sub_start sub_offset sub_length].
      cbn [N.eqb negb orb]. change (add64 0 0) with (size []). rewrite <- (app_nil_l v) at 1. now apply substr_from_app.
    - now apply remainder_found. }
  split; [|split].
  - intros u g w x' -> Hg F. pose proof (next_cb_ready finder t _ x HR) as EN. rewrite F in EN.
    rewrite sub_bool_ne in EN by exact Hg. cbn [negb] in EN.
    eexists. split; [exact EN|]. split; [unfold ti_bool; cbn [ti_token]; now apply sub_bool_ne|].
    split; [now apply part_found|]. split; [now apply remainder_found|].
    now apply cb_next with t x.
  - intros o x' F. pose proof (next_cb_ready finder t _ x HR) as EN. rewrite F in EN. cbn [sub_bool sub_length N.eqb negb] in EN.
    eexists. split; [exact EN|]. repeat split.
  - intros e x' F. pose proof (next_cb_ready finder t _ x HR) as EN. rewrite F in EN. eexists. exact EN.
Qed.

(** After an exception *)
Lemma p_retry_first x0 s t x v e x' : Fits s -> CbRun finder x0 s t x v [] -> finder v x = (Throw e, x') ->
  ti_next_cb finder t x = (Throw e, (t, x')).
Proof.
  intros HF H F. pose proof (next_cb_ready finder t _ x (run_ready _ _ _ _ _ _ HF H)) as EN. rewrite F in EN.
  destruct (run_shape _ _ _ _ _ _ HF H) as [_ [(_ & -> & _)|(l & u' & g' & E & _)]]; [exact EN|].
  destruct l; discriminate.
Qed.
Lemma substr_from_beyond (s : str) n : size s < n -> substr_from s n = Throw StdOutOfRange.
Proof. intros H. unfold substr_from, substr. rewrite (proj2 (N.ltb_lt _ _)) by exact H. reflexivity. Qed.
Lemma p_retry_later x0 s t x v tokens u g e x' : Fits s -> CbRun finder x0 s t x v (tokens ++ [(u, g)]) ->
  finder v x = (Throw e, x') ->
  exists t', ti_next_cb finder t x = (Throw e, (t', x')) /\
    (forall a w, v = a ++ w -> length a = length (u ++ g) ->
       ti_remainder t' = Ok w /\
       (forall y tok y', finder w y = (Ok tok, y') -> ti_next_cb finder t' y = ti_next_cb finder (ti_init w) y) /\
       (forall y e' y', finder w y = (Throw e', y') -> exists t2, ti_next_cb finder t' y = (Throw e', (t2, y')))) /\
    ((length v < length (u ++ g))%nat ->
       ti_remainder t' = Throw StdOutOfRange /\ forall y, ti_next_cb finder t' y = (Throw StdOutOfRange, (t', y))).
Proof.
  intros HF H F. pose proof (next_cb_ready finder t _ x (run_ready _ _ _ _ _ _ HF H)) as EN. rewrite F in EN.
  destruct (run_shape _ _ _ _ _ _ HF H) as [_ [(E & _)|(l & u' & g' & E & Hg & HFv & ->)]]; [destruct tokens; discriminate|].
  apply app_inj_tail in E. destruct E as [_ E]. injection E as <- <-. cbn [ti_token] in EN.
  eexists. split; [exact EN|]. split.
  - intros a w -> HL.
    assert (EE : substr_from (a ++ w) (sub_end (Sub (size u) (size g))) = Ok w).
    { rewrite (sub_end_fits u g (a ++ w) HFv). apply substr_from_app; [unfold size; now rewrite HL|].
      apply Fits_app_r with (u := u ++ g). now rewrite <- app_assoc. }
    split; [|split].
    + unfold ti_remainder. cbn [ti_token ti_str]. rewrite sub_bool_ne by exact Hg. exact EE.
    + intros y tok y' F'. unfold ti_next_cb. cbn [ti_token ti_str ti_init]. rewrite sub_bool_ne by exact Hg.
      rewrite EE. cbn [sub_bool sub_length sub_start sub_offset N.eqb negb]. rewrite F'. reflexivity.
    + intros y e' y' F'. unfold ti_next_cb. cbn [ti_token ti_str ti_init]. rewrite sub_bool_ne by exact Hg.
      rewrite EE, F'. eexists. reflexivity.
  - intros HL.
    assert (EE : substr_from v (sub_end (Sub (size u) (size g))) = Throw StdOutOfRange).
    { rewrite (sub_end_fits u g v HFv). apply substr_from_beyond. unfold size. lia. }
    split.
    + unfold ti_remainder. cbn [ti_token ti_str]. rewrite sub_bool_ne by exact Hg. exact EE.
    + intros y. unfold ti_next_cb. cbn [ti_token ti_str]. rewrite sub_bool_ne by exact Hg. rewrite EE. reflexivity.
Qed.
End Iterator.
