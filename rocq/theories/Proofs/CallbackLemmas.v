(** Lemmas about Model/Callbacks.v. *)
From Verif Require Import Base Model.Decode Model.Subrange Model.Search Model.Split Model.Callbacks.
From Verif Require Import Spec.Utf8Spec Spec.Strings Spec.Calls.
From Verif Require Import Proofs.Utf8Lemmas Proofs.DecodeLemmas Proofs.CodepointLemmas Proofs.SearchLemmas.

Section Loops.
Context {X : Type} (pred : N -> fx X bool).

Lemma ffc_loop us : forall pre u r fuel x x',
  Text u us -> Answers pred false x us x' -> (length us < fuel)%nat ->
  find_first_where_cb_loop fuel (pre ++ u ++ r) pred (length pre) (length pre) x
  = find_first_where_cb_loop (fuel - length us) ((pre ++ u) ++ r) pred (length (pre ++ u)) (length (pre ++ u)) x'.
Proof.
  induction us as [|c us IH]; intros pre u r fuel x x' HT HA Hf.
  - apply Text_nil_inv in HT. subst u. inversion HA; subst. rewrite app_nil_r, Nat.sub_0_r. reflexivity.
  - apply Text_cons_inv in HT. destruct HT as (g & t & -> & Hg & HT).
    inversion HA as [|? ? x1 ? ? Hc HA']; subst.
    destruct fuel as [|fuel]; [cbn in Hf; lia|]. cbn [find_first_where_cb_loop].
    rewrite <- (app_assoc g t r). unfold fx_bind at 1, fx_lift at 1.
    rewrite safe_decode_next_uchar with (c := c) by exact Hg. unfold fx_bind. rewrite Hc.
    cbn [length] in *. rewrite (app_assoc pre g), <- app_length. rewrite IH with (x' := x') by (auto; lia).
    cbn [Nat.sub]. rewrite <- !app_assoc. reflexivity.
Qed.

Lemma ffc_step pre g c v fuel x : uchar g c ->
  find_first_where_cb_loop (S fuel) (pre ++ g ++ v) pred (length pre) (length pre) x
  = fx_bind (pred c) (fun b => if (b : bool) then fx_lift (Ok (Sub (size pre) (size g), c))
      else find_first_where_cb_loop fuel (pre ++ g ++ v) pred (length pre + length g) (length pre + length g)) x.
Proof.
  intros Hg. cbn [find_first_where_cb_loop]. unfold fx_bind at 1, fx_lift at 1.
  rewrite safe_decode_next_uchar with (c := c) by exact Hg. unfold fx_bind.
  destruct (pred c x) as [[[|]| | |] x1]; try reflexivity. unfold fx_lift, sub_its, size. do 4 f_equal; lia.
Qed.

Lemma flc_loop u us : Text u us -> forall pre post fuel x x',
  Answers pred false x (rev us) x' -> (length us < fuel)%nat ->
  find_last_where_cb_loop fuel ((pre ++ u) ++ post) pred (length (pre ++ u)) (length (pre ++ u)) x
  = find_last_where_cb_loop (fuel - length us) (pre ++ u ++ post) pred (length pre) (length pre) x'.
Proof.
  intros HT. induction HT as [|g c u us Hg HT IH] using Text_rev_ind; intros pre post fuel x x' HA Hf.
  - inversion HA; subst. rewrite app_nil_r, Nat.sub_0_r. reflexivity.
  - rewrite rev_app_distr in HA. cbn [rev app] in HA. inversion HA as [|? ? x1 ? ? Hc HA']; subst.
    destruct fuel as [|fuel]; [lia|]. cbn [find_last_where_cb_loop].
    rewrite (app_assoc pre u g). rewrite <- (app_assoc (pre ++ u) g post).
    rewrite (app_length (pre ++ u) g). unfold fx_bind at 1, fx_lift at 1.
    rewrite safe_decode_prev_uchar with (c := c) by exact Hg. unfold fx_bind. rewrite Hc.
    rewrite app_length in Hf. rewrite (app_length us [c]). cbn [length] in *.
    rewrite IH with (x' := x') by (auto; lia). rewrite <- !app_assoc.
    now replace (S fuel - (length us + 1))%nat with (fuel - length us)%nat by lia.
Qed.

Lemma flc_step pre g c v fuel x : uchar g c ->
  find_last_where_cb_loop (S fuel) (pre ++ g ++ v) pred (length (pre ++ g)) (length (pre ++ g)) x
  = fx_bind (pred c) (fun b => if (b : bool) then fx_lift (Ok (Sub (size pre) (size g), c))
      else find_last_where_cb_loop fuel (pre ++ g ++ v) pred (length pre) (length pre)) x.
Proof.
  intros Hg. cbn [find_last_where_cb_loop]. unfold fx_bind at 1, fx_lift at 1. rewrite app_length.
  rewrite safe_decode_prev_uchar with (c := c) by exact Hg. unfold fx_bind.
  destruct (pred c x) as [[[|]| | |] x1]; try reflexivity. unfold fx_lift, sub_its, size. do 4 f_equal; lia.
Qed.
End Loops.

(** ** Pure callbacks *)
Lemma ffc_pure {X} (p : N -> bool) s : forall fuel prev it (x : X),
  find_first_where_cb_loop fuel s (fun c y => (Ok (p c), y)) prev it x = (find_first_where_loop fuel s p prev it, x).
Proof.
  induction fuel as [|fuel IH]; intros prev it x; [reflexivity|]. cbn [find_first_where_cb_loop find_first_where_loop].
  unfold fx_bind at 1, fx_lift at 1. destruct (safe_decode_next s it) as [[[c it']|]| | |]; try reflexivity.
  unfold fx_bind. cbn [bind]. destruct (p c); [reflexivity|apply IH].
Qed.
Lemma flc_pure {X} (p : N -> bool) s : forall fuel it e (x : X),
  find_last_where_cb_loop fuel s (fun c y => (Ok (p c), y)) it e x = (find_last_where_loop fuel s p it e, x).
Proof.
  induction fuel as [|fuel IH]; intros prev it x; [reflexivity|]. cbn [find_last_where_cb_loop find_last_where_loop].
  unfold fx_bind at 1, fx_lift at 1. destruct (safe_decode_prev s prev) as [[[c it']|]| | |]; try reflexivity.
  unfold fx_bind. cbn [bind]. destruct (p c); [reflexivity|apply IH].
Qed.
Lemma ffw_pure {I X} (p : N -> bool) s (i : I) o (x : X) :
  find_first_where_cb s (fun c y => (Ok (p c), y)) i o x = (find_first_where s p o, x).
Proof.
  unfold find_first_where_cb, find_first_where, by_value, fx_bind, fx_lift.
  destruct (begin_plus s o); try reflexivity. now rewrite ffc_pure.
Qed.
Lemma flw_pure {I X} (p : N -> bool) s (i : I) o (x : X) :
  find_last_where_cb s (fun c y => (Ok (p c), y)) i o x = (find_last_where s p o, x).
Proof.
  unfold find_last_where_cb, find_last_where, by_value, fx_bind, fx_lift. cbv zeta.
  destruct (begin_plus s (N.min o (size s))); try reflexivity. now rewrite flc_pure.
Qed.

(** Loops depend only on what the predicate does. *)
Lemma ffc_ext {X} (p q : N -> fx X bool) s : (forall c y, p c y = q c y) -> forall fuel prev it x,
  find_first_where_cb_loop fuel s p prev it x = find_first_where_cb_loop fuel s q prev it x.
Proof.
  intros E. induction fuel as [|fuel IH]; intros prev it x; [reflexivity|]. cbn [find_first_where_cb_loop].
  unfold fx_bind, fx_lift. destruct (safe_decode_next s it) as [[[c it']|]| | |]; try reflexivity.
  rewrite E. destruct (q c x) as [[[|]| | |] y]; try reflexivity. apply IH.
Qed.
Lemma flc_ext {X} (p q : N -> fx X bool) s : (forall c y, p c y = q c y) -> forall fuel prev it x,
  find_last_where_cb_loop fuel s p prev it x = find_last_where_cb_loop fuel s q prev it x.
Proof.
  intros E. induction fuel as [|fuel IH]; intros prev it x; [reflexivity|]. cbn [find_last_where_cb_loop].
  unfold fx_bind, fx_lift. destruct (safe_decode_prev s prev) as [[[c it']|]| | |]; try reflexivity.
  rewrite E. destruct (q c x) as [[[|]| | |] y]; try reflexivity. apply IH.
Qed.
Lemma ffw_ext {I X} (p q : N -> fx (I * X) bool) s i o x : (forall c y, p c y = q c y) ->
  find_first_where_cb s p i o x = find_first_where_cb s q i o x.
Proof.
  intros E. unfold find_first_where_cb, by_value, fx_bind, fx_lift.
  destruct (begin_plus s o); try reflexivity. now rewrite (ffc_ext p q s E).
Qed.
Lemma flw_ext {I X} (p q : N -> fx (I * X) bool) s i o x : (forall c y, p c y = q c y) ->
  find_last_where_cb s p i o x = find_last_where_cb s q i o x.
Proof.
  intros E. unfold find_last_where_cb, by_value, fx_bind, fx_lift.
  destruct (begin_plus s (N.min o (size s))); try reflexivity. now rewrite (flc_ext p q s E).
Qed.
Lemma not_pred_pure {I X} (p : N -> bool) c (y : unit * (I * X)) :
  not_pred (fun c (z : I * X) => (Ok (p c), z)) c y = (Ok (negb (p c)), y).
Proof. destruct y as [[] y]. reflexivity. Qed.

Lemma trim_start_pure {I X} (p : N -> bool) s (i : I) (x : X) :
  trim_start_where_cb s (fun c y => (Ok (p c), y)) i x = (trim_start_where s p, x).
Proof.
  unfold trim_start_where_cb, trim_start_where, by_value, fx_bind, fx_lift.
  rewrite (ffw_ext _ (fun c y => (Ok (negb (p c)), y)) s tt 0 (i, x)) by apply not_pred_pure.
  rewrite (ffw_pure (fun c => negb (p c))). destruct (find_first_where s (fun c => negb (p c)) 0) as [[sub c]| | |]; reflexivity.
Qed.
Lemma trim_end_pure {I X} (p : N -> bool) s (i : I) (x : X) :
  trim_end_where_cb s (fun c y => (Ok (p c), y)) i x = (trim_end_where s p, x).
Proof.
  unfold trim_end_where_cb, trim_end_where, by_value, fx_bind, fx_lift.
  rewrite (flw_ext _ (fun c y => (Ok (negb (p c)), y)) s tt npos (i, x)) by apply not_pred_pure.
  rewrite (flw_pure (fun c => negb (p c))). destruct (find_last_where s (fun c => negb (p c)) npos) as [[sub c]| | |]; reflexivity.
Qed.
Lemma trim_pure {I X} (p : N -> bool) s (i : I) (x : X) :
  trim_where_cb s (fun c y => (Ok (p c), y)) i x = (trim_where s p, x).
Proof.
  unfold trim_where_cb, trim_where, fx_bind. rewrite trim_start_pure.
  destruct (trim_start_where s p); try reflexivity. cbn [bind]. apply trim_end_pure.
Qed.

Definition pure_finder {X} (finder : str -> outcome subrange) : str -> fx X subrange := fun s y => (finder s, y).
Lemma ti_next_pure {X} (finder : str -> outcome subrange) t (x : X) :
  match ti_next finder t with
  | Ok (b, t') => ti_next_cb (pure_finder finder) t x = (Ok b, (t', x))
  | Throw e => fst (ti_next_cb (pure_finder finder) t x) = Throw e /\ snd (snd (ti_next_cb (pure_finder finder) t x)) = x
  | UB => fst (ti_next_cb (pure_finder finder) t x) = UB /\ snd (snd (ti_next_cb (pure_finder finder) t x)) = x
  | OutOfFuel => fst (ti_next_cb (pure_finder finder) t x) = OutOfFuel /\ snd (snd (ti_next_cb (pure_finder finder) t x)) = x
  end.
Proof.
  unfold ti_next, ti_next_cb, pure_finder. destruct (sub_bool (ti_token t)).
  - destruct (substr_from (ti_str t) (sub_end (ti_token t))) as [s| | |]; cbn [bind]; try (split; reflexivity).
    destruct (finder s); cbn [bind]; try (split; reflexivity).
  - destruct (negb (sub_start (ti_token t) =? 0)); [reflexivity|].
    destruct (finder (ti_str t)); cbn [bind]; try (split; reflexivity).
Qed.
Lemma split_loop_pure {X} (finder : str -> outcome subrange) n ign : forall fuel result t (x : X),
  match split_loop fuel finder n ign t result with
  | Ok (r, t') => split_cb_loop fuel (pure_finder finder) n ign result (t, x) = (Ok r, (t', x))
  | Throw e => fst (split_cb_loop fuel (pure_finder finder) n ign result (t, x)) = Throw e /\
               snd (snd (split_cb_loop fuel (pure_finder finder) n ign result (t, x))) = x
  | UB => fst (split_cb_loop fuel (pure_finder finder) n ign result (t, x)) = UB /\
               snd (snd (split_cb_loop fuel (pure_finder finder) n ign result (t, x))) = x
  | OutOfFuel => fst (split_cb_loop fuel (pure_finder finder) n ign result (t, x)) = OutOfFuel /\
               snd (snd (split_cb_loop fuel (pure_finder finder) n ign result (t, x))) = x
  end.
Proof.
  induction fuel as [|fuel IH]; intros result t x; [split; reflexivity|]. cbn [split_loop split_cb_loop].
  destruct (N.of_nat (length result) <? n); [|reflexivity].
  pose proof (ti_next_pure finder t x) as H.
  match goal with |- context [fx_bind ?m ?k (t, x)] => set (R := fx_bind m k (t, x)); assert (ER : R = fx_bind m k (t, x)) by reflexivity; clearbody R end.
  unfold fx_bind at 1 in ER. cbn [fst snd] in ER.
  destruct (ti_next finder t) as [[b t1]| | |]; cbn [bind].
  - rewrite H in ER. destruct b; [|subst R; reflexivity]. unfold fx_bind in ER. cbn [fst] in ER.
    destruct (ti_part t1) as [part| | |]; cbn [bind]; subst R; try (split; reflexivity). apply IH.
  - destruct (ti_next_cb (pure_finder finder) t x) as [o [t' x']]. cbn [fst snd] in H. destruct H as [-> ->]. subst R. split; reflexivity.
  - destruct (ti_next_cb (pure_finder finder) t x) as [o [t' x']]. cbn [fst snd] in H. destruct H as [-> ->]. subst R. split; reflexivity.
  - destruct (ti_next_cb (pure_finder finder) t x) as [o [t' x']]. cbn [fst snd] in H. destruct H as [-> ->]. subst R. split; reflexivity.
Qed.
Lemma split_pure {I X} (finder : str -> outcome subrange) s n ign (i : I) (x : X) :
  split_where_cb s (fun t y => (finder t, y)) i n ign x = (split_where s finder n ign, x).
Proof.
  unfold split_where_cb, split_where. pose proof (split_loop_pure finder n ign (S (S (length s))) [] (ti_init s) (i, x)) as H.
  unfold pure_finder in H.
  destruct (split_loop (S (S (length s))) finder n ign (ti_init s) []) as [[r t]| | |].
  - rewrite H. reflexivity.
  - destruct (split_cb_loop _ _ _ _ _ _) as [o [t [j y]]]. cbn [fst snd] in H. destruct H as [-> E]. injection E as _ ->. reflexivity.
  - destruct (split_cb_loop _ _ _ _ _ _) as [o [t [j y]]]. cbn [fst snd] in H. destruct H as [-> E]. injection E as _ ->. reflexivity.
  - destruct (split_cb_loop _ _ _ _ _ _) as [o [t [j y]]]. cbn [fst snd] in H. destruct H as [-> E]. injection E as _ ->. reflexivity.
Qed.
