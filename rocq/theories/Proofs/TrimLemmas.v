(** C85 on any bytes: trimming twice, and the order of the two halves. *)
From Verif Require Import Base Spec.Utf8Spec Spec.Strings Model.Decode Model.Encode Model.Subrange Model.Search
  Proofs.Utf8Lemmas Proofs.DecodeLemmas Proofs.EncodeLemmas Proofs.CodepointLemmas Proofs.SearchLemmas Proofs.Utf8Props Proofs.BackwardLemmas.

(** A sequence does not overlap with what precedes or follows it. *)
Lemma uchar_cut g c x y : uchar g c -> g = x ++ y -> x <> [] -> y <> [] -> exists b y', y = b :: y' /\ cont b.
Proof.
  intros Hg E Hx Hy. destruct (uchar_shape g c Hg) as (a & t & -> & _ & Ht & _). destruct x as [|a' x]; [contradiction|].
  cbn in E. assert (t = x ++ y) as -> by congruence. apply Forall_app in Ht. destruct Ht as [_ Ht]. destruct y as [|b y]; [contradiction|].
  apply Forall_inv in Ht. eauto.
Qed.
Lemma text_head w ws b w' : Text w ws -> w = b :: w' -> ~ cont b.
Proof.
  intros HT E. inversion HT as [E1|g c s cs Hg _ E1 E2]; [congruence|]. destruct (uchar_shape g c Hg) as (a & t & -> & Ha & _). cbn in E1. subst w. cbn in E. assert (a = b) as -> by congruence. exact Ha.
Qed.
Lemma app_cases (a b c d : str) : a ++ b = c ++ d -> (exists x, c = a ++ x) \/ (exists x, a = c ++ x /\ x <> [] /\ d = x ++ b).
Proof.
  revert c. induction a as [|x a IH]; intros c E; [left; now exists c|]. destruct c as [|y c].
  - right. exists (x :: a). repeat split; [discriminate|symmetry; exact E].
  - cbn in E. assert (x = y) as -> by congruence. assert (a ++ b = c ++ d) as E' by congruence. destruct (IH c E') as [(z & ->)|(z & -> & Hz & ->)]; [left; exists z; reflexivity|right; now exists z].
Qed.

Section Trim.
Context (f : N -> bool).
Local Notation skipped us := (Forall (fun c => f c = true) us).

Lemma start_inv s t : Fits s -> trim_start_where s f = Ok t ->
  exists u us, s = u ++ t /\ Text u us /\ skipped us /\ (t = [] \/ exists g c v, t = g ++ v /\ uchar g c /\ f c = false).
Proof.
  intros HF E. destruct (p_trim_any_cases f s) as [(u & us & r & -> & HT & HA & H) _].
  destruct (p_trim_start_any f u us r HF HT HA) as (K1 & K2 & K3). destruct H as [H|[H|(g & c & v & H & Hg & Hc)]].
  - rewrite (K1 H) in E. exists u, us. subst r. injection E as <-. auto.
  - rewrite (K3 H) in E. discriminate.
  - rewrite (K2 g c v H Hg Hc) in E. assert (r = t) as -> by congruence. exists u, us. repeat split; auto. right. exists g, c, v. auto.
Qed.
Lemma end_inv s t : Fits s -> trim_end_where s f = Ok t ->
  exists u us, s = t ++ u /\ Text u us /\ skipped us /\ (t = [] \/ exists g c v, t = v ++ g /\ uchar g c /\ f c = false).
Proof.
  intros HF E. destruct (p_trim_any_cases f s) as [_ (r & u & us & -> & HT & HA & H)].
  destruct (p_trim_end_any f r u us HF HT HA) as (K1 & K2 & K3). destruct H as [H|[H|(g & c & v & H & Hg & Hc)]].
  - rewrite (K1 H) in E. exists u, us. subst r. injection E as <-. auto.
  - destruct (long_cont_tail_dec r) as [L|L]; [|rewrite (K3 H L) in E; discriminate].
    assert (trim_end_where (r ++ u) f = UB) as E' by (apply trim_end_ub; [exact HF|exists r, u, us; auto]). congruence.
  - rewrite (K2 g c v H Hg Hc) in E. assert (r = t) as -> by congruence. exists u, us. repeat split; auto. right. exists g, c, v. auto.
Qed.

Lemma start_kept t : Fits t -> (t = [] \/ exists g c v, t = g ++ v /\ uchar g c /\ f c = false) -> trim_start_where t f = Ok t.
Proof.
  intros HF H. destruct (p_trim_start_any f [] [] t HF (@Text_nil) (Forall_nil _)) as (K1 & K2 & _). cbn [app] in *.
  destruct H as [->|(g & c & v & E & Hg & Hc)]; [now apply K1|now apply (K2 g c v)].
Qed.
Lemma end_kept t : Fits t -> (t = [] \/ exists g c v, t = v ++ g /\ uchar g c /\ f c = false) -> trim_end_where t f = Ok t.
Proof.
  intros HF H. pose proof (p_trim_end_any f t [] []) as K. rewrite app_nil_r in K. destruct (K HF (@Text_nil) (Forall_nil _)) as (K1 & K2 & _).
  destruct H as [->|(g & c & v & E & Hg & Hc)]; [now apply K1|now apply (K2 g c v)].
Qed.

Lemma p_c85_halves s t : Fits s ->
  (trim_start_where s f = Ok t -> trim_start_where t f = Ok t) /\ (trim_end_where s f = Ok t -> trim_end_where t f = Ok t).
Proof.
  intros HF. split; intros E.
  - destruct (start_inv s t HF E) as (u & us & -> & _ & _ & H). apply start_kept; [|exact H]. now apply Fits_app_r in HF.
  - destruct (end_inv s t HF E) as (u & us & -> & _ & _ & H). apply end_kept; [|exact H]. unfold Fits, size in *. rewrite app_length in HF. lia.
Qed.

(** What trim_where leaves: nothing, or a text that starts and ends with a code
    point that stays. *)
Lemma trim_inv s t : Fits s -> trim_where s f = Ok t -> exists u us w ws, s = u ++ t ++ w /\ Text u us /\ skipped us /\ Text w ws /\ skipped ws /\
  (t = [] \/ (exists g c v, t = g ++ v /\ uchar g c /\ f c = false) /\ (exists g c v, t = v ++ g /\ uchar g c /\ f c = false)).
Proof.
  intros HF E. unfold trim_where in E. destruct (trim_start_where s f) as [r| | |] eqn:ES; try discriminate. cbn [bind] in E.
  destruct (start_inv s r HF ES) as (u & us & -> & HT & HA & Hr). apply Fits_app_r in HF.
  destruct (end_inv r t HF E) as (w & ws & -> & HW & HB & Ht). exists u, us, w, ws. repeat split; auto.
  destruct Ht as [->|(h & d & y & -> & Hh & Hd)]; [now left|]. right. split; [|now exists h, d, y].
  destruct Hr as [Hr|(g & c & v & Hr & Hg & Hc)].
  - exfalso. apply (uchar_nonempty h d Hh). apply app_eq_nil in Hr. destruct Hr as [Hr _]. now apply app_eq_nil in Hr.
  - symmetry in Hr. destruct (app_cases g v (y ++ h) w Hr) as [(x & ->)|(x & Eg & Hx & ->)]; [now exists g, c, x|]. exfalso.
    destruct (uchar_cut g c (y ++ h) x Hg Eg) as (b & x' & -> & Hb); [|exact Hx|].
    + intros K. apply app_eq_nil in K. now apply (uchar_nonempty h d Hh).
    + now apply (text_head _ ws b (x' ++ v) HW).
Qed.

Lemma p_c85_any s t : Fits s ->
  (trim_where s f = Ok t <-> (let* a := trim_end_where s f in trim_start_where a f) = Ok t) /\
  (trim_where s f = Ok t -> trim_where t f = Ok t /\ trim_start_where t f = Ok t /\ trim_end_where t f = Ok t).
Proof.
  intros HF. split; [split|].
  - intros E. destruct (trim_inv s t HF E) as (u & us & w & ws & -> & HT & HA & HW & HB & Ht).
    destruct Ht as [->|[(g & c & v & Et & Hg & Hc) (h & d & y & Et' & Hh & Hd)]].
    + cbn [app] in *. destruct (p_trim_end_any f [] (u ++ w) (us ++ ws)) as (K & _); [exact HF|now apply Text_app|now apply Forall_app|].
      cbn [app] in K. rewrite K by reflexivity. cbn [bind]. apply start_kept; [reflexivity|now left].
    + rewrite app_assoc in HF |- *. destruct (p_trim_end_any f (u ++ t) w ws HF HW HB) as (_ & K & _).
      rewrite (K h d (u ++ y)); [|now rewrite Et', <- app_assoc|exact Hh|exact Hd]. cbn [bind].
      assert (HF' : Fits (u ++ t)) by (unfold Fits, size in *; rewrite app_length in HF; lia).
      destruct (p_trim_start_any f u us t HF' HT HA) as (_ & K' & _). now apply (K' g c v).
  - intros E. destruct (trim_end_where s f) as [a| | |] eqn:EE; try discriminate. cbn [bind] in E.
    destruct (end_inv s a HF EE) as (w & ws & -> & HW & HB & Ha).
    assert (HF' : Fits a) by (unfold Fits, size in *; rewrite app_length in HF; lia).
    destruct (start_inv a t HF' E) as (u & us & -> & HT & HA & Ht). unfold trim_where.
    destruct Ha as [Ha|(h & d & y & Ha & Hh & Hd)].
    { apply app_eq_nil in Ha. destruct Ha as [-> ->]. cbn [app] in *. destruct (p_trim_start_any f w ws []) as (K & _); rewrite ?app_nil_r; auto.
      rewrite app_nil_r in K. rewrite K by reflexivity. cbn [bind]. apply end_kept; [reflexivity|now left]. }
    destruct Ht as [->|(g & c & v & Et & Hg & Hc)].
    { exfalso. rewrite app_nil_r in Ha. subst u. pose proof (uchar_nonempty h d Hh) as Hne.
      rewrite app_nil_r in HF'. destruct (p_trim_end_any f [] (y ++ h) us HF' HT HA) as (K1 & _ & _). cbn [app] in K1.
      pose proof (end_kept (y ++ h) HF' (or_intror (ex_intro _ h (ex_intro _ d (ex_intro _ y (conj eq_refl (conj Hh Hd))))))) as K2.
      rewrite (K1 eq_refl) in K2. assert (y ++ h = []) as K3 by congruence. apply app_eq_nil in K3. tauto. }
    rewrite <- app_assoc in *. destruct (p_trim_start_any f u us (t ++ w) HF HT HA) as (_ & K & _).
    rewrite (K g c (v ++ w)); [|now rewrite Et, <- app_assoc|exact Hg|exact Hc]. cbn [bind].
    apply Fits_app_r in HF. destruct (p_trim_end_any f t w ws HF HW HB) as (_ & K' & _).
    assert (exists x, t = x ++ h) as (x & Ex).
    { symmetry in Ha. destruct (app_cases y h u t Ha) as [(x & ->)|(x & -> & Hx & Ex)].
      - rewrite <- app_assoc in Ha. apply app_inv_head in Ha. destruct x as [|b0 x]; [exists []; now symmetry|]. exfalso.
        destruct (uchar_shape g c Hg) as (a & tl & Eg & Hna & _). subst g.
        destruct (uchar_cut h d (b0 :: x) t Hh Ha) as (b & y' & Eb & Hb); [discriminate|subst t; discriminate|]. subst t. cbn in Eb. assert (a = b) as -> by congruence. contradiction.
      - exists x. exact Ex. }
    apply (K' h d x); auto.
  - intros E. destruct (trim_inv s t HF E) as (u & us & w & ws & Es & _ & _ & _ & _ & Ht).
    assert (HF' : Fits t) by (rewrite Es in HF; apply Fits_app_r in HF; unfold Fits, size in *; rewrite app_length in HF; lia).
    assert (trim_start_where t f = Ok t) as K1 by (apply start_kept; [exact HF'|tauto]).
    assert (trim_end_where t f = Ok t) as K2 by (apply end_kept; [exact HF'|tauto]).
    split; [unfold trim_where; now rewrite K1|auto].
Qed.

Lemma p_c85_any_bytes s t : Fits s ->
  (trim_where s f = Ok t <-> (let* a := trim_start_where s f in trim_end_where a f) = Ok t) /\
  (trim_where s f = Ok t <-> (let* a := trim_end_where s f in trim_start_where a f) = Ok t) /\
  (trim_where s f = Ok t -> trim_where t f = Ok t /\ trim_start_where t f = Ok t /\ trim_end_where t f = Ok t).
Proof. intros HF. split; [reflexivity|now apply p_c85_any]. Qed.
End Trim.
