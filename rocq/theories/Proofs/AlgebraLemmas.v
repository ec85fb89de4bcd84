(** C83-C85: split, join, replace and trim fit together. *)
From Verif Require Import Base Spec.Utf8Spec Spec.Strings Spec.Newline Spec.Split Spec.Replace Spec.Algebra Model.Decode Model.Encode Model.Subrange Model.Search Model.Split
  Proofs.Utf8Lemmas Proofs.DecodeLemmas Proofs.EncodeLemmas Proofs.CodepointLemmas Proofs.SearchLemmas Proofs.NewlineLemmas Proofs.SplitLemmas Proofs.StrayLemmas Proofs.ReplaceLemmas.

Lemma occurs_before sep u v i : (i < length u)%nat -> occurs_at sep (u ++ sep ++ v) i <-> occurs_at sep (u ++ sep) i.
Proof.
  intros Hi. split.
  - intros (x & y & E & L). exists x, (firstn (length u - length x) y). split; [|exact L].
    apply (f_equal (firstn (length u + length sep))) in E. rewrite app_assoc in E.
    rewrite firstn_app in E. rewrite app_length in E. replace (length u + length sep - (length u + length sep))%nat with 0%nat in E by lia. rewrite firstn_O, app_nil_r in E.
    rewrite firstn_all2 in E by (rewrite app_length; lia). rewrite E.
    rewrite firstn_app, (firstn_all2 x) by lia. f_equal. rewrite firstn_app, (firstn_all2 sep) by lia. do 2 f_equal. lia.
  - intros (x & y & E & L). exists x, (y ++ v). split; [|exact L]. rewrite app_assoc, E, <- !app_assoc. reflexivity.
Qed.

Lemma separable_cuts sep l : separable sep l -> exists cuts rest, l = map fst cuts ++ [rest] /\
  Cuts (first_sep sep) (interleave sep l) cuts rest /\ (forall i, ~ occurs_at sep rest i).
Proof.
  induction l as [|x l IH]; [intros []|]. destruct l as [|y l].
  - intros H. exists [], x. split; [reflexivity|]. split; [constructor|exact H].
  - intros [H1 H2]. destruct (IH H2) as (cuts & rest & E & HC & Hr). exists ((x, sep) :: cuts), rest. rewrite E. split; [reflexivity|]. split; [|exact Hr].
    rewrite <- E. change (interleave sep (x :: y :: l)) with (x ++ sep ++ interleave sep (y :: l)). constructor; [|exact HC].
    split; [reflexivity|]. intros i Hi. rewrite occurs_before by exact Hi. now apply H1.
Qed.
Lemma cuts_separable sep s cuts rest : Cuts (first_sep sep) s cuts rest -> (forall i, ~ occurs_at sep rest i) -> separable sep (map fst cuts ++ [rest]).
Proof.
  induction 1 as [|u g v cuts rest [-> F] H IH]; intros Hr; [exact Hr|]. cbn [map fst app].
  assert (forall l, l <> [] -> separable sep l -> separable sep (u :: l)) as K.
  { intros l Hl HS. destruct l; [congruence|]. split; [|exact HS]. intros i Hi. rewrite <- (occurs_before sep u v) by exact Hi. now apply F. }
  apply K; [destruct (map fst cuts); discriminate|]. now apply IH.
Qed.
Lemma cuts_lt_max sep s cuts rest : sep <> [] -> Fits s -> Cuts (first_sep sep) s cuts rest -> N.of_nat (length cuts) < SIZE_MAX.
Proof.
  intros Hs HF HC. assert (Hne : forall u g v, first_sep sep u g v -> g <> []) by (intros u g v [-> _]; exact Hs).
  pose proof (kept_lt_max _ false s cuts rest Hne HF HC) as L. cbn [kept] in L. now rewrite map_length in L.
Qed.
Lemma split_of_cuts sep s cuts rest : sep <> [] -> Fits s -> Cuts (first_sep sep) s cuts rest -> (forall i, ~ occurs_at sep rest i) ->
  split_sep s sep SIZE_MAX false = Ok (map fst cuts ++ [rest]).
Proof.
  intros Hs HF HC Hr. assert (Hne : forall u g v, first_sep sep u g v -> g <> []) by (intros u g v [-> _]; exact Hs).
  destruct (no_sep_ok sep rest Hs Hr) as (o & E). unfold split_sep.
  apply (split_all (fun t => find_first t sep 0) (first_sep sep) Hne) with (ign := false) (cuts := cuts) (rest := rest) (o := o); auto.
  - intros u g v _ F. now apply first_sep_ok.
  - cbn [kept]. rewrite map_length. now apply (cuts_lt_max sep s cuts rest).
Qed.
Lemma split_max_cuts sep s : sep <> [] -> Fits s -> exists cuts rest, Cuts (first_sep sep) s cuts rest /\ (forall i, ~ occurs_at sep rest i) /\
  split_sep s sep SIZE_MAX false = Ok (map fst cuts ++ [rest]).
Proof.
  intros Hs HF. destruct (cuts_exist (first_sep sep) (fun t => forall i, ~ occurs_at sep t i)) with (s := s) as (cuts & rest & HC & Hr).
  - intros u g v [-> _]. exact Hs.
  - intros t. now apply sep_cases.
  - exists cuts, rest. split; [exact HC|]. split; [exact Hr|]. now apply split_of_cuts.
Qed.

Lemma p_c83 : forall l sep, sep <> [] -> Fits (join l sep) ->
  (split_sep (join l sep) sep SIZE_MAX false = Ok l <-> separable sep l).
Proof.
  intros l sep Hs HF. rewrite join_spec in *. split.
  - intros E. destruct (split_max_cuts sep (interleave sep l) Hs HF) as (cuts & rest & HC & Hr & E2).
    assert (l = map fst cuts ++ [rest]) as -> by congruence. now apply (cuts_separable sep (interleave sep (map fst cuts ++ [rest]))).
  - intros H. destruct (separable_cuts sep l H) as (cuts & rest & E & HC & Hr). rewrite E at 2. now apply split_of_cuts.
Qed.
(** A one-byte separator. *)
Lemma occurs_byte b s i : occurs_at [b] s i <-> nth_error s i = Some b.
Proof.
  split.
  - intros (u & v & -> & <-). rewrite nth_error_app2, Nat.sub_diag by lia. reflexivity.
  - intros H. apply nth_error_split in H. destruct H as (u & v & -> & L). now exists u, v.
Qed.
Lemma p_c83_byte : forall b l, separable [b] l <-> l <> [] /\ Forall (fun x => ~ In b x) l.
Proof.
  intros b. induction l as [|x l IH].
  - split; [intros []|]. intros [H _]. congruence.
  - assert (K : (forall i, ~ occurs_at [b] x i) <-> ~ In b x).
    { split.
      - intros H Hin. apply In_nth_error in Hin. destruct Hin as (i & Hi). apply (H i). now apply occurs_byte.
      - intros H i Ho. apply occurs_byte in Ho. apply H. now apply nth_error_In with i. }
    destruct l as [|y l].
    + cbn [separable]. rewrite K. split; [intros H; split; [discriminate|now constructor]|]. intros [_ H]. now inversion H.
    + change (separable [b] (x :: y :: l)) with ((forall i, (i < length x)%nat -> ~ occurs_at [b] (x ++ [b]) i) /\ separable [b] (y :: l)).
      rewrite IH. rewrite (Forall_cons_iff _ x). cbv beta. rewrite <- K. split.
      * intros [H1 [_ H2]]. split; [discriminate|]. split; [|exact H2]. intros i Ho. apply occurs_byte in Ho.
        assert (i < length x)%nat as L by (apply nth_error_Some; congruence). apply (H1 i L). apply occurs_byte. rewrite nth_error_app1 by exact L. exact Ho.
      * intros [_ [H1 H2]]. split; [|split; [discriminate|exact H2]]. intros i L Ho. apply (H1 i). apply occurs_byte in Ho. apply occurs_byte. now rewrite nth_error_app1 in Ho.
Qed.
(** Splitting at characters. *)
Lemma p_c83_chars : forall l lss d c chars, Forall2 Text l lss -> l <> [] -> uchar d c -> In c chars ->
  Forall (Forall (fun x => ~ In x chars)) lss -> Fits (join l d) -> split_chars (join l d) chars SIZE_MAX false = Ok l.
Proof.
  intros l lss d c chars HT Hl Hd Hc HN HF. rewrite join_spec in *.
  assert (exists cuts rest, l = map fst cuts ++ [rest] /\ Cuts (first_char chars) (interleave d l) cuts rest /\ no_char chars rest) as (cuts & rest & E & HC & Hr).
  { clear HF. induction HT as [|x xs l lss Hx HT IH]; [congruence|]. inversion HN; subst. destruct HT as [|y ys l lss Hy HT].
    - exists [], x. split; [reflexivity|]. split; [constructor|]. exists xs. now split.
    - destruct IH as (cuts & rest & E & HC & Hr); [discriminate|assumption|]. exists ((x, d) :: cuts), rest. rewrite E. split; [reflexivity|]. split; [|exact Hr].
      rewrite <- E. change (interleave d (x :: y :: l)) with (x ++ d ++ interleave d (y :: l)). constructor; [|exact HC]. exists xs, c. auto. }
  rewrite (p_c37 _ chars SIZE_MAX false cuts rest HF HC); [now rewrite E|]. left. split; [|exact Hr]. exact (kept_lt_max _ false _ _ _ (first_char_ne chars) HF HC).
Qed.

(** Splitting into lines. *)
Lemma p_c83_lines : forall after extra l lss d, followed_by after extra -> Forall2 Text l lss -> l <> [] -> Forall (no_line_ends extra) lss ->
  one_newline d -> Fits (join l d) -> split_lines after (join l d) SIZE_MAX false = Ok l.
Proof.
  intros after extra l lss d (more & -> & HE) HT Hl HN HD HF. rewrite join_spec in *.
  assert (exists cuts rest, l = map fst cuts ++ [rest] /\ Cuts (first_line_end_of extra) (interleave d l) cuts rest /\ no_line_end_of extra rest) as (cuts & rest & E & HC & Hr).
  { clear HF. induction HT as [|x xs l lss Hx HT IH]; [congruence|]. apply Forall_cons_iff in HN as [HX HN]. destruct HT as [|y ys l lss Hy HT].
    - exists [], x. split; [reflexivity|]. split; [constructor|]. exists xs. now split.
    - destruct IH as (cuts & rest & E & HC & Hr); [discriminate|assumption|]. exists ((x, d) :: cuts), rest. rewrite E. split; [reflexivity|]. split; [|exact Hr].
      rewrite <- E. change (interleave d (x :: y :: l)) with (x ++ d ++ interleave d (y :: l)). constructor; [|exact HC].
      exists xs. split; [exact Hx|]. split; [assumption|]. destruct HD as [(c & Hd & Hc)|HD]; [left|now right].
      exists c. split; [exact Hd|]. split; [now left|]. destruct (N.eq_dec c 0x0D) as [->|Hc']; [right|now left].
      destruct Hy as [|g e y ys Hg Hy].
      + destruct l as [|z l]; [now left|]. right. exists 0x0D, (interleave d (z :: l)). split; [discriminate|]. exists d. split; [reflexivity|exact Hd].
      + right. exists e. apply Forall_cons_iff in HN as [HN _]. apply Forall_cons_iff in HN as [HN _].
        destruct l as [|z l].
        * exists y. split; [intros ->; apply HN; left; now left|]. exists g. split; [reflexivity|exact Hg].
        * exists (y ++ d ++ interleave d (z :: l)). split; [intros ->; apply HN; left; now left|]. exists g. split; [|exact Hg].
          change (interleave d ((g ++ y) :: z :: l)) with ((g ++ y) ++ d ++ interleave d (z :: l)). now rewrite <- app_assoc. }
  rewrite (x_p_c38 extra more HE _ SIZE_MAX false cuts rest HF HC); [now rewrite E|]. left. split; [|exact Hr].
  exact (kept_lt_max (first_line_end_of extra) false (interleave d l) cuts rest (x_first_line_ne extra) HF HC).
Qed.

(** Replacing everything is splitting and joining. *)
Lemma interleave_cons d x l : l <> [] -> interleave d (x :: l) = x ++ d ++ interleave d l.
Proof. destruct l; [congruence|reflexivity]. Qed.
Lemma cuts_front from to s cuts rest : Cuts (first_sep from) s cuts rest -> (forall i, ~ occurs_at from rest i) ->
  forall n, N.of_nat (length cuts) <= n -> ReplaceFront from to n s (interleave to (map fst cuts ++ [rest])).
Proof.
  induction 1 as [|u g v cuts rest [-> F] H IH]; intros Hr n Hn.
  - cbn. now apply rf_none.
  - cbn [map fst app]. rewrite interleave_cons by (destruct (map fst cuts); discriminate). cbn [length] in Hn.
    replace n with ((n - 1) + 1) by lia. apply rf_step; [exact F|]. apply IH; [exact Hr|]. lia.
Qed.
Lemma p_c84_join : forall s from to m, from <> [] -> Fits s -> (Z.of_N (size s) <= m)%Z ->
  exists parts, split_sep s from SIZE_MAX false = Ok parts /\ replace s from to m = Ok (join parts to).
Proof.
  intros s from to m Hf HF Hm. destruct (split_max_cuts from s Hf HF) as (cuts & rest & HC & Hr & E). exists (map fst cuts ++ [rest]). split; [exact E|].
  destruct (replace_front s from to m Hf ltac:(lia)) as (r & -> & HR). rewrite join_spec. f_equal. apply (ReplaceFront_fun _ _ _ _ _ HR).
  apply cuts_front; auto. assert (length cuts <= length s)%nat as L.
  { clear -HC Hf. induction HC as [|u g v cuts rest [-> F] H IH]; cbn [length]; [lia|]. rewrite !app_length. destruct from; [congruence|]. cbn [length]. lia. }
  unfold size in Hm. lia.
Qed.
(** Replacing something by itself changes nothing, nor does replacing what is not there. *)
Lemma front_self p n s r : ReplaceFront p p n s r -> r = s.
Proof. induction 1; congruence. Qed.
Lemma back_self p n s r : ReplaceBack p p n s r -> r = s.
Proof. induction 1; congruence. Qed.
Lemma p_c84_self : forall s p m, p <> [] -> Fits s -> (- 0x8000000000000000 < m)%Z -> replace s p p m = Ok s.
Proof.
  intros s p m Hp HF Hm. destruct (Z.le_gt_cases 0 m) as [L|L].
  - destruct (replace_front s p p m Hp L) as (r & -> & HR). now rewrite (front_self _ _ _ _ HR).
  - destruct (replace_back s p p m Hp HF ltac:(unfold PTRDIFF_MIN; lia)) as (r & -> & HR). now rewrite (back_self _ _ _ _ HR).
Qed.
Lemma p_c84_absent : forall s from to m, from <> [] -> Fits s -> (- 0x8000000000000000 < m)%Z -> (forall i, ~ occurs_at from s i) -> replace s from to m = Ok s.
Proof.
  intros s p t m Hp HF Hm Hn. destruct (Z.le_gt_cases 0 m) as [L|L].
  - destruct (replace_front s p t m Hp L) as (r & -> & HR). rewrite (ReplaceFront_fun _ _ _ _ _ HR s); [reflexivity|]. now apply rf_none.
  - destruct (replace_back s p t m Hp HF ltac:(unfold PTRDIFF_MIN; lia)) as (r & -> & HR). rewrite (ReplaceBack_fun _ _ _ _ _ HR s); [reflexivity|]. now apply rb_none.
Qed.
(** The length tells how many replacements were made. *)
Lemma front_size from to n s r : ReplaceFront from to n s r -> exists k, k <= n /\ size r + k * size from = size s + k * size to.
Proof.
  induction 1 as [s|n s Hn|n u v r Hi H (k & Hk & E)]; [exists 0; lia|exists 0; lia|]. exists (k + 1). split; [lia|]. unfold size in *. rewrite !app_length. lia.
Qed.
Lemma back_size from to n s r : ReplaceBack from to n s r -> exists k, k <= n /\ size r + k * size from = size s + k * size to.
Proof.
  induction 1 as [s|n s Hn|n u v r Hi H (k & Hk & E)]; [exists 0; lia|exists 0; lia|]. exists (k + 1). split; [lia|]. unfold size in *. rewrite !app_length. lia.
Qed.
Lemma p_c84_size : forall s from to m, from <> [] -> Fits s -> (- 0x8000000000000000 < m)%Z ->
  exists r k, replace s from to m = Ok r /\ k <= Z.abs_N m /\ size r + k * size from = size s + k * size to.
Proof.
  intros s p t m Hp HF Hm. destruct (Z.le_gt_cases 0 m) as [L|L].
  - destruct (replace_front s p t m Hp L) as (r & -> & HR). destruct (front_size _ _ _ _ _ HR) as (k & Hk & E). exists r, k. split; [reflexivity|]. split; [lia|exact E].
  - destruct (replace_back s p t m Hp HF ltac:(unfold PTRDIFF_MIN; lia)) as (r & -> & HR). destruct (back_size _ _ _ _ _ HR) as (k & Hk & E). exists r, k. split; [reflexivity|]. split; [lia|exact E].
Qed.

(** Trimming *)
Lemma text_parts s cs u v : Text s cs -> s = u ++ v -> forall us, Text u us -> exists vs, Text v vs /\ cs = us ++ vs.
Proof. intros HT -> us Hu. destruct (Text_app_inv u us v cs Hu HT) as (vs & E & Hv). eauto. Qed.
Lemma p_c85 : forall (f : N -> bool) s cs, Text s cs -> Fits s -> exists t,
  trim_where s f = Ok t /\ trim_where t f = Ok t /\ trim_start_where t f = Ok t /\ trim_end_where t f = Ok t /\
  (let* a := trim_end_where s f in trim_start_where a f) = Ok t /\ (let* a := trim_start_where s f in trim_end_where a f) = Ok t.
Proof.
  intros f s cs HT HF. destruct (p_trim_division f s cs HT) as (u & us & m & ms & v & vs & -> & Hu & Hm & Hv & Fu & Fv & Fm & Lm).
  destruct (p_trim_where f) as (TS & TE & TW). exists m.
  assert (HFm : Fits m) by (unfold Fits, size in *; rewrite !app_length in HF; lia).
  pose proof (Forall_nil (fun c => f c = true)) as FN.
  split; [now apply (TW u us m ms v vs)|]. split.
  { pose proof (TW [] [] m ms [] []) as H. cbn [app] in H. rewrite app_nil_r in H. apply H; auto; constructor. }
  split; [apply (TS [] [] m ms); auto; constructor|]. split.
  { pose proof (TE m ms [] []) as H. rewrite app_nil_r in H. apply H; auto; constructor. }
  split.
  - (* the end first *)
    destruct ms as [|c ms].
    + apply Text_nil_inv in Hm. subst m. cbn [app] in *.
      pose proof (TE [] [] (u ++ v) (us ++ vs)) as H. cbn [app] in H. rewrite H; [cbn [bind]|exact HF|constructor|apply Text_app; auto|apply Forall_app; auto|exact Lm].
      apply (TS [] [] [] []); auto; constructor.
    + rewrite app_assoc. rewrite (TE (u ++ m) (us ++ c :: ms) v vs); auto.
      * cbn [bind]. apply (TS u us m (c :: ms)); auto. unfold Fits, size in *; rewrite !app_length in *; lia.
      * now rewrite <- app_assoc.
      * apply Text_app; auto.
      * intros ds d E. destruct (exists_last (l := c :: ms)) as (ds' & d' & E'); [discriminate|]. rewrite E' in E. rewrite app_assoc in E. apply app_inj_tail in E. destruct E as [_ ->]. now apply (Lm ds').
  - unfold trim_where in TW. exact (TW u us m ms v vs HF Hu Hm Hv Fu Fv Fm Lm).
Qed.
