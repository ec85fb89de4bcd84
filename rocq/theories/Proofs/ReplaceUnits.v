(** replace_codepoint on every text the library accepts. *)
From Verif Require Import Base Spec.Utf8Spec Spec.Strings Spec.Slices Spec.Replace Model.Decode Model.Encode Model.Subrange Model.Search
  Proofs.Utf8Lemmas Proofs.DecodeLemmas Proofs.SkipLemmas Proofs.EncodeLemmas Proofs.CodepointLemmas Proofs.SearchLemmas
  Proofs.ReplaceLemmas Proofs.ReplaceCpLemmas.

Lemma unit_eqb_spec f g : unit_eqb f g = true <-> f = g.
Proof. unfold unit_eqb. destruct (list_eq_dec Byte.byte_eq_dec f g); split; congruence. Qed.
Lemma unit_eqb_refl f : unit_eqb f f = true.
Proof. now apply unit_eqb_spec. Qed.

Lemma units_Text ps : Codepoints ps -> exists cs, Text (concat ps) cs.
Proof. induction 1 as [|g ps (c & Hg) _ (cs & IH)]; [exists []; constructor|]. exists (c :: cs). cbn. now constructor. Qed.

Lemma aligned_units g c : uchar g c -> forall ps u v, Codepoints ps -> concat ps = u ++ g ++ v ->
  exists us vs, ps = us ++ g :: vs /\ u = concat us /\ v = concat vs.
Proof.
  intros Hg ps. induction ps as [|g1 ps IH]; intros u v HP E.
  - cbn in E. pose proof (uchar_nonempty _ _ Hg). destruct u; [|discriminate]. destruct g; [congruence|discriminate].
  - inversion HP as [|? ? (c1 & Hg1) HP']; subst. cbn [concat] in E. destruct u as [|x u].
    + cbn [app] in E. destruct (uchar_prefix_unique _ _ _ _ _ _ Hg1 Hg E) as (-> & _ & <-). now exists [], ps.
    + destruct (Nat.le_gt_cases (length g1) (length (x :: u))) as [L|L].
      * assert (exists w, x :: u = g1 ++ w) as (w & Ew).
        { exists (skipn (length g1) (x :: u)).
          assert (E2 : firstn (length g1) (g1 ++ concat ps) = g1) by apply firstn_length_app.
          rewrite E, firstn_app in E2. replace (length g1 - length (x :: u))%nat with 0%nat in E2 by lia.
          cbn [firstn] in E2. rewrite app_nil_r in E2. rewrite <- E2 at 1. now rewrite firstn_skipn. }
        rewrite Ew, <- app_assoc in E. apply app_inv_head in E.
        destruct (IH w v HP' E) as (us & vs & -> & -> & ->).
        exists (g1 :: us), vs. rewrite Ew. now repeat split.
      * exfalso. destruct (uchar_shape _ _ Hg1) as (a & t & -> & Ha & Ht & _).
        destruct (uchar_shape _ _ Hg) as (b & t' & -> & Hb & _ & _).
        cbn [app] in E. injection E as -> E.
        assert (E2 : nth_error (t ++ concat ps) (length u) = Some b).
        { rewrite E, nth_error_app2, Nat.sub_diag by lia. reflexivity. }
        cbn [length] in L. rewrite nth_error_app1 in E2 by lia.
        apply nth_error_In in E2. rewrite Forall_forall in Ht. exact (Hb (Ht _ E2)).
Qed.
Lemma first_units_notin n f t ps qs : ~ In f ps -> replace_first_units n f t (ps ++ qs) = ps ++ replace_first_units n f t qs.
Proof.
  induction ps as [|g ps IH]; intros H; [reflexivity|]. cbn [app replace_first_units]. cbn in H.
  destruct (unit_eqb f g) eqn:E; [apply unit_eqb_spec in E; subst; tauto|]. cbn [andb]. rewrite IH by tauto. reflexivity.
Qed.
Lemma first_units_zero f t ps : replace_first_units 0 f t ps = ps.
Proof. induction ps as [|g ps IH]; [reflexivity|]. cbn. rewrite andb_false_r. now rewrite IH. Qed.
Lemma last_units_notin n f t ps qs : ~ In f qs -> replace_last_units n f t (ps ++ qs) = replace_last_units n f t ps ++ qs.
Proof.
  intros H. unfold replace_last_units. rewrite rev_app_distr, first_units_notin by now rewrite <- in_rev. now rewrite rev_app_distr, rev_involutive.
Qed.

Lemma front_units f t c : uchar f c -> forall n s r, ReplaceFront f t n s r ->
  forall ps, Codepoints ps -> concat ps = s -> r = concat (replace_first_units n f t ps).
Proof.
  intros Hf n s r H. induction H as [s|n s Hn|n u v r Hi H IH]; intros ps HP E.
  - now rewrite first_units_zero.
  - assert (~ In f ps) as Hin.
    { intros Hin. apply in_split in Hin. destruct Hin as (us & vs & ->). apply (Hn (length (concat us))). exists (concat us), (concat vs). rewrite <- E, concat_app. now split. }
    rewrite <- (app_nil_r ps), first_units_notin by exact Hin. cbn. now rewrite app_nil_r.
  - destruct (aligned_units f c Hf ps u v HP E) as (us & vs & -> & -> & ->).
    assert (~ In f us) as Hin.
    { intros Hin. apply in_split in Hin. destruct Hin as (us1 & us2 & ->). apply (Hi (length (concat us1))).
      - rewrite concat_app, app_length. cbn [concat]. rewrite app_length. pose proof (uchar_length _ _ Hf). lia.
      - exists (concat us1), (concat us2 ++ f ++ concat vs). rewrite concat_app. cbn [concat]. now rewrite <- !app_assoc. }
    apply Forall_app in HP as [_ HP]. apply Forall_cons_iff in HP as [_ HP].
    rewrite first_units_notin by exact Hin. cbn [replace_first_units]. rewrite unit_eqb_refl. replace (0 <? n + 1) with true by (symmetry; apply N.ltb_lt; lia). cbn [andb].
    replace (n + 1 - 1) with n by lia. rewrite concat_app. cbn [concat]. now rewrite <- (IH vs HP eq_refl).
Qed.
Lemma back_units f t c : uchar f c -> forall n s r, ReplaceBack f t n s r ->
  forall ps, Codepoints ps -> concat ps = s -> r = concat (replace_last_units n f t ps).
Proof.
  intros Hf n s r H. induction H as [s|n s Hn|n u v r Hi H IH]; intros ps HP E.
  - unfold replace_last_units. now rewrite first_units_zero, rev_involutive.
  - assert (~ In f ps) as Hin.
    { intros Hin. apply in_split in Hin. destruct Hin as (us & vs & ->). apply (Hn (length (concat us))). exists (concat us), (concat vs). rewrite <- E, concat_app. now split. }
    change ps with ([] ++ ps). rewrite last_units_notin by exact Hin. cbn. congruence.
  - destruct (aligned_units f c Hf ps v u HP E) as (vs & us & -> & -> & ->).
    assert (~ In f us) as Hin.
    { intros Hin. apply in_split in Hin. destruct Hin as (us1 & us2 & ->). apply (Hi (length (concat vs ++ f ++ concat us1))).
      - rewrite !app_length. pose proof (uchar_length _ _ Hf). lia.
      - exists (concat vs ++ f ++ concat us1), (concat us2). rewrite concat_app. cbn [concat]. now rewrite <- !app_assoc. }
    apply Forall_app in HP as [HP _].
    replace (vs ++ f :: us) with ((vs ++ [f]) ++ us) by now rewrite <- app_assoc. rewrite (last_units_notin (n + 1) f t (vs ++ [f]) us Hin).
    unfold replace_last_units. rewrite rev_app_distr. cbn [rev app replace_first_units].
    rewrite unit_eqb_refl. replace (0 <? n + 1) with true by (symmetry; apply N.ltb_lt; lia). cbn [andb].
    replace (n + 1 - 1) with n by lia. cbn [rev]. rewrite <- app_assoc, concat_app. cbn [app concat]. rewrite (IH vs HP eq_refl). reflexivity.
Qed.
Lemma p_c33_units : forall ps a b m, Codepoints ps -> Fits (concat ps) -> a <= 0x10FFFF -> b <= 0x10FFFF -> (- 0x8000000000000000 < m)%Z ->
  exists f t, encodes f a /\ encodes t b /\
    replace_codepoint (concat ps) a b m =
      Ok (concat (if (0 <=? m)%Z then replace_first_units (Z.to_N m) f t ps else replace_last_units (Z.to_N (- m)) f t ps)).
Proof.
  intros ps a b m HP HF Ha Hb Hm. unfold replace_codepoint.
  destruct (encode_buf_ok a Ha) as (f & fn & -> & Hf & Hfn). destruct (encode_buf_ok b Hb) as (t & tn & -> & Ht & Htn). exists f, t. split; [exact Hf|]. split; [exact Ht|].
  replace (fn =? 0) with false by (symmetry; now apply N.eqb_neq). replace (tn =? 0) with false by (symmetry; now apply N.eqb_neq).
  pose proof (encodes_uchar _ _ Ha Hf) as Hfu. pose proof (uchar_nonempty _ _ Hfu) as Hne.
  destruct (Z.leb_spec 0 m) as [L|L].
  - destruct (replace_front (concat ps) f t m Hne L) as (r & -> & Hr). now rewrite (front_units f t a Hfu _ _ _ Hr ps HP eq_refl).
  - destruct (replace_back (concat ps) f t m Hne HF ltac:(unfold PTRDIFF_MIN; lia)) as (r & -> & Hr). now rewrite (back_units f t a Hfu _ _ _ Hr ps HP eq_refl).
Qed.
