(** C97: the case-insensitive functions see their arguments only up to case. *)
From Verif Require Import Base Model.Decode Model.Encode Model.Subrange Model.Search Model.Split Model.CharClass Model.ConvertCase
  Model.CodepointSet Model.CaseInsensitive Spec.Utf8Spec Spec.Strings Spec.UnicodeData Spec.CaseFold
  Proofs.Utf8Lemmas Proofs.DecodeLemmas Proofs.EncodeLemmas Proofs.CodepointLemmas Proofs.SearchLemmas Proofs.CaseLemmas Proofs.CaseStringLemmas Proofs.Utf8Props
  Proofs.SliceLemmas Proofs.CiLemmas Proofs.CiFindLemmas Proofs.CiFindLastLemmas Proofs.SyncLemmas Spec.Safety Proofs.SafeLemmas.
Require Import Lia ZifyBool ZifyNat ZifyN.

Definition orel {A B} (R : A -> B -> Prop) (x : outcome A) (y : outcome B) : Prop :=
  match x, y with
  | Ok a, Ok b => R a b
  | Throw e, Throw e' => e = e'
  | UB, UB => True
  | OutOfFuel, OutOfFuel => True
  | _, _ => False
  end.
Lemma orel_bind {A B C D} (R : A -> B -> Prop) (Q : C -> D -> Prop) x y f g : orel R x y -> (forall a b, R a b -> orel Q (f a) (g b)) ->
  orel Q (bind x f) (bind y g).
Proof. destruct x, y; cbn; intros H K; auto; try contradiction. Qed.
Lemma orel_eq {A} (x y : outcome A) : orel eq x y -> x = y.
Proof. destruct x, y; cbn; intros H; try contradiction; congruence. Qed.
Lemma orel_refl {A} (R : A -> A -> Prop) x : (forall a, R a a) -> orel R x x.
Proof. destruct x; cbn; auto. Qed.
Lemma orel_same {A B C} (R : A -> B -> Prop) (x : outcome C) f g : (forall c, orel R (f c) (g c)) -> orel R (bind x f) (bind x g).
Proof. destruct x; cbn; auto. Qed.

(** The patterns: texts that are equal but for case. *)
Definition alike (p q : str) : Prop := exists ps qs, Text p ps /\ Text q qs /\ fold_case ps = fold_case qs.
Lemma cmp_pure_zero us : forall t vs t', cmp_pure us t vs t' = Some 0%Z -> t = false /\ t' = false /\ fold_case us = fold_case vs.
Proof.
  induction us as [|c us IH]; intros t [|d vs] t' H; cbn [cmp_pure] in H.
  - destruct t, t'; try discriminate. auto.
  - destruct t; discriminate.
  - destruct t'; discriminate.
  - destruct (Z.eqb_spec (Z.of_N (up c) - Z.of_N (up d)) 0) as [E|E]; [|congruence].
    destruct (IH _ _ _ H) as (-> & -> & K). split; [reflexivity|]. split; [reflexivity|]. unfold fold_case in *. cbn [map]. rewrite K. f_equal. lia.
Qed.
Lemma alike_iff p q : ci_equal p q = Ok true <-> alike p q.
Proof.
  split.
  - destruct (decoded p) as (u & us & r & t & -> & Hu & Hr). destruct (decoded q) as (v & vs & w & t' & -> & Hv & Hw).
    rewrite (ci_equal_pure _ _ _ _ _ _ _ _ Hu Hv Hr Hw). destruct (cmp_pure us t vs t') as [z|] eqn:E; cbn; [|discriminate].
    intros H. assert (z = 0)%Z as -> by (injection H; lia). destruct (cmp_pure_zero _ _ _ _ E) as (-> & -> & K). cbn in Hr, Hw. subst. rewrite !app_nil_r.
    now exists us, vs.
  - intros (ps & qs & H1 & H2 & H3). destruct (p_c47_text _ _ _ _ H1 H2) as (e & -> & H). f_equal. now apply H.
Qed.
Lemma alike_sym p q : alike p q -> alike q p.
Proof. intros (ps & qs & H1 & H2 & H3). exists qs, ps. auto. Qed.
Lemma same_up g c h d x : uchar g c -> uchar h d -> up c = up d -> case_insensitive_equal x c = case_insensitive_equal x d.
Proof. intros H1 H2 E. unfold case_insensitive_equal. rewrite (to_upper_spec c), (to_upper_spec d) by eauto using uchar_W32. now rewrite E. Qed.
Lemma alike_cases p q : alike p q ->
  (p = [] /\ q = []) \/ exists g c p' h d q', p = g ++ p' /\ q = h ++ q' /\ uchar g c /\ uchar h d /\ up c = up d /\ alike p' q'.
Proof.
  intros (ps & qs & H1 & H2 & H3). destruct H1 as [|g c p ps Hg Hp]; destruct H2 as [|h d q qs Hh Hq]; try discriminate; [left; auto|right].
  unfold fold_case in H3. cbn [map] in H3. apply cons_eq in H3. destruct H3 as [H3 H4]. exists g, c, p, h, d, q.
  repeat (split; [solve [auto]|]). exists ps, qs. auto.
Qed.

(** *** Forwards *)
Definition ended (p q : str) (x y : nat * nat) : Prop := fst x = fst y /\ (snd x = length p <-> snd y = length q).
Lemma mis_sim fuel : forall s i p1 p2 q1 q2, alike p2 q2 ->
  orel (ended (p1 ++ p2) (q1 ++ q2)) (next_ci_mismatch fuel s (p1 ++ p2) i (length p1)) (next_ci_mismatch fuel s (q1 ++ q2) i (length q1)).
Proof.
  induction fuel as [|fuel IH]; intros s i p1 p2 q1 q2 HA; cbn [next_ci_mismatch]; [exact I|].
  apply orel_same. intros [[ch it]|]; destruct (alike_cases _ _ HA) as [(-> & ->)|(g & c & p' & h & d & q' & -> & -> & Hg & Hh & Hu & HA')].
  - rewrite !app_nil_r, !safe_decode_next_end. cbn. unfold ended. cbn. tauto.
  - rewrite (safe_decode_next_uchar _ _ _ _ Hg), (safe_decode_next_uchar _ _ _ _ Hh). cbn [bind].
    rewrite (same_up g c h d ch Hg Hh Hu). destruct (case_insensitive_equal ch d); cbn [negb].
    + rewrite (app_assoc p1), (app_assoc q1). rewrite <- !app_length. now apply IH.
    + cbn. unfold ended. cbn [fst snd]. apply uchar_length in Hg, Hh. rewrite !app_length. split; [reflexivity|lia].
  - rewrite !app_nil_r. cbn. unfold ended. cbn. tauto.
  - cbn. unfold ended. cbn [fst snd]. apply uchar_length in Hg, Hh. rewrite !app_length. split; [reflexivity|lia].
Qed.
Lemma eqb_iff a b c d : (a = b <-> c = d) -> Nat.eqb a b = Nat.eqb c d.
Proof. intros H. destruct (Nat.eqb_spec a b), (Nat.eqb_spec c d); tauto. Qed.
Lemma p_c97_starts s p q : alike p q -> ci_starts_with s p = ci_starts_with s q.
Proof.
  intros H. unfold ci_starts_with. apply orel_eq. eapply orel_bind; [exact (mis_sim _ s 0 [] p [] q H)|].
  intros [a b] [a' b'] [_ K]. cbn in *. now apply eqb_iff.
Qed.
Lemma ff_sim s p q g c p' h d q' : p = g ++ p' -> q = h ++ q' -> uchar g c -> uchar h d -> up c = up d -> alike p' q' -> forall fuel i j,
  ci_find_first_loop fuel s p c (length g) i j = ci_find_first_loop fuel s q d (length h) i j.
Proof.
  intros -> -> Hg Hh Hu HA. induction fuel as [|fuel IH]; intros i j; cbn [ci_find_first_loop]; [reflexivity|].
  apply orel_eq, orel_same. intros [[ch it]|]; [|reflexivity]. rewrite (same_up g c h d ch Hg Hh Hu).
  destruct (case_insensitive_equal ch d); [|rewrite IH; now apply orel_refl].
  eapply orel_bind; [exact (mis_sim _ s it g p' h q' HA)|]. intros [a b] [a' b'] [K1 K2]. cbn [fst snd] in *. subst a'.
  rewrite (eqb_iff _ _ _ _ K2). destruct (Nat.eqb b' _); [reflexivity|]. rewrite IH. now apply orel_refl.
Qed.
Lemma p_c97_first s p q o : alike p q -> ci_find_first s p o = ci_find_first s q o.
Proof.
  intros H. unfold ci_find_first. destruct (alike_cases _ _ H) as [(-> & ->)|(g & c & p' & h & d & q' & -> & -> & Hg & Hh & Hu & HA')]; [reflexivity|].
  rewrite (safe_decode_next_uchar [] g c p' Hg : safe_decode_next (g ++ p') 0 = _), (safe_decode_next_uchar [] h d q' Hh : safe_decode_next (h ++ q') 0 = _). cbn [bind].
  apply orel_eq, orel_same. intros i. cbn [length Nat.add]. erewrite ff_sim by eauto. now apply orel_refl.
Qed.

(** *** Backwards *)
Lemma alike_last p q : alike p q ->
  (p = [] /\ q = []) \/ exists g c p' h d q', p = p' ++ g /\ q = q' ++ h /\ uchar g c /\ uchar h d /\ up c = up d /\ alike p' q'.
Proof.
  intros (ps & qs & H1 & H2 & H3). destruct ps as [|c ps _] using rev_ind; destruct qs as [|d qs _] using rev_ind.
  - left. inversion H1; inversion H2. auto.
  - exfalso. symmetry in H3. now apply fold_snoc_nil in H3.
  - exfalso. now apply fold_snoc_nil in H3.
  - right. apply Text_last in H1, H2. destruct H1 as (p' & g & -> & Hp & Hg). destruct H2 as (q' & h & -> & Hq & Hh).
    apply fold_snoc in H3. destruct H3 as [H3 H4]. exists g, c, p', h, d, q'. repeat (split; [solve [auto]|]). exists ps, qs. auto.
Qed.
Definition began (x y : nat * nat) : Prop := fst x = fst y /\ (snd x = 0%nat <-> snd y = 0%nat).
Lemma pmis_sim fuel : forall s i p1 p2 q1 q2, alike p1 q1 ->
  orel began (prev_ci_mismatch fuel s (p1 ++ p2) i (length p1)) (prev_ci_mismatch fuel s (q1 ++ q2) i (length q1)).
Proof.
  induction fuel as [|fuel IH]; intros s i p1 p2 q1 q2 HA; cbn [prev_ci_mismatch]; [exact I|].
  apply orel_same. intros [[ch it]|]; destruct (alike_last _ _ HA) as [(-> & ->)|(g & c & p' & h & d & q' & -> & -> & Hg & Hh & Hu & HA')].
  - cbn. unfold began. cbn. tauto.
  - rewrite (dprev ((p' ++ g) ++ p2) p' g c p2) by (auto; now rewrite <- ?app_assoc, ?app_length).
    rewrite (dprev ((q' ++ h) ++ q2) q' h d q2) by (auto; now rewrite <- ?app_assoc, ?app_length). cbn [bind].
    rewrite (same_up g c h d ch Hg Hh Hu). destruct (case_insensitive_equal ch d); cbn [negb].
    + rewrite <- !app_assoc. now apply IH.
    + cbn. unfold began. cbn [fst snd]. apply uchar_length in Hg, Hh. rewrite !app_length. split; [reflexivity|lia].
  - cbn. unfold began. cbn. tauto.
  - cbn. unfold began. cbn [fst snd]. apply uchar_length in Hg, Hh. rewrite !app_length. split; [reflexivity|lia].
Qed.
Lemma p_c97_ends s p q : alike p q -> ci_ends_with s p = ci_ends_with s q.
Proof.
  intros H. unfold ci_ends_with. apply orel_eq. pose proof (pmis_sim (S (length s)) s (length s) p [] q [] H) as K. rewrite !app_nil_r in K.
  eapply orel_bind; [exact K|]. intros [a b] [a' b'] [_ K']. cbn in *. now apply eqb_iff.
Qed.
Lemma fl_sim s p q g c p' h d q' : p = p' ++ g -> q = q' ++ h -> uchar g c -> uchar h d -> up c = up d -> alike p' q' -> forall fuel i j,
  ci_find_last_loop fuel s p c (length p') i j = ci_find_last_loop fuel s q d (length q') i j.
Proof.
  intros -> -> Hg Hh Hu HA. induction fuel as [|fuel IH]; intros i j; cbn [ci_find_last_loop]; [reflexivity|].
  apply orel_eq, orel_same. intros [[ch it]|]; [|reflexivity]. rewrite (same_up g c h d ch Hg Hh Hu).
  destruct (case_insensitive_equal ch d); [|rewrite IH; now apply orel_refl].
  eapply orel_bind; [exact (pmis_sim _ s it p' g q' h HA)|]. intros [a b] [a' b'] [K1 K2]. cbn [fst snd] in *. subst a'.
  rewrite (eqb_iff _ _ _ _ K2). destruct (Nat.eqb b' _); [reflexivity|]. rewrite IH. now apply orel_refl.
Qed.
Lemma p_c97_last s p q o : alike p q -> ci_find_last s p o = ci_find_last s q o.
Proof.
  intros H. unfold ci_find_last. destruct (alike_last _ _ H) as [(-> & ->)|(g & c & p' & h & d & q' & -> & -> & Hg & Hh & Hu & HA')]; [reflexivity|].
  rewrite (dprev (p' ++ g) p' g c []) by (auto; now rewrite ?app_nil_r, ?app_length).
  rewrite (dprev (q' ++ h) q' h d []) by (auto; now rewrite ?app_nil_r, ?app_length). cbn [bind].
  apply orel_eq, orel_same. intros i. erewrite fl_sim by eauto. now apply orel_refl.
Qed.

(** *** Functions built on them *)
Lemma rf_sim p q to (H : forall s, ci_find_first s p 0 = ci_find_first s q 0) fuel : forall s m r,
  ci_replace_front_loop fuel s p to m r = ci_replace_front_loop fuel s q to m r.
Proof.
  induction fuel as [|fuel IH]; intros s m r; cbn [ci_replace_front_loop]; [reflexivity|]. destruct (0 <? m)%Z; [|reflexivity].
  rewrite H. destruct (ci_find_first s q 0); cbn [bind]; try reflexivity. destruct (negb (sub_bool a)); [reflexivity|].
  destruct (substr _ _ _); cbn [bind]; try reflexivity. destruct (substr_from _ _); cbn [bind]; try reflexivity. apply IH.
Qed.
Lemma cl_sim p q (H : forall s, ci_find_last s p npos = ci_find_last s q npos) fuel : forall s m r,
  ci_collect_last fuel s p m r = ci_collect_last fuel s q m r.
Proof.
  induction fuel as [|fuel IH]; intros s m r; cbn [ci_collect_last]; [reflexivity|]. destruct (m <? 0)%Z; [|reflexivity].
  rewrite H. destruct (ci_find_last s q npos); cbn [bind]; try reflexivity. destruct (negb (sub_bool a)); [reflexivity|].
  destruct (substr _ _ _); cbn [bind]; try reflexivity. apply IH.
Qed.
Lemma p_c97_replace s p q to m : alike p q -> ci_replace s p to m = ci_replace s q to m.
Proof.
  intros H. unfold ci_replace. rewrite (rf_sim p q to) by (intros; now apply p_c97_first). rewrite (cl_sim p q) by (intros; now apply p_c97_last). reflexivity.
Qed.
Lemma split_loop_ext f g (H : forall t, f t = g t) fuel : forall n ign t r, split_loop fuel f n ign t r = split_loop fuel g n ign t r.
Proof.
  induction fuel as [|fuel IH]; intros n ign t r; cbn [split_loop]; [reflexivity|]. destruct (_ <? _); [|reflexivity].
  assert (ti_next f t = ti_next g t) as ->. { unfold ti_next. cbv zeta. destruct (sub_bool _); [destruct (substr_from _ _); cbn [bind]; try reflexivity; now rewrite H|]. destruct (negb _); [reflexivity|]. now rewrite H. }
  destruct (ti_next g t) as [[ok t']| | |]; cbn [bind]; try reflexivity. destruct ok; [|reflexivity]. destruct (ti_part t'); cbn [bind]; try reflexivity. apply IH.
Qed.
Lemma p_c97_split s p q n ign : alike p q -> ci_split_sep s p n ign = ci_split_sep s q n ign.
Proof.
  intros H. unfold ci_split_sep, split_where. rewrite (split_loop_ext _ (fun t => ci_find_first t q 0)); [reflexivity|]. intros t. now apply p_c97_first.
Qed.

(** *** The text *)
Lemma cmp_pure_fold us : forall us' t vs t', fold_case us = fold_case us' -> cmp_pure us t vs t' = cmp_pure us' t vs t'.
Proof.
  induction us as [|c us IH]; intros [|c' us'] t vs t' E; try discriminate; [reflexivity|]. unfold fold_case in E. cbn [map] in E. apply cons_eq in E. destruct E as [E1 E2].
  destruct vs as [|d vs]; cbn [cmp_pure]; [reflexivity|]. rewrite E1. cbv zeta. destruct (_ =? 0)%Z; [now apply IH|reflexivity].
Qed.
Lemma p_c97_compare a a' b : alike a a' -> ci_compare a b = ci_compare a' b /\ ci_compare b a = ci_compare b a'.
Proof.
  intros H. assert (ci_compare a b = ci_compare a' b) as E.
  { destruct H as (us & us' & H1 & H2 & H3). destruct (decoded b) as (v & vs & w & t' & -> & Hv & Hw).
    pose proof (ci_compare_pure a us [] false v vs w t' H1 Hv eq_refl Hw) as K1. pose proof (ci_compare_pure a' us' [] false v vs w t' H2 Hv eq_refl Hw) as K2.
    rewrite app_nil_r in K1, K2. rewrite K1, K2. f_equal. now apply cmp_pure_fold. }
  split; [exact E|]. rewrite (p_c46_opp a b), (p_c46_opp a' b). now rewrite E.
Qed.
Lemma p_c97_relations a a' b b' : alike a a' -> alike b b' ->
  ci_compare a b = ci_compare a' b' /\ ci_equal a b = ci_equal a' b' /\ ci_less a b = ci_less a' b'.
Proof.
  intros Ha Hb. assert (ci_compare a b = ci_compare a' b') as E.
  { rewrite (proj1 (p_c97_compare a a' b Ha)). exact (proj2 (p_c97_compare b b' a' Hb)). }
  rewrite !p_c47, !p_c48, E. auto.
Qed.
Lemma fold_split cs ds x y : fold_case cs = fold_case ds -> cs = x ++ y -> exists x' y', ds = x' ++ y' /\ fold_case x = fold_case x' /\ fold_case y = fold_case y'.
Proof.
  intros E ->. exists (firstn (length x) ds), (skipn (length x) ds). split; [symmetry; apply firstn_skipn|].
  rewrite fold_app in E. unfold fold_case in *. rewrite <- firstn_map, <- skipn_map, <- E.
  rewrite firstn_app, skipn_app, map_length, Nat.sub_diag. rewrite firstn_all2, skipn_all2 by (rewrite map_length; lia). cbn [firstn skipn app]. now rewrite app_nil_r.
Qed.
Lemma fold_parts cs ds x y z : fold_case cs = fold_case ds -> cs = x ++ y ++ z ->
  exists x' y' z', ds = x' ++ y' ++ z' /\ fold_case x = fold_case x' /\ fold_case y = fold_case y' /\ fold_case z = fold_case z'.
Proof.
  intros E Eq. destruct (fold_split _ _ _ _ E Eq) as (x' & r & -> & H1 & H2). destruct (fold_split _ _ _ _ H2 eq_refl) as (y' & z' & -> & H3 & H4).
  exists x', y', z'. auto.
Qed.
Lemma bool_iff (a b : bool) : (a = true <-> b = true) -> a = b.
Proof. destruct a, b; intros [H1 H2]; auto. symmetry. auto. Qed.
Lemma p_c97_text_ends s s' p ps : alike s s' -> Text p ps ->
  ci_starts_with s p = ci_starts_with s' p /\ ci_ends_with s p = ci_ends_with s' p.
Proof.
  intros (cs & ds & H1 & H2 & H3) Hp.
  destruct (p_c49_starts s cs p ps H1 Hp) as (a & -> & Ha). destruct (p_c49_starts s' ds p ps H2 Hp) as (a' & -> & Ha').
  destruct (p_c49_ends s cs p ps H1 Hp) as (b & -> & Hb). destruct (p_c49_ends s' ds p ps H2 Hp) as (b' & -> & Hb').
  assert (forall cs ds, fold_case cs = fold_case ds -> (exists x y, cs = x ++ y /\ fold_case x = fold_case ps) -> exists x y, ds = x ++ y /\ fold_case x = fold_case ps) as K1.
  { intros c d E (x & y & Eq & F). destruct (fold_split _ _ _ _ E Eq) as (x' & y' & -> & F1 & F2). exists x', y'. split; congruence. }
  assert (forall cs ds, fold_case cs = fold_case ds -> (exists x y, cs = x ++ y /\ fold_case y = fold_case ps) -> exists x y, ds = x ++ y /\ fold_case y = fold_case ps) as K2.
  { intros c d E (x & y & Eq & F). destruct (fold_split _ _ _ _ E Eq) as (x' & y' & -> & F1 & F2). exists x', y'. split; congruence. }
  split; f_equal; apply bool_iff; [rewrite Ha, Ha'|rewrite Hb, Hb']; split; eauto.
Qed.
Lemma sub_bool_size o (g : str) : g <> [] -> sub_bool (Sub o (size g)) = true.
Proof. unfold sub_bool, size. cbn [sub_length]. destruct g; [congruence|cbn [length]; lia]. Qed.
Lemma fold_ne gs ps : ps <> [] -> fold_case gs = fold_case ps -> gs <> [].
Proof. intros H E ->. destruct ps; [congruence|discriminate]. Qed.
Lemma text_ne g gs : Text g gs -> gs <> [] -> g <> [].
Proof. intros H K ->. apply K. inversion H as [|h c s cs Hh _ E]; [reflexivity|]. apply uchar_nonempty in Hh. apply app_eq_nil in E. tauto. Qed.
Lemma text_not_malformed v vs : Text v vs -> ~ Malformed v.
Proof. intros H [K1 K2]. destruct H as [|g c s cs Hg _]; [congruence|]. now apply (K2 g c s Hg). Qed.
Lemma p_c97_text_first s s' p ps : alike s s' -> Text p ps -> exists r r',
  ci_find_first s p 0 = Ok r /\ ci_find_first s' p 0 = Ok r' /\ sub_bool r = sub_bool r' /\
  (sub_bool r = true -> exists u u' m m', substr s 0 (sub_start r) = Ok u /\ substr s' 0 (sub_start r') = Ok u' /\ alike u u' /\
     substr s (sub_start r) (sub_length r) = Ok m /\ substr s' (sub_start r') (sub_length r') = Ok m' /\ alike m m').
Proof.
  intros (cs & ds & H1 & H2 & H3) Hp. destruct (list_eq_dec N.eq_dec ps []) as [->|Hne].
  { apply Text_nil_inv in Hp. subst p. eexists. eexists. split; [reflexivity|]. split; [reflexivity|]. split; [reflexivity|discriminate]. }
  destruct (p_c50_first ps p [] Hne Hp) as (F1 & F2 & _). cbn [app] in F1, F2. change (size []) with 0 in *.
  destruct (first_ci_text ps s cs Hne H1) as [(u & g & v & -> & F)|HN].
  - pose proof F as F'. destruct F as (us & gs & HU & HG & HE & HM & HV).
    destruct (Text_app_inv u us (g ++ v) cs HU H1) as (r1 & -> & T1). destruct (Text_app_inv g gs v r1 HG T1) as (vs & -> & HVt).
    destruct (fold_parts _ _ _ _ _ H3 eq_refl) as (us' & gs' & vs' & -> & E1 & E2 & E3).
    apply Text_cut in H2. destruct H2 as (u' & t' & -> & HU' & T2). apply Text_cut in T2. destruct T2 as (g' & v' & -> & HG' & HV').
    assert (first_ci ps u' g' v') as FF.
    { exists us', gs'. split; [exact HU'|]. split; [exact HG'|]. split; [congruence|]. split; [|now apply text_not_malformed with vs'].
      intros x y z Eq EP. assert (fold_case (us' ++ gs') = fold_case (us ++ gs)) as EE by (rewrite !fold_app; congruence).
      destruct (fold_parts _ _ _ _ _ EE Eq) as (x' & y' & z' & Eq' & K1 & K2 & K3).
      assert (z' = []) as -> by (apply (HM x' y' z' Eq'); congruence). destruct z; [reflexivity|discriminate]. }
    assert (g <> []) as Gne by (eapply text_ne; [exact HG|]; eapply fold_ne; [exact Hne|exact HE]).
    assert (g' <> []) as Gne' by (eapply text_ne; [exact HG'|]; eapply fold_ne; [exact Hne|]; congruence).
    eexists. eexists. split; [exact (F1 _ _ _ F')|]. split; [exact (F1 _ _ _ FF)|]. rewrite !sub_bool_size by assumption. split; [reflexivity|]. intros _.
    exists u, u', g, g'. cbn [sub_start sub_offset sub_length].
    split; [now apply substr_prefix|]. split; [now apply substr_prefix|]. split; [exists us, us'; auto|].
    split; [now apply substr_mid|]. split; [now apply substr_mid|]. exists gs, gs'; auto.
  - assert (no_ci ps s') as HN'.
    { destruct HN as (xs & HX & HN). rewrite (Text_fun _ _ _ HX H1) in HN. exists ds. split; [exact H2|]. intros x y z Eq EP.
      destruct (fold_parts _ _ _ _ _ (eq_sym H3) Eq) as (x' & y' & z' & Eq' & K1 & K2 & K3). apply (HN x' y' z' Eq'). congruence. }
    eexists. eexists. split; [exact (F2 _ HN)|]. split; [exact (F2 _ HN')|]. split; [reflexivity|discriminate].
Qed.
Lemma p_c97_text_last s s' p ps : Fits s -> Fits s' -> alike s s' -> Text p ps -> exists r r',
  ci_find_last s p npos = Ok r /\ ci_find_last s' p npos = Ok r' /\ sub_bool r = sub_bool r' /\
  (sub_bool r = true -> exists u u' m m', substr s 0 (sub_start r) = Ok u /\ substr s' 0 (sub_start r') = Ok u' /\ alike u u' /\
     substr s (sub_start r) (sub_length r) = Ok m /\ substr s' (sub_start r') (sub_length r') = Ok m' /\ alike m m').
Proof.
  intros HF HF' (cs & ds & H1 & H2 & H3) Hp. destruct (list_eq_dec N.eq_dec ps []) as [->|Hne].
  { apply Text_nil_inv in Hp. subst p. eexists. eexists. split; [reflexivity|]. split; [reflexivity|]. split; [reflexivity|discriminate]. }
  destruct (p_c50_last ps p [] npos Hne Hp) as (F1 & F2 & _).
  assert (forall t : str, Fits t -> N.min npos (size t) = size t) as Hmin by (intros t K; unfold Fits in K; unfold npos, SIZE_MAX; lia).
  assert (forall u g v, last_ci ps u g v -> Fits (u ++ g ++ v) -> ci_find_last (u ++ g ++ v) p npos = Ok (Sub (size u) (size g))) as G1.
  { intros u g v L K. pose proof (F1 u g v L) as Q. rewrite !app_nil_r in Q. now apply Q, Hmin. }
  assert (forall t, no_ci ps t -> Fits t -> ci_find_last t p npos = Ok (Sub npos 0)) as G2.
  { intros t L K. pose proof (F2 t L) as Q. rewrite !app_nil_r in Q. now apply Q, Hmin. }
  destruct (last_ci_cases ps s cs Hne H1) as [(u & g & v & -> & F)|HN].
  - pose proof F as F'. destruct F as (gs & vs & HVt & HG & HE & HM & HV).
    assert (exists us, Text u us) as [us HU].
    { destruct (text_cut _ _ H1 u (g ++ v) eq_refl) as (a & b & _ & Ha & _); [|now exists a]. apply (Text_at_lead _ (gs ++ vs)). now apply Text_app. }
    assert (cs = us ++ gs ++ vs) as ->. { apply (Text_fun (u ++ g ++ v)); [exact H1|]. repeat apply Text_app; auto. }
    destruct (fold_parts _ _ _ _ _ H3 eq_refl) as (us' & gs' & vs' & -> & E1 & E2 & E3).
    apply Text_cut in H2. destruct H2 as (u' & t' & -> & HU' & T2). apply Text_cut in T2. destruct T2 as (g' & v' & -> & HG' & HV').
    assert (last_ci ps u' g' v') as FF.
    { exists gs', vs'. split; [exact HV'|]. split; [exact HG'|]. split; [congruence|]. split; [|now apply Text_end_ok with us'].
      intros x y z Eq EP. assert (fold_case (gs' ++ vs') = fold_case (gs ++ vs)) as EE by (rewrite !fold_app; congruence).
      destruct (fold_parts _ _ _ _ _ EE Eq) as (x' & y' & z' & Eq' & K1 & K2 & K3).
      assert (x' = []) as -> by (apply (HM x' y' z' Eq'); congruence). destruct x; [reflexivity|discriminate]. }
    assert (g <> []) as Gne by (eapply text_ne; [exact HG|]; eapply fold_ne; [exact Hne|exact HE]).
    assert (g' <> []) as Gne' by (eapply text_ne; [exact HG'|]; eapply fold_ne; [exact Hne|]; congruence).
    eexists. eexists. split; [exact (G1 _ _ _ F' HF)|]. split; [exact (G1 _ _ _ FF HF')|]. rewrite !sub_bool_size by assumption. split; [reflexivity|]. intros _.
    exists u, u', g, g'. cbn [sub_start sub_offset sub_length].
    split; [now apply substr_prefix|]. split; [now apply substr_prefix|]. split; [exists us, us'; auto|].
    split; [now apply substr_mid|]. split; [now apply substr_mid|]. exists gs, gs'; auto.
  - assert (no_ci ps s') as HN'.
    { destruct HN as (xs & HX & HN). rewrite (Text_fun _ _ _ HX H1) in HN. exists ds. split; [exact H2|]. intros x y z Eq EP.
      destruct (fold_parts _ _ _ _ _ (eq_sym H3) Eq) as (x' & y' & z' & Eq' & K1 & K2 & K3). apply (HN x' y' z' Eq'). congruence. }
    eexists. eexists. split; [exact (G2 _ HN HF)|]. split; [exact (G2 _ HN' HF')|]. split; [reflexivity|discriminate].
Qed.

(** *** C98: ignoring case never loses a match *)
Lemma app_prefix {A} (a b c d : list A) : a ++ b = c ++ d -> (length a <= length c)%nat -> exists w, c = a ++ w.
Proof.
  revert c. induction a as [|x a IH]; intros [|y c] H L; cbn in L; try lia; [now exists []|now exists (y :: c)|].
  cbn in H. injection H as -> H. destruct (IH c H ltac:(lia)) as [w ->]. now exists w.
Qed.
Lemma app_suffix {A} (a b c d : list A) : a ++ b = c ++ d -> (length b <= length d)%nat -> exists w, d = w ++ b.
Proof.
  intros H L. assert (length c <= length a)%nat as L' by (apply (f_equal (@length A)) in H; rewrite !app_length in H; lia).
  destruct (app_prefix c d a b (eq_sym H) L') as [w ->]. rewrite <- app_assoc in H. apply app_inv_head in H. now exists w.
Qed.
Lemma p_c98_starts s cs p ps : Text s cs -> Text p ps -> Fits s ->
  (starts_with s p = Ok true -> ci_starts_with s p = Ok true) /\ (ends_with s p = Ok true -> ci_ends_with s p = Ok true).
Proof.
  intros HS HP HF. destruct (starts_with_spec s p) as (a & -> & Ha). destruct (ends_with_spec s p HF) as (b & -> & Hb).
  destruct (p_c49_starts s cs p ps HS HP) as (a' & -> & Ha'). destruct (p_c49_ends s cs p ps HS HP) as (b' & -> & Hb'). split; intros K; injection K as ->; f_equal.
  - destruct (proj1 Ha eq_refl) as [t ->]. destruct (Text_app_inv _ _ _ _ HP HS) as (ds & -> & _). apply Ha'. now exists ps, ds.
  - destruct (proj1 Hb eq_refl) as [t ->]. destruct (text_cut _ _ HS t p eq_refl (Text_at_lead _ _ HP)) as (us & vs & -> & HU & HV).
    rewrite (Text_fun _ _ _ HV HP) in *. apply Hb'. now exists us, ps.
Qed.
Lemma p_c98_first pre t cs p ps r : Text t cs -> Text p ps -> p <> [] ->
  find_first (pre ++ t) p (size pre) = Ok r -> sub_bool r = true ->
  exists r', ci_find_first (pre ++ t) p (size pre) = Ok r' /\ sub_bool r' = true /\ sub_start r' <= sub_start r.
Proof.
  intros HT HP Hp HR HB.
  assert (ps <> []) as Hne by (intros ->; apply Text_nil_inv in HP; congruence).
  assert (exists u v, t = u ++ p ++ v /\ sub_start r = size (pre ++ u)) as (u & v & -> & Hr).
  { destruct (find_first_spec (pre ++ t) p (length pre) Hp ltac:(rewrite app_length; lia)) as [(i & Hi & (a & b & Eab & La) & _ & E)|[Hn E]]; unfold size at 1 in HR; rewrite E in HR.
    - injection HR as <-. destruct (app_prefix pre t a (p ++ b) Eab ltac:(lia)) as [w ->]. rewrite <- app_assoc in Eab. apply app_inv_head in Eab.
      exists w, b. split; [exact Eab|]. cbn [sub_start sub_offset]. unfold size. now rewrite La.
    - injection HR as <-. discriminate. }
  destruct (sync _ _ p ps u v HT HP Hp eq_refl) as (us & vs & HU & HV & ->).
  destruct (p_c50_first ps p pre Hne HP) as (F1 & F2 & _).
  destruct (first_ci_text ps _ _ Hne HT) as [(u' & g' & v' & Eq & F)|HN].
  - rewrite Eq. exists (Sub (size (pre ++ u')) (size g')). split; [now apply F1|].
    destruct F as (us' & gs' & HU' & HG' & HE & HM & _).
    split; [apply sub_bool_size; eapply text_ne; [exact HG'|]; eapply fold_ne; [exact Hne|exact HE]|].
    rewrite Hr. cbn [sub_start sub_offset]. rewrite !size_app. destruct (N.le_gt_cases (size u') (size u)) as [L|L]; [lia|exfalso].
    destruct (app_prefix u (p ++ v) u' (g' ++ v') Eq ltac:(unfold size in L; lia)) as [w ->].
    destruct (Text_app_inv _ _ _ _ HU HU') as (ws & -> & HW).
    assert (ws <> []) as Wne by (intros ->; apply Text_nil_inv in HW; subst w; rewrite app_nil_r in L; lia).
    rewrite Eq in HT. rewrite app_assoc in HT. destruct (Text_app_inv _ _ _ _ (Text_app _ _ _ _ HU' HG') HT) as (vs' & Ecs & _).
    rewrite <- !app_assoc in Ecs. apply app_inv_head in Ecs. rewrite app_assoc in Ecs.
    assert (length gs' = length ps) as LG by now apply fold_len.
    destruct (app_prefix ps vs (ws ++ gs') vs' Ecs ltac:(rewrite app_length; lia)) as [z Ez].
    assert (z = []) as ->. { apply (HM us ps z); [|reflexivity]. now rewrite <- app_assoc, Ez. }
    apply (f_equal (@length N)) in Ez. rewrite !app_length in Ez. destruct ws; [congruence|cbn in Ez; lia].
  - exfalso. destruct HN as (xs & HX & HN). rewrite (Text_fun _ _ _ HX HT) in HN. now apply (HN us ps vs).
Qed.
Lemma p_c98_last s cs p ps r : Text s cs -> Text p ps -> p <> [] -> Fits s ->
  find_last s p npos = Ok r -> sub_bool r = true ->
  exists r', ci_find_last s p npos = Ok r' /\ sub_bool r' = true /\ sub_start r <= sub_start r'.
Proof.
  intros HT HP Hp HF HR HB.
  assert (ps <> []) as Hne by (intros ->; apply Text_nil_inv in HP; congruence).
  assert (N.min npos (size s) = size s) as Hmin by (unfold Fits in HF; unfold npos, SIZE_MAX; lia).
  assert (exists u v, s = u ++ p ++ v /\ sub_start r = size u) as (u & v & -> & Hr).
  { pose proof (find_last_spec s p npos Hp) as FL. cbv zeta in FL. destruct FL as [(i & (a & b & Eab & La) & _ & _ & E)|(_ & E)]; rewrite E in HR; injection HR as <-; [|discriminate].
    exists a, b. split; [exact Eab|]. cbn [sub_start sub_offset]. unfold size. now rewrite La. }
  destruct (sync _ _ p ps u v HT HP Hp eq_refl) as (us & vs & HU & HV & ->).
  destruct (p_c50_last ps p [] npos Hne HP) as (F1 & F2 & _).
  destruct (last_ci_cases ps _ _ Hne HT) as [(u' & g' & v' & Eq & F)|HN].
  - specialize (F1 u' g' v' F). rewrite !app_nil_r in F1. rewrite Eq in Hmin. specialize (F1 Hmin). rewrite Eq. exists (Sub (size u') (size g')). split; [exact F1|].
    destruct F as (gs' & vs' & HV' & HG' & HE & HM & _).
    split; [apply sub_bool_size; eapply text_ne; [exact HG'|]; eapply fold_ne; [exact Hne|exact HE]|].
    rewrite Hr. cbn [sub_start sub_offset]. destruct (N.le_gt_cases (size u) (size u')) as [L|L]; [lia|exfalso].
    destruct (app_prefix u' (g' ++ v') u (p ++ v) (eq_sym Eq) ltac:(unfold size in L; lia)) as [w ->].
    rewrite <- app_assoc in Eq. apply app_inv_head in Eq.
    assert (Text (w ++ p ++ v) (gs' ++ vs')) as TW by (rewrite Eq; now apply Text_app).
    assert (exists ws, gs' ++ vs' = ws ++ ps ++ vs /\ Text w ws) as (ws & Ews & HW).
    { destruct (sync _ _ p ps w v TW HP Hp eq_refl) as (ws & vs2 & HW & HV2 & E2). exists ws. rewrite (Text_fun _ _ _ HV2 HV) in E2. auto. }
    assert (ws = []) as -> by (now apply (HM ws ps vs)). apply Text_nil_inv in HW. subst w. rewrite app_nil_r in L. lia.
  - exfalso. destruct HN as (xs & HX & HN). rewrite (Text_fun _ _ _ HX HT) in HN. now apply (HN us ps vs).
Qed.

Lemma fw_start s f fuel : forall i r c, (i <= length s)%nat -> find_first_where_loop fuel s f i i = Ok (r, c) -> sub_bool r = true -> N.of_nat i <= sub_start r.
Proof.
  induction fuel as [|fuel IH]; intros i r c Hi H HB; cbn [find_first_where_loop] in H; [discriminate|].
  pose proof (safe_next_runs True s i Hi) as K. destruct (safe_decode_next s i) as [[[ch j]|]| | |]; cbn [bind runs] in *; try discriminate.
  - destruct (f ch).
    + injection H as <- <-. cbn. lia.
    + apply IH in H; [lia|lia|exact HB].
  - injection H as <- <-. discriminate.
Qed.
Lemma fw_mono s f g (Hfg : forall c, f c = true -> g c = true) fuel : forall i r c, (i <= length s)%nat ->
  find_first_where_loop fuel s f i i = Ok (r, c) -> sub_bool r = true ->
  exists r' c', find_first_where_loop fuel s g i i = Ok (r', c') /\ sub_bool r' = true /\ sub_start r' <= sub_start r.
Proof.
  induction fuel as [|fuel IH]; intros i r c Hi H HB; [discriminate|]. pose proof (fw_start s f (S fuel) i r c Hi H HB) as HS. cbn [find_first_where_loop] in H |- *.
  pose proof (safe_next_runs True s i Hi) as K. destruct (safe_decode_next s i) as [[[ch j]|]| | |]; cbn [bind runs] in *; try discriminate.
  - destruct (f ch) eqn:Ef.
    + rewrite (Hfg ch Ef). injection H as <- <-. eexists. eexists. split; [reflexivity|]. split; [exact HB|]. lia.
    + destruct (g ch) eqn:Eg.
      * eexists. eexists. split; [reflexivity|]. unfold sub_its, sub_bool, sub_start in *. cbn [sub_offset sub_length] in *. lia.
      * apply IH in H; [exact H|lia|exact HB].
  - injection H as <- <-. discriminate.
Qed.
Lemma lw_start s f fuel : forall i r c, (i <= length s)%nat -> find_last_where_loop fuel s f i i = Ok (r, c) -> sub_bool r = true ->
  sub_start r + sub_length r <= N.of_nat i.
Proof.
  induction fuel as [|fuel IH]; intros i r c Hi H HB; cbn [find_last_where_loop] in H; [discriminate|].
  pose proof (safe_prev_runs s i Hi) as K. destruct (safe_decode_prev s i) as [[[ch j]|]| | |]; cbn [bind runs] in *; try discriminate.
  - destruct (f ch).
    + injection H as <- <-. cbn. lia.
    + apply IH in H; [lia|lia|exact HB].
  - injection H as <- <-. discriminate.
Qed.
Lemma lw_mono s f g (Hfg : forall c, f c = true -> g c = true) fuel : forall i r c, (i <= length s)%nat ->
  find_last_where_loop fuel s f i i = Ok (r, c) -> sub_bool r = true ->
  exists r' c', find_last_where_loop fuel s g i i = Ok (r', c') /\ sub_bool r' = true /\ sub_start r <= sub_start r'.
Proof.
  induction fuel as [|fuel IH]; intros i r c Hi H HB; [discriminate|]. pose proof H as H0. cbn [find_last_where_loop] in H |- *.
  pose proof (safe_prev_runs s i Hi) as K. destruct (safe_decode_prev s i) as [[[ch j]|]| | |]; cbn [bind runs] in *; try discriminate.
  - destruct (f ch) eqn:Ef.
    + rewrite (Hfg ch Ef). injection H as <- <-. eexists. eexists. split; [reflexivity|]. split; [exact HB|]. lia.
    + pose proof (lw_start s f fuel j r c ltac:(lia) H HB) as HS. destruct (g ch) eqn:Eg.
      * eexists. eexists. split; [reflexivity|]. unfold sub_its, sub_bool, sub_start in *. cbn [sub_offset sub_length] in *. lia.
      * apply IH in H; [exact H|lia|exact HB].
  - injection H as <- <-. discriminate.
Qed.
Lemma begin_plus_le s o i : begin_plus s o = Ok i -> (i <= length s)%nat.
Proof. unfold begin_plus, size. destruct (N.leb_spec o (N.of_nat (length s))); intros K; try discriminate. injection K as <-. lia. Qed.
Lemma p_c98_where s f g o r c : (forall x, f x = true -> g x = true) ->
  (find_first_where s f o = Ok (r, c) -> sub_bool r = true ->
   exists r' c', find_first_where s g o = Ok (r', c') /\ sub_bool r' = true /\ sub_start r' <= sub_start r) /\
  (find_last_where s f o = Ok (r, c) -> sub_bool r = true ->
   exists r' c', find_last_where s g o = Ok (r', c') /\ sub_bool r' = true /\ sub_start r <= sub_start r').
Proof.
  intros Hfg. unfold find_first_where, find_last_where. split.
  - destruct (begin_plus s o) as [i| | |] eqn:E; cbn [bind]; try discriminate. apply begin_plus_le in E. now apply fw_mono.
  - cbv zeta. destruct (begin_plus s (N.min o (size s))) as [i| | |] eqn:E; cbn [bind]; try discriminate. apply begin_plus_le in E. now apply lw_mono.
Qed.
Lemma p_c98_chars s chars o r c :
  (find_first_of s chars o = Ok (r, c) -> sub_bool r = true ->
   exists r' c', ci_find_first_of s chars o = Ok (r', c') /\ sub_bool r' = true /\ sub_start r' <= sub_start r) /\
  (find_last_of s chars o = Ok (r, c) -> sub_bool r = true ->
   exists r' c', ci_find_last_of s chars o = Ok (r', c') /\ sub_bool r' = true /\ sub_start r <= sub_start r').
Proof.
  apply p_c98_where. intros x H. unfold u32_contains, u32_ci_contains in *. rewrite existsb_exists in *. destruct H as (d & Hd & K). exists d. split; [exact Hd|].
  apply N.eqb_eq in K. subst d. unfold case_insensitive_equal. apply N.eqb_refl.
Qed.

Lemma p_c97_pattern p q : ci_equal p q = Ok true -> forall s,
  ci_starts_with s p = ci_starts_with s q /\ ci_ends_with s p = ci_ends_with s q /\
  (forall o, ci_find_first s p o = ci_find_first s q o) /\ (forall o, ci_find_last s p o = ci_find_last s q o) /\
  (forall to m, ci_replace s p to m = ci_replace s q to m) /\
  (forall n ign, ci_split_sep s p n ign = ci_split_sep s q n ign).
Proof.
  intros H s. apply alike_iff in H. split; [now apply p_c97_starts|]. split; [now apply p_c97_ends|]. split; [intros; now apply p_c97_first|].
  split; [intros; now apply p_c97_last|]. split; [intros; now apply p_c97_replace|]. intros; now apply p_c97_split.
Qed.
Lemma p_c97_comparison a a' b b' : ci_equal a a' = Ok true -> ci_equal b b' = Ok true ->
  ci_compare a b = ci_compare a' b' /\ ci_equal a b = ci_equal a' b' /\ ci_less a b = ci_less a' b'.
Proof. intros H H'. apply p_c97_relations; now apply alike_iff. Qed.
Lemma p_c97_text s s' p ps : ci_equal s s' = Ok true -> Text p ps ->
  ci_starts_with s p = ci_starts_with s' p /\ ci_ends_with s p = ci_ends_with s' p.
Proof. intros H. apply alike_iff in H. now apply p_c97_text_ends. Qed.
Lemma p_c97_found s s' p ps : ci_equal s s' = Ok true -> Text p ps -> exists r r',
  ci_find_first s p 0 = Ok r /\ ci_find_first s' p 0 = Ok r' /\ sub_bool r = sub_bool r' /\
  (sub_bool r = true -> exists u u' m m',
     substr s 0 (sub_start r) = Ok u /\ substr s' 0 (sub_start r') = Ok u' /\ ci_equal u u' = Ok true /\
     substr s (sub_start r) (sub_length r) = Ok m /\ substr s' (sub_start r') (sub_length r') = Ok m' /\ ci_equal m m' = Ok true).
Proof.
  intros H HP. apply alike_iff in H. destruct (p_c97_text_first s s' p ps H HP) as (r & r' & E1 & E2 & E3 & K). exists r, r'. repeat (split; [assumption|]).
  intros HB. destruct (K HB) as (u & u' & m & m' & K1 & K2 & K3 & K4 & K5 & K6). exists u, u', m, m'. rewrite !alike_iff. auto 10.
Qed.
Lemma p_c97_found_last s s' p ps : Fits s -> Fits s' -> ci_equal s s' = Ok true -> Text p ps -> exists r r',
  ci_find_last s p npos = Ok r /\ ci_find_last s' p npos = Ok r' /\ sub_bool r = sub_bool r' /\
  (sub_bool r = true -> exists u u' m m',
     substr s 0 (sub_start r) = Ok u /\ substr s' 0 (sub_start r') = Ok u' /\ ci_equal u u' = Ok true /\
     substr s (sub_start r) (sub_length r) = Ok m /\ substr s' (sub_start r') (sub_length r') = Ok m' /\ ci_equal m m' = Ok true).
Proof.
  intros HF HF' H HP. apply alike_iff in H. destruct (p_c97_text_last s s' p ps HF HF' H HP) as (r & r' & E1 & E2 & E3 & K). exists r, r'. repeat (split; [assumption|]).
  intros HB. destruct (K HB) as (u & u' & m & m' & K1 & K2 & K3 & K4 & K5 & K6). exists u, u', m, m'. rewrite !alike_iff. auto 10.
Qed.
