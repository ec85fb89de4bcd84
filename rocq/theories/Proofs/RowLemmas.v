(** C146: replacements in a row. *)
From Verif Require Import Base Spec.Utf8Spec Spec.Strings Spec.Slices Spec.Replace Model.Decode Model.Encode Model.Subrange Model.Search
  Proofs.Utf8Lemmas Proofs.DecodeLemmas Proofs.EncodeLemmas Proofs.CodepointLemmas Proofs.SearchLemmas
  Proofs.ReplaceLemmas Proofs.ReplaceCpLemmas Proofs.ReplaceUnits Proofs.SyncLemmas Proofs.UndoReplace.

Lemma occ_left f u x i : (i + length f <= length u)%nat -> occurs_at f (u ++ x) i -> occurs_at f u i.
Proof.
  intros L (a & b & E & <-). rewrite app_assoc in E. destruct (app_cut (a ++ f) b u x (eq_sym E)) as (c & -> & _); [rewrite app_length; lia|].
  exists a, c. now rewrite <- app_assoc.
Qed.
Lemma occ_right f u x i : (length u <= i)%nat -> occurs_at f (u ++ x) i -> occurs_at f x (i - length u).
Proof.
  intros L (a & b & E & <-). destruct (app_cut u x a (f ++ b) E L) as (c & -> & ->). exists c, b. split; [reflexivity|]. rewrite app_length. lia.
Qed.
Lemma occ_app_l f u x i : occurs_at f u i -> occurs_at f (u ++ x) i.
Proof. intros (a & b & -> & <-). exists a, (b ++ x). now rewrite <- !app_assoc. Qed.
Lemma occ_app_r f u x i : occurs_at f x i -> occurs_at f (u ++ x) (length u + i).
Proof. intros (a & b & -> & <-). exists (u ++ a), b. rewrite app_length, <- !app_assoc. auto. Qed.
Lemma occ_len f u i : occurs_at f u i -> (i + length f <= length u)%nat.
Proof. intros (a & b & -> & <-). rewrite !app_length. lia. Qed.

Section Staged.
Context (K : str -> Prop) (f t : str) (f_ne : f <> []).
Context (K_split : forall u v, K (u ++ f ++ v) -> K u /\ K v) (K_put : forall u v, K u -> K v -> K (u ++ t ++ v)).
Context (K_bar : forall u x i, K u -> K x -> occurs_at f (u ++ t ++ x) i -> (i + length f <= length u)%nat \/ (length u + length t <= i)%nat).

Lemma flen : (0 < length f)%nat.
Proof. destruct f; [congruence|cbn; lia]. Qed.
Lemma bar u x i : K u -> K x -> occurs_at f (u ++ t ++ x) i -> occurs_at f u i \/ ((length u + length t <= i)%nat /\ occurs_at f x (i - (length u + length t))).
Proof.
  intros Ku Kx H. destruct (K_bar u x i Ku Kx H) as [L|L]; [left; exact (occ_left _ _ _ _ L H)|right]. split; [exact L|].
  rewrite app_assoc in H. rewrite <- app_length in *. now apply occ_right.
Qed.
Lemma front_behind u x n y : K u -> K x -> (forall i, ~ occurs_at f u i) -> ReplaceFront f t n x y -> ReplaceFront f t n (u ++ t ++ x) (u ++ t ++ y).
Proof.
  intros Ku Kx Hu H. inversion H as [s E1 E2 E3|n' s Hn E1 E2 E3|n' a b r Hi H' E1 E2 E3]; subst.
  - constructor.
  - constructor. intros i Ho. destruct (bar u y i Ku Kx Ho) as [Ho'|[_ Ho']]; [exact (Hu _ Ho')|exact (Hn _ Ho')].
  - replace (u ++ t ++ a ++ f ++ b) with ((u ++ t ++ a) ++ f ++ b) by (now rewrite <- !app_assoc).
    replace (u ++ t ++ a ++ t ++ r) with ((u ++ t ++ a) ++ t ++ r) by (now rewrite <- !app_assoc).
    constructor; [|exact H']. intros i L Ho. rewrite <- !app_assoc in Ho. rewrite !app_length in L.
    destruct (bar u _ i Ku Kx Ho) as [Ho'|[L' Ho']]; [exact (Hu _ Ho')|]. apply (Hi (i - (length u + length t))%nat); [lia|exact Ho'].
Qed.
Lemma back_before u x n y : K u -> K x -> (forall i, ~ occurs_at f u i) -> ReplaceBack f t n x y -> ReplaceBack f t n (x ++ t ++ u) (y ++ t ++ u).
Proof.
  intros Ku Kx Hu H. inversion H as [s E1 E2 E3|n' s Hn E1 E2 E3|n' a b r Hi H' E1 E2 E3]; subst.
  - constructor.
  - constructor. intros i Ho. destruct (bar y u i Kx Ku Ho) as [Ho'|[_ Ho']]; [exact (Hn _ Ho')|exact (Hu _ Ho')].
  - replace ((b ++ f ++ a) ++ t ++ u) with (b ++ f ++ a ++ t ++ u) by (now rewrite <- !app_assoc).
    replace ((r ++ t ++ a) ++ t ++ u) with (r ++ t ++ a ++ t ++ u) by (now rewrite <- !app_assoc).
    constructor; [|exact H']. intros i L Ho.
    replace (b ++ f ++ a ++ t ++ u) with ((b ++ f ++ a) ++ t ++ u) in Ho by (now rewrite <- !app_assoc).
    destruct (bar _ u i Kx Ku Ho) as [Ho'|[L' Ho']]; [exact (Hi _ L Ho')|exact (Hu _ Ho')].
Qed.
Lemma K_front n s r : ReplaceFront f t n s r -> K s -> K r.
Proof. induction 1 as [s|n s Hn|n u v r Hi H IH]; intros HK; auto. apply K_split in HK as [Ku Kv]. auto. Qed.
Lemma K_back n s r : ReplaceBack f t n s r -> K s -> K r.
Proof. induction 1 as [s|n s Hn|n u v r Hi H IH]; intros HK; auto. apply K_split in HK as [Ku Kv]. auto. Qed.
Lemma none_step n s r : (forall i, ~ occurs_at f s i) -> ReplaceFront f t n s r -> r = s.
Proof. intros H HR. exact (ReplaceFront_fun _ _ _ _ _ HR _ (rf_none f t n s H)). Qed.
Lemma none_step_back n s r : (forall i, ~ occurs_at f s i) -> ReplaceBack f t n s r -> r = s.
Proof. intros H HR. exact (ReplaceBack_fun _ _ _ _ _ HR _ (rb_none f t n s H)). Qed.
Lemma stage_front m s r : ReplaceFront f t m s r -> K s -> forall n q, ReplaceFront f t n r q -> ReplaceFront f t (m + n) s q.
Proof.
  induction 1 as [s|m s Hm|m u v r Hi H IH]; intros HK n q HQ.
  - exact HQ.
  - rewrite (none_step _ _ _ Hm HQ). now constructor.
  - apply K_split in HK as [Ku Kv]. assert (forall i, ~ occurs_at f u i) as Hu.
    { intros i Ho. apply (Hi i); [pose proof (occ_len _ _ _ Ho); pose proof flen; lia|now apply occ_app_l]. }
    destruct (replace_front r f t (Z.of_N n) f_ne ltac:(lia)) as (y & _ & HY). rewrite N2Z.id in HY.
    pose proof (front_behind u r n y Ku (K_front _ _ _ H Kv) Hu HY) as HB. rewrite (ReplaceFront_fun _ _ _ _ _ HQ _ HB).
    replace (m + 1 + n) with ((m + n) + 1) by lia. constructor; [exact Hi|]. now apply IH.
Qed.
Lemma stage_back m s r : ReplaceBack f t m s r -> K s -> forall n q, (forall x, Fits x -> exists y, ReplaceBack f t n x y) -> Fits r -> ReplaceBack f t n r q -> ReplaceBack f t (m + n) s q.
Proof.
  induction 1 as [s|m s Hm|m u v r Hi H IH]; intros HK n q HX HF HQ.
  - exact HQ.
  - rewrite (none_step_back _ _ _ Hm HQ). now constructor.
  - apply K_split in HK as [Kv Ku]. assert (forall i, ~ occurs_at f u i) as Hu.
    { intros i Ho. apply (Hi (length v + (length f + i))%nat); [pose proof flen; lia|]. apply occ_app_r, occ_app_r. exact Ho. }
    assert (Fits r) as HF' by (unfold Fits, size in *; rewrite !app_length in HF; lia).
    destruct (HX r HF') as (y & HY). pose proof (back_before u r n y Ku (K_back _ _ _ H Kv) Hu HY) as HB. rewrite (ReplaceBack_fun _ _ _ _ _ HQ _ HB).
    replace (m + 1 + n) with ((m + n) + 1) by lia. constructor; [exact Hi|]. now apply IH.
Qed.
Lemma staged s m n r : K s -> Fits s -> Fits r -> replace s f t m = Ok r ->
  ((0 <= m /\ 0 <= n)%Z \/ (m <= 0 /\ n <= 0 /\ - 0x8000000000000000 < m + n)%Z) -> replace r f t n = replace s f t (m + n).
Proof.
  intros HK HF HFr E HS.
  assert (forall x, replace x f t 0 = Ok x) as Z0 by (intros x; apply replace_front_zero).
  assert ((m = 0)%Z -> replace r f t n = replace s f t (m + n)) as EM by (intros ->; rewrite Z0 in E; now injection E as <-).
  assert ((n = 0)%Z -> replace r f t n = replace s f t (m + n)) as EN by (intros ->; now rewrite Z0, Z.add_0_r, E).
  destruct (Z.eq_dec m 0) as [?|Nm]; [auto|]. destruct (Z.eq_dec n 0) as [?|Nn]; [auto|]. destruct HS as [HS|HS].
  - destruct (replace_front s f t m f_ne ltac:(lia)) as (r1 & E1 & H1). rewrite E1 in E. injection E as ->.
    destruct (replace_front r f t n f_ne ltac:(lia)) as (r2 & E2 & H2). rewrite E2.
    destruct (replace_front s f t (m + n) f_ne ltac:(lia)) as (r3 & E3 & H3). rewrite E3. f_equal.
    apply (ReplaceFront_fun f t (Z.to_N (m + n)) s r2); [|exact H3].
    replace (Z.to_N (m + n)) with (Z.to_N m + Z.to_N n) by lia. exact (stage_front _ _ _ H1 HK _ _ H2).
  - destruct (replace_back s f t m f_ne HF ltac:(unfold PTRDIFF_MIN; lia)) as (r1 & E1 & H1). rewrite E1 in E. injection E as ->.
    destruct (replace_back r f t n f_ne HFr ltac:(unfold PTRDIFF_MIN; lia)) as (r2 & E2 & H2). rewrite E2.
    destruct (replace_back s f t (m + n) f_ne HF ltac:(unfold PTRDIFF_MIN; lia)) as (r3 & E3 & H3). rewrite E3. f_equal.
    apply (ReplaceBack_fun f t (Z.to_N (- (m + n))) s r2); [|exact H3].
    replace (Z.to_N (- (m + n))) with (Z.to_N (- m) + Z.to_N (- n)) by lia. apply (stage_back _ _ _ H1 HK _ _); [|exact HFr|exact H2].
    intros x Fx. destruct (replace_back x f t n f_ne Fx ltac:(unfold PTRDIFF_MIN; lia)) as (y & _ & Hy). eauto.
Qed.
End Staged.

(** Bytes in common are enough to be ruled out ... *)
Lemma bytes_bar f t u x i : f <> [] -> t <> [] -> apart t f -> occurs_at f (u ++ t ++ x) i -> (i + length f <= length u)%nat \/ (length u + length t <= i)%nat.
Proof.
  intros Hf Ht HA (a & b & E & <-).
  destruct (Nat.le_gt_cases (length a + length f) (length u)) as [L|L]; [auto|]. destruct (Nat.le_gt_cases (length u + length t) (length a)) as [L'|L']; [auto|exfalso].
  destruct (Nat.le_gt_cases (length u) (length a)) as [M|M].
  - destruct (app_cut u (t ++ x) a (f ++ b) E M) as (c & -> & E2). rewrite app_length in L'.
    destruct (app_cut c (f ++ b) t x (eq_sym E2)) as (d & -> & E3); [lia|]. destruct d as [|z d]; [rewrite app_length in L'; cbn in L'; lia|].
    destruct f as [|z' f]; [congruence|]. injection E3 as E3 _. subst z'. apply (HA z); [apply in_or_app; right; now left|now left].
  - destruct (app_cut a (f ++ b) u (t ++ x) (eq_sym E) ltac:(lia)) as (c & -> & E2). rewrite app_length in L.
    destruct (app_cut c (t ++ x) f b (eq_sym E2)) as (d & -> & E3); [lia|]. destruct d as [|z d]; [rewrite app_length in L; cbn in L; lia|].
    destruct t as [|z' t]; [congruence|]. injection E3 as E3 _. subst z'. apply (HA z); [now left|apply in_or_app; right; now left].
Qed.
Lemma p_c146_stages : forall s f t m n r, f <> [] -> t <> [] -> (forall x, In x t -> ~ In x f) -> Fits s -> Fits r -> replace s f t m = Ok r ->
  ((0 <= m /\ 0 <= n)%Z \/ (m <= 0 /\ n <= 0 /\ - 0x8000000000000000 < m + n)%Z) -> replace r f t n = replace s f t (m + n).
Proof.
  intros s f t m n r Hf Ht HA. apply (staged (fun _ => True) f t Hf); auto. intros u x i _ _ H. now apply (bytes_bar f t u x i).
Qed.
(** ... and so are code points, in valid text. *)
Lemma first_common d ds e es x y : Text d ds -> Text e es -> d <> [] -> e <> [] -> d ++ x = e ++ y -> exists c, In c ds /\ In c es.
Proof.
  intros HD HE Nd Ne E. destruct HD as [|g c d ds Hg HD]; [congruence|]. destruct HE as [|h c' e es Hh HE]; [congruence|]. rewrite <- !app_assoc in E.
  destruct (uchar_prefix_unique _ _ _ _ _ _ Hg Hh E) as (_ & -> & _). exists c'. split; now left.
Qed.
Lemma text_bar f fs t ts u us x xs i : Text f fs -> Text t ts -> Text u us -> Text x xs -> f <> [] -> t <> [] -> (forall c, In c ts -> ~ In c fs) ->
  occurs_at f (u ++ t ++ x) i -> (i + length f <= length u)%nat \/ (length u + length t <= i)%nat.
Proof.
  intros HF HT HU HX Hf Ht HA (a & b & E & <-).
  pose proof (Text_app _ _ _ _ HU (Text_app _ _ _ _ HT HX)) as HW.
  destruct (sync _ _ f fs a b HW HF Hf E) as (as_ & bs & TA & TB & _).
  destruct (Nat.le_gt_cases (length a + length f) (length u)) as [L|L]; [auto|]. destruct (Nat.le_gt_cases (length u + length t) (length a)) as [L'|L']; [auto|exfalso].
  destruct (Nat.le_gt_cases (length u) (length a)) as [M|M].
  - destruct (app_cut u (t ++ x) a (f ++ b) E M) as (c & -> & E2). rewrite app_length in L'. destruct (Text_app_inv _ _ _ _ HU TA) as (cs & _ & TC).
    destruct (app_cut c (f ++ b) t x (eq_sym E2)) as (d & -> & E3); [lia|]. destruct (Text_app_inv _ _ _ _ TC HT) as (ds & -> & TD).
    destruct d as [|z d]; [rewrite app_length in L'; cbn in L'; lia|].
    destruct (first_common f fs (z :: d) ds b x HF TD Hf ltac:(discriminate) E3) as (k & I1 & I2). apply (HA k); [apply in_or_app; auto|exact I1].
  - destruct (app_cut a (f ++ b) u (t ++ x) (eq_sym E) ltac:(lia)) as (c & -> & E2). rewrite app_length in L. destruct (Text_app_inv _ _ _ _ TA HU) as (cs & _ & TC).
    destruct (app_cut c (t ++ x) f b (eq_sym E2)) as (d & -> & E3); [lia|]. destruct (Text_app_inv _ _ _ _ TC HF) as (ds & -> & TD).
    destruct d as [|z d]; [rewrite app_length in L; cbn in L; lia|].
    destruct (first_common t ts (z :: d) ds x b HT TD Ht ltac:(discriminate) E3) as (k & I1 & I2). apply (HA k); [exact I1|apply in_or_app; auto].
Qed.
Lemma p_c146_stages_text : forall s cs f fs t ts m n r, Text s cs -> Text f fs -> Text t ts -> f <> [] -> t <> [] -> (forall c, In c ts -> ~ In c fs) ->
  Fits s -> Fits r -> replace s f t m = Ok r ->
  ((0 <= m /\ 0 <= n)%Z \/ (m <= 0 /\ n <= 0 /\ - 0x8000000000000000 < m + n)%Z) -> replace r f t n = replace s f t (m + n).
Proof.
  intros s cs f fs t ts m n r HS HF HT Hf Ht HA Fs Fr. apply (staged (fun x => exists xs, Text x xs) f t Hf); auto.
  - intros u v (ws & HW). destruct (sync _ ws f fs u v HW HF Hf eq_refl) as (us & vs & HU & HV & _). eauto.
  - intros u v (us & HU) (vs & HV). exists (us ++ ts ++ vs). apply Text_app; [exact HU|]. now apply Text_app.
  - intros u x i (us & HU) (xs & HX) H. now apply (text_bar f fs t ts u us x xs i).
  - eauto.
Qed.

(** By way of another text *)
Lemma front_pieces2 f t w n s r : ReplaceFront f t n s r -> apart t s ->
  exists p ps, Forall (apart t) (p :: ps) /\ r = glue t p ps /\ ReplaceFront f w n s (glue w p ps).
Proof.
  induction 1 as [s|n s Hn|n u v r Hi H IH]; intros HA.
  - exists s, []. unfold glue. cbn. rewrite !app_nil_r. repeat split; auto. constructor.
  - exists s, []. unfold glue. cbn. rewrite !app_nil_r. repeat split; auto. now constructor.
  - apply apart_app in HA as [Hu HA]. apply apart_app in HA as [_ Hv]. destruct (IH Hv) as (p & ps & HP & -> & HR).
    exists u, (p :: ps). rewrite !glue_cons. repeat split; auto. now constructor.
Qed.
Lemma back_pieces2 f t w n s r : ReplaceBack f t n s r -> apart t s ->
  exists p ps, Forall (apart t) (p :: ps) /\ r = glue t p ps /\ ReplaceBack f w n s (glue w p ps).
Proof.
  induction 1 as [s|n s Hn|n u v r Hi H IH]; intros HA.
  - exists s, []. unfold glue. cbn. rewrite !app_nil_r. repeat split; auto. constructor.
  - exists s, []. unfold glue. cbn. rewrite !app_nil_r. repeat split; auto. now constructor.
  - apply apart_app in HA as [Hv HA]. apply apart_app in HA as [_ Hu]. destruct (IH Hv) as (p & ps & HP & -> & HR).
    exists p, (ps ++ [u]). rewrite !glue_snoc. split; [|split; [reflexivity|now constructor]]. inversion HP; subst. constructor; [auto|]. apply Forall_app; auto.
Qed.
Lemma p_c146_via : forall s f t w m n r, f <> [] -> t <> [] -> (forall x, In x t -> ~ In x s) -> Fits s -> Fits r ->
  (- 0x8000000000000000 < m)%Z -> (- 0x8000000000000000 < n)%Z -> (Z.of_N (size r) <= Z.abs n)%Z -> replace s f t m = Ok r ->
  replace r t w n = replace s f w m.
Proof.
  intros s f t w m n r Hf Ht HA HF HFr Hm Hn Hs E.
  assert (exists p ps, Forall (apart t) (p :: ps) /\ r = glue t p ps /\ replace s f w m = Ok (glue w p ps)) as (p & ps & HP & E2 & ->).
  { destruct (Z.le_gt_cases 0 m) as [L|L].
    - destruct (replace_front s f t m Hf L) as (r1 & E1 & H1). rewrite E1 in E. injection E as ->.
      destruct (front_pieces2 f t w _ _ _ H1 HA) as (p & ps & HP & -> & HR). exists p, ps. repeat split; auto.
      destruct (replace_front s f w m Hf L) as (r2 & -> & H2). f_equal. exact (ReplaceFront_fun _ _ _ _ _ H2 _ HR).
    - destruct (replace_back s f t m Hf HF ltac:(unfold PTRDIFF_MIN; lia)) as (r1 & E1 & H1). rewrite E1 in E. injection E as ->.
      destruct (back_pieces2 f t w _ _ _ H1 HA) as (p & ps & HP & -> & HR). exists p, ps. repeat split; auto.
      destruct (replace_back s f w m Hf HF ltac:(unfold PTRDIFF_MIN; lia)) as (r2 & -> & H2). f_equal. exact (ReplaceBack_fun _ _ _ _ _ H2 _ HR). }
  pose proof (glue_count t p ps Ht) as HC. rewrite <- E2 in HC. destruct (Z.le_gt_cases 0 n) as [L|L].
  - destruct (replace_front r t w n Ht L) as (r' & -> & HR). f_equal. apply (ReplaceFront_fun _ _ _ _ _ HR). rewrite E2. apply glue_front; auto. lia.
  - destruct (replace_back r t w n Ht HFr ltac:(unfold PTRDIFF_MIN; lia)) as (r' & -> & HR). f_equal. apply (ReplaceBack_fun _ _ _ _ _ HR). rewrite E2. apply glue_back; auto. lia.
Qed.

(** Code points replaced independently *)
Definition units_at (n : N) (f t : str) (k : N) (x : str) : str := if unit_eqb f x && (k <? n) then t else x.
Fixpoint how_many (f : str) (ps : list str) : N := match ps with [] => 0 | x :: ps => (if unit_eqb f x then 1 else 0) + how_many f ps end.
Lemma first_snoc n f t : forall ps x, replace_first_units n f t (ps ++ [x]) = replace_first_units n f t ps ++ [units_at n f t (how_many f ps) x].
Proof.
  intros ps. revert n. induction ps as [|y ps IH]; intros n x.
  - cbn. unfold units_at. destruct (unit_eqb f x); cbn [andb]; [|reflexivity]. destruct (0 <? n); reflexivity.
  - cbn [app replace_first_units how_many]. destruct (unit_eqb f y) eqn:E; cbn [andb].
    + destruct (0 <? n) eqn:L; cbn [app].
      * rewrite IH. unfold units_at. replace (how_many f ps <? n - 1) with (1 + how_many f ps <? n) by lia. reflexivity.
      * rewrite IH. unfold units_at. replace (how_many f ps <? n) with (1 + how_many f ps <? n) by lia. reflexivity.
    + rewrite IH. reflexivity.
Qed.
Lemma how_many_app f a b : how_many f (a ++ b) = how_many f a + how_many f b.
Proof. induction a as [|x a IH]; [reflexivity|]. cbn [app how_many]. rewrite IH. lia. Qed.
Lemma how_many_rev f ps : how_many f (rev ps) = how_many f ps.
Proof. induction ps as [|x ps IH]; [reflexivity|]. cbn [rev how_many]. rewrite how_many_app, IH. cbn. lia. Qed.
Lemma last_cons n f t x ps : replace_last_units n f t (x :: ps) = units_at n f t (how_many f ps) x :: replace_last_units n f t ps.
Proof. unfold replace_last_units. cbn [rev]. rewrite first_snoc, rev_app_distr, how_many_rev. reflexivity. Qed.

Section Independent.
Context (f t g w : str) (fg : f <> g) (tg : t <> g) (wf : w <> f).
Lemma eqb_no a b : a <> b -> unit_eqb a b = false.
Proof. intros H. destruct (unit_eqb a b) eqn:E; [|reflexivity]. apply unit_eqb_spec in E. congruence. Qed.
Lemma how_many_other m ps : how_many g (replace_first_units m f t ps) = how_many g ps.
Proof.
  revert m. induction ps as [|x ps IH]; intros m; [reflexivity|]. cbn [replace_first_units]. destruct (unit_eqb f x) eqn:E; cbn [andb].
  - apply unit_eqb_spec in E. subst x. destruct (0 <? m); cbn [how_many]; rewrite IH, ?(eqb_no g t), ?(eqb_no g f) by congruence; reflexivity.
  - cbn [how_many]. now rewrite IH.
Qed.
Lemma first_first m n ps : replace_first_units m f t (replace_first_units n g w ps) = replace_first_units n g w (replace_first_units m f t ps).
Proof.
  revert m n. induction ps as [|x ps IH]; intros m n; [reflexivity|]. cbn [replace_first_units].
  destruct (unit_eqb f x) eqn:E.
  - apply unit_eqb_spec in E. subst x. rewrite (eqb_no g f) by congruence. cbn [andb]. cbn [replace_first_units]. rewrite (proj2 (unit_eqb_spec f f) eq_refl). cbn [andb].
    destruct (0 <? m); cbn [replace_first_units]; rewrite ?(eqb_no g t), ?(eqb_no g f) by congruence; cbn [andb]; now rewrite IH.
  - cbn [andb]. cbn [replace_first_units]. destruct (unit_eqb g x) eqn:E2; cbn [andb].
    + destruct (0 <? n); cbn [replace_first_units]; rewrite ?E, ?(eqb_no f w) by congruence; cbn [andb]; now rewrite IH.
    + cbn [replace_first_units]. rewrite E. cbn [andb]. now rewrite IH.
Qed.
Lemma first_last m n ps : replace_first_units m f t (replace_last_units n g w ps) = replace_last_units n g w (replace_first_units m f t ps).
Proof.
  revert m. induction ps as [|x ps IH]; intros m; [reflexivity|]. rewrite last_cons. cbn [replace_first_units].
  unfold units_at at 1 2. destruct (unit_eqb f x) eqn:E.
  - apply unit_eqb_spec in E. subst x. rewrite (eqb_no g f) by congruence. cbn [andb]. rewrite (proj2 (unit_eqb_spec f f) eq_refl). cbn [andb].
    destruct (0 <? m); rewrite last_cons; unfold units_at; rewrite ?(eqb_no g t), ?(eqb_no g f) by congruence; cbn [andb]; now rewrite IH.
  - cbn [andb]. rewrite last_cons, how_many_other. unfold units_at. destruct (unit_eqb g x) eqn:E2; cbn [andb].
    + destruct (how_many g ps <? n); rewrite ?E, ?(eqb_no f w) by congruence; cbn [andb]; now rewrite IH.
    + rewrite E. cbn [andb]. now rewrite IH.
Qed.
End Independent.
Definition units_any (m : Z) (f t : str) (ps : list str) : list str :=
  if (0 <=? m)%Z then replace_first_units (Z.to_N m) f t ps else replace_last_units (Z.to_N (- m)) f t ps.
Lemma any_any f t g w m n ps : f <> g -> t <> g -> w <> f -> units_any m f t (units_any n g w ps) = units_any n g w (units_any m f t ps).
Proof.
  intros H1 H2 H3. unfold units_any. destruct (0 <=? m)%Z, (0 <=? n)%Z.
  - now apply first_first.
  - now apply first_last.
  - symmetry. apply first_last; congruence.
  - unfold replace_last_units. now rewrite !rev_involutive, first_first.
Qed.
Lemma any_codepoints m f t ps : (exists c, uchar t c) -> Codepoints ps -> Codepoints (units_any m f t ps).
Proof.
  intros Ht HP. unfold units_any, replace_last_units. destruct (0 <=? m)%Z; [now apply units_closed|]. unfold Codepoints. apply Forall_rev, units_closed; auto. now apply Forall_rev.
Qed.
Lemma p_c146_independent : forall s cs a b c d m n, Text s cs -> a <= 0x10FFFF -> b <= 0x10FFFF -> c <= 0x10FFFF -> d <= 0x10FFFF ->
  a <> c -> b <> c -> d <> a -> (- 0x8000000000000000 < m)%Z -> (- 0x8000000000000000 < n)%Z -> Fits s ->
  exists r q, replace_codepoint s a b m = Ok r /\ replace_codepoint s c d n = Ok q /\
    (Fits r -> Fits q -> replace_codepoint r c d n = replace_codepoint q a b m).
Proof.
  intros s cs a b c d m n HT Ha Hb Hc Hd ac bc da Hm Hn HF.
  assert (exists ps, Codepoints ps /\ concat ps = s) as (ps & HP & <-).
  { clear -HT. induction HT as [|g k s cs Hg HT (ps & HP & <-)]; [exists []; split; [constructor|reflexivity]|]. exists (g :: ps). split; [constructor; eauto|reflexivity]. }
  destruct (p_c33_units ps a b m HP HF Ha Hb Hm) as (f & t & Hf & Ht & E1). destruct (p_c33_units ps c d n HP HF Hc Hd Hn) as (g & w & Hg & Hw & E2).
  fold (units_any m f t ps) in E1. fold (units_any n g w ps) in E2.
  pose proof (encodes_uchar _ _ Ha Hf) as Uf. pose proof (encodes_uchar _ _ Hb Ht) as Ut. pose proof (encodes_uchar _ _ Hc Hg) as Ug. pose proof (encodes_uchar _ _ Hd Hw) as Uw.
  exists (concat (units_any m f t ps)), (concat (units_any n g w ps)). split; [exact E1|]. split; [exact E2|]. intros F1 F2.
  destruct (p_c33_units _ c d n (any_codepoints m f t ps (ex_intro _ _ Ut) HP) F1 Hc Hd Hn) as (g' & w' & Hg' & Hw' & ->).
  destruct (p_c33_units _ a b m (any_codepoints n g w ps (ex_intro _ _ Uw) HP) F2 Ha Hb Hm) as (f' & t' & Hf' & Ht' & ->).
  assert (g' = g) as -> by (eapply encodes_fun; eauto). assert (w' = w) as -> by (eapply encodes_fun; eauto).
  assert (f' = f) as -> by (eapply encodes_fun; eauto). assert (t' = t) as -> by (eapply encodes_fun; eauto).
  f_equal. f_equal. change (units_any n g w (units_any m f t ps) = units_any m f t (units_any n g w ps)). symmetry. apply any_any.
  - intros ->. apply ac. eapply uchar_fun; eauto.
  - intros ->. apply bc. eapply uchar_fun; eauto.
  - intros ->. apply da. eapply uchar_fun; eauto.
Qed.
