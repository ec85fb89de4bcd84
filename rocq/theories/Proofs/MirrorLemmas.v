(** C144: reversing mirrors the other functions. *)
From Verif Require Import Base Spec.Utf8Spec Spec.Strings Spec.Slices Spec.Split Spec.Replace Spec.Mirror
  Model.Decode Model.Encode Model.Subrange Model.Search Model.Split Model.CharClass Model.Chars
  Proofs.Utf8Lemmas Proofs.DecodeLemmas Proofs.EncodeLemmas Proofs.CodepointLemmas Proofs.SearchLemmas Proofs.SliceLemmas
  Proofs.CharLemmas Proofs.NewlineLemmas Proofs.SplitLemmas Proofs.ReplaceLemmas Proofs.SyncLemmas.

Inductive Mir : str -> str -> list N -> Prop :=
| mir_nil : Mir [] [] []
| mir_cons g c s r cs : uchar g c -> Mir s r cs -> Mir (g ++ s) (r ++ g) (c :: cs).

Lemma mir_text s r cs : Mir s r cs -> Text s cs.
Proof. induction 1; constructor; auto. Qed.
Lemma mir_size s r cs : Mir s r cs -> length r = length s.
Proof. induction 1 as [|g c s r cs Hg H IH]; [reflexivity|]. rewrite !app_length. lia. Qed.
Lemma mir_exists s cs : Text s cs -> exists r, Mir s r cs.
Proof. induction 1 as [|g c s cs Hg H (r & IH)]; [exists []; constructor|]. exists (r ++ g). now constructor. Qed.
Lemma mir_fun s r cs : Mir s r cs -> forall r' cs', Mir s r' cs' -> r' = r /\ cs' = cs.
Proof.
  induction 1 as [|g c s r cs Hg H IH]; intros r' cs' H'.
  - inversion H' as [|g c s r cs Hg H E]; [auto|]. pose proof (uchar_nonempty _ _ Hg). destruct g; [congruence|discriminate].
  - inversion H' as [E|g' c' s' r2 cs2 Hg' H2 E].
    + pose proof (uchar_nonempty _ _ Hg). destruct g; [congruence|discriminate].
    + destruct (uchar_prefix_unique _ _ _ _ _ _ Hg' Hg E) as (-> & -> & ->). destruct (IH _ _ H2) as [-> ->]. auto.
Qed.
Lemma mir_app a a' ds : Mir a a' ds -> forall b b' es, Mir b b' es -> Mir (a ++ b) (b' ++ a') (ds ++ es).
Proof.
  induction 1 as [|g c s r cs Hg H IH]; intros b b' es HB; [now rewrite app_nil_r|]. cbn [app]. rewrite <- app_assoc, (app_assoc b'). constructor; auto.
Qed.
Lemma mir_one g c : uchar g c -> Mir g g [c].
Proof. intros H. rewrite <- (app_nil_r g) at 1. change g with ([] ++ g) at 2. constructor; [exact H|constructor]. Qed.
Lemma mir_sym s r cs : Mir s r cs -> Mir r s (rev cs).
Proof.
  induction 1 as [|g c s r cs Hg H IH]; [constructor|]. cbn. apply mir_app; [exact IH|]. now apply mir_one.
Qed.

Notation plain := (Forall (fun c => is_mark c = false)).
Definition MM (s r : str) : Prop := exists cs, Mir s r cs /\ plain cs.

Lemma MM_chars s r cs : Mir s r cs -> plain cs -> exists ps, Chars ps /\ concat ps = s /\ concat (rev ps) = r /\ Forall (starts_unmarked is_mark) ps.
Proof.
  induction 1 as [|g c s r cs Hg H IH]; intros HP.
  - exists []. repeat split; constructor.
  - inversion HP; subst. destruct IH as (ps & [K1 K2] & <- & <- & H5); [assumption|].
    assert (starts_unmarked is_mark g) as HU by (exists g, c, []; rewrite app_nil_r; auto).
    exists (g :: ps). split; [split|].
    + constructor; [|exact K1]. exists g, c, [], []. rewrite app_nil_r. repeat split; auto; constructor.
    + exact H5.
    + cbn [concat rev]. rewrite concat_app. cbn [concat]. rewrite app_nil_r. auto.
Qed.
Lemma MM_iff s r : Fits s -> (mirrored s r <-> MM s r).
Proof.
  intros HF. split.
  - intros ((cs & HT & HP) & _ & E). destruct (mir_exists s cs HT) as (r' & HM). exists cs. split; [|exact HP].
    destruct (MM_chars _ _ _ HM HP) as (ps & HC & Es & Er & _). rewrite <- Es, reverse_spec in E by (rewrite ?Es; assumption). injection E as <-. now rewrite Er.
  - intros (cs & HM & HP). split; [|split; [exact HF|]].
    + exists cs. split; [now apply mir_text with r|exact HP].
    + destruct (MM_chars _ _ _ HM HP) as (ps & HC & <- & <- & _). now apply reverse_spec.
Qed.
Lemma MM_nil : MM [] [].
Proof. exists []. split; constructor. Qed.
Lemma MM_size s r : MM s r -> length r = length s.
Proof. intros (cs & H & _). now apply mir_size with cs. Qed.
Lemma MM_sym s r : MM s r -> MM r s.
Proof. intros (cs & H & HP). exists (rev cs). split; [now apply mir_sym|now apply Forall_rev]. Qed.
Lemma MM_app a a' b b' : MM a a' -> MM b b' -> MM (a ++ b) (b' ++ a').
Proof. intros (cs & H & HP) (ds & H' & HP'). exists (cs ++ ds). split; [now apply mir_app|]. apply Forall_app; auto. Qed.
Lemma MM_fun s r r' : MM s r -> MM s r' -> r' = r.
Proof. intros (cs & H & _) (cs' & H' & _). now destruct (mir_fun _ _ _ H _ _ H'). Qed.
Lemma MM_exists s cs : Text s cs -> plain cs -> exists r, MM s r.
Proof. intros HT HP. destruct (mir_exists s cs HT) as (r & H). exists r, cs. auto. Qed.
Lemma MM_cut a b r ds : MM (a ++ b) r -> Text a ds -> exists a' b', r = b' ++ a' /\ MM a a' /\ MM b b'.
Proof.
  intros (cs & H & HP) HA. destruct (Text_app_inv a ds b cs HA (mir_text _ _ _ H)) as (es & -> & HB). apply Forall_app in HP as [P1 P2].
  destruct (MM_exists a ds HA P1) as (a' & MA). destruct (MM_exists b es HB P2) as (b' & MB). exists a', b'. split; [|auto].
  symmetry. apply (MM_fun (a ++ b)); [exists (ds ++ es); split; [exact H|apply Forall_app; auto]|]. now apply MM_app.
Qed.
Lemma MM_text s r : MM s r -> exists cs, Text s cs /\ plain cs.
Proof. intros (cs & H & HP). exists cs. split; [now apply mir_text with r|exact HP]. Qed.
(** A text inside another one is found at the mirrored place. *)
Lemma MM_inside s r p q u v : MM s r -> MM p q -> p <> [] -> s = u ++ p ++ v -> exists u' v', MM u u' /\ MM v v' /\ r = v' ++ q ++ u'.
Proof.
  intros HS HP HN E. destruct (MM_text _ _ HS) as (cs & HT & _). destruct (MM_text _ _ HP) as (ps & HTP & _).
  destruct (sync s cs p ps u v HT HTP HN E) as (us & vs & HU & HV & _). subst s.
  destruct (MM_cut u (p ++ v) r us HS HU) as (u' & w & -> & MU & MW). destruct (MM_cut p v w ps MW HTP) as (q' & v' & -> & MQ & MV).
  rewrite (MM_fun _ _ _ HP MQ). exists u', v'. rewrite <- app_assoc. auto.
Qed.
Lemma MM_occurs s r p q i : MM s r -> MM p q -> p <> [] -> occurs_at p s i ->
  (i + length p <= length s)%nat /\ occurs_at q r (length s - (i + length p)).
Proof.
  intros HS HP HN (u & v & E & <-). destruct (MM_inside s r p q u v HS HP HN E) as (u' & v' & MU & MV & ->). subst s. rewrite !app_length.
  split; [lia|]. exists v', u'. split; [reflexivity|]. rewrite (MM_size _ _ MV). lia.
Qed.
Lemma MM_nonempty p q : MM p q -> p <> [] -> q <> [].
Proof. intros H HN ->. apply MM_size in H. destruct p; [congruence|discriminate]. Qed.

(** Prefixes and suffixes *)
Lemma mm_starts s s' p p' : MM s s' -> MM p p' -> (exists t, s = p ++ t) -> exists t, s' = t ++ p'.
Proof.
  intros HS HP (t & ->). destruct (MM_text _ _ HP) as (ps & HT & _). destruct (MM_cut p t s' ps HS HT) as (q & w & -> & MQ & MW).
  rewrite (MM_fun _ _ _ HP MQ). eauto.
Qed.
Lemma mm_ends s s' p p' : MM s s' -> MM p p' -> (exists t, s = t ++ p) -> exists t, s' = p' ++ t.
Proof.
  intros HS HP (t & E). destruct p as [|b p].
  - apply MM_size in HP. destruct p'; [|discriminate]. now exists s'.
  - destruct (MM_inside s s' (b :: p) p' t [] HS HP ltac:(discriminate)) as (u' & v' & MU & MV & ->); [now rewrite app_nil_r|].
    apply MM_size in MV. destruct v'; [|discriminate]. cbn. eauto.
Qed.
Lemma bool_eq (a b : bool) : (a = true <-> b = true) -> a = b.
Proof. destruct a, b; intros [H1 H2]; auto; try (now rewrite H1); now rewrite H2. Qed.
Lemma p_c144_starts : forall s s' p p', mirrored s s' -> mirrored p p' -> starts_with s p = ends_with s' p' /\ ends_with s p = starts_with s' p'.
Proof.
  intros s s' p p' HS HP. pose proof (proj1 (proj2 HS)) as FS. pose proof (proj1 (proj2 HP)) as FP.
  apply MM_iff in HS; [|exact FS]. apply MM_iff in HP; [|exact FP].
  assert (Fits s') as FS' by (pose proof (MM_size _ _ HS) as L; unfold Fits, size in *; now rewrite L).
  pose proof (MM_sym _ _ HS) as HS'. pose proof (MM_sym _ _ HP) as HP'.
  destruct (starts_with_spec s p) as (a & -> & A). destruct (ends_with_spec s' p' FS') as (b & -> & B).
  destruct (starts_with_spec s' p') as (c & -> & C). destruct (ends_with_spec s p FS) as (d & -> & D).
  split; f_equal; apply bool_eq.
  - rewrite A, B. split; [now apply mm_starts|]. now apply mm_ends.
  - rewrite C, D. split; [now apply mm_ends|]. now apply mm_starts.
Qed.

(** Searching *)
Lemma p_c144_find : forall s s' p p', mirrored s s' -> mirrored p p' -> p <> [] ->
  (exists i, i + size p <= size s /\ find_first s p 0 = Ok (Sub i (size p)) /\ find_last s' p' npos = Ok (Sub (size s - (i + size p)) (size p))) \/
  (find_first s p 0 = Ok (Sub (size s) 0) /\ find_last s' p' npos = Ok (Sub 0 0)).
Proof.
  intros s s' p p' HS HP HN. pose proof (proj1 (proj2 HS)) as FS. pose proof (proj1 (proj2 HP)) as FP.
  apply MM_iff in HS; [|exact FS]. apply MM_iff in HP; [|exact FP]. pose proof (MM_size _ _ HS) as LS. pose proof (MM_size _ _ HP) as LP.
  assert (N.min npos (size s') = size s) as HM.
  { unfold Fits, size in *. rewrite LS. assert (0x8000000000000000 < npos) by (vm_compute; reflexivity). lia. }
  destruct (find_last_spec s' p' npos (MM_nonempty _ _ HP HN)) as [(i & Ho & Hw & Hl & Ef)|[Hl Ef]]; rewrite Ef.
  - left. rewrite HM in *. destruct (MM_occurs s' s p' p i (MM_sym _ _ HS) (MM_sym _ _ HP) (MM_nonempty _ _ HP HN) Ho) as (L & Ho').
    rewrite LS, LP in *. set (j := (length s - (i + length p))%nat) in *. exists (N.of_nat j).
    destruct (find_first_spec s p 0 HN ltac:(lia)) as [(k & _ & Hk & Hb & Ek)|[Hb _]].
    2:{ destruct (Hb j ltac:(lia) Ho'). }
    change (N.of_nat 0) with 0 in Ek. rewrite Ek. assert (k = j) as ->.
    { destruct (MM_occurs s s' p p' k HS HP HN Hk) as (Lk & Hk'). destruct (Nat.lt_trichotomy k j) as [C|[C|C]]; [|exact C|].
      - exfalso. apply (Hl (length s - (k + length p))%nat); [unfold j in *; lia| |exact Hk']. unfold size. rewrite LP. lia.
      - exfalso. apply (Hb j); [lia|exact Ho']. }
    unfold size in *. rewrite ?LP. unfold j. repeat split; [lia|]. do 2 f_equal. lia.
  - right. split; [|reflexivity]. rewrite HM in *. destruct (find_first_spec s p 0 HN ltac:(lia)) as [(k & _ & Hk & Hb & Ek)|[Hb Ek]].
    + destruct (MM_occurs s s' p p' k HS HP HN Hk) as (Lk & Hk'). destruct (Hl (length s - (k + length p))%nat ltac:(unfold size; rewrite LP; lia) Hk').
    + exact Ek.
Qed.

(** Replacing *)
Lemma mm_absent s s' p p' : MM s s' -> MM p p' -> p <> [] -> (forall i, ~ occurs_at p s i) -> forall i, ~ occurs_at p' s' i.
Proof.
  intros HS HP HN H i Ho. destruct (MM_occurs s' s p' p i (MM_sym _ _ HS) (MM_sym _ _ HP) (MM_nonempty _ _ HP HN) Ho) as (_ & Ho'). exact (H _ Ho').
Qed.
Lemma mm_front f f' t t' : MM f f' -> MM t t' -> f <> [] -> forall n s r, ReplaceFront f t n s r -> forall s', MM s s' ->
  exists r', MM r r' /\ ReplaceBack f' t' n s' r'.
Proof.
  intros HF HT HN n s r H. induction H as [s|n s Hn|n u v r Hi H IH]; intros s' HS.
  - exists s'. split; [exact HS|constructor].
  - exists s'. split; [exact HS|]. constructor. now apply mm_absent with s f.
  - destruct (MM_inside _ s' f f' u v HS HF HN eq_refl) as (u' & v' & MU & MV & ->). destruct (IH v' MV) as (r' & MR & HR).
    exists (r' ++ t' ++ u'). split.
    + rewrite (app_assoc r'). apply MM_app; [exact MU|]. now apply MM_app.
    + constructor; [|exact HR]. intros i Hl Ho.
      destruct (MM_occurs _ _ f' f i (MM_sym _ _ HS) (MM_sym _ _ HF) (MM_nonempty _ _ HF HN) Ho) as (L & Ho').
      apply (Hi _) in Ho'; [exact Ho'|]. rewrite !app_length in *. rewrite (MM_size _ _ HF), (MM_size _ _ MU), (MM_size _ _ MV) in *. lia.
Qed.
Lemma mm_back f f' t t' : MM f f' -> MM t t' -> f <> [] -> forall n s r, ReplaceBack f t n s r -> forall s', MM s s' ->
  exists r', MM r r' /\ ReplaceFront f' t' n s' r'.
Proof.
  intros HF HT HN n s r H. induction H as [s|n s Hn|n u v r Hi H IH]; intros s' HS.
  - exists s'. split; [exact HS|constructor].
  - exists s'. split; [exact HS|]. constructor. now apply mm_absent with s f.
  - destruct (MM_inside _ s' f f' v u HS HF HN eq_refl) as (v' & u' & MV & MU & ->). destruct (IH v' MV) as (r' & MR & HR).
    exists (u' ++ t' ++ r'). split.
    + rewrite (app_assoc u'), app_assoc, <- app_assoc. apply MM_app; [exact MR|]. now apply MM_app.
    + constructor; [|exact HR]. intros i Hl Ho.
      destruct (MM_occurs _ _ f' f i (MM_sym _ _ HS) (MM_sym _ _ HF) (MM_nonempty _ _ HF HN) Ho) as (L & Ho').
      apply (Hi _) in Ho'; [exact Ho'|]. rewrite !app_length in *. rewrite (MM_size _ _ HF), (MM_size _ _ MU), (MM_size _ _ MV) in *. lia.
Qed.
Lemma p_c144_replace : forall s s' p p' t t' m, mirrored s s' -> mirrored p p' -> mirrored t t' -> p <> [] ->
  (- 0x8000000000000000 < m < 0x8000000000000000)%Z -> exists r r', replace s p t m = Ok r /\ replace s' p' t' (- m) = Ok r' /\ (Fits r -> mirrored r r').
Proof.
  intros s s' p p' t t' m HS HP HT HN Hm. pose proof (proj1 (proj2 HS)) as FS. pose proof (proj1 (proj2 HP)) as FP. pose proof (proj1 (proj2 HT)) as FT.
  apply MM_iff in HS; [|exact FS]. apply MM_iff in HP; [|exact FP]. apply MM_iff in HT; [|exact FT].
  assert (Fits s') as FS' by (pose proof (MM_size _ _ HS) as L; unfold Fits, size in *; now rewrite L).
  pose proof (MM_nonempty _ _ HP HN) as HN'.
  destruct (Z.lt_trichotomy m 0) as [L|[->|L]].
  - destruct (replace_back s p t m HN FS ltac:(unfold PTRDIFF_MIN; lia)) as (r & -> & HR). destruct (mm_back _ _ _ _ HP HT HN _ _ _ HR s' HS) as (r' & MR & HR').
    destruct (replace_front s' p' t' (- m) HN' ltac:(lia)) as (r2 & -> & HR2). rewrite (ReplaceFront_fun _ _ _ _ _ HR' _ HR2) in *. exists r, r2.
    split; [reflexivity|]. split; [reflexivity|]. intros F. now apply MM_iff.
  - exists s, s'. change (- 0)%Z with 0%Z. rewrite !replace_front_zero. split; [reflexivity|]. split; [reflexivity|]. intros _. now apply MM_iff.
  - destruct (replace_front s p t m HN ltac:(lia)) as (r & -> & HR). destruct (mm_front _ _ _ _ HP HT HN _ _ _ HR s' HS) as (r' & MR & HR').
    destruct (replace_back s' p' t' (- m) HN' FS' ltac:(unfold PTRDIFF_MIN; lia)) as (r2 & -> & HR2). rewrite Z.opp_involutive in HR2.
    rewrite (ReplaceBack_fun _ _ _ _ _ HR' _ HR2) in *. exists r, r2.
    split; [reflexivity|]. split; [reflexivity|]. intros F. now apply MM_iff.
Qed.

(** Taking apart and putting together *)
Lemma p_c144_sym s s' : mirrored s s' -> mirrored s' s.
Proof.
  intros H. pose proof (proj1 (proj2 H)) as FS. apply MM_iff in H; [|exact FS]. apply MM_iff; [|now apply MM_sym].
  unfold Fits, size in *. now rewrite (MM_size _ _ H).
Qed.
Lemma p_c144_exists s : unmarked s -> Fits s -> exists s', mirrored s s'.
Proof. intros (cs & HT & HP) HF. destruct (MM_exists s cs HT HP) as (r & H). exists r. now apply MM_iff. Qed.
Lemma p_c144_append a a' b b' : mirrored a a' -> mirrored b b' -> Fits (a ++ b) -> mirrored (a ++ b) (b' ++ a').
Proof.
  intros HA HB HF. pose proof (proj1 (proj2 HA)) as FA. pose proof (proj1 (proj2 HB)) as FB.
  apply MM_iff in HA; [|exact FA]. apply MM_iff in HB; [|exact FB]. apply MM_iff; [exact HF|]. now apply MM_app.
Qed.
Lemma interleave_snoc d x l : interleave d (l ++ [x]) = match l with [] => x | _ => interleave d l ++ d ++ x end.
Proof.
  destruct l as [|y l]; [reflexivity|]. revert y. induction l as [|z l IH]; intros y; [reflexivity|].
  change (interleave d ((y :: z :: l) ++ [x])) with (y ++ d ++ interleave d ((z :: l) ++ [x])). rewrite IH.
  change (interleave d (y :: z :: l)) with (y ++ d ++ interleave d (z :: l)). now rewrite <- !app_assoc.
Qed.
Lemma mm_join d d' : MM d d' -> forall l l', Forall2 MM l l' -> MM (interleave d l) (interleave d' (rev l')).
Proof.
  intros HD l l' H. induction H as [|x x' l l' Hx H IH]; [exact MM_nil|]. cbn [rev]. rewrite interleave_snoc.
  destruct H as [|y y' l l' Hy H]; [exact Hx|].
  change (interleave d (x :: y :: l)) with (x ++ d ++ interleave d (y :: l)).
  assert (forall w : str, match rev (y' :: l') with [] => x' | _ :: _ => w end = w) as E.
  { intros w. cbn [rev]. destruct (rev l'); reflexivity. }
  rewrite E, (app_assoc (interleave d' (rev (y' :: l')))). apply (MM_app x x'); [exact Hx|]. now apply MM_app.
Qed.

(** Single code points *)
Lemma MM_rev s r cs : MM s r -> Text s cs -> Text r (rev cs).
Proof. intros (ds & H & _) HT. rewrite (Text_fun _ _ _ HT (mir_text _ _ _ H)). apply (mir_text r s). now apply mir_sym. Qed.
Lemma MM_one g c r : uchar g c -> MM g r -> r = g.
Proof. intros Hg (cs & H & _). now destruct (mir_fun _ _ _ (mir_one g c Hg) _ _ H). Qed.
Lemma p_c144_find_chars : forall s s' chars, mirrored s s' ->
  (exists i n c, i + n <= size s /\ find_first_of s chars 0 = Ok (Sub i n, c) /\ find_last_of s' chars npos = Ok (Sub (size s - (i + n)) n, c)) \/
  (find_first_of s chars 0 = Ok (Sub npos 0, INVALID_CHAR) /\ find_last_of s' chars npos = Ok (Sub npos 0, INVALID_CHAR)).
Proof.
  intros s s' chars HS. pose proof (proj1 (proj2 HS)) as FS. apply MM_iff in HS; [|exact FS].
  pose proof (MM_size _ _ HS) as LS. destruct (MM_text _ _ HS) as (cs & HT & _).
  assert (N.min npos (size s') = size s') as HM.
  { unfold Fits, size in *. rewrite LS. assert (0x8000000000000000 < npos) by (vm_compute; reflexivity). lia. }
  destruct (p_first_of chars []) as (F1 & F2 & _). cbn [app] in F1, F2. change (size []) with 0 in *.
  destruct (p_last_of chars [] npos) as (G1 & G2 & _).
  destruct (char_cases chars s) as [(u & g & v & E & us & c & Hu & HN & Hg & Hc)|[(us & HU & HN)|HB]].
  - left. subst s. destruct (Text_app_inv _ _ _ _ Hu HT) as (vs & -> & HT').
    destruct (MM_cut u (g ++ v) s' us HS Hu) as (u' & w & -> & MU & MW). destruct (MM_cut g v w [c] MW (Text_one _ _ Hg)) as (g' & v' & -> & MG & MV).
    rewrite (MM_one _ _ _ Hg MG) in *. exists (size u), (size g), c.
    rewrite (F1 u us g c v Hu HN Hg Hc). specialize (G1 v' u' (rev us) g c). rewrite !app_nil_r in G1.
    rewrite <- app_assoc in *. rewrite G1; auto; [| exact (MM_rev _ _ _ MU Hu) | now apply Forall_rev].
    pose proof (MM_size _ _ MV) as LV. unfold size in *. rewrite !app_length. split; [lia|]. split; [reflexivity|]. repeat f_equal. lia.
  - right. rewrite (F2 s us HU HN). split; [reflexivity|]. specialize (G2 s' (rev us)). rewrite !app_nil_r in G2.
    apply G2; [exact HM| exact (MM_rev _ _ _ HS HU) | now apply Forall_rev].
  - destruct (bad_char_not_text _ _ _ HT HB).
Qed.

(** Trimming *)
Lemma first_division (pred : N -> bool) cs : exists us ws, cs = us ++ ws /\ Forall (fun c => pred c = true) us /\ first_out (fun c => pred c = true) ws.
Proof.
  induction cs as [|c cs (us & ws & -> & H1 & H2)]; [exists [], []; repeat split; constructor|].
  destruct (pred c) eqn:E; [exists (c :: us), ws; auto|]. exists [], (c :: us ++ ws). repeat split; [constructor|]. cbn. congruence.
Qed.
Lemma last_out_rev p ws : first_out p ws -> last_out p (rev ws).
Proof. intros H ds c E. assert (ws = c :: rev ds) as ->; [|exact H]. rewrite <- (rev_involutive ws), E, rev_app_distr. reflexivity. Qed.
Lemma mm_trim s s' f : MM s s' -> Fits s -> exists m m', trim_start_where s f = Ok m /\ trim_end_where s' f = Ok m' /\ MM m m'.
Proof.
  intros HS FS. destruct (MM_text _ _ HS) as (cs & HT & _). destruct (first_division f cs) as (us & ws & -> & H1 & H2).
  apply Text_split in HT. destruct HT as (u & w & -> & Hu & Hw).
  destruct (MM_cut u w s' us HS Hu) as (u' & w' & -> & MU & MW). destruct (p_trim_where f) as (TS & TE & _). exists w, w'.
  split; [now apply (TS u us w ws)|]. split; [|exact MW].
  apply (TE w' (rev ws) u' (rev us)); [|exact (MM_rev _ _ _ MW Hw)|exact (MM_rev _ _ _ MU Hu)|now apply Forall_rev|now apply last_out_rev].
  pose proof (MM_size _ _ MU). pose proof (MM_size _ _ MW). unfold Fits, size in *. rewrite !app_length in *. lia.
Qed.
Lemma p_c144_trim : forall s s' f, mirrored s s' ->
  (exists m m', trim_start_where s f = Ok m /\ trim_end_where s' f = Ok m' /\ mirrored m m') /\
  (exists m m', trim_where s f = Ok m /\ trim_where s' f = Ok m' /\ mirrored m m').
Proof.
  intros s s' f HS. pose proof (proj1 (proj2 HS)) as FS. apply MM_iff in HS; [|exact FS]. split.
  - destruct (mm_trim s s' f HS FS) as (m & m' & E1 & E2 & M). exists m, m'. split; [exact E1|]. split; [exact E2|]. apply MM_iff; [|exact M].
    destruct (MM_text _ _ HS) as (cs & HT & _). destruct (first_division f cs) as (us & ws & -> & H1 & H2).
    apply Text_split in HT. destruct HT as (u & w & -> & Hu & Hw). destruct (p_trim_where f) as (TS & _).
    rewrite (TS u us w ws FS Hu Hw H1 H2) in E1. injection E1 as <-. unfold Fits, size in *. rewrite app_length in FS. lia.
  - destruct (MM_text _ _ HS) as (cs & HT & _). destruct (p_trim_division f s cs HT) as (u & us & m & ms & v & vs & -> & Hu & Hm & Hv & Fu & Fv & Fm & Lm).
    destruct (MM_cut u (m ++ v) s' us HS Hu) as (u' & w & -> & MU & MW). destruct (MM_cut m v w ms MW Hm) as (m' & v' & -> & MM_ & MV).
    destruct (p_trim_where f) as (_ & _ & TW). exists m, m'. split; [now apply (TW u us m ms v vs)|]. split.
    + rewrite <- app_assoc. apply (TW v' (rev vs) m' (rev ms) u' (rev us)).
      * pose proof (MM_size _ _ MU). pose proof (MM_size _ _ MM_). pose proof (MM_size _ _ MV). unfold Fits, size in *. rewrite !app_length in *. lia.
      * exact (MM_rev _ _ _ MV Hv).
      * exact (MM_rev _ _ _ MM_ Hm).
      * exact (MM_rev _ _ _ MU Hu).
      * now apply Forall_rev.
      * now apply Forall_rev.
      * destruct ms as [|x ms] using rev_ind; [exact I|]. rewrite rev_app_distr. cbn. exact (Lm ms x eq_refl).
      * now apply last_out_rev.
    + apply MM_iff; [|exact MM_]. unfold Fits, size in *. rewrite !app_length in FS. lia.
Qed.

(** Splitting at single code points *)
Lemma Cuts_snoc chars g c u : uchar g c -> In c chars -> forall s cuts rest, Cuts (first_char chars) s cuts rest -> no_char chars rest ->
  Cuts (first_char chars) (s ++ g ++ u) (cuts ++ [(rest, g)]) u.
Proof.
  intros Hg Hc s cuts rest H. induction H as [s|w h v cuts rest (ws & d & HW & HN & Hh & Hd) H IH]; intros (us & HU & HX).
  - cbn [app]. constructor; [|constructor]. exists us, c. auto.
  - cbn [app]. rewrite <- !app_assoc. constructor; [exists ws, d; auto|]. apply IH. exists us. auto.
Qed.
Lemma mm_cuts chars s cuts rest : Cuts (first_char chars) s cuts rest -> no_char chars rest -> forall s', MM s s' ->
  exists cuts' rest', Cuts (first_char chars) s' cuts' rest' /\ no_char chars rest' /\ Forall2 MM (map fst cuts ++ [rest]) (rev (map fst cuts' ++ [rest'])).
Proof.
  induction 1 as [s|u g v cuts rest (us & c & Hu & HN & Hg & Hc) H IH]; intros HR s' HS.
  - destruct HR as (us & HU & HX). exists [], s'. split; [constructor|]. split; [|cbn; auto].
    exists (rev us). split; [exact (MM_rev _ _ _ HS HU)|now apply Forall_rev].
  - destruct (MM_cut u (g ++ v) s' us HS Hu) as (u' & w & -> & MU & MW). destruct (MM_cut g v w [c] MW (Text_one _ _ Hg)) as (g' & v' & -> & MG & MV).
    rewrite (MM_one _ _ _ Hg MG) in *. destruct (IH HR v' MV) as (cuts' & rest' & HC & HR' & HF).
    exists (cuts' ++ [(rest', g)]), u'. rewrite <- app_assoc. split; [now apply Cuts_snoc with c|]. split.
    + exists (rev us). split; [exact (MM_rev _ _ _ MU Hu)|now apply Forall_rev].
    + rewrite map_app. cbn [map fst]. rewrite rev_app_distr. cbn [rev app]. constructor; [exact MU|]. exact HF.
Qed.
Lemma mm_kept ign l l' : Forall2 MM l l' -> Forall2 MM (kept ign l) (kept ign l').
Proof.
  intros H. destruct ign; [|exact H]. cbn. induction H as [|x y l l' Hx H IH]; [constructor|].
  pose proof (MM_size _ _ Hx) as L. destruct x, y; try discriminate; [exact IH|]. cbn. now constructor.
Qed.
Lemma kept_rev ign l : kept ign (rev l) = rev (kept ign l).
Proof.
  destruct ign; [|reflexivity]. cbn. induction l as [|x l IH]; [reflexivity|]. cbn. rewrite filter_app, IH. cbn.
  destruct (non_empty x); cbn; [reflexivity|]. now rewrite app_nil_r.
Qed.
Lemma Cuts_size first s cuts rest : Cuts first s cuts rest -> forall x, In x (map fst cuts ++ [rest]) -> size x <= size s.
Proof.
  induction 1 as [s|u g v cuts rest F H IH]; intros x.
  - intros [->|[]]. lia.
  - cbn. intros [->|K]; [|specialize (IH x K)]; unfold size in *; rewrite !app_length; lia.
Qed.
Lemma p_c144_split : forall s s' chars ign, mirrored s s' ->
  exists ps qs, split_chars s chars SIZE_MAX ign = Ok ps /\ split_chars s' chars SIZE_MAX ign = Ok qs /\ Forall2 mirrored ps (rev qs).
Proof.
  intros s s' chars ign HS. pose proof (proj1 (proj2 HS)) as FS. apply MM_iff in HS; [|exact FS].
  assert (Fits s') as FS' by (unfold Fits, size in *; now rewrite (MM_size _ _ HS)). destruct (MM_text _ _ HS) as (cs & HT & _).
  destruct (p_c37_exists s cs chars SIZE_MAX ign HT) as (cuts & rest & HC & HR); [unfold SIZE_MAX; lia|].
  assert (no_char chars rest) as HN.
  { destruct HR as [[_ S]|(c & u & g & _ & _ & E)]; [exact S|]. exfalso.
    assert (HL := kept_lt_max _ ign _ _ _ (first_char_ne chars) FS HC). rewrite E in HL. lia. }
  destruct (mm_cuts chars s cuts rest HC HN s' HS) as (cuts' & rest' & HC' & HN' & HF).
  exists (kept ign (map fst cuts ++ [rest])), (kept ign (map fst cuts' ++ [rest'])).
  split; [now apply p_c37|]. split.
  { apply p_c37; [exact FS'|exact HC'|]. left. split; [|exact HN']. exact (kept_lt_max _ ign _ _ _ (first_char_ne chars) FS' HC'). }
  rewrite <- kept_rev. apply (mm_kept ign) in HF.
  assert (forall x, In x (kept ign (map fst cuts ++ [rest])) -> Fits x) as HX.
  { intros x Hx. assert (In x (map fst cuts ++ [rest])) as Hx' by (destruct ign; [cbn in Hx; now apply filter_In in Hx|exact Hx]).
    apply (Cuts_size _ _ _ _ HC) in Hx'. unfold Fits in *. lia. }
  revert HX. induction HF as [|x y l l' Hx HF IH]; intros HX; [constructor|]. constructor.
  - apply MM_iff; [apply HX; now left|exact Hx].
  - apply IH. intros z Hz. apply HX. now right.
Qed.
Lemma p_c144_join : forall l l' d d', Forall2 mirrored l l' -> mirrored d d' -> Fits (join l d) -> mirrored (join l d) (join (rev l') d').
Proof.
  intros l l' d d' HL HD HF. rewrite !join_spec in *. pose proof (proj1 (proj2 HD)) as FD. apply MM_iff in HD; [|exact FD].
  apply MM_iff; [exact HF|]. apply mm_join; [exact HD|]. clear HF. induction HL as [|x y l l' Hx H IH]; constructor; [|exact IH].
  pose proof (proj1 (proj2 Hx)) as FX. now apply MM_iff in Hx.
Qed.
Lemma p_c144_twice : forall s s', mirrored s s' -> forall t, reverse s' = Ok t -> t = s.
Proof. intros s s' H t E. destruct (p_c144_sym _ _ H) as (_ & _ & E'). rewrite E' in E. now injection E as <-. Qed.
Lemma p_c144_size s s' : mirrored s s' -> size s' = size s.
Proof. intros H. pose proof (proj1 (proj2 H)) as FS. apply MM_iff in H; [|exact FS]. unfold size. now rewrite (MM_size _ _ H). Qed.
