(** The library's normalization against normalization form D and canonical
    equivalence: C127, C128. *)
From Verif Require Import Base Spec.Utf8Spec Spec.Strings Spec.Normalization Spec.NormalForms
  Tables.UnicodeDataTables Tables.CanonicalTables Model.Decode Model.Encode Model.Normalize
  Proofs.Utf8Lemmas Proofs.DecodeLemmas Proofs.EncodeLemmas Proofs.CodepointLemmas Proofs.TableLemmas
  Proofs.NormLemmas Proofs.ComposeLemmas Proofs.ComposeLoop Proofs.NormProps Proofs.NormalFormLemmas.
From Coq Require Import Permutation ZifyBool ZifyNat ZifyN.

(** ** Decomposition *)
Lemma full_D c ds : FullDecomp c ds -> DS ds = D c.
Proof.
  induction 1 as [c H|c a b ds H HD IH].
  - rewrite DS_cons. unfold DS. cbn [flat_map]. apply app_nil_r.
  - rewrite DS_app, IH, (D_mapping c [a; b]) by now apply map_pair. reflexivity.
Qed.

(** Neither a singleton nor a Hangul syllable. *)
Definition ordinary (c : N) : Prop := (forall a, ~ In (c, a) UD_SINGLETONS) /\ ~ hangul c.
Definition ordb (c : N) : bool := match lookup1 c with None => negb (is_hangul c) | Some _ => false end.
Lemma ordb_spec c : ordb c = true -> ordinary c.
Proof.
  unfold ordb. intros H. destruct (lookup1 c) eqn:E; [discriminate|]. split.
  - intros a K. rewrite (lookup1_in _ _ K) in E. discriminate.
  - intros K. apply is_hangul_spec in K. rewrite K in H. discriminate.
Qed.
Lemma pairs_ordinary : forallb (fun p => ordb (fst p) && ordb (fst (snd p)) && ordb (snd (snd p))) UD_PAIRS = true.
Proof. vm_compute. reflexivity. Qed.
Lemma pair_ordinary c a b : has_pair c a b -> ordinary c /\ ordinary a /\ ordinary b.
Proof.
  intros H. pose proof (proj1 (forallb_forall _ _) pairs_ordinary _ H) as K. cbn [fst snd] in K.
  apply andb_true_iff in K as [K K3]. apply andb_true_iff in K as [K1 K2]. repeat split; now apply ordb_spec.
Qed.
Definition atomic (c : N) : Prop := forall m, ~ CanonicalMapping c m.
Lemma atom_ordinary c : (forall a b, ~ has_pair c a b) -> (atomic c <-> ordinary c).
Proof.
  intros H. split.
  - intros A. split.
    + intros a K. exact (A _ (map_singleton c a K)).
    + intros K. exact (A _ (map_hangul c K)).
  - intros [O1 O2] m K. destruct K as [c a b K|c a K|c K]; [exact (H a b K)|exact (O1 a K)|exact (O2 K)].
Qed.
Lemma full_ordinary c ds : FullDecomp c ds -> (Forall atomic ds <-> ordinary c).
Proof.
  induction 1 as [c H|c a b ds H HD IH].
  - rewrite <- (atom_ordinary c H). split; [now inversion 1|]. intros K. constructor; [exact K|constructor].
  - destruct (pair_ordinary c a b H) as (Oc & Oa & Ob). split; [trivial|]. intros _. apply Forall_app. split; [now apply IH|].
    constructor; [|constructor]. apply atom_ordinary; [now apply (second_atom c a)|exact Ob].
Qed.
Lemma small_inrange ds : Forall (fun d => d < 2 ^ 20) ds -> Forall (fun c => c <= 0x10FFFF) ds.
Proof. intros H. eapply Forall_impl; [|exact H]. cbv beta. intros; lia. Qed.
Lemma dec_normal s r t : DecomposedTo s r t -> r = [] -> exists cs ts, Text s cs /\ Text t ts /\ DS cs = DS ts /\
  (Forall atomic ts <-> Forall ordinary cs).
Proof.
  induction 1 as [s|g c s r t Hg HF H IH|g c ds b s r t Hg HF HL HE H IH]; intros ->.
  - exists [], []. repeat split; try constructor.
  - destruct (IH eq_refl) as (cs & ts & T1 & T2 & E & A). exists (c :: cs), (c :: ts). split; [now constructor|]. split; [now constructor|].
    rewrite !DS_cons, E. split; [reflexivity|]. pose proof (full_ordinary c [c] HF) as K.
    split; intros Q; inversion Q; subst; constructor; try (now apply A).
    + apply K. constructor; [assumption|constructor].
    + apply K in H2. now inversion H2.
  - destruct (IH eq_refl) as (cs & ts & T1 & T2 & E & A). exists (c :: cs), (ds ++ ts). split; [now constructor|].
    assert (HS : Forall (fun d => d < 2 ^ 20) ds).
    { pose proof HF as HSh. rewrite full_shape in HSh. apply (shape_small c ds HSh). intros ->. cbn in HL. lia. }
    split; [apply Text_app; [apply Encoded_Text; [exact HE|now apply small_inrange]|exact T2]|].
    rewrite DS_cons, DS_app, E, (full_D c ds HF). split; [reflexivity|]. rewrite Forall_app, (full_ordinary c ds HF), A.
    split; [intros [Q1 Q2]; now constructor|intros Q; inversion Q; subst; auto].
Qed.
Lemma dec_ok inner s t : to_decomposed inner s = Ok t -> DecomposedTo s [] t.
Proof.
  intros HD. destruct (p_c67_cases s) as (r & u & HD' & [-> |[HM|(g & c' & ds & r' & -> & Hg & HF & HL')]]).
  - rewrite (p_c67_ok inner s u HD') in HD. apply Ok_inj in HD. now subst u.
  - rewrite (p_c67_throw inner s r u HD' HM) in HD. discriminate HD.
  - rewrite (p_c67_loops inner s g c' ds r' u HD' Hg HF) in HD by lia. discriminate HD.
Qed.
Lemma dec_result inner s cs t : Text s cs -> to_decomposed inner s = Ok t ->
  exists ts, Text t ts /\ DS cs = DS ts /\ (Forall atomic ts <-> Forall ordinary cs).
Proof.
  intros HT HD. apply dec_ok in HD. destruct (dec_normal s [] t HD eq_refl) as (cs' & ts & T1 & T2 & E & A).
  rewrite (Text_fun _ _ _ HT T1). eauto.
Qed.
Lemma same_nfd cs ds ns : DS cs = DS ds -> NFD cs ns -> NFD ds ns.
Proof. intros E H. apply nfd_iff in H. apply nfd_iff. now rewrite <- E. Qed.

Lemma p_c127_exactly inner s cs t : Text s cs -> to_decomposed inner s = Ok t ->
  exists ts, Text t ts /\
    (NFD cs ts <-> Forall (fun d => forall m, ~ CanonicalMapping d m) ts /\ Ordered ts) /\
    (NFD cs ts <-> Forall (fun c => (forall a, ~ In (c, a) UD_SINGLETONS) /\ ~ hangul c) cs /\ Ordered ts).
Proof.
  intros HT HD. destruct (dec_result inner s cs t HT HD) as (ts & T2 & E & A). exists ts. split; [exact T2|].
  assert (K : NFD cs ts <-> Forall atomic ts /\ Ordered ts).
  { split.
    - intros H. split; [now apply (nfd_atoms cs)|]. now destruct H as (es & _ & _ & H).
    - intros [H1 H2]. apply (same_nfd ts cs ts); [now symmetry|]. now apply nfd_self. }
  split; [exact K|]. rewrite K, A. reflexivity.
Qed.
(** Where it gives the normalization form it gives it to all equivalent texts. *)
Lemma p_c127_same inner s cs t ts s' cs' t' ts' : Text s cs -> Text s' cs' -> to_decomposed inner s = Ok t -> to_decomposed inner s' = Ok t' ->
  Text t ts -> Text t' ts' -> Forall ordinary cs -> Forall ordinary cs' -> Ordered ts -> Ordered ts' -> (Equivalent cs cs' <-> ts = ts').
Proof.
  intros H1 H2 H3 H4 H5 H6 O1 O2 R1 R2.
  destruct (p_c127_exactly inner s cs t H1 H3) as (x & X1 & _ & X2). rewrite (Text_fun _ _ _ X1 H5) in X2.
  destruct (p_c127_exactly inner s' cs' t' H2 H4) as (y & Y1 & _ & Y2). rewrite (Text_fun _ _ _ Y1 H6) in Y2.
  assert (N1 : NFD cs ts) by now apply X2. assert (N2 : NFD cs' ts') by now apply Y2. split.
  - intros (ns & Q1 & Q2). rewrite (p_nfd_unique _ _ _ N1 Q1). exact (p_nfd_unique _ _ _ Q2 N2).
  - intros ->. now exists ts'.
Qed.
Lemma not_nfd_mapped c m : CanonicalMapping c m -> ~ NFD [c] [c].
Proof. intros H K. apply nfd_atoms in K. inversion K; subst. exact (H2 m H). Qed.
Lemma singleton_no_pair c a x y : In (c, a) UD_SINGLETONS -> ~ has_pair c x y.
Proof. intros H K. destruct (pair_ordinary c x y K) as [[O _] _]. exact (O a H). Qed.
Lemma hangul_no_pair c x y : hangul c -> ~ has_pair c x y.
Proof. intros H K. destruct (pair_ordinary c x y K) as [[_ O] _]. exact (O H). Qed.
Lemma kept_one inner g c : uchar g c -> (forall a b, ~ has_pair c a b) -> to_decomposed inner g = Ok g.
Proof.
  intros Hg H. rewrite <- (app_nil_r g). apply p_c67_ok. apply (dec_keep g c); [exact Hg|now apply full_atom|constructor].
Qed.
Lemma p_c127_left inner g c : uchar g c -> (exists a, In (c, a) UD_SINGLETONS) \/ hangul c ->
  to_decomposed inner g = Ok g /\ ~ NFD [c] [c].
Proof.
  intros Hg [[a H]|H].
  - split; [apply (kept_one inner g c Hg); intros x y; now apply (singleton_no_pair c a)|]. apply (not_nfd_mapped c [a]). now apply map_singleton.
  - split; [apply (kept_one inner g c Hg); intros x y; now apply hangul_no_pair|]. apply (not_nfd_mapped c (jamo c)). now apply map_hangul.
Qed.

(** ** Equivalence *)
Lemma p_c128_decomposed inner s cs t : Text s cs -> to_decomposed inner s = Ok t -> exists ts, Text t ts /\ Equivalent cs ts.
Proof.
  intros HT HD. destruct (dec_result inner s cs t HT HD) as (ts & T2 & E & _). exists ts. split; [exact T2|]. apply equivalent_iff. now rewrite E.
Qed.
Lemma p_equiv_refl cs : Equivalent cs cs.
Proof. now apply equivalent_iff. Qed.
Lemma p_equiv_sym cs ds : Equivalent cs ds -> Equivalent ds cs.
Proof. rewrite !equivalent_iff. auto. Qed.
Lemma p_equiv_trans cs ds es : Equivalent cs ds -> Equivalent ds es -> Equivalent cs es.
Proof. rewrite !equivalent_iff. congruence. Qed.

Definition seg_bytes (x : segment) : str := match x with Copied g => g | Made b => b end.
Definition stands (x : segment) (d : N) : Prop := uchar (seg_bytes x) d.
Lemma stands_text segs ds : Forall2 stands segs ds -> Text (whole segs) ds.
Proof. induction 1 as [|x d segs ds H HF IH]; [constructor|]. unfold whole. cbn [flat_map]. constructor; [exact H|exact IH]. Qed.
(** Code points from U+100000 on: their 21st bit is mixed into the code point
    before them, so that composing them with it drops them. *)
Definition bigs (l : list N) : nat := length (filter (fun c => 0x100000 <=? c) l).
Lemma bigs_app a b : bigs (a ++ b) = (bigs a + bigs b)%nat.
Proof. unfold bigs. now rewrite filter_app, app_length. Qed.
Lemma bigs_none l : Forall (fun d => d < 0x100000) l -> bigs l = O.
Proof. induction 1 as [|d l H HF IH]; [reflexivity|]. unfold bigs in *. cbn [filter]. destruct (N.leb_spec 0x100000 d); [lia|exact IH]. Qed.
Lemma pairs_below : forallb (fun p => forallb (fun x => x <? 0x100000) (D (fst p))) UD_PAIRS = true.
Proof. vm_compute. reflexivity. Qed.
Lemma singletons_below : forallb (fun p => (fst p <? 0x100000) && forallb (fun x => x <? 0x100000) (D (fst p))) UD_SINGLETONS = true.
Proof. vm_compute. reflexivity. Qed.
Lemma below_all l : forallb (fun x => x <? 0x100000) l = true -> Forall (fun d => d < 0x100000) l.
Proof. intros H. apply Forall_forall. intros x Hx. apply (proj1 (forallb_forall _ _) H) in Hx. lia. Qed.
Lemma D_bigs c : bigs (D c) = bigs [c].
Proof.
  destruct (mapping c) as [m|] eqn:E; [|now rewrite (D_atom c E)]. apply mapping_spec in E.
  assert (K : c < 0x100000 /\ Forall (fun d => d < 0x100000) (D c)).
  { destruct E as [c a b H|c a H|c H].
    - pose proof (proj1 (forallb_forall _ _) pairs_below _ H) as K. cbn [fst] in K. apply has_pair_bounds in H. split; [lia|now apply below_all].
    - pose proof (proj1 (forallb_forall _ _) singletons_below _ H) as K. cbn [fst] in K. apply andb_true_iff in K as [K1 K2].
      split; [lia|now apply below_all].
    - split; [unfold hangul in H; lia|]. rewrite (D_mapping c (jamo c)) by now apply map_hangul.
      pose proof (jamo_atoms c H) as A.
      assert (B1 : (c - 0xAC00) / 588 < 19) by (unfold hangul in H; apply N.div_lt_upper_bound; lia).
      assert (B2 : (c - 0xAC00) mod 588 / 28 < 21) by (apply N.div_lt_upper_bound; [lia|]; pose proof (N.mod_lt (c - 0xAC00) 588); lia).
      assert (B3 : (c - 0xAC00) mod 28 < 28) by (apply N.mod_lt; lia).
      assert (J : Forall (fun d => d < 0x100000) (jamo c)).
      { unfold jamo. apply Forall_app. split; [repeat constructor; lia|]. destruct (_ =? 0); repeat constructor; lia. }
      clear - A J. induction (jamo c) as [|x l IH]; [constructor|]. inversion A; subst. inversion J; subst. rewrite DS_cons, D_atom by assumption.
      constructor; auto. }
  destruct K as [K1 K2]. rewrite (bigs_none _ K2), bigs_none; [reflexivity|]. constructor; [exact K1|constructor].
Qed.
Lemma DS_bigs cs : bigs (DS cs) = bigs cs.
Proof.
  induction cs as [|c cs IH]; [reflexivity|]. rewrite DS_cons. change (c :: cs) with ([c] ++ cs). rewrite !bigs_app, IH, D_bigs. reflexivity.
Qed.
Lemma bigs_perm a b : Permutation a b -> bigs a = bigs b.
Proof.
  intros H. unfold bigs. induction H as [|x a b H IH|x y a|a b c H1 IH1 H2 IH2]; cbn [filter]; [reflexivity| | |congruence].
  - destruct (0x100000 <=? x); cbn [length]; now rewrite IH.
  - destruct (0x100000 <=? x), (0x100000 <=? y); reflexivity.
Qed.
Lemma equivalent_bigs cs ds : Equivalent cs ds -> bigs cs = bigs ds.
Proof.
  intros H. apply equivalent_iff in H. rewrite <- (DS_bigs cs), <- (DS_bigs ds).
  rewrite (bigs_perm _ _ (reordered_perm _ _ (sort_reordered (DS cs)))), (bigs_perm _ _ (reordered_perm _ _ (sort_reordered (DS ds)))).
  now rewrite H.
Qed.
Lemma Composing_cps adj s segs c : Composing adj s segs c -> exists cs, Text s cs /\
  exists A x ds, segs = A ++ [x] /\ Forall2 stands A ds /\ stands x c /\
    (bigs (ds ++ [c]) <= bigs cs)%nat /\ (bigs (ds ++ [c]) = bigs cs -> DS (ds ++ [c]) = DS cs).
Proof.
  induction 1 as [g c Hg|s segs x c g m d b H IH Hg HC HB|s segs c g m H IH Hg HC HO].
  - exists [c]. split; [now apply Text1|]. exists [], (Copied g), []. split; [reflexivity|]. split; [constructor|]. split; [exact Hg|]. split; [reflexivity|]. reflexivity.
  - destruct IH as (cs & HT & A & x' & ds & EA & W1 & W2 & W3 & W4). exists (cs ++ [m]). split; [apply Text_app; [exact HT|now apply Text1]|].
    apply app_inj_tail in EA as [-> ->]. exists A, (Made b), ds. split; [reflexivity|]. split; [exact W1|].
    assert (HD : d < 0x100000) by (destruct HC as (_ & HP & _); apply has_pair_bounds in HP; lia).
    split; [unfold stands; cbn [seg_bytes]; apply encodes_uchar; [lia|exact HB]|].
    assert (BD : bigs [d] = O) by (apply bigs_none; constructor; [exact HD|constructor]).
    rewrite bigs_app in W3. rewrite !bigs_app, BD. destruct (N.ltb_spec m 0x100000) as [Hm|Hm].
    + assert (BM : bigs [m] = O) by (apply bigs_none; constructor; [exact Hm|constructor]). rewrite BM.
      apply composes_small in HC as (HP & HA & _); [|exact Hm]. rewrite bigs_app in W4.
      assert (BC : bigs [c] = O) by (apply bigs_none; constructor; [lia|constructor]). rewrite BC in *. split; [lia|]. intros E. specialize (W4 ltac:(lia)).
      rewrite (DS_app ds), (DS_app cs), <- W4, (DS_app ds), <- app_assoc. f_equal. rewrite !DS_cons, (D_mapping d [c; m]) by now apply map_pair.
      rewrite !DS_cons. unfold DS. cbn [flat_map]. now rewrite !app_nil_r.
    + assert (BM : bigs [m] = 1%nat) by (unfold bigs; cbn [filter]; destruct (N.leb_spec 0x100000 m); [reflexivity|lia]). rewrite BM.
      split; [lia|]. intros E. lia.
  - destruct IH as (cs & HT & A & x' & ds & -> & W1 & W2 & W3 & W4). exists (cs ++ [m]). split; [apply Text_app; [exact HT|now apply Text1]|].
    exists (A ++ [x']), (Copied g), (ds ++ [c]). split; [reflexivity|]. split; [apply Forall2_app; [exact W1|constructor; [exact W2|constructor]]|].
    split; [exact Hg|]. rewrite (bigs_app (ds ++ [c])), (bigs_app cs). split; [lia|]. intros E.
    rewrite (DS_app (ds ++ [c])), (DS_app cs), W4; [reflexivity|lia].
Qed.

(** Which segments are dropped. *)
Fixpoint losslessb (after_made : bool) (segs : list segment) : bool :=
  match segs with
  | [] => true
  | Made _ :: r => losslessb true r
  | Copied _ :: r => (negb after_made || match r with Copied _ :: _ => true | _ => false end) && losslessb false r
  end.
Lemma kept_lossless segs : forall am, losslessb am segs = true -> kept am segs = whole segs.
Proof.
  induction segs as [|[g|b] r IH]; intros am H; [reflexivity| |]; cbn [losslessb kept] in *; unfold whole; cbn [flat_map]; fold (whole r).
  - apply andb_true_iff in H as [H1 H2]. rewrite (IH false H2). f_equal. destruct am; cbn [negb orb] in H1.
    + destruct r as [|[h|h] r]; try discriminate. reflexivity.
    + destruct r as [|[h|h] r]; reflexivity.
  - now rewrite (IH true H).
Qed.
Lemma kept_lengths segs ds : Forall2 stands segs ds -> forall am, exists rs, Text (kept am segs) rs /\
  (length (DS rs) <= length (DS ds))%nat /\ (losslessb am segs = false -> (length (DS rs) < length (DS ds))%nat) /\ (bigs rs <= bigs ds)%nat.
Proof.
  assert (B : forall d rs, bigs (d :: rs) = (bigs [d] + bigs rs)%nat) by (intros d rs; exact (bigs_app [d] rs)).
  induction 1 as [|x d segs ds Hx H IH]; intros am.
  - exists []. repeat split; [constructor|reflexivity|discriminate|reflexivity].
  - destruct x as [g|b]; cbn [kept losslessb].
    + destruct (IH false) as (rs & T & L & S & G).
      assert (P : forall keep : bool, exists rs', Text ((if keep then g else []) ++ kept false segs) rs' /\
          (length (DS rs') <= length (DS (d :: ds)))%nat /\ (keep && losslessb false segs = false -> (length (DS rs') < length (DS (d :: ds)))%nat) /\
          (bigs rs' <= bigs (d :: ds))%nat).
      { intros keep. pose proof (D_nonempty d). rewrite (B d ds). destruct keep.
        - exists (d :: rs). split; [now constructor|]. rewrite !DS_cons, !app_length, (B d rs). split; [lia|]. split; [|lia]. intros K. specialize (S K). lia.
        - exists rs. split; [exact T|]. rewrite !DS_cons, !app_length. split; [lia|]. split; lia. }
      destruct (P (negb am || match segs with Copied _ :: _ => true | _ => false end)) as (rs' & T' & L' & S').
      exists rs'. split; [|now split]. destruct am; cbn [negb orb] in T'; destruct segs as [|[h|h] segs]; exact T'.
    + destruct (IH true) as (rs & T & L & S & G). exists (d :: rs). split; [now constructor|]. rewrite (B d ds), (B d rs), !DS_cons, !app_length. split; [lia|].
      split; [|lia]. intros K. specialize (S K). lia.
Qed.
Definition Lossless (segs : list segment) : Prop := forall u b g v, segs = u ++ Made b :: Copied g :: v -> exists h w, v = Copied h :: w.
Lemma losslessb_iff segs : forall am, losslessb am segs = true <->
  Lossless segs /\ (am = true -> forall g v, segs = Copied g :: v -> exists h w, v = Copied h :: w).
Proof.
  unfold Lossless. induction segs as [|[g|b] r IH]; intros am; cbn [losslessb].
  - split; [|reflexivity]. intros _. split; [intros [|? ?]; discriminate|]. intros; discriminate.
  - rewrite andb_true_iff, (IH false). split.
    + intros [H1 [H2 _]]. split.
      * intros u b h v E. destruct u as [|z u]; [discriminate|]. injection E as _ E. exact (H2 u b h v E).
      * intros -> g' v E. injection E as _ <-. cbn [negb orb] in H1. destruct r as [|[h|h] r]; try discriminate. eauto.
    + intros [H1 H2]. split; [|split; [|discriminate]].
      * destruct am; [|reflexivity]. cbn [negb orb]. destruct (H2 eq_refl g r eq_refl) as (h & w & ->). reflexivity.
      * intros u b h v E. apply (H1 (Copied g :: u) b h v). cbn. now rewrite E.
  - rewrite (IH true). split.
    + intros [H1 H2]. split.
      * intros u b' h v E. destruct u as [|z u]; [injection E as -> E; exact (H2 eq_refl h v E)|]. injection E as _ E. exact (H1 u b' h v E).
      * intros _ g v; discriminate.
    + intros [H1 _]. split.
      * intros u b' h v E. apply (H1 (Made b :: u) b' h v). cbn. now rewrite E.
      * intros _ g v E. apply (H1 [] b g v). cbn. now rewrite E.
Qed.
Lemma p_c128_composed adj s cs segs c : Text s cs -> Composing adj s segs c ->
  exists r rs, to_composed adj s = Ok r /\ Text r rs /\
    (Equivalent cs rs <->
       (forall u b g v, segs = u ++ Made b :: Copied g :: v -> exists h w, v = Copied h :: w) /\
       length (filter (fun c => 0x100000 <=? c) rs) = length (filter (fun c => 0x100000 <=? c) cs)).
Proof.
  intros HT HC. destruct (Composing_cps adj s segs c HC) as (cs' & HT' & A & x & ds & -> & W1 & W2 & W3 & W4).
  rewrite (Text_fun _ _ _ HT' HT) in *. clear cs' HT'.
  assert (WA : Forall2 stands (A ++ [x]) (ds ++ [c])) by (apply Forall2_app; [exact W1|constructor; [exact W2|constructor]]).
  exists (kept false (A ++ [x])). rewrite (p_c68_result _ _ _ _ HC).
  destruct (kept_lengths _ _ WA false) as (rs & T & L & S & G). exists rs. split; [reflexivity|]. split; [exact T|].
  assert (Q : losslessb false (A ++ [x]) = true <-> Lossless (A ++ [x])).
  { rewrite (losslessb_iff _ false). split; [tauto|]. intros H. split; [exact H|discriminate]. }
  change (Equivalent cs rs <-> Lossless (A ++ [x]) /\ bigs rs = bigs cs). rewrite <- Q. split.
  - intros EQ. pose proof (equivalent_bigs _ _ EQ) as EB. split; [|lia]. destruct EQ as (ns & N1 & N2). apply nfd_length in N1, N2.
    rewrite W4 in * by lia. destruct (losslessb false (A ++ [x])); [reflexivity|]. specialize (S eq_refl). lia.
  - intros [H EB]. rewrite (kept_lossless _ _ H) in T. pose proof (Text_fun _ _ _ T (stands_text _ _ WA)) as ->. apply equivalent_iff. now rewrite W4.
Qed.
(** The condition on large code points holds if there are none. *)
Lemma p_c128_small adj s cs segs c : Text s cs -> Forall (fun c => c < 0x100000) cs -> Composing adj s segs c ->
  exists r rs, to_composed adj s = Ok r /\ Text r rs /\
    (Equivalent cs rs <-> (forall u b g v, segs = u ++ Made b :: Copied g :: v -> exists h w, v = Copied h :: w)).
Proof.
  intros HT HL HC. destruct (p_c128_composed adj s cs segs c HT HC) as (r & rs & E & T & K). exists r, rs. split; [exact E|]. split; [exact T|].
  rewrite K. split; [tauto|]. intros H. split; [exact H|]. change (bigs rs = bigs cs).
  destruct (Composing_cps adj s segs c HC) as (cs' & HT' & A & x & ds & -> & W1 & W2 & W3 & W4). rewrite (Text_fun _ _ _ HT' HT) in *.
  rewrite (p_c68_result _ _ _ _ HC) in E. injection E as <-.
  assert (WA : Forall2 stands (A ++ [x]) (ds ++ [c])) by (apply Forall2_app; [exact W1|constructor; [exact W2|constructor]]).
  destruct (kept_lengths _ _ WA false) as (rs' & T' & _ & _ & G). rewrite (Text_fun _ _ _ T' T) in G. rewrite (bigs_none cs HL) in *. lia.
Qed.
