(** C115 *)
From Verif Require Import Base Spec.Category Spec.UnicodeData Spec.Utf8Spec Spec.Strings Spec.Newline Spec.Slices Spec.Split Spec.Counts Spec.Normalization Spec.Commute
  Model.Decode Model.Encode Model.Subrange Model.Search Model.Split Model.CharClass Model.Chars Model.Normalize Tables.UnicodeDataTables
  Proofs.Utf8Lemmas Proofs.EncodeLemmas Proofs.CodepointLemmas Proofs.SearchLemmas Proofs.NewlineLemmas Proofs.SplitLemmas Proofs.SliceLemmas Proofs.CharLemmas Proofs.PositionProps
  Proofs.CharClassLemmas Proofs.UnicodeProps Proofs.NormLemmas Proofs.NormProps Proofs.NormEquiv Proofs.CountLemmas Proofs.CommuteLemmas Proofs.CommuteChars Proofs.CommuteSep.
From Verif Require Proofs.ComposeLoop Proofs.CaseStringLemmas Proofs.CommuteCase Proofs.ReplaceCpLemmas.
From Coq Require Import ZifyBool ZifyNat ZifyN.
Ltac Zify.zify_post_hook ::= Z.div_mod_to_equations.

Notation few := (fun c : N => (length (F c) <= 3)%nat).
Lemma F_atom c : F c = [c] \/ (2 <= length (F c))%nat /\ Forall (fun d => d < 2 ^ 20) (F c).
Proof.
  pose proof (F_ok c) as H. rewrite full_shape in H. destruct (list_eq_dec N.eq_dec (F c) [c]) as [E|E]; [now left|]. right.
  split; [|now apply (shape_small c)]. remember (F c) as l. destruct H; cbn [length]; try lia. congruence.
Qed.
Lemma F_ne c : F c <> [].
Proof. destruct (F_atom c) as [->|[H _]]; [discriminate|]. intros E. rewrite E in H. cbn in H. lia. Qed.
Lemma dec_text2 s cs : Text s cs -> Forall few cs -> exists t, DecomposedTo s [] t /\ Text t (flat_map F cs).
Proof.
  induction 1 as [|g c s cs Hg HT IH]; intros HD.
  - exists []. split; constructor.
  - inversion HD as [|? ? Hc HD']; subst. destruct (IH HD') as (t & H1 & H2). cbn [flat_map]. destruct (F_atom c) as [E|[L S]].
    + exists (g ++ t). split; [apply (dec_keep g c); auto; rewrite <- E; apply F_ok|]. rewrite E. now constructor.
    + exists (from_utf32 (F c) ++ t). pose proof (encode_all (F c) S) as HE. split.
      * apply (dec_split g c (F c)); auto using F_ok.
      * apply Text_app; [|exact H2]. apply Encoded_Text; [exact HE|]. revert S. apply Forall_impl. intros; lia.
Qed.
Lemma dec_app s a : DecomposedTo s [] a -> forall t b, DecomposedTo t [] b -> DecomposedTo (s ++ t) [] (a ++ b).
Proof.
  remember [] as r eqn:Er. induction 1 as [s|g c s r t Hg HF H IH|g c ds b s r t Hg HF HL HE H IH]; intros t' b' HT; subst.
  - exact HT.
  - rewrite <- !app_assoc. apply (dec_keep g c); auto.
  - rewrite <- !app_assoc. apply (dec_split g c ds); auto.
Qed.
Section Inner.
  Variable inner : nat.
  Notation D := (to_decomposed inner).
  Lemma D_ok s cs : Text s cs -> Forall few cs -> exists r, D s = Ok r /\ Text r (flat_map F cs).
  Proof using. intros HT HD. destruct (dec_text2 s cs HT HD) as (t & H1 & H2). exists t. split; [now apply p_c67_ok|exact H2]. Qed.
  Lemma D_app s cs t ds a b : Text s cs -> Text t ds -> Forall few cs -> Forall few ds -> D s = Ok a -> D t = Ok b -> D (s ++ t) = Ok (a ++ b).
  Proof using.
    intros HS HT H1 H2 E1 E2. destruct (dec_text2 s cs HS H1) as (a' & A1 & _). destruct (dec_text2 t ds HT H2) as (b' & B1 & _).
    rewrite (p_c67_ok inner s a' A1) in E1. rewrite (p_c67_ok inner t b' B1) in E2. injection E1 as <-. injection E2 as <-.
    apply p_c67_ok. now apply dec_app.
  Qed.
  Lemma D_few s t : D s = Ok t -> exists cs, Text s cs /\ Forall few cs.
  Proof using.
    intros E. destruct (p_c67_cases s) as (r & u & HD & [-> |[HM|(g & c & ds & r' & -> & Hg & HF & HL)]]).
    - clear E. remember [] as r eqn:Er. induction HD as [s|g c s r t' Hg HF H IH|g c ds b s r t' Hg HF HL HE H IH]; subst.
      + exists []. split; constructor.
      + destruct IH as (cs & H1 & H2); [reflexivity|]. exists (c :: cs). split; constructor; auto. rewrite (F_fun c [c] HF). cbn. lia.
      + destruct IH as (cs & H1 & H2); [reflexivity|]. exists (c :: cs). split; constructor; auto. rewrite (F_fun c ds HF). lia.
    - rewrite (p_c67_throw inner s r u HD HM) in E. discriminate E.
    - rewrite (p_c67_loops inner s g c ds r' u HD Hg HF) in E by lia. discriminate E.
  Qed.
  Lemma p_c115_concat s t a b : D s = Ok a -> D t = Ok b -> D (s ++ t) = Ok (a ++ b).
  Proof using.
    intros E1 E2. destruct (D_few s a E1) as (cs & H1 & H2). destruct (D_few t b E2) as (ds & H3 & H4). now apply (D_app s cs t ds).
  Qed.
  Lemma Fs_ne cs : Forall few cs -> flat_map F cs = [] -> cs = [].
  Proof using. intros _. apply CommuteCase.flat_ne, F_ne. Qed.
  (** *** Separators *)
  Lemma full_undec chars c ds : undecomposed chars -> FullDecomp c ds -> (In c chars -> ds = [c]) /\ (~ In c chars -> Forall (fun d => ~ In d chars) ds).
  Proof using.
    intros HU H. induction H as [c H|c a b ds HP H IH].
    - split; [reflexivity|]. intros Hc. constructor; [exact Hc|constructor].
    - destruct (HU c a b HP) as (Hc & Ha & Hb). split; [contradiction|]. intros _. apply Forall_app. split; [now apply IH|]. constructor; [exact Hb|constructor].
  Qed.
  Lemma undec_res chars : undecomposed chars -> forall c, few c ->
    (In c chars -> exists d, F c = [d] /\ In d chars) /\ (~ In c chars -> Forall (fun d => ~ In d chars) (F c)).
  Proof using.
    intros HU c _. destruct (full_undec chars c (F c) HU (F_ok c)) as [H1 H2]. split; [|exact H2]. intros Hc. exists c. split; [now apply H1|exact Hc].
  Qed.
  Lemma D_app' : forall (s : str) (cs : list N) (t : str) (ds : list N) (a b : str), Text s cs -> Text t ds -> Forall few cs -> Forall few ds -> True ->
    D s = Ok a -> D t = Ok b -> D (s ++ t) = Ok (a ++ b).
  Proof using. intros s cs t ds a b H1 H2 H3 H4 _. now apply (D_app s cs t ds). Qed.
  Lemma p_c115_split_chars s t chars n ign : undecomposed chars -> D s = Ok t -> Fits s -> Fits t -> exists ps qs,
    split_chars s chars n ign = Ok ps /\ split_chars t chars n ign = Ok qs /\ each D ps qs.
  Proof using.
    intros HU E HF HF'. destruct (D_few s t E) as (cs & HT & HD). pose proof (undec_res chars HU) as HR.
    destruct (split_chars_conv D (flat_map F) few (fun _ _ => True) D_ok D_app' eq_refl Fs_ne chars) with (s := s) (cs := cs) (n := n) (ign := ign) as (s' & ps & qs & E' & H); auto.
    - intros c Dc Hc. cbn [flat_map]. rewrite app_nil_r. now apply HR.
    - intros ds. now apply CommuteCase.res_out.
    - rewrite E in E'. injection E' as <-. exists ps, qs. auto.
  Qed.
  Lemma p_c115_trim s t chars : undecomposed chars -> D s = Ok t -> Fits s -> Fits t -> exists a b c a' b' c',
    trim_start s chars = Ok a /\ trim_start t chars = Ok a' /\ D a = Ok a' /\
    trim_end s chars = Ok b /\ trim_end t chars = Ok b' /\ D b = Ok b' /\
    trim s chars = Ok c /\ trim t chars = Ok c' /\ D c = Ok c'.
  Proof using.
    intros HU E HF HF'. destruct (D_few s t E) as (cs & HT & HD). pose proof (undec_res chars HU) as HR.
    destruct (trim_conv D (flat_map F) few (fun _ _ => True) D_ok D_app' eq_refl Fs_ne chars) with (s := s) (cs := cs) as (s' & a & b & c & a' & b' & c' & E' & H); auto.
    - intros x Dx Hx. cbn [flat_map]. rewrite app_nil_r. now apply HR.
    - intros ds. now apply CommuteCase.res_out.
    - intros ds. now apply CommuteCase.res_all.
    - intros ds. apply CommuteCase.res_first; [exact F_ne|exact HR].
    - intros ds. apply CommuteCase.res_last; [exact F_ne|exact HR].
    - rewrite E in E'. injection E' as <-. exists a, b, c, a', b', c'. auto.
  Qed.
  Definition free_ascii (c : N) : bool := (c <? 0x80) && negb (existsb (fun r : N * N => (fst r <=? c) && (c <=? snd r)) [(0x3C, 0x3E); (0x41, 0x5A); (0x61, 0x7A)]).
  Definition free (c : N) : bool := free_ascii c || existsb (N.eqb c) [0x0A; 0x0B; 0x0C; 0x0D; 0x85; 0x2028; 0x2029].
  Lemma pairs_free : forallb (fun p : N * (N * N) => let '(c, (a, b)) := p in negb (free c) && negb (free a) && negb (free b)) UD_PAIRS = true.
  Proof using. vm_cast_no_check (eq_refl true). Qed.
  Lemma free_undec chars : Forall (fun c => free c = true) chars -> undecomposed chars.
  Proof using.
    intros H c a b HP. pose proof pairs_free as PF. rewrite forallb_forall in PF. specialize (PF _ HP). cbn beta iota in PF.
    apply andb_true_iff in PF. destruct PF as [PF P3]. apply andb_true_iff in PF. destruct PF as [P1 P2]. apply negb_true_iff in P1, P2, P3.
    rewrite Forall_forall in H. repeat split; intros Hi; apply H in Hi; congruence.
  Qed.
  Lemma p_undecomposed chars : Forall (fun c => newline c \/ c < 0x80 /\ ~ (0x3C <= c <= 0x3E \/ 0x41 <= c <= 0x5A \/ 0x61 <= c <= 0x7A)) chars -> undecomposed chars.
  Proof using.
    intros H. apply free_undec. revert H. apply Forall_impl. intros c [Hn|Hc]; unfold free; apply orb_true_iff; [right|left].
    - apply existsb_exists. exists c. split; [|apply N.eqb_refl]. unfold newline in Hn. cbn. intuition.
    - unfold free_ascii. cbn [existsb fst snd]. lia.
  Qed.
  Lemma newline_F c : newline c -> F c = [c].
  Proof using.
    intros H. assert (undecomposed [c]) as HU by (apply p_undecomposed; constructor; [now left|constructor]).
    apply (full_undec [c] c (F c) HU (F_ok c)). now left.
  Qed.
  Lemma p_c115_lines after s t n ign : D s = Ok t -> Fits s -> Fits t -> exists ps qs,
    split_lines (0 :: after) s n ign = Ok ps /\ split_lines (0 :: after) t n ign = Ok qs /\ each D ps qs.
  Proof using.
    intros E HF HF'. destruct (D_few s t E) as (cs & HT & HD).
    assert (undecomposed [0x0A; 0x0B; 0x0C; 0x0D; 0x85; 0x2028; 0x2029]) as HU.
    { apply p_undecomposed. repeat (apply Forall_cons; [left; unfold newline; lia|]). constructor. }
    assert (forall c, newline c <-> In c [0x0A; 0x0B; 0x0C; 0x0D; 0x85; 0x2028; 0x2029]) as NI.
    { intros c. unfold newline. cbn [In]. intuition. }
    pose proof (undec_res _ HU) as HR.
    destruct (split_lines_conv D (flat_map F) few (fun _ _ => True) D_ok D_app' eq_refl Fs_ne) with (after := after) (s := s) (cs := cs) (n := n) (ign := ign) as (s' & ps & qs & E' & H); auto.
    - intros c Hc. cbn [flat_map]. rewrite app_nil_r. now apply newline_F.
    - intros ds Dd Hn. unfold no_newline in *. assert (Forall (fun c => ~ In c [0x0A; 0x0B; 0x0C; 0x0D; 0x85; 0x2028; 0x2029]) ds) as Hn'.
      { revert Hn. apply Forall_impl. intros c Hc Hi. apply Hc. now apply NI. }
      apply (CommuteCase.res_out F few _ HR) in Hn'; [|exact Dd]. revert Hn'. apply Forall_impl. intros c Hc Hi. apply Hc. now apply NI.
    - intros d ds Dd Hd. pose proof (Forall_inv Dd) as D1. cbn beta in D1. pose proof (D1 : few d) as D0. clear D1. cbn [flat_map]. pose proof (HR d D0) as HRd. clear D0. destruct (F d) as [|e es] eqn:Ed; [now destruct (F_ne d)|].
      exists e, (es ++ flat_map F ds). split; [reflexivity|]. intros ->.
      assert (~ newline d) as Hnd by (intros Hc; rewrite (newline_F d Hc) in Ed; injection Ed as Ed _; congruence).
      pose proof (proj2 HRd (fun Hi => Hnd (proj2 (NI d) Hi))) as HO. inversion HO as [|? ? HX _]; subst. apply HX. cbn. auto.
    - rewrite E in E'. injection E' as <-. exists ps, qs. auto.
  Qed.
  (** A separator string. *)
  Lemma D_enc s cs r : Encoded s cs -> Forall (fun c => few c /\ c <= 0x10FFFF) cs -> D s = Ok r -> Encoded r (flat_map F cs).
  Proof using.
    intros HE HD E. assert (DecomposedTo s [] (from_utf32 (flat_map F cs))) as HT.
    { apply dec_text; [exact HE|]. revert HD. apply Forall_impl. intros c [H1 H2]. split; [exact H1|lia]. }
    rewrite (p_c67_ok inner s _ HT) in E. injection E as <-.
    clear HT. revert HD. induction HE as [|g c s cs Hg HE IH]; intros HD; [constructor|]. inversion HD as [|? ? [Hc Hu] HD']; subst. cbn [flat_map].
    assert (FA : forall a b, from_utf32 (a ++ b) = from_utf32 a ++ from_utf32 b).
    { induction a as [|x a IHa]; intros b; [reflexivity|]. cbn [app from_utf32]. now rewrite IHa, app_assoc. }
    rewrite FA. apply ReplaceCpLemmas.Encoded_app; [|now apply IH]. destruct (F_atom c) as [Ec|[_ S]]; [|now apply encode_all].
    rewrite Ec. cbn [from_utf32]. rewrite app_nil_r, (ComposeLoop.enc_ok g c); [|lia|exact Hg]. now apply CaseStringLemmas.Encoded_one.
  Qed.
  Lemma p_c115_split_sep s cs t sep seps n ign : undecomposed seps -> Encoded s cs -> Forall (fun c => c <= 0x10FFFF) cs ->
    Encoded sep seps -> Forall (fun c => c <= 0x10FFFF) seps -> sep <> [] -> D s = Ok t -> Fits s -> Fits t -> exists ps qs,
    split_sep s sep n ign = Ok ps /\ split_sep t sep n ign = Ok qs /\ each D ps qs.
  Proof using.
    intros HU HE HC HS HSU HN E HF HF'. destruct (D_few s t E) as (cs' & HT & HD). rewrite (Text_fun _ _ _ HT (Encoded_Text _ _ HE HC)) in HD. clear HT cs'.
    set (dom := fun c => few c /\ c <= 0x10FFFF).
    assert (forall l, Forall dom l -> Forall few l) as DF by (intros l; apply Forall_impl; intros c Hc; exact (proj1 Hc)).
    assert (Forall dom cs) as HDD by (rewrite Forall_forall in *; intros c Hc; split; auto).
    assert (forall c, In c seps -> F c = [c]) as HK by (intros c Hc; now apply (full_undec seps c (F c) HU (F_ok c))).
    destruct (split_sep_conv D F dom ltac:(intros; now apply D_ok; auto) D_enc ltac:(intros; now apply (D_app s0 cs0 t0 ds); auto) F_ne) with (sep := sep) (seps := seps) (s := s) (cs := cs) (n := n) (ign := ign)
      as (s' & ps & qs & E' & H); auto.
    - intros c Hc. exact (proj2 Hc).
    - intros c [Hc Hu]. destruct (F_atom c) as [Ec|[_ S]].
      + rewrite Ec. constructor; [split; assumption|constructor].
      + pose proof (shape_atoms c (F c) (proj1 (full_shape _ _) (F_ok c))) as HA. rewrite Forall_forall in *. intros d Hd. split; [|specialize (S d Hd); lia].
        rewrite (F_fun d [d] (HA d Hd)). cbn. lia.
    - rewrite Forall_forall in *. intros c Hc. split; [rewrite (HK c Hc); cbn; lia|auto].
    - intros c [Hc _] Ho. now apply (full_undec seps c (F c) HU (F_ok c)).
    - rewrite E in E'. injection E' as <-. exists ps, qs. auto.
  Qed.
  (** *** Characters *)
  Definition extra (c : N) : N := if c =? 0x16D6A then 2 else if (c =? 0x16D68) || (c =? 0x16D69) then 1 else 0.
  Lemma pairs_marks : forallb (fun p : N * (N * N) => let '(c, (a, b)) := p in
    Bool.eqb (fast_comb a) (fast_comb c) && (extra c =? extra a + if fast_comb b then 0 else 1)) UD_PAIRS = true.
  Proof using. vm_cast_no_check (eq_refl true). Qed.
  Lemma pair_marks c a b : has_pair c a b -> combining a = combining c /\ extra c = extra a + if combining b then 0 else 1.
  Proof using.
    intros HP. pose proof pairs_marks as PF. rewrite forallb_forall in PF. specialize (PF _ HP). cbn beta iota in PF.
    apply andb_true_iff in PF. destruct PF as [P1 P2]. apply Bool.eqb_prop in P1. apply N.eqb_eq in P2. rewrite !fast_comb_ok in *. auto.
  Qed.
  Lemma special_pairs : exists a1 a2 a3 b1 b2 b3, has_pair 0x16D68 a1 b1 /\ has_pair 0x16D69 a2 b2 /\ has_pair 0x16D6A a3 b3.
  Proof using.
    exists 0x16D67, 0x16D63, 0x16D69, 0x16D67, 0x16D67, 0x16D67. assert (forall c a b, lookup c = Some (c, (a, b)) -> has_pair c a b) as H.
    { intros c a b E. apply lookup_some in E. destruct E as (x & y & E & HP). now injection E as -> ->. }
    repeat split; apply H; vm_compute; reflexivity.
  Qed.
  Lemma full_marks c ds : FullDecomp c ds -> exists d rest, ds = d :: rest /\ combining d = combining c /\ N.of_nat (unm rest) = extra c.
  Proof using.
    induction 1 as [c H|c a b ds HP H (d & rest & -> & Hd & Hr)].
    - exists c, []. repeat split. unfold extra. destruct special_pairs as (a1 & a2 & a3 & b1 & b2 & b3 & S1 & S2 & S3).
      destruct (N.eqb_spec c 0x16D6A) as [->|_]; [now apply H in S3|]. destruct (N.eqb_spec c 0x16D68) as [->|_]; [now apply H in S1|].
      destruct (N.eqb_spec c 0x16D69) as [->|_]; [now apply H in S2|reflexivity].
    - destruct (pair_marks c a b HP) as [H1 H2]. exists d, (rest ++ [b]). split; [reflexivity|]. split; [congruence|].
      rewrite unm_app, Nat2N.inj_add, Hr, H2. f_equal. unfold unm. cbn [filter]. destruct (combining b); reflexivity.
  Qed.
  Definition extras (cs : list N) : N := times 0x16D68 cs + times 0x16D69 cs + 2 * times 0x16D6A cs.
  Lemma extras_cons c cs : extras (c :: cs) = extra c + extras cs.
  Proof using.
    unfold extras. rewrite !times_cons. unfold extra. rewrite (N.eqb_sym c 0x16D6A), (N.eqb_sym c 0x16D68), (N.eqb_sym c 0x16D69).
    generalize (times 0x16D68 cs) (times 0x16D69 cs) (times 0x16D6A cs). intros x y z.
    destruct (N.eqb_spec 0x16D6A c) as [<-|_]; [|destruct (N.eqb_spec 0x16D68 c) as [<-|_]; [|destruct (N.eqb_spec 0x16D69 c) as [<-|_]]]; try change (93544 =? 93546) with false; try change (93545 =? 93546) with false; try change (93545 =? 93544) with false; try change (93544 =? 93545) with false; cbn [orb]; cbv iota; lia.
  Qed.
  Lemma unm_F cs : N.of_nat (unm (flat_map F cs)) = N.of_nat (unm cs) + extras cs.
  Proof using.
    induction cs as [|c cs IH]; [reflexivity|]. cbn [flat_map]. rewrite extras_cons, unm_app, Nat2N.inj_add, IH.
    destruct (full_marks c (F c) (F_ok c)) as (d & rest & -> & Hd & Hr). rewrite !unm_cons, Hd.
    rewrite !Nat2N.inj_add, Hr. destruct (combining c); cbn [N.of_nat]; lia.
  Qed.
  Lemma count_F cs : char_count (flat_map F cs) = char_count cs + extras cs.
  Proof using.
    destruct cs as [|c cs]; [reflexivity|]. cbn [flat_map]. rewrite extras_cons.
    destruct (full_marks c (F c) (F_ok c)) as (d & rest & -> & Hd & Hr). cbn [app char_count].
    change (length (filter (fun c0 => negb (combining c0)) (rest ++ flat_map F cs))) with (unm (rest ++ flat_map F cs)).
    change (length (filter (fun c0 => negb (combining c0)) cs)) with (unm cs). rewrite unm_app, Nat2N.inj_add, Hr, unm_F. lia.
  Qed.
  Lemma p_c115_count s t : D s = Ok t -> Fits s -> Fits t -> exists cs k, Text s cs /\ count_chars s = Ok k /\
    count_chars t = Ok (k + times 0x16D68 cs + times 0x16D69 cs + 2 * times 0x16D6A cs).
  Proof using.
    intros E HF HF'. destruct (D_few s t E) as (cs & HT & HD). destruct (D_ok s cs HT HD) as (t' & E' & Ht). rewrite E in E'. injection E' as <-.
    exists cs, (char_count cs). split; [exact HT|]. split; [now apply p_c104_count|]. rewrite (p_c104_count t _ Ht HF'), count_F. unfold extras. f_equal. lia.
  Qed.
  Lemma p_c115_chars s cs t : Text s cs -> Forall (fun c => ~ several c) cs -> D s = Ok t -> Fits s -> Fits t ->
    count_chars t = count_chars s /\
    (exists a a', reverse s = Ok a /\ reverse t = Ok a' /\ D a = Ok a') /\
    forall i j, (- 0x8000000000000000 <= i <= 0x7FFFFFFFFFFFFFFF)%Z -> (- 0x8000000000000000 <= j <= 0x7FFFFFFFFFFFFFFF)%Z ->
      (0 <= i /\ 0 <= j)%Z \/ (i < j < 0)%Z \/ (i < 0 <= j)%Z ->
      exists a a', get_char_substring s i j = Ok a /\ get_char_substring t i j = Ok a' /\ D a = Ok a'.
  Proof using.
    intros HT HS E HF HF'. destruct (D_few s t E) as (cs' & HT' & HD). rewrite (Text_fun _ _ _ HT' HT) in HD. clear HT' cs'.
    destruct (chars_commute D F few D_ok D_app s cs HT HD) as (t' & E' & H); [|exact HF|rewrite E in E'; injection E' as <-; auto].
    revert HS. apply Forall_impl. intros c Hc. destruct (full_marks c (F c) (F_ok c)) as (d & rest & EF & Hd & Hr). exists d, rest. split; [exact EF|]. split; [exact Hd|].
    assert (extra c = 0) as E0.
    { unfold extra. unfold several in Hc. destruct (N.eqb_spec c 0x16D6A); [tauto|]. destruct (N.eqb_spec c 0x16D68); [tauto|]. destruct (N.eqb_spec c 0x16D69); [tauto|reflexivity]. }
    rewrite E0 in Hr. assert (unm rest = 0%nat) as Hu by lia. clear -Hu. unfold unm in Hu. induction rest as [|x rest IH]; [constructor|]. cbn [filter] in Hu.
    destruct (combining x) eqn:Ex; cbn [negb] in Hu; [|discriminate Hu]. constructor; auto.
  Qed.
End Inner.
