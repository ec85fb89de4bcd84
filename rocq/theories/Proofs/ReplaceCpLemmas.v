(** replace_codepoint and replace_invalid_utf8. *)
From Verif Require Import Base Spec.Utf8Spec Spec.Strings Spec.Replace Model.Decode Model.Encode Model.Subrange Model.Search
  Proofs.Utf8Lemmas Proofs.DecodeLemmas Proofs.SkipLemmas Proofs.EncodeLemmas Proofs.CodepointLemmas Proofs.SearchLemmas
  Proofs.ReplaceLemmas.
From Coq Require Import ZifyBool ZifyNat ZifyN.
Ltac Zify.zify_post_hook ::= Z.div_mod_to_equations.

(** An occurrence of a sequence in valid text is at a code point boundary. *)
Lemma aligned g c : uchar g c -> forall s cs u v, Text s cs -> s = u ++ g ++ v ->
  exists us vs, cs = us ++ c :: vs /\ Text u us /\ Text v vs.
Proof.
  intros Hg s cs u v HT. revert u v. induction HT as [|g1 c1 s cs Hg1 HT IH]; intros u v E.
  - pose proof (uchar_nonempty _ _ Hg). destruct u; [|discriminate]. destruct g; [congruence|discriminate].
  - destruct u as [|x u].
    + cbn [app] in E. destruct (uchar_prefix_unique _ _ _ _ _ _ Hg1 Hg E) as (-> & -> & ->).
      exists [], cs. repeat split; auto. constructor.
    + destruct (Nat.le_gt_cases (length g1) (length (x :: u))) as [L|L].
      * assert (exists w, x :: u = g1 ++ w) as (w & Ew).
        { exists (skipn (length g1) (x :: u)).
          assert (E2 : firstn (length g1) (g1 ++ s) = g1) by apply firstn_length_app.
          rewrite E, firstn_app in E2. replace (length g1 - length (x :: u))%nat with 0%nat in E2 by lia.
          cbn [firstn] in E2. rewrite app_nil_r in E2. rewrite <- E2 at 1. now rewrite firstn_skipn. }
        rewrite Ew, <- app_assoc in E. apply app_inv_head in E.
        destruct (IH w v E) as (us & vs & -> & H1 & H2).
        exists (c1 :: us), vs. rewrite Ew. repeat split; auto. now constructor.
      * exfalso. destruct (uchar_shape _ _ Hg1) as (a & t & -> & Ha & Ht & _).
        destruct (uchar_shape _ _ Hg) as (b & t' & -> & Hb & _ & _).
        cbn [app] in E. injection E as -> E.
        assert (E2 : nth_error (t ++ s) (length u) = Some b).
        { rewrite E, nth_error_app2, Nat.sub_diag by lia. reflexivity. }
        cbn [length] in L. rewrite nth_error_app1 in E2 by lia.
        apply nth_error_In in E2. rewrite Forall_forall in Ht. exact (Hb (Ht _ E2)).
Qed.

Lemma Encoded_app s cs t ds : Encoded s cs -> Encoded t ds -> Encoded (s ++ t) (cs ++ ds).
Proof.
  intros H H'. induction H as [|g c s cs Hg H IH]; [exact H'|].
  cbn. rewrite <- app_assoc. now constructor.
Qed.

Lemma Encoded_split cs : forall ds s, Encoded s (cs ++ ds) -> exists u v, s = u ++ v /\ Encoded u cs /\ Encoded v ds.
Proof.
  induction cs as [|c cs IH]; intros ds s H.
  - exists [], s. repeat split; auto. constructor.
  - cbn [app] in H. inversion H as [|g ? t ? Hg Ht]; subst.
    destruct (IH ds t Ht) as (u & v & -> & Hu & Hv).
    exists (g ++ u), v. rewrite <- app_assoc. repeat split; auto. now constructor.
Qed.

Definition inrange (cs : list N) : Prop := Forall (fun c => c <= 0x10FFFF) cs.

(** Text u / Encoded: the same code points, the same bytes. *)
Lemma Encoded_aligned g c s cs u v : inrange cs -> uchar g c -> Encoded s cs -> s = u ++ g ++ v ->
  exists us vs, cs = us ++ c :: vs /\ Encoded u us /\ encodes g c /\ Encoded v vs.
Proof.
  intros HR Hg HE Es. pose proof (Encoded_Text _ _ HE HR) as HT.
  destruct (aligned g c Hg s cs u v HT Es) as (us & vs & -> & Hu & Hv).
  apply Encoded_split in HE. destruct HE as (u1 & w & E1 & Hu1 & Hw).
  inversion Hw as [|g1 c1 v1 vs1 Hg1 Hv1 Eg1 Ec1]. subst c1 vs1 w.
  apply Forall_app in HR. destruct HR as [HRu HRv]. apply Forall_cons_iff in HRv. destruct HRv as [Hc HRv].
  pose proof (Encoded_Text _ _ Hu1 HRu) as HTu1.
  assert (forall u u1 us w w1, Text u us -> Text u1 us -> u ++ w = u1 ++ w1 -> u = u1) as HU.
  { clear. intros u u1 us w w1 H. revert u1. induction H as [|g c u us Hg H IH]; intros u1 H1 E.
    - now apply Text_nil_inv in H1.
    - apply Text_cons_inv in H1. destruct H1 as (g' & t' & -> & Hg' & H1). rewrite <- !app_assoc in E.
      destruct (uchar_prefix_unique _ _ _ _ _ _ Hg Hg' E) as (-> & _ & E'). f_equal. eapply IH; eassumption. }
  rewrite E1 in Es.
  assert (u1 = u) as -> by (eapply HU; eassumption).
  apply app_inv_head in Es.
  destruct (uchar_prefix_unique _ _ _ _ _ _ (encodes_uchar _ _ Hc Hg1) Hg Es) as (-> & _ & ->).
  exists us, vs. auto.
Qed.

Lemma Encoded_occurs g c s cs : inrange cs -> encodes g c -> Encoded s cs -> In c cs -> exists i, occurs_at g s i.
Proof.
  intros HR Hg HE Hin. apply in_split in Hin. destruct Hin as (us & vs & ->).
  apply Encoded_split in HE. destruct HE as (u & w & -> & Hu & Hw).
  inversion Hw as [|g1 ? v ? Hg1 Hv]; subst. rewrite (encodes_fun _ _ _ Hg1 Hg).
  exists (length u), u, v. now split.
Qed.

Lemma replace_first_notin n a b cs ds : ~ In a cs ->
  replace_first_cps n a b (cs ++ ds) = cs ++ replace_first_cps n a b ds.
Proof.
  induction cs as [|c cs IH]; intros H; [reflexivity|]. cbn [app replace_first_cps].
  cbn in H. replace (c =? a) with false by lia. cbn [andb]. rewrite IH by tauto. reflexivity.
Qed.

Lemma replace_first_zero a b cs : replace_first_cps 0 a b cs = cs.
Proof. induction cs as [|c cs IH]; [reflexivity|]. cbn. rewrite andb_false_r. now rewrite IH. Qed.

Lemma replace_last_zero a b cs : replace_last_cps 0 a b cs = cs.
Proof. unfold replace_last_cps. rewrite replace_first_zero. apply rev_involutive. Qed.

Lemma replace_last_notin n a b cs ds : ~ In a ds ->
  replace_last_cps n a b (cs ++ ds) = replace_last_cps n a b cs ++ ds.
Proof.
  intros H. unfold replace_last_cps. rewrite rev_app_distr, replace_first_notin.
  - rewrite rev_app_distr, rev_involutive. reflexivity.
  - now rewrite <- in_rev.
Qed.

Lemma front_cps f t a b : uchar f a -> encodes f a -> encodes t b -> forall n s r, ReplaceFront f t n s r ->
  forall cs, inrange cs -> Encoded s cs -> Encoded r (replace_first_cps n a b cs).
Proof.
  intros Hfu Hf Ht n s r H. induction H as [s|n s Hn|n u v r Hi H IH]; intros cs HR HE.
  - now rewrite replace_first_zero.
  - assert (~ In a cs) as Hin.
    { intros Hin. destruct (Encoded_occurs f a s cs HR Hf HE Hin) as (i & Ho). exact (Hn i Ho). }
    rewrite <- (app_nil_r cs), replace_first_notin by exact Hin. cbn. now rewrite app_nil_r.
  - destruct (Encoded_aligned f a _ cs u v HR Hfu HE eq_refl) as (us & vs & -> & Hu & _ & Hv).
    apply Forall_app in HR. destruct HR as [HRu HRv]. apply Forall_cons_iff in HRv. destruct HRv as [Ha HRv].
    assert (~ In a us) as Hin.
    { intros Hin. apply in_split in Hin. destruct Hin as (us1 & us2 & ->).
      apply Encoded_split in Hu. destruct Hu as (u1 & w & -> & Hu1 & Hw).
      inversion Hw as [|g1 ? u2 ? Hg1 Hu2]; subst. rewrite (encodes_fun _ _ _ Hg1 Hf) in Hi.
      apply (Hi (length u1)).
      - rewrite !app_length. pose proof (uchar_length _ _ Hfu). lia.
      - exists u1, (u2 ++ f ++ v). now rewrite <- !app_assoc. }
    rewrite replace_first_notin by exact Hin. cbn [replace_first_cps].
    rewrite N.eqb_refl. replace (0 <? n + 1) with true by lia. cbn [andb].
    replace (n + 1 - 1) with n by lia.
    apply Encoded_app; [exact Hu|]. constructor; [exact Ht|]. apply IH; assumption.
Qed.

Lemma back_cps f t a b : uchar f a -> encodes f a -> encodes t b -> forall n s r, ReplaceBack f t n s r ->
  forall cs, inrange cs -> Encoded s cs -> Encoded r (replace_last_cps n a b cs).
Proof.
  intros Hfu Hf Ht n s r H. induction H as [s|n s Hn|n u v r Hi H IH]; intros cs HR HE.
  - now rewrite replace_last_zero.
  - assert (~ In a cs) as Hin.
    { intros Hin. destruct (Encoded_occurs f a s cs HR Hf HE Hin) as (i & Ho). exact (Hn i Ho). }
    change cs with ([] ++ cs). rewrite replace_last_notin by exact Hin. exact HE.
  - destruct (Encoded_aligned f a _ cs v u HR Hfu HE eq_refl) as (vs & us & -> & Hv & _ & Hu).
    apply Forall_app in HR. destruct HR as [HRv HRu].
    assert (~ In a us) as Hin.
    { intros Hin. apply in_split in Hin. destruct Hin as (us1 & us2 & ->).
      apply Encoded_split in Hu. destruct Hu as (u1 & w & -> & Hu1 & Hw).
      inversion Hw as [|g1 ? u2 ? Hg1 Hu2]; subst. rewrite (encodes_fun _ _ _ Hg1 Hf) in Hi.
      apply (Hi (length (v ++ f ++ u1))).
      - rewrite !app_length. pose proof (uchar_length _ _ Hfu). lia.
      - exists (v ++ f ++ u1), u2. now rewrite <- !app_assoc. }
    replace (vs ++ a :: us) with ((vs ++ [a]) ++ us) by now rewrite <- app_assoc. rewrite (replace_last_notin (n + 1) a b (vs ++ [a]) us Hin).
    unfold replace_last_cps. rewrite rev_app_distr. cbn [rev app replace_first_cps].
    rewrite N.eqb_refl. replace (0 <? n + 1) with true by lia. cbn [andb].
    replace (n + 1 - 1) with n by lia. cbn [rev]. rewrite <- app_assoc.
    apply Encoded_app; [apply IH; assumption|]. cbn [app]. constructor; assumption.
Qed.

Lemma encode_buf_ok c : c <= 0x10FFFF -> exists g n, encode_utf8_buf c 4 = (g, n) /\ encodes g c /\ n <> 0.
Proof.
  intros H. pose proof (encode_encodes c H) as HE. pose proof (encode_length c) as HL.
  pose proof (encode_uchar c H) as HU. apply uchar_length in HU.
  unfold encode_utf8_buf. replace (4 <? get_utf8_encoded_length c) with false by lia.
  eexists _, _. split; [reflexivity|]. split; [exact HE|lia].
Qed.

Lemma encode_buf_large c : 0x10FFFF < c -> encode_utf8_buf c 4 = ([], 0).
Proof.
  intros H. pose proof (encode_large c H) as E. unfold encode_utf8 in E. unfold encode_utf8_buf.
  injection E as E1 E2. rewrite E2. reflexivity.
Qed.

Lemma replace_codepoint_ok s cs a b m : Fits s -> Encoded s cs -> inrange cs ->
  a <= 0x10FFFF -> b <= 0x10FFFF -> (PTRDIFF_MIN < m)%Z ->
  exists r, replace_codepoint s a b m = Ok r /\
    Encoded r (if (0 <=? m)%Z then replace_first_cps (Z.to_N m) a b cs else replace_last_cps (Z.to_N (- m)) a b cs).
Proof.
  intros HF HE HR Ha Hb Hm. unfold replace_codepoint.
  destruct (encode_buf_ok a Ha) as (f & fn & -> & Hf & Hfn).
  destruct (encode_buf_ok b Hb) as (t & tn & -> & Ht & Htn).
  replace (fn =? 0) with false by lia. replace (tn =? 0) with false by lia.
  pose proof (encodes_uchar _ _ Ha Hf) as Hfu. pose proof (uchar_nonempty _ _ Hfu) as Hne.
  destruct (Z.leb_spec 0 m) as [L|L].
  - destruct (replace_front s f t m Hne L) as (r & -> & Hr). exists r. split; [reflexivity|].
    eapply front_cps; eassumption.
  - destruct (replace_back s f t m Hne HF ltac:(lia)) as (r & -> & Hr). exists r. split; [reflexivity|].
    eapply back_cps; eassumption.
Qed.

Lemma replace_codepoint_bad s a b m : 0x10FFFF < a \/ 0x10FFFF < b ->
  replace_codepoint s a b m = Throw YstringException.
Proof.
  intros H. unfold replace_codepoint.
  destruct (N.le_gt_cases a 0x10FFFF) as [L|L].
  - destruct (encode_buf_ok a L) as (f & fn & -> & Hf & Hfn). replace (fn =? 0) with false by lia.
    rewrite encode_buf_large by lia. reflexivity.
  - rewrite encode_buf_large by exact L. destruct (encode_utf8_buf b 4). reflexivity.
Qed.

(** ** replace_invalid_utf8 *)

Lemma lead_conts_all l : forall n, N.of_nat (length l) <= n ->
  exists r, l = lead_conts l n ++ r /\ Forall cont (lead_conts l n) /\ (forall x r', r = x :: r' -> ~ cont x).
Proof.
  induction l as [|b l IH]; intros n Hn; cbn [lead_conts].
  - exists []. repeat split; [constructor|discriminate].
  - destruct (contb b) eqn:Eb.
    + cbn [length] in Hn. replace (n =? 0) with false by lia.
      destruct (IH (n - 1) ltac:(lia)) as (r & E & H1 & H2). exists r.
      split; [cbn; now rewrite <- E|]. split; [|exact H2]. constructor; [now apply contb_cont|exact H1].
    + exists (b :: l). split; [reflexivity|]. split; [constructor|].
      intros x r' E. injection E as <- <-. now apply contb_false.
Qed.

(** The bytes skipped at a malformed position: all continuation bytes. *)
Lemma malformed_skip b l : Malformed (b :: l) -> N.of_nat (length l) <= UINT32_MAX ->
  exists s, l = lead_conts l (allow b) ++ s /\ Forall cont (lead_conts l (allow b)) /\
    (forall x s', s = x :: s' -> ~ cont x).
Proof.
  intros [_ HM] Hl.
  assert (Hcase : allow b = UINT32_MAX \/ (allow b <= 3 /\ ~ cont b)).
  { unfold allow, cont. destruct (u8 b <? 0x80) eqn:E0; [right; lia|].
    destruct ((0xC0 <=? u8 b) && (u8 b <? 0xE0)) eqn:E1; [right; lia|].
    destruct ((0xE0 <=? u8 b) && (u8 b <? 0xF0)) eqn:E2; [right; lia|].
    destruct ((0xF0 <=? u8 b) && (u8 b <? 0xF8)) eqn:E3; [right; lia|]. now left. }
  destruct Hcase as [->|[Hs Hb]]; [now apply lead_conts_all|].
  destruct (lead_conts_split l (allow b)) as (s & E & HF & Hn & Hor).
  exists s. split; [exact E|]. split; [exact HF|].
  destruct Hor as [Hfull|Hstop].
  - exfalso. (* the announced number of continuation bytes follows: a sequence *)
    set (t := lead_conts l (allow b)) in *.
    unfold allow in Hfull. unfold cont in Hb.
    destruct (u8 b <? 0x80) eqn:E0.
    { apply (HM [b] (u8 b) l); [constructor; lia|reflexivity]. }
    destruct ((0xC0 <=? u8 b) && (u8 b <? 0xE0)) eqn:E1.
    { destruct t as [|c1 [|? ?]]; cbn in Hfull; try lia. rewrite E in HM.
      inversion HF; subst. eapply (HM [b; c1]); [constructor; [lia|assumption]|reflexivity]. }
    destruct ((0xE0 <=? u8 b) && (u8 b <? 0xF0)) eqn:E2.
    { destruct t as [|c1 [|c2 [|? ?]]]; cbn in Hfull; try lia. rewrite E in HM.
      inversion HF as [|? ? H1 HF1]; subst. inversion HF1 as [|? ? H2 HF2]; subst.
      eapply (HM [b; c1; c2]); [constructor; [lia|assumption|assumption]|reflexivity]. }
    destruct ((0xF0 <=? u8 b) && (u8 b <? 0xF8)) eqn:E3.
    { destruct t as [|c1 [|c2 [|c3 [|? ?]]]]; cbn in Hfull; try lia. rewrite E in HM.
      inversion HF as [|? ? H1 HF1]; subst. inversion HF1 as [|? ? H2 HF2]; subst. inversion HF2 as [|? ? H3 HF3]; subst.
      eapply (HM [b; c1; c2; c3]); [constructor; [lia|assumption|assumption|assumption]|reflexivity]. }
    unfold allow in Hs. rewrite E0, E1, E2, E3 in Hs. unfold UINT32_MAX in Hs. lia.
  - intros x s' -> Hx. cbn in Hstop. apply contb_cont in Hx. congruence.
Qed.

Lemma replace_invalid_loop_spec repl : forall fuel pre s prev acc,
  (length s < fuel)%nat -> (prev <= length pre)%nat -> N.of_nat (length s) <= UINT32_MAX ->
  exists r acc' prev', Repaired repl s r /\
    replace_invalid_loop fuel (pre ++ s) repl (length pre) prev acc = Ok (acc', prev') /\
    acc' ++ skipn prev' (pre ++ s) = acc ++ slice (pre ++ s) prev (length pre) ++ r.
Proof.
  induction fuel as [|fuel IH]; intros pre s prev acc Hf Hp Hl; [lia|].
  cbn [replace_invalid_loop].
  destruct (seq_dec s) as [->|[HM|(g & c & t & Hg & ->)]].
  - rewrite app_nil_r, Nat.eqb_refl. exists [], acc, prev. split; [constructor|]. split; [reflexivity|].
    rewrite app_nil_r. f_equal. unfold slice. rewrite firstn_all2; [reflexivity|]. rewrite skipn_length. lia.
  - assert (Hne : s <> []) by apply HM.
    replace (Nat.eqb (length pre) (length (pre ++ s))) with false
      by (rewrite app_length; destruct s; [congruence|cbn; lia]).
    rewrite decode_next_malformed by exact HM. cbn [bind]. cbv zeta.
    rewrite N.eqb_refl. cbn [negb].
    destruct s as [|b l]; [congruence|].
    rewrite skip_next_at. cbn [bind].
    destruct (malformed_skip b l HM) as (s' & E & HF & Hstop); [cbn in Hl; lia|].
    set (t := lead_conts l (allow b)) in *.
    assert (El : pre ++ b :: l = (pre ++ b :: t) ++ s') by (rewrite E, <- app_assoc; reflexivity).
    assert (Ep : S (length pre + length t) = length (pre ++ b :: t)) by (rewrite app_length; cbn; lia).
    rewrite Ep, El.
    edestruct (IH (pre ++ b :: t) s' (length (pre ++ b :: t))) as (r & acc' & prev' & R1 & R2 & R3);
      [apply (f_equal (@length byte)) in E; rewrite app_length in E; cbn in Hf; lia|lia
      |apply (f_equal (@length byte)) in E; rewrite app_length in E; cbn in Hl; lia|].
    exists (repl ++ r), acc', prev'. split; [|split; [exact R2|]].
    + rewrite E. constructor; auto. rewrite <- E. exact HM.
    + rewrite R3, slice_self, <- !app_assoc. cbn [app]. reflexivity.
  - pose proof (uchar_length _ _ Hg) as Hgl.
    replace (Nat.eqb (length pre) (length (pre ++ g ++ t))) with false by (rewrite !app_length; lia).
    rewrite decode_next_uchar with (c := c) by exact Hg. cbn [bind]. cbv zeta.
    rewrite (INVALID_not_uchar g c Hg). cbn [negb].
    rewrite (app_assoc pre g t), <- app_length. rewrite app_length in Hf, Hl.
    edestruct (IH (pre ++ g) t prev acc) as (r & acc' & prev' & R1 & R2 & R3);
      [lia|rewrite app_length; lia|lia|].
    exists (g ++ r), acc', prev'. split; [now apply rep_valid with c|]. split; [exact R2|].
    rewrite R3. f_equal. rewrite app_assoc. f_equal.
    rewrite <- (slice_cat _ prev (length pre) (length (pre ++ g))) by (rewrite app_length; lia).
    f_equal. rewrite <- app_assoc. apply slice_app; [reflexivity|now rewrite app_length].
Qed.

Lemma replace_invalid_spec s chr : size s <= UINT32_MAX ->
  exists r, replace_invalid_utf8 s chr = Ok r /\ Repaired (from_utf32_char chr) s r.
Proof.
  intros Hs. unfold replace_invalid_utf8.
  assert (exists n, encode_utf8_buf chr 4 = (from_utf32_char chr, n)) as (n & ->).
  { destruct (N.le_gt_cases chr 0x10FFFF) as [L|L].
    - destruct (encode_buf_ok chr L) as (g & n & E & Hg & _). exists n. rewrite E. f_equal.
      apply encodes_fun with chr; [exact Hg|]. now apply encode_encodes.
    - exists 0. rewrite encode_buf_large by exact L. unfold from_utf32_char. now rewrite encode_large. }
  destruct (replace_invalid_loop_spec (from_utf32_char chr) (S (length s)) [] s 0 []) as (r & acc & prev & R1 & R2 & R3);
    [lia|cbn; lia|exact Hs|].
  cbn [app length] in *. rewrite R2. cbn [bind]. rewrite R3. exists r. split; [reflexivity|exact R1].
Qed.

Lemma Repaired_valid repl s cs : Text s cs -> Repaired repl s s.
Proof. induction 1 as [|g c s cs Hg H IH]; [constructor|]. now apply rep_valid with c. Qed.

Lemma Repaired_fun repl s r : Repaired repl s r -> forall r', Repaired repl s r' -> r = r'.
Proof.
  induction 1 as [|g c s r Hg H IH|b t s r HM Ht Hs H IH]; intros r' H'.
  - inversion H' as [E|g ? ? ? Hg ? E|]; [reflexivity|].
    apply uchar_nonempty in Hg. destruct g; [congruence|discriminate].
  - remember (g ++ s) as w eqn:Ew. destruct H' as [|g' c' s' r' Hg' H'|b t s' r' HM Ht Hs H'].
    + apply uchar_nonempty in Hg. destruct g; [congruence|discriminate].
    + destruct (uchar_prefix_unique _ _ _ _ _ _ Hg' Hg Ew) as (-> & _ & ->). now rewrite (IH r').
    + exfalso. destruct HM as [_ HM]. eapply HM; [exact Hg|]. exact Ew.
  - remember (b :: t ++ s) as w eqn:Ew. destruct H' as [|g' c' s' r' Hg' H'|b' t' s' r' HM' Ht' Hs' H'].
    + discriminate.
    + exfalso. destruct HM as [_ HM]. eapply HM; [exact Hg'|]. reflexivity.
    + injection Ew as <- Ew.
      assert (t' = t /\ s' = s) as [-> ->].
      { revert t Ht Ew. clear - Hs Hs' Ht'. revert Ht'. induction t' as [|x t' IHt]; intros Ht' [|y t] Ht Ew; cbn [app] in Ew.
        - now split.
        - exfalso. apply (Hs' y (t ++ s) Ew). now inversion Ht.
        - exfalso. apply (Hs x (t' ++ s') (eq_sym Ew)). now inversion Ht'.
        - injection Ew as -> Ew. inversion Ht; subst. inversion Ht'; subst.
          destruct (IHt H4 t H2 Ew) as [-> ->]. now split. }
      now rewrite (IH r').
Qed.

Lemma Repaired_Text repl s r ks : Text repl ks -> Repaired repl s r -> exists cs, Text r cs.
Proof.
  intros HK. induction 1 as [|g c s r Hg H (cs & IH)|b t s r HM Ht Hs H (cs & IH)].
  - exists []. constructor.
  - exists (c :: cs). now constructor.
  - exists (ks ++ cs). now apply Text_app.
Qed.

Lemma char_Text chr : exists ks, Text (from_utf32_char chr) ks.
Proof.
  destruct (N.le_gt_cases chr 0x10FFFF) as [L|L].
  - exists [chr]. apply Text_one. now apply encode_uchar.
  - exists []. unfold from_utf32_char. rewrite encode_large by exact L. constructor.
Qed.

Lemma p_c34 s chr : size s <= 0xFFFFFFFF ->
  exists r, replace_invalid_utf8 s chr = Ok r /\
    Repaired (from_utf32_char chr) s r /\
    is_valid_utf8 r = Ok true /\
    (is_valid_utf8 s = Ok true -> r = s) /\
    (size r <= 0xFFFFFFFF -> replace_invalid_utf8 r chr = Ok r) /\
    replace_invalid_utf8_inplace s chr = Ok r.
Proof.
  intros Hs. destruct (replace_invalid_spec s chr Hs) as (r & E & HR). exists r.
  destruct (char_Text chr) as (ks & HK). destruct (Repaired_Text _ _ _ _ HK HR) as (cs & HT).
  assert (HV : is_valid_utf8 s = Ok true -> r = s).
  { intros Hv. destruct (is_valid_spec s) as (b & Eb & Hb). rewrite Eb in Hv. injection Hv as ->.
    destruct (proj1 Hb eq_refl) as (ds & HD).
    eapply Repaired_fun; [exact HR|]. now apply Repaired_valid with ds. }
  split; [exact E|]. split; [exact HR|]. split; [now apply is_valid_text with cs|].
  split; [exact HV|]. split.
  - intros Hr. destruct (replace_invalid_spec r chr Hr) as (r2 & E2 & HR2). rewrite E2. f_equal.
    eapply Repaired_fun; [exact HR2|]. now apply Repaired_valid with cs.
  - unfold replace_invalid_utf8_inplace. destruct (is_valid_spec s) as (b & Eb & Hb).
    rewrite Eb. cbn [bind]. destruct b; [|exact E]. now rewrite HV.
Qed.

Lemma p_c31_unique from to n s r r' : ReplaceFront from to n s r -> ReplaceFront from to n s r' -> r = r'.
Proof. intros H H'. exact (ReplaceFront_fun _ _ _ _ _ H _ H'). Qed.
Lemma p_c32_unique from to n s r r' : ReplaceBack from to n s r -> ReplaceBack from to n s r' -> r = r'.
Proof. intros H H'. exact (ReplaceBack_fun _ _ _ _ _ H _ H'). Qed.
Lemma p_c34_unique repl s r r' : Repaired repl s r -> Repaired repl s r' -> r = r'.
Proof. intros H H'. exact (Repaired_fun _ _ _ H _ H'). Qed.

Lemma p_c33_overlong :
  Text [xc1; x81] [0x41] /\ is_valid_utf8 [xc1; x81] = Ok true /\
  replace_codepoint [xc1; x81] 0x41 0x42 1 = Ok [xc1; x81].
Proof.
  split; [|split; reflexivity].
  apply Text_one. apply (uchar2 xc1 x81); unfold cont, u8; cbn; lia.
Qed.

Lemma p_c34_default s : size s <= 0xFFFFFFFF ->
  exists r, replace_invalid_utf8 s REPLACEMENT_CHARACTER = Ok r /\ Repaired [xef; xbf; xbd] s r.
Proof. intros H. destruct (p_c34 s REPLACEMENT_CHARACTER H) as (r & E & R & _). exists r. split; [exact E|exact R]. Qed.
