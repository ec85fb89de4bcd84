(** Characters by index and reverse on malformed text. *)
From Verif Require Import Base Spec.Utf8Spec Spec.Strings Spec.Slices Model.Decode Model.Encode Model.Subrange Model.Search
  Model.CharClass Model.Chars
  Proofs.Utf8Lemmas Proofs.DecodeLemmas Proofs.SkipLemmas Proofs.EncodeLemmas Proofs.CodepointLemmas Proofs.SearchLemmas
  Proofs.SliceLemmas Proofs.CharLemmas.
From Coq Require Import ZifyBool ZifyNat ZifyN.
Ltac Zify.zify_post_hook ::= Z.div_mod_to_equations.

(** Forwards: the last character before the malformed bytes is not usable. *)
Lemma next_range_bad pre r : Malformed r -> get_next_char_range (pre ++ r) (size pre) = Throw YstringException.
Proof. intros HM. unfold get_next_char_range. rewrite bp_size. cbn [bind]. now rewrite safe_decode_next_malformed. Qed.
Lemma next_range_last_bad pre p r : one_char is_mark p -> Malformed r ->
  get_next_char_range (pre ++ p ++ r) (size pre) = Throw YstringException.
Proof.
  intros (g & c & u & us & -> & Hg & HT & HU) HM. unfold get_next_char_range.
  rewrite bp_size. cbn [bind]. rewrite <- (app_assoc g u r).
  rewrite safe_decode_next_uchar with (c := c) by assumption. cbn [bind].
  pose proof (Text_length _ _ HT).
  rewrite (app_assoc pre g (u ++ r)), <- app_length.
  rewrite next_char_loop_bad with (us := us) by (auto; rewrite !app_length; lia). reflexivity.
Qed.
Lemma char_end_more (q : str) qs r : Chars (q :: qs) -> char_end (concat (q :: qs)) -> char_end (concat (q :: qs) ++ r).
Proof.
  intros HC [E|(g & c & t & E & Hg & Hc)].
  - exfalso. destruct HC as [HC _]. apply Forall_inv in HC. apply one_char_length in HC. cbn [concat] in E.
    destruct q; [cbn in HC; lia|discriminate].
  - right. exists g, c, (t ++ r). rewrite E, app_assoc. auto.
Qed.

Lemma char_pos_fwd_bad (ps : list str) : forall fuel pre r k, Chars ps -> Fits (pre ++ concat ps ++ r) -> Malformed r ->
  (length ps < fuel)%nat -> (0 < k)%Z ->
  char_pos_fwd fuel (pre ++ concat ps ++ r) k (size pre)
  = if (k <? Z.of_nat (length ps))%Z then Ok (size (pre ++ concat (firstn (Z.to_nat k) ps))) else Throw YstringException.
Proof.
  induction ps as [|p ps IH]; intros [|fuel] pre r k HC HF HM Hf Hk; try (cbn in Hf; lia); cbn [char_pos_fwd];
    replace (0 <? k)%Z with true by lia.
  - cbn [concat app]. rewrite next_range_bad by exact HM. cbn [bind length]. replace (k <? _)%Z with false by lia. reflexivity.
  - apply Chars_cons in HC. destruct HC as (Hp & He & HC). pose proof (one_char_length _ Hp).
    cbn [concat] in *. rewrite <- app_assoc in HF |- *. destruct ps as [|q qs].
    + cbn [concat app length]. rewrite next_range_last_bad by assumption. cbn [bind].
      replace (k <? _)%Z with false by lia. reflexivity.
    + pose proof (char_end_more q qs r HC He) as He2.
      rewrite next_range_spec by assumption. cbn [bind]. unfold sub_bool. cbn [sub_length].
      replace (size p =? 0) with false by (unfold size; lia). cbn [negb]. rewrite app_assoc in HF |- *.
      rewrite sub_end_small by (apply Fits_l in HF; exact HF).
      destruct (Z.ltb_spec 0 (k - 1)) as [L|L].
      * cbn [length] in Hf. rewrite IH by (auto; cbn [length]; lia).
        replace (k - 1 <? Z.of_nat (length (q :: qs)))%Z with (k <? Z.of_nat (length (p :: q :: qs)))%Z by (cbn [length]; lia).
        replace (Z.to_nat k) with (S (Z.to_nat (k - 1))) by lia. cbn [firstn concat]. now rewrite app_assoc.
      * replace k with 1%Z by lia. destruct fuel as [|fuel]; [cbn in Hf; lia|]. cbn [char_pos_fwd].
        change (1 - 1)%Z with 0%Z. cbn [Z.ltb Z.compare]. change (Z.to_nat 1) with 1%nat. cbn [firstn concat]. rewrite app_nil_r.
        replace (1 <? Z.of_nat (length (p :: q :: qs)))%Z with true by (cbn [length]; lia). reflexivity.
Qed.

Lemma get_char_pos_fwd_bad (ps : list str) r k : Chars ps -> Fits (concat ps ++ r) -> Malformed r -> (0 <= k)%Z ->
  get_char_pos (concat ps ++ r) k
  = if (k =? 0)%Z || (k <? Z.of_nat (length ps))%Z then Ok (offset_of ps (Z.to_nat k)) else Throw YstringException.
Proof.
  intros HC HF HM Hk. unfold get_char_pos. replace (0 <=? k)%Z with true by lia.
  pose proof (Chars_length ps (proj1 HC)) as HL. destruct (Z.eqb_spec k 0) as [->|Hne]; [reflexivity|]. cbn [orb].
  apply (char_pos_fwd_bad ps _ [] r k); auto; [rewrite app_length; lia|lia].
Qed.

Lemma range_at_bad (ps : list str) k p r : Chars ps -> Fits (concat ps ++ r) -> nth_error ps k = Some p -> (S k < length ps)%nat ->
  get_next_char_range (concat ps ++ r) (offset_of ps k) = Ok (Sub (offset_of ps k) (size p)).
Proof.
  intros HC HF Hn Hl. apply nth_error_split in Hn. destruct Hn as (l1 & l2 & -> & <-).
  assert (offset_of (l1 ++ p :: l2) (length l1) = size (concat l1)) as -> by (unfold offset_of; now rewrite firstn_length_app).
  rewrite concat_app in HF |- *. cbn [concat] in HF |- *.
  pose proof (Chars_skipn _ (length l1) HC) as H1. rewrite skipn_length_app in H1.
  apply Chars_cons in H1. destruct H1 as (Hp & He & HC2).
  rewrite <- !app_assoc in HF |- *. destruct l2 as [|q qs]; [rewrite app_length in Hl; cbn in Hl; lia|].
  apply next_range_spec; auto. now apply char_end_more.
Qed.
Lemma range_last_bad (ps : list str) p r : Chars (ps ++ [p]) -> Malformed r ->
  get_next_char_range (concat (ps ++ [p]) ++ r) (offset_of (ps ++ [p]) (length ps)) = Throw YstringException.
Proof.
  intros HC HM. unfold offset_of. rewrite firstn_length_app, concat_app. cbn [concat]. rewrite app_nil_r, <- app_assoc.
  apply next_range_last_bad; [|exact HM]. now apply Chars_snoc in HC.
Qed.
Lemma offset_below ps r k : Fits (concat ps ++ r) -> offset_of ps k <> npos.
Proof.
  intros HF. pose proof (offset_le ps k). unfold Fits in HF. rewrite size_app in HF. unfold npos, SIZE_MAX. lia.
Qed.
Lemma get_char_range_fwd_bad (ps : list str) r k : Chars ps -> Fits (concat ps ++ r) -> Malformed r -> (0 <= k)%Z ->
  (forall p, (k < Z.of_nat (length ps) - 1)%Z -> nth_error ps (Z.to_nat k) = Some p ->
     get_char_range (concat ps ++ r) k = Ok (Sub (offset_of ps (Z.to_nat k)) (size p))) /\
  ((Z.of_nat (length ps) - 1 <= k)%Z -> get_char_range (concat ps ++ r) k = Throw YstringException).
Proof.
  intros HC HF HM Hk. unfold get_char_range. replace (0 <=? k)%Z with true by lia.
  rewrite get_char_pos_fwd_bad by assumption. split.
  - intros p Hl Hn. replace (k <? Z.of_nat (length ps))%Z with true by lia. rewrite orb_true_r. cbn [bind].
    replace (_ =? npos) with false by (symmetry; apply N.eqb_neq; now apply offset_below with (r := r)).
    apply range_at_bad; auto. lia.
  - intros Hl. destruct (Z.eqb_spec k 0) as [->|Hne]; cbn [orb].
    + cbn [bind]. replace (_ =? npos) with false by (symmetry; apply N.eqb_neq; now apply offset_below with (r := r)).
      destruct ps as [|p [|]]; [|apply (range_last_bad [] p r HC HM)|cbn [length] in Hl; lia].
      cbn. apply (next_range_bad []). exact HM.
    + destruct (Z.ltb_spec k (Z.of_nat (length ps))) as [L|L]; [|reflexivity]. cbn [bind].
      replace (_ =? npos) with false by (symmetry; apply N.eqb_neq; now apply offset_below with (r := r)).
      destruct ps as [|p ps _] using rev_ind; [cbn in L; lia|]. rewrite snoc_length in Hl, L.
      replace (Z.to_nat k) with (length ps) by lia. now apply range_last_bad.
Qed.

(** Backwards: [bad r x] is what decoding backwards from the end of [r] does. *)
Definition bad_end {A} (r : str) (x : outcome A) : Prop :=
  (~ long_cont_tail r -> x = Throw YstringException) /\ (long_cont_tail r -> x = UB).
Lemma prev_char_loop_bad us : forall r m v fuel, Text m us -> marks us -> MalformedEnd r -> (length us < fuel)%nat ->
  bad_end r (prev_char_loop fuel (r ++ m ++ v) (length (r ++ m))).
Proof.
  intros r m v fuel HT. revert r v fuel.
  induction HT as [|g c m us Hg HT IH] using Text_rev_ind; intros r v [|fuel] HM HR Hf; try (rewrite ?app_length in Hf; cbn in Hf; lia); cbn [prev_char_loop].
  - cbn [app]. rewrite app_nil_r. split; intros HL.
    + now rewrite safe_decode_prev_malformed.
    + now rewrite safe_decode_prev_long.
  - apply Forall_app in HM. destruct HM as [HM Hc]. apply Forall_inv in Hc.
    replace (r ++ (m ++ g) ++ v) with ((r ++ m) ++ g ++ v) by now rewrite <- !app_assoc.
    replace (length (r ++ m ++ g)) with (length (r ++ m) + length g)%nat by (rewrite !app_length; lia).
    rewrite safe_decode_prev_uchar with (c := c) by assumption. cbn [bind]. rewrite Hc.
    rewrite <- !app_assoc. rewrite app_length in Hf. cbn in Hf. apply IH; auto. lia.
Qed.
Lemma bad_bind {A B} r (x : outcome A) (f : A -> outcome B) : bad_end r x -> bad_end r (bind x f).
Proof. intros [H1 H2]. split; intros HL; [rewrite (H1 HL)|rewrite (H2 HL)]; reflexivity. Qed.

Lemma prev_range_bad r m us v : Text m us -> marks us -> MalformedEnd r -> bad_end r (get_prev_char_range (r ++ m ++ v) (size (r ++ m))).
Proof.
  intros HT HM HR. unfold get_prev_char_range. rewrite app_assoc, bp_size, <- app_assoc. cbn [bind]. apply bad_bind.
  apply prev_char_loop_bad with (us := us); auto. rewrite !app_length. pose proof (Text_length _ _ HT). lia.
Qed.

(** Characters that all start with something else than a mark. *)
Definition unmarked_chars (ps : list str) : Prop := Forall (one_char is_mark) ps /\ Forall (starts_unmarked is_mark) ps.
Lemma unmarked_snoc ps p : unmarked_chars (ps ++ [p]) -> unmarked_chars ps /\ one_char is_mark p /\ starts_unmarked is_mark p.
Proof.
  intros [H1 H2]. apply Forall_app in H1, H2. destruct H1 as [H1 Hp], H2 as [H2 Hq]. apply Forall_inv in Hp, Hq. repeat split; auto.
Qed.
Lemma char_pos_bwd_bad r m us (ps : list str) : Text m us -> marks us -> MalformedEnd r -> forall fuel post k, unmarked_chars ps ->
  Fits ((r ++ m) ++ concat ps ++ post) -> (length ps < fuel)%nat -> (k <= 0)%Z ->
  let x := char_pos_bwd fuel ((r ++ m) ++ concat ps ++ post) k (size ((r ++ m) ++ concat ps)) in
  ((- k <= Z.of_nat (length ps))%Z -> x = Ok (size ((r ++ m) ++ concat (firstn (length ps - Z.to_nat (- k)) ps)))) /\
  ((Z.of_nat (length ps) < - k)%Z -> bad_end r x).
Proof.
  intros HT HM HR. induction ps as [|p ps IH] using rev_ind; intros [|fuel] post k HC HF Hf Hk; try (cbn in Hf; lia); cbv zeta; cbn [char_pos_bwd].
  - cbn [concat app length firstn]. rewrite firstn_nil. cbn [concat]. rewrite app_nil_r.
    destruct (Z.ltb_spec k 0) as [L|L].
    + split; intros HL; [lia|]. rewrite <- app_assoc. apply bad_bind. apply prev_range_bad with (us := us); auto.
    + split; intros HL; [reflexivity|lia].
  - rewrite snoc_length in *. destruct (Z.ltb_spec k 0) as [L|L].
    + apply unmarked_snoc in HC. destruct HC as (HC & Hp & He). pose proof (one_char_length _ Hp).
      rewrite concat_app in *. cbn [concat] in *. rewrite app_nil_r in *. rewrite <- (app_assoc (concat ps) p post) in *.
      rewrite (app_assoc (r ++ m) (concat ps) (p ++ post)) in *.
      rewrite (app_assoc (r ++ m) (concat ps) p).
      rewrite prev_range_spec by auto. cbn [bind]. unfold sub_bool, sub_start. cbn [sub_length sub_offset].
      replace (size p =? 0) with false by (unfold size; lia). cbn [negb].
      rewrite <- (app_assoc (r ++ m) (concat ps) (p ++ post)) in *.
      destruct (IH fuel (p ++ post) (k + 1)%Z HC HF ltac:(lia) ltac:(lia)) as [I1 I2]. split; intros HL.
      * rewrite I1 by lia.
        replace (S (length ps) - Z.to_nat (- k))%nat with (length ps - Z.to_nat (- (k + 1)))%nat by lia.
        rewrite firstn_app. replace (_ - _ - length ps)%nat with 0%nat by lia. cbn [firstn]. now rewrite app_nil_r.
      * apply I2. lia.
    + split; intros HL; [|lia]. replace k with 0%Z by lia. cbn [Z.opp Z.to_nat].
      rewrite Nat.sub_0_r, <- snoc_length with (a := p), firstn_all. reflexivity.
Qed.
Lemma unmarked_length ps : unmarked_chars ps -> (length ps <= length (concat ps))%nat.
Proof. intros [H _]. now apply Chars_length. Qed.
Lemma get_char_pos_bwd_bad r m us (ps : list str) k : Text m us -> marks us -> MalformedEnd r -> unmarked_chars ps ->
  Fits (r ++ m ++ concat ps) -> (k < 0)%Z ->
  ((- k <= Z.of_nat (length ps))%Z ->
     get_char_pos (r ++ m ++ concat ps) k = Ok (size (r ++ m ++ concat (firstn (length ps - Z.to_nat (- k)) ps)))) /\
  ((Z.of_nat (length ps) < - k)%Z -> bad_end r (get_char_pos (r ++ m ++ concat ps) k)).
Proof.
  intros HT HM HR HC HF Hk. unfold get_char_pos. replace (0 <=? k)%Z with false by lia.
  pose proof (unmarked_length ps HC) as HL.
  pose proof (char_pos_bwd_bad r m us ps HT HM HR (S (S (length (r ++ m ++ concat ps)))) [] k HC) as H. cbv zeta in H.
  rewrite app_nil_r, <- app_assoc in H. specialize (H HF). rewrite !app_length in *. specialize (H ltac:(lia) ltac:(lia)).
  destruct H as [H1 H2]. split; intros H; [|now apply H2]. rewrite H1 by exact H. now rewrite <- app_assoc.
Qed.
Lemma get_char_range_bwd_bad r m us (ps : list str) k : Text m us -> marks us -> MalformedEnd r -> unmarked_chars ps ->
  Fits (r ++ m ++ concat ps) -> (k < 0)%Z ->
  (forall n p, Z.of_nat n = (Z.of_nat (length ps) + k)%Z -> nth_error ps n = Some p ->
     get_char_range (r ++ m ++ concat ps) k = Ok (Sub (size (r ++ m ++ concat (firstn n ps))) (size p))) /\
  ((Z.of_nat (length ps) < - k)%Z -> bad_end r (get_char_range (r ++ m ++ concat ps) k)).
Proof.
  intros HT HM HR HC HF Hk. unfold get_char_range. replace (0 <=? k)%Z with false by lia.
  assert (forall n p, nth_error ps n = Some p ->
    get_prev_char_range (r ++ m ++ concat ps) (size (r ++ m ++ concat (firstn (S n) ps))) = Ok (Sub (size (r ++ m ++ concat (firstn n ps))) (size p))) as HP.
  { intros n p Hn. apply nth_error_split in Hn. destruct Hn as (l1 & l2 & -> & <-).
    assert (firstn (S (length l1)) (l1 ++ p :: l2) = l1 ++ [p]) as ->.
    { rewrite <- snoc_length with (a := p). replace (l1 ++ p :: l2) with ((l1 ++ [p]) ++ l2) by now rewrite <- app_assoc. apply firstn_length_app. }
    rewrite firstn_length_app. replace (l1 ++ p :: l2) with ((l1 ++ [p]) ++ l2) in HC, HF |- * by now rewrite <- app_assoc.
    destruct HC as [C1 C2]. apply Forall_app in C1, C2. destruct C1 as [C1 _], C2 as [C2 _].
    destruct (unmarked_snoc l1 p (conj C1 C2)) as (_ & Hp & Hs).
    rewrite (concat_app (l1 ++ [p])), (concat_app l1) in HF |- *. cbn [concat] in HF |- *. rewrite app_nil_r in HF |- *.
    pose proof (prev_range_spec (r ++ m ++ concat l1) p (concat l2) Hp ltac:(now right)) as E. repeat rewrite <- app_assoc in E. repeat rewrite <- app_assoc in HF. repeat rewrite <- app_assoc. now apply E. }
  destruct (Z.ltb_spec k (-1)) as [L|L].
  - destruct (get_char_pos_bwd_bad r m us ps (k + 1) HT HM HR HC HF ltac:(lia)) as [H1 H2]. split.
    + intros n p En Hn. rewrite H1 by lia. cbn [bind].
      replace (_ =? npos) with false.
      2:{ symmetry. apply N.eqb_neq. pose proof (offset_le ps (length ps - Z.to_nat (- (k + 1)))) as LE. unfold offset_of in LE.
          unfold Fits in HF. rewrite !size_app in *. unfold npos, SIZE_MAX. lia. }
      replace (length ps - Z.to_nat (- (k + 1)))%nat with (S n) by lia. now apply HP.
    + intros HL. destruct (Z.eqb_spec (- (k + 1)) (Z.of_nat (length ps))) as [E|E].
      * rewrite H1 by lia. cbn [bind]. replace (length ps - _)%nat with 0%nat by lia. cbn [firstn concat]. rewrite !app_nil_r.
        replace (_ =? npos) with false.
        2:{ symmetry. apply N.eqb_neq. unfold Fits in HF. rewrite !size_app in *. unfold npos, SIZE_MAX. lia. }
        apply prev_range_bad with (us := us); auto.
      * apply bad_bind. apply H2. lia.
  - replace k with (-1)%Z in * by lia. split.
    + intros n p En Hn. replace (size (r ++ m ++ concat ps)) with (size (r ++ m ++ concat (firstn (S n) ps))); [now apply HP|].
      rewrite firstn_all2 by lia. reflexivity.
    + intros HL. destruct ps; [|cbn in HL; lia]. cbn [concat]. rewrite app_nil_r.
      pose proof (prev_range_bad r m us [] HT HM HR) as H. now rewrite app_nil_r in H.
Qed.

(** Every text is marks and characters starting with something else. *)
Lemma unmarked_exist u cs : Text u cs -> exists m us ps, u = m ++ concat ps /\ Text m us /\ marks us /\ unmarked_chars ps.
Proof.
  intros HT. destruct (Chars_exist u cs HT) as (ps & [C1 C2] & <-). destruct ps as [|p ps].
  - exists [], [], []. repeat split; constructor.
  - cbn [tl] in C2. inversion C1 as [|? ? Hp C1']; subst. pose proof Hp as (g & c & t & ts & -> & Hg & HU & HM). destruct (is_mark c) eqn:Ec.
    + exists (g ++ t), (c :: ts), ps. repeat split; auto. now constructor.
    + exists [], [], ((g ++ t) :: ps). repeat split; auto; try constructor; auto. exists g, c, t. auto.
Qed.

Lemma reverse_loop_bad r m us (ps : list str) : Text m us -> marks us -> MalformedEnd r -> forall fuel post acc, unmarked_chars ps ->
  Fits ((r ++ m) ++ concat ps ++ post) -> (length ps < fuel)%nat ->
  bad_end r (reverse_loop fuel ((r ++ m) ++ concat ps ++ post) (size ((r ++ m) ++ concat ps)) acc).
Proof.
  intros HT HM HR. induction ps as [|p ps IH] using rev_ind; intros [|fuel] post acc HC HF Hf; try (cbn in Hf; lia); cbn [reverse_loop].
  - cbn [concat app]. rewrite app_nil_r. assert (r <> []) as Hne by apply HR.
    replace (size (r ++ m) =? 0) with false by (unfold size; rewrite app_length; destruct r; [congruence|cbn [length]; lia]). cbn [negb].
    rewrite <- app_assoc. apply bad_bind. apply prev_range_bad with (us := us); auto.
  - apply unmarked_snoc in HC. destruct HC as (HC & Hp & He). pose proof (one_char_length _ Hp).
    rewrite snoc_length in Hf. rewrite concat_app in *. cbn [concat] in *. rewrite app_nil_r in *.
    replace (size ((r ++ m) ++ concat ps ++ p) =? 0) with false by (unfold size; rewrite !app_length; lia). cbn [negb].
    replace ((r ++ m) ++ (concat ps ++ p) ++ post) with (((r ++ m) ++ concat ps) ++ p ++ post) in * by now rewrite <- !app_assoc.
    rewrite (app_assoc (r ++ m) (concat ps) p).
    rewrite prev_range_spec by auto. cbn [bind].
    assert (Fits (((r ++ m) ++ concat ps) ++ p)) as HF2 by (rewrite app_assoc in HF; now apply Fits_l in HF).
    rewrite sub_end_small by exact HF2. unfold sub_start. cbn [sub_offset].
    rewrite bp_size. cbn [bind]. rewrite (app_assoc _ p post), bp_size. cbn [bind].
    replace ((((r ++ m) ++ concat ps) ++ p) ++ post) with ((r ++ m) ++ concat ps ++ p ++ post) by (repeat rewrite <- app_assoc; reflexivity).
    replace (((r ++ m) ++ concat ps) ++ p ++ post) with ((r ++ m) ++ concat ps ++ p ++ post) in * by (repeat rewrite <- app_assoc; reflexivity).
    apply IH; auto. lia.
Qed.
Lemma reverse_bad r u cs : Text u cs -> MalformedEnd r -> Fits (r ++ u) -> bad_end r (reverse (r ++ u)).
Proof.
  intros HT HR HF. destruct (unmarked_exist u cs HT) as (m & us & ps & -> & HM & Hm & HC). unfold reverse.
  pose proof (unmarked_length ps HC). pose proof (reverse_loop_bad r m us ps HM Hm HR (S (length (r ++ m ++ concat ps))) [] [] HC) as H1.
  rewrite app_nil_r, <- app_assoc in H1. apply H1; [exact HF|]. rewrite !app_length. lia.
Qed.

(** Every string that is not valid falls under the theorems above. *)
Lemma chars_of_invalid s : (forall cs, ~ Text s cs) ->
  (exists ps r, s = concat ps ++ r /\ Chars ps /\ Malformed r) /\
  (exists r m us ps, s = r ++ m ++ concat ps /\ MalformedEnd r /\ Text m us /\ marks us /\ unmarked_chars ps).
Proof.
  intros HI. split.
  - destruct (text_prefix s) as (u & cs & r & -> & HT & [->|HM]); [rewrite app_nil_r in HI; now apply HI in HT|].
    destruct (Chars_exist u cs HT) as (ps & HC & <-). now exists ps, r.
  - destruct (text_suffix (length s) s (le_n _)) as (r & u & cs & -> & HT & [->|HM]); [now apply HI in HT|].
    destruct (unmarked_exist u cs HT) as (m & us & ps & -> & H1 & H2 & H3). now exists r, m, us, ps.
Qed.
Lemma p_c22_malformed ps r k : Chars ps -> Fits (concat ps ++ r) -> Malformed r -> (0 <= k)%Z ->
  ((k = 0 \/ k < Z.of_nat (length ps))%Z -> get_char_pos (concat ps ++ r) k = Ok (offset_of ps (Z.to_nat k))) /\
  ((k <> 0 /\ Z.of_nat (length ps) <= k)%Z -> get_char_pos (concat ps ++ r) k = Throw YstringException).
Proof.
  intros HC HF HM Hk. rewrite get_char_pos_fwd_bad by assumption. split; intros H.
  - replace (_ || _) with true by lia. reflexivity.
  - replace (_ || _) with false by lia. reflexivity.
Qed.
