(** Exactly when the functions that decode backwards are undefined, and what
    trimming does to texts that are not valid UTF-8 (C41, C82). *)
From Verif Require Import Base Spec.Utf8Spec Spec.Strings Spec.Slices Model.Decode Model.Encode Model.Subrange Model.Search
  Model.CharClass Model.Chars Proofs.Utf8Lemmas Proofs.DecodeLemmas Proofs.EncodeLemmas Proofs.CodepointLemmas Proofs.SearchLemmas Proofs.Utf8Props
  Proofs.SliceLemmas Proofs.CharLemmas Proofs.PieceLemmas Proofs.CharMalformed Proofs.PositionProps.

Lemma long_malformed r : long_cont_tail r -> MalformedEnd r.
Proof.
  intros H. split.
  - destruct H as (y & t & -> & Hy & _). destruct y; [contradiction|discriminate].
  - intros g c t Hg ->. pose proof (decode_prev_long [] _ H) as E. rewrite app_nil_r in E.
    pose proof (decode_prev_uchar t g c [] Hg) as E2. rewrite app_nil_r in E2. rewrite app_length in E. congruence.
Qed.
Lemma bad_ub {A} r (x : outcome A) : bad_end r x -> x = UB -> long_cont_tail r.
Proof. intros [H1 H2] E. destruct (long_cont_tail_dec r) as [L|L]; [exact L|]. rewrite (H1 L) in E. discriminate. Qed.

Lemma last_where_ub s f o : find_last_where s f o = UB <->
  exists r u us post, s = r ++ u ++ post /\ N.min o (size s) = size (r ++ u) /\ Text u us /\
    Forall (fun c => f c = false) us /\ long_cont_tail r.
Proof.
  split.
  - intros E. set (n := N.to_nat (N.min o (size s))).
    assert (Hn : (n <= length s)%nat) by (unfold n, size; lia).
    assert (Hs : s = firstn n s ++ skipn n s) by now rewrite firstn_skipn.
    assert (Hz : N.min o (size s) = size (firstn n s)) by (unfold size at 2; rewrite firstn_length; unfold n; unfold size in *; lia).
    destruct (last_where_cases f (firstn n s)) as [(pre & g & c & u & us & E1 & H1 & H2 & H3 & H4)|[(us & H1 & H2)|(r & u & us & E1 & H1 & H2 & H3)]].
    + exfalso. rewrite E1 in Hs, Hz. rewrite <- !app_assoc in Hs. rewrite Hs in E, Hz.
      rewrite (find_last_where_found f pre u us g c (skipn n s) o) in E; auto; discriminate.
    + exfalso. rewrite Hs in E. rewrite (find_last_where_none f (firstn n s) us) in E; auto; [discriminate|]. now rewrite <- Hs.
    + exists r, u, us, (skipn n s). rewrite E1, <- app_assoc in Hs. rewrite E1 in Hz. repeat split; auto.
      destruct (find_last_where_stuck f r u us (skipn n s) o) as [K1 K2]; auto; [now rewrite <- Hs|]. rewrite <- Hs in *.
      destruct (long_cont_tail_dec r) as [L|L]; [exact L|]. rewrite (K1 L) in E. discriminate.
  - intros (r & u & us & post & -> & Ho & HT & HN & L). now apply (find_last_where_stuck f r u us post o Ho HT HN (long_malformed _ L)).
Qed.

Lemma trim_end_cases (p : N -> bool) s :
  (exists us, Text s us /\ allp p us) \/
  (exists v g c u us, s = v ++ g ++ u /\ Text u us /\ allp p us /\ uchar g c /\ p c = false) \/
  (exists r u us, s = r ++ u /\ Text u us /\ allp p us /\ MalformedEnd r).
Proof.
  assert (K : forall us, nonep (fun c => negb (p c)) us -> allp p us).
  { intros us H. eapply Forall_impl; [|exact H]. cbn. intros c. destruct (p c); auto. }
  destruct (last_where_cases (fun c => negb (p c)) s) as [(pre & g & c & u & us & E1 & H1 & H2 & H3 & H4)|[(us & H1 & H2)|(r & u & us & E1 & H1 & H2 & H3)]].
  - right. left. exists pre, g, c, u, us. repeat split; auto. destruct (p c); auto; discriminate.
  - left. eauto.
  - right. right. exists r, u, us. auto.
Qed.
Lemma trim_start_cases (p : N -> bool) s :
  (exists us, Text s us /\ allp p us) \/
  (exists u us g c v, s = u ++ g ++ v /\ Text u us /\ allp p us /\ uchar g c /\ p c = false) \/
  (exists u us r, s = u ++ r /\ Text u us /\ allp p us /\ Malformed r).
Proof.
  destruct (text_prefix s) as (u & cs & r & -> & HT & Hr).
  induction HT as [|g c u cs Hg HT IH].
  - destruct Hr as [->|Hr]; [left; exists []; split; constructor|].
    right. right. exists [], [], r. repeat split; try constructor; apply Hr.
  - destruct (p c) eqn:Ec; [|right; left; exists [], [], g, c, (u ++ r); rewrite <- app_assoc; repeat split; auto; constructor].
    rewrite <- app_assoc. destruct IH as [(us & H1 & H2)|[(a & us & h & d & v & -> & H1 & H2 & H3 & H4)|(a & us & b & -> & H1 & H2 & H3)]].
    + left. exists (c :: us). split; constructor; auto.
    + right. left. exists (g ++ a), (c :: us), h, d, v. rewrite <- app_assoc. repeat split; auto; constructor; auto.
    + right. right. exists (g ++ a), (c :: us), b. rewrite <- app_assoc. repeat split; auto; try constructor; auto; apply H3.
Qed.

Lemma app_split {A} (a b c d : list A) : a ++ b = c ++ d -> (exists z, c = a ++ z /\ b = z ++ d) \/ (exists z, a = c ++ z /\ d = z ++ b).
Proof.
  revert c. induction a as [|x a IH]; intros c E; cbn [app] in *; [left; exists c; auto|].
  destruct c as [|y c]; cbn [app] in *; [right; exists (x :: a); auto|]. injection E as -> E.
  destruct (IH c E) as [(z & -> & ->)|(z & -> & ->)]; [left|right]; exists z; auto.
Qed.
Lemma trim_end_ub s p : Fits s -> (trim_end_where s p = UB <->
  exists r u us, s = r ++ u /\ Text u us /\ Forall (fun c => p c = true) us /\ long_cont_tail r).
Proof.
  intros HF. split.
  - intros E. destruct (trim_end_cases p s) as [(us & H1 & H2)|[(v & g & c & u & us & -> & H1 & H2 & H3 & H4)|(r & u & us & -> & H1 & H2 & H3)]].
    + rewrite (trim_end_where_all p s us) in E by auto. discriminate.
    + rewrite (trim_end_where_cut p v g c u us) in E by auto. discriminate.
    + exists r, u, us. repeat split; auto. eapply bad_ub; [|exact E]. now apply (trim_end_where_stuck p r u us).
  - intros (r & u & us & -> & HT & HA & L). now apply (trim_end_where_stuck p r u us HF HT HA (long_malformed _ L)).
Qed.

(** Trimming at both ends: [m] starts and ends with a code point that stays. *)
Lemma trim_where_cut p u us g c m h d y w ws : Fits (u ++ m ++ w) -> Text u us -> allp p us -> uchar g c -> p c = false -> Text w ws -> allp p ws ->
  uchar h d -> p d = false -> (exists x, m = g ++ x) -> m = y ++ h -> trim_where (u ++ m ++ w) p = Ok m.
Proof.
  intros HF HU HA Hg Hc HW HB Hh Hd (x & Em) Em2. unfold trim_where.
  replace (u ++ m ++ w) with (u ++ g ++ (x ++ w)) by (rewrite Em, <- !app_assoc; reflexivity).
  rewrite (trim_start_where_cut p u us g c (x ++ w)); auto; [|rewrite Em, <- app_assoc in HF; exact HF]. cbn [bind].
  replace (g ++ x ++ w) with (y ++ h ++ w) by (rewrite !app_assoc, <- Em2, Em; reflexivity).
  rewrite (trim_end_where_cut p y h d w ws); auto; [now rewrite <- Em2|].
  apply Fits_app_r in HF. rewrite Em2, <- app_assoc in HF. exact HF.
Qed.
Lemma trim_where_start_bad p u us r : Text u us -> allp p us -> Malformed r -> trim_where (u ++ r) p = Throw YstringException.
Proof. intros HU HA HR. unfold trim_where. now rewrite (trim_start_where_malformed p u us r). Qed.
Lemma trim_where_end_bad p u us g c r w ws : Fits (u ++ r ++ w) -> Text u us -> allp p us -> uchar g c -> p c = false -> Text w ws -> allp p ws ->
  (exists x, r ++ w = g ++ x) -> MalformedEnd r -> bad_end r (trim_where (u ++ r ++ w) p).
Proof.
  intros HF HU HA Hg Hc HW HB (x & E) HR. unfold trim_where. rewrite E.
  rewrite (trim_start_where_cut p u us g c x); auto; [|now rewrite <- E]. cbn [bind]. rewrite <- E.
  apply (trim_end_where_stuck p r w ws); auto. now apply Fits_app_r in HF.
Qed.
Lemma trim_where_all p u us : Text u us -> allp p us -> trim_where u p = Ok [].
Proof.
  intros HU HA. unfold trim_where. rewrite (trim_start_where_all p u us) by auto. cbn [bind]. apply (trim_end_where_all p [] []); try constructor; auto.
Qed.
(** These are all the cases. *)
Lemma trim_cases (p : N -> bool) s :
  (exists us, Text s us /\ allp p us) \/
  (exists u us m w ws g c h d x y, s = u ++ m ++ w /\ Text u us /\ allp p us /\ Text w ws /\ allp p ws /\
     uchar g c /\ p c = false /\ uchar h d /\ p d = false /\ m = g ++ x /\ m = y ++ h) \/
  (exists u us r, s = u ++ r /\ Text u us /\ allp p us /\ Malformed r) \/
  (exists u us r w ws g c x, s = u ++ r ++ w /\ Text u us /\ allp p us /\ Text w ws /\ allp p ws /\
     uchar g c /\ p c = false /\ r ++ w = g ++ x /\ MalformedEnd r).
Proof.
  destruct (trim_start_cases p s) as [H|[(u & us & g & c & v & -> & HU & HA & Hg & Hc)|H]]; [now left| |now right; right; left].
  destruct (trim_end_cases p (g ++ v)) as [(ws & HT & HB)|[(y & h & d & w & ws & E & HW & HB & Hh & Hd)|(r & w & ws & E & HW & HB & HR)]].
  - exfalso. destruct ws as [|c' ws]; [apply Text_nil_inv in HT; apply uchar_length in Hg; destruct g; [cbn in Hg; lia|discriminate]|].
    pose proof (uchar_length _ _ Hg). inversion HT as [|g' c'' v' ws' Hg' HT' E1 E2]; subst.
    destruct (uchar_prefix_unique g c v g' c' v' Hg Hg' (eq_sym E1)) as (_ & -> & _).
    apply Forall_inv in HB. congruence.
  - right. left.
    assert (exists x, y ++ h = g ++ x) as (x & Ex).
    { assert (E' : g ++ v = (y ++ h) ++ w) by (rewrite E; apply app_assoc). clear E. rename E' into E.
      destruct (app_split g v (y ++ h) w E) as [(z & E1 & E2)|(z & E1 & E2)]; [now exists z|].
      destruct z as [|b z]; [exists []; rewrite app_nil_r in *; auto|]. exfalso.
      destruct (uchar_piece g c Hg) as (b0 & t & -> & Ht & _). pose proof (uchar_length _ _ Hh) as Lh.
      assert (Hb : cont b).
      { rewrite E1 in *. destruct (y ++ h) as [|b1 q] eqn:Q; [apply (f_equal (@length byte)) in Q; rewrite app_length in Q; cbn in Q; lia|].
        cbn [app] in E1. injection E1 as E1 E3. subst t. apply Forall_app in Ht. destruct Ht as [_ Ht]. now apply Forall_inv in Ht. }
      rewrite E2 in HW. inversion HW as [|h' d' w' ws' Hh' HW' E3 E4].
      destruct (uchar_piece h' d' Hh') as (b' & t' & -> & _ & _). apply uchar_lead in Hh'. cbn [app] in E3. injection E3 as E3 _. subst b'. contradiction. }
    exists u, us, (y ++ h), w, ws, g, c, h, d, x, y. rewrite E, <- !app_assoc. repeat split; auto.
  - right. right. right. exists u, us, r, w, ws, g, c, v. rewrite E. repeat split; auto; apply HR.
Qed.

Lemma trim_ub p s : Fits s -> (trim_where s p = UB <->
  exists u us g c x r w ws, s = u ++ r ++ w /\ Text u us /\ Forall (fun c => p c = true) us /\
    uchar g c /\ p c = false /\ r ++ w = g ++ x /\ Text w ws /\ Forall (fun c => p c = true) ws /\ long_cont_tail r).
Proof.
  intros HF. split.
  - intros E. destruct (trim_cases p s) as [(us & H1 & H2)|[(u & us & m & w & ws & g & c & h & d & x & y & -> & H)|[(u & us & r & -> & H1 & H2 & H3)|(u & us & r & w & ws & g & c & x & -> & H1 & H2 & H3 & H4 & H5 & H6 & H7 & H8)]]].
    + rewrite (trim_where_all p s us) in E by auto. discriminate.
    + destruct H as (H1 & H2 & H3 & H4 & H5 & H6 & H7 & H8 & H9 & H10).
      rewrite (trim_where_cut p u us g c m h d y w ws) in E by eauto. discriminate.
    + rewrite (trim_where_start_bad p u us r) in E by auto. discriminate.
    + exists u, us, g, c, x, r, w, ws. repeat split; auto. eapply bad_ub; [|exact E]. apply (trim_where_end_bad p u us g c r w ws); eauto.
  - intros (u & us & g & c & x & r & w & ws & -> & H1 & H2 & H3 & H4 & H5 & H6 & H7 & L).
    apply (trim_where_end_bad p u us g c r w ws); eauto. now apply long_malformed.
Qed.

Lemma reverse_ub s : Fits s -> (reverse s = UB <-> exists r u cs, s = r ++ u /\ Text u cs /\ long_cont_tail r).
Proof.
  intros HF. split.
  - intros E. destruct (text_suffix (length s) s (le_n _)) as (r & u & cs & -> & HT & [->|HM]).
    + cbn [app] in *. destruct (Chars_exist u cs HT) as (ps & HC & <-). rewrite reverse_spec in E by assumption. discriminate.
    + exists r, u, cs. repeat split; auto. eapply bad_ub; [|exact E]. now apply reverse_bad with (cs := cs).
  - intros (r & u & cs & -> & HT & L). apply (reverse_bad r u cs HT (long_malformed _ L) HF). exact L.
Qed.

Lemma char_pos_ub s k : Fits s -> (get_char_pos s k = UB <->
  exists r m us ps, s = r ++ m ++ concat ps /\ Text m us /\ marks us /\ unmarked_chars ps /\ (Z.of_nat (length ps) < - k)%Z /\ long_cont_tail r).
Proof.
  intros HF. split.
  - intros E. destruct (Z.ltb_spec k 0) as [Hk|Hk].
    2:{ exfalso. destruct (text_prefix s) as (u & cs & r & -> & HT & Hr). destruct (Chars_exist u cs HT) as (ps & HC & <-).
        destruct Hr as [->|HM].
        - rewrite app_nil_r in *. rewrite p_c22 in E by assumption. discriminate.
        - rewrite get_char_pos_fwd_bad in E by assumption. destruct (_ || _); discriminate. }
    destruct (text_suffix (length s) s (le_n _)) as (r & u & cs & -> & HT & [->|HM]).
    + exfalso. cbn [app] in *. destruct (Chars_exist u cs HT) as (ps & HC & <-). rewrite p_c22 in E by assumption. discriminate.
    + destruct (unmarked_exist u cs HT) as (m & us & ps & -> & H1 & H2 & H3).
      destruct (get_char_pos_bwd_bad r m us ps k H1 H2 HM H3 HF Hk) as [K1 K2].
      destruct (Z.le_gt_cases (- k) (Z.of_nat (length ps))) as [L|L]; [rewrite (K1 L) in E; discriminate|].
      exists r, m, us, ps. repeat split; auto; try apply H3. eapply bad_ub; [|exact E]. now apply K2.
  - intros (r & m & us & ps & -> & H1 & H2 & H3 & H4 & L).
    destruct (get_char_pos_bwd_bad r m us ps k H1 H2 (long_malformed _ L) H3 HF ltac:(lia)) as [_ K2]. now apply (K2 H4).
Qed.

Lemma prev_range_ub s o : Fits s -> o <= size s -> (get_prev_char_range s o = UB <->
  exists r m us v, s = r ++ m ++ v /\ o = size (r ++ m) /\ Text m us /\ marks us /\ long_cont_tail r).
Proof.
  intros HF Ho. split.
  - intros E. set (n := N.to_nat o).
    assert (Hn : (n <= length s)%nat) by (unfold n, size in *; lia).
    assert (Hs : s = firstn n s ++ skipn n s) by now rewrite firstn_skipn.
    assert (Hz : o = size (firstn n s)) by (unfold size; rewrite firstn_length; unfold n in *; unfold size in *; lia).
    clearbody n. destruct (text_suffix _ (firstn n s) (le_n _)) as (r & u & cs & E1 & HT & Hr). rewrite E1 in Hs, Hz. clear E1.
    destruct (unmarked_exist u cs HT) as (m & us & ps & -> & H1 & H2 & H3).
    destruct ps as [|p ps _] using rev_ind.
    + cbn [concat] in *. rewrite app_nil_r in *. destruct Hr as [->|HM].
      * exfalso. cbn [app] in *. destruct us as [|c us].
        { apply Text_nil_inv in H1. subst m. change (size ([] : str)) with 0 in Hz. rewrite Hz in E. rewrite prev_range_begin in E. discriminate. }
        rewrite Hs, Hz in E. inversion H1 as [|g c' m' us' Hg HT' E2 E3]. subst m c' us'. apply Forall_cons_iff in H2. destruct H2 as [Hc H2].
        pose proof (prev_range_spec [] (g ++ m') (skipn n s)) as K. cbn [app] in K. rewrite <- app_assoc in K.
        replace (0 + size (g ++ m')) with (size (g ++ m')) in K by lia.
        cbn in Hs. rewrite <- app_assoc in Hs, E. rewrite K in E; [discriminate|exists g, c, m', us; auto|now left|now rewrite <- Hs].
      * exists r, m, us, (skipn n s). rewrite <- app_assoc in Hs. repeat split; auto.
        pose proof (prev_range_bad r m us (skipn n s) H1 H2 HM) as K. rewrite <- Hs, <- Hz in K. exact (bad_ub _ _ K E).
    + exfalso. destruct (unmarked_snoc ps p H3) as (_ & Hp & Hu).
      rewrite concat_app in *. cbn [concat] in *. rewrite app_nil_r in *.
      assert (Hs' : s = (r ++ m ++ concat ps) ++ p ++ skipn n s) by (etransitivity; [exact Hs|]; now rewrite <- !app_assoc).
      assert (Hz' : o = size ((r ++ m ++ concat ps) ++ p)) by (etransitivity; [exact Hz|]; now rewrite <- !app_assoc).
      rewrite Hs', Hz' in E. rewrite (prev_range_spec (r ++ m ++ concat ps) p (skipn n s)) in E; [discriminate|exact Hp|now right|now rewrite <- Hs'].
  - intros (r & m & us & v & -> & -> & H1 & H2 & L). apply (prev_range_bad r m us v H1 H2 (long_malformed _ L)). exact L.
Qed.

(** *** C41 on any bytes *)
Lemma p_trim_start_any (pred : N -> bool) u us r : Fits (u ++ r) -> Text u us -> Forall (fun c => pred c = true) us ->
  (r = [] -> trim_start_where (u ++ r) pred = Ok []) /\
  (forall g c v, r = g ++ v -> uchar g c -> pred c = false -> trim_start_where (u ++ r) pred = Ok r) /\
  (Malformed r -> trim_start_where (u ++ r) pred = Throw YstringException).
Proof.
  intros HF HT HA. repeat split.
  - intros ->. rewrite app_nil_r. now apply trim_start_where_all with us.
  - intros g c v -> Hg Hc. now apply trim_start_where_cut with us c.
  - intros HM. now apply trim_start_where_malformed with us.
Qed.
Lemma p_trim_end_any (pred : N -> bool) r u us : Fits (r ++ u) -> Text u us -> Forall (fun c => pred c = true) us ->
  (r = [] -> trim_end_where (r ++ u) pred = Ok []) /\
  (forall g c v, r = v ++ g -> uchar g c -> pred c = false -> trim_end_where (r ++ u) pred = Ok r) /\
  (MalformedEnd r -> ~ long_cont_tail r -> trim_end_where (r ++ u) pred = Throw YstringException).
Proof.
  intros HF HT HA. repeat split.
  - intros ->. now apply trim_end_where_all with us.
  - intros g c v -> Hg Hc. rewrite <- app_assoc in *. now apply trim_end_where_cut with c us.
  - intros HM. now apply trim_end_where_stuck with us.
Qed.
Lemma p_trim_any (pred : N -> bool) u us r : Fits (u ++ r) -> Text u us -> Forall (fun c => pred c = true) us ->
  (r = [] -> trim_where (u ++ r) pred = Ok []) /\
  (Malformed r -> trim_where (u ++ r) pred = Throw YstringException) /\
  (forall g c x m w ws, r = g ++ x -> uchar g c -> pred c = false -> r = m ++ w -> Text w ws -> Forall (fun c => pred c = true) ws ->
     (forall h d y, m = y ++ h -> uchar h d -> pred d = false -> trim_where (u ++ r) pred = Ok m) /\
     (MalformedEnd m -> ~ long_cont_tail m -> trim_where (u ++ r) pred = Throw YstringException)).
Proof.
  intros HF HT HA. split; [|split].
  - intros ->. rewrite app_nil_r. now apply trim_where_all with us.
  - intros HM. now apply trim_where_start_bad with us.
  - intros g c x m w ws E Hg Hc E2 HW HB.
    assert (K : trim_where (u ++ r) pred = trim_end_where (m ++ w) pred).
    { unfold trim_where. rewrite E. rewrite (trim_start_where_cut pred u us g c x); auto; [|now rewrite <- E]. cbn [bind]. now rewrite <- E, E2. }
    rewrite K. apply Fits_app_r in HF. rewrite E2 in HF.
    destruct (p_trim_end_any pred m w ws HF HW HB) as (_ & K2 & K3). split; [|exact K3].
    intros h d y -> Hh Hd. now apply (K2 h d y).
Qed.
Lemma p_trim_any_cases (pred : N -> bool) s :
  (exists u us r, s = u ++ r /\ Text u us /\ Forall (fun c => pred c = true) us /\
     (r = [] \/ Malformed r \/ exists g c v, r = g ++ v /\ uchar g c /\ pred c = false)) /\
  (exists r u us, s = r ++ u /\ Text u us /\ Forall (fun c => pred c = true) us /\
     (r = [] \/ MalformedEnd r \/ exists g c v, r = v ++ g /\ uchar g c /\ pred c = false)).
Proof.
  split.
  - destruct (trim_start_cases pred s) as [(us & HT & HA)|[(u & us & g & c & v & -> & HT & HA & Hg & Hc)|(u & us & r & -> & HT & HA & HM)]].
    + exists s, us, []. rewrite app_nil_r. auto.
    + exists u, us, (g ++ v). repeat split; auto. right. right. exists g, c, v. auto.
    + exists u, us, r. split; [reflexivity|]. split; [exact HT|]. split; [exact HA|]. right. left. exact HM.
  - destruct (trim_end_cases pred s) as [(us & HT & HA)|[(v & g & c & u & us & -> & HT & HA & Hg & Hc)|(r & u & us & -> & HT & HA & HM)]].
    + exists [], s, us. auto.
    + exists (v ++ g), u, us. rewrite <- app_assoc. repeat split; auto. right. right. exists g, c, v. auto.
    + exists r, u, us. split; [reflexivity|]. split; [exact HT|]. split; [exact HA|]. right. left. exact HM.
Qed.
