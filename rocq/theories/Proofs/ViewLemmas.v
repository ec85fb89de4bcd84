(** Views as places: Model/Views.v agrees with the model on byte strings, and where the results are. *)
From Verif Require Import Base Model.Decode Model.Subrange Model.Search Model.Chars Model.Split Model.CaseInsensitive Model.Views.
From Verif Require Import Spec.Utf8Spec Spec.Strings Spec.Split Spec.Slices Spec.Views.
From Verif Require Import Proofs.SliceLemmas Proofs.CharLemmas Proofs.Utf8Props Proofs.Utf8Lemmas Proofs.DecodeLemmas Proofs.EncodeLemmas Proofs.CodepointLemmas Proofs.SearchLemmas Proofs.SplitLemmas.

Lemma vsize_bytes m v : within m v -> vsize v = size (bytes m v).
Proof.
  destruct v as [[o n]|]; [|reflexivity]. cbn. intros H. unfold size. rewrite firstn_length, skipn_length. lia.
Qed.
Lemma part_of_refl v : part_of v v.
Proof. destruct v as [[o n]|]; cbn; lia. Qed.
Lemma part_of_trans a b c : part_of a b -> part_of b c -> part_of a c.
Proof. destruct a as [[o n]|], b as [[o' n']|], c as [[o'' n'']|]; cbn; intuition lia. Qed.
Lemma part_of_within m v w : within m v -> part_of v w -> within m w.
Proof. destruct v as [[o n]|], w as [[o' n']|]; cbn; intuition lia. Qed.

Lemma skipn_firstn_sub {A} (l : list A) a b c : skipn a (firstn b (skipn c l)) = firstn (b - a) (skipn (c + a) l).
Proof. rewrite skipn_firstn_comm, skipn_skipn. do 2 f_equal. lia. Qed.

Lemma vsubstr_sim m v p n : within m v ->
  substr (bytes m v) p n = omap (bytes m) (vsubstr v p n) /\
  forall w, vsubstr v p n = Ok w -> part_of v w /\ (v <> None -> w <> None).
Proof.
  intros H. unfold substr, vsubstr. rewrite <- (vsize_bytes m v H). destruct (N.ltb_spec (vsize v) p) as [L|L].
  - split; [reflexivity|discriminate].
  - destruct v as [[o l]|]; cbn [vsize] in *.
    + split.
      * unfold omap. cbn [bind bytes]. f_equal. rewrite skipn_firstn_sub, firstn_firstn. f_equal. lia.
      * intros w E. injection E as <-. cbn [part_of]. split; [lia|discriminate].
    + split; [|intros w E; injection E as <-; split; [exact I|auto]].
      unfold omap. cbn [bind bytes]. f_equal. rewrite skipn_nil. now rewrite firstn_nil.
Qed.

Definition sim (m : str) (v : view) (o : outcome view) (r : outcome str) : Prop :=
  r = omap (bytes m) o /\ forall w, o = Ok w -> part_of v w.

Lemma trim_start_where_sim m v p : within m v -> sim m v (v_trim_start_where m v p) (trim_start_where (bytes m v) p).
Proof.
  intros H. unfold v_trim_start_where, trim_start_where, vsubstr_from, substr_from.
  destruct (find_first_where (bytes m v) (fun c => negb (p c)) 0) as [[sub c]| | |]; cbn [bind fst]; try (split; [reflexivity|discriminate]).
  destruct (negb (sub_bool sub)).
  - split; [reflexivity|]. intros w E. injection E as <-. exact I.
  - destruct (vsubstr_sim m v (sub_start sub) npos H) as [E1 E2]. split; [exact E1|]. intros w E. now apply E2.
Qed.
Lemma trim_end_where_sim m v p : within m v -> sim m v (v_trim_end_where m v p) (trim_end_where (bytes m v) p).
Proof.
  intros H. unfold v_trim_end_where, trim_end_where.
  destruct (find_last_where (bytes m v) (fun c => negb (p c)) npos) as [[sub c]| | |]; cbn [bind fst]; try (split; [reflexivity|discriminate]).
  destruct (negb (sub_bool sub)).
  - split; [reflexivity|]. intros w E. injection E as <-. exact I.
  - destruct (vsubstr_sim m v 0 (sub_end sub) H) as [E1 E2]. split; [exact E1|]. intros w E. now apply E2.
Qed.
Lemma trim_where_sim m v p : within m v -> sim m v (v_trim_where m v p) (trim_where (bytes m v) p).
Proof.
  intros H. unfold v_trim_where, trim_where. destruct (trim_start_where_sim m v p H) as [E1 E2]. rewrite E1.
  destruct (v_trim_start_where m v p) as [t| | |]; cbn [omap bind]; try (split; [reflexivity|discriminate]).
  specialize (E2 t eq_refl). destruct (trim_end_where_sim m t p (part_of_within _ _ _ H E2)) as [E3 E4].
  split; [exact E3|]. intros w E. apply part_of_trans with t; auto.
Qed.

(** Where the trimmed texts are. *)
Lemma find_first_where_ok_inv pred s sub c : find_first_where s pred 0 = Ok (sub, c) ->
  (exists u us g c v, s = u ++ g ++ v /\ Text u us /\ Forall (fun x => pred x = false) us /\ uchar g c /\ pred c = true /\ sub = Sub (size u) (size g))
  \/ (exists us, Text s us /\ Forall (fun x => pred x = false) us /\ sub = Sub npos 0).
Proof.
  intros E. destruct (first_where_cases pred s) as [(u & us & g & c' & v & -> & HT & HN & Hg & Hp)|[(us & HT & HN)|(u & us & r & -> & HT & HN & Hr)]].
  - left. exists u, us, g, c', v. assert (E' := find_first_where_found pred [] u us g c' v HT HN Hg Hp).
    cbn [app] in E'. change (size []) with 0 in E'. rewrite E in E'. cbn [plus] in E'. repeat split; auto. congruence.
  - right. exists us. assert (E' := find_first_where_none pred [] s us HT HN). cbn [app] in E'. change (size []) with 0 in E'.
    rewrite E in E'. repeat split; auto. congruence.
  - assert (E' := find_first_where_malformed pred [] u us r HT HN Hr). cbn [app] in E'. change (size []) with 0 in E'. congruence.
Qed.

Lemma find_last_where_ok_inv pred s sub c : Fits s -> find_last_where s pred npos = Ok (sub, c) ->
  (exists u us g c v, s = v ++ g ++ u /\ Text u us /\ Forall (fun x => pred x = false) us /\ uchar g c /\ pred c = true /\ sub = Sub (size v) (size g))
  \/ (exists us, Text s us /\ Forall (fun x => pred x = false) us /\ sub = Sub npos 0).
Proof.
  intros HF E. destruct (last_where_cases pred s) as [(v & g & c' & u & us & -> & HT & HN & Hg & Hp)|[(us & HT & HN)|(r & u & us & -> & HT & HN & Hr)]].
  - left. exists u, us, g, c', v. assert (E' := find_last_where_found pred v u us g c' [] npos).
    rewrite !app_nil_r in E'. rewrite E in E'. specialize (E' (min_npos _ HF) HT HN Hg Hp). repeat split; auto. congruence.
  - right. exists us. assert (E' := find_last_where_none pred s us [] npos). rewrite app_nil_r in E'.
    rewrite E in E'. specialize (E' (min_npos _ HF) HT HN). repeat split; auto. congruence.
  - assert (E' := find_last_where_stuck pred r u us [] npos). rewrite !app_nil_r in E'.
    destruct (E' (min_npos _ HF) HT HN Hr) as [E1 E2].
    exfalso. destruct (long_cont_tail_dec r) as [H|H]; [specialize (E2 H)|specialize (E1 H)]; congruence.
Qed.

Lemma bytes_len m o n : within m (Some (o, n)) -> length (bytes m (Some (o, n))) = n.
Proof. cbn [within bytes]. intros H. rewrite firstn_length, skipn_length. lia. Qed.

Lemma trim_start_place m o n p w : within m (Some (o, n)) -> Fits (bytes m (Some (o, n))) ->
  v_trim_start_where m (Some (o, n)) p = Ok w ->
  (bytes m w = [] /\ w = None) \/ (bytes m w <> [] /\ w = Some ((o + n - length (bytes m w))%nat, length (bytes m w))).
Proof.
  intros H HF E. unfold v_trim_start_where, vsubstr_from in E.
  destruct (find_first_where (bytes m (Some (o, n))) (fun c => negb (p c)) 0) as [[sub c]| | |] eqn:EF; cbn [bind fst] in E; try discriminate.
  destruct (find_first_where_ok_inv _ _ _ _ EF) as [(u & us & g & c' & v & Es & HT & HN & Hg & Hp & ->)|(us & HT & HN & ->)].
  - assert (Hg0 := uchar_length _ _ Hg).
    rewrite sub_bool_ne in E by (intros ->; cbn in Hg0; lia). cbn [negb] in E.
    assert (HL := bytes_len m o n H). rewrite Es, !app_length in HL.
    unfold vsubstr in E. cbn [vsize] in E. unfold sub_start in E. cbn [sub_offset] in E.
    destruct (N.ltb_spec (N.of_nat n) (size u)) as [L|L]; [discriminate|].
    unfold Fits in HF. rewrite Es in HF. unfold size in HF, L, E. rewrite !app_length in HF.
    replace (N.to_nat (N.min npos (N.of_nat n - N.of_nat (length u)))) with (length g + length v)%nat in E by (unfold npos, SIZE_MAX; lia).
    rewrite Nnat.Nat2N.id in E. injection E as <-. right.
    assert (HW : within m (Some ((o + length u)%nat, (length g + length v)%nat))) by (cbn [within] in *; lia).
    rewrite (bytes_len _ _ _ HW). split.
    + intros Hb. apply (f_equal (@length byte)) in Hb. rewrite (bytes_len _ _ _ HW) in Hb. cbn in Hb. lia.
    + f_equal. f_equal. lia.
  - cbn in E. injection E as <-. left. split; reflexivity.
Qed.

Lemma trim_end_place m o n p w : within m (Some (o, n)) -> Fits (bytes m (Some (o, n))) ->
  v_trim_end_where m (Some (o, n)) p = Ok w ->
  (bytes m w = [] /\ w = None) \/ (bytes m w <> [] /\ w = Some (o, length (bytes m w))).
Proof.
  intros H HF E. unfold v_trim_end_where in E.
  destruct (find_last_where (bytes m (Some (o, n))) (fun c => negb (p c)) npos) as [[sub c]| | |] eqn:EF; cbn [bind fst] in E; try discriminate.
  destruct (find_last_where_ok_inv _ _ _ _ HF EF) as [(u & us & g & c' & v & Es & HT & HN & Hg & Hp & ->)|(us & HT & HN & ->)].
  - assert (Hg0 := uchar_length _ _ Hg).
    rewrite sub_bool_ne in E by (intros ->; cbn in Hg0; lia). cbn [negb] in E.
    assert (HL := bytes_len m o n H). rewrite Es, !app_length in HL.
    rewrite Es in HF. rewrite (sub_end_fits v g u HF) in E.
    unfold vsubstr in E. cbn [vsize] in E. rewrite (proj2 (N.ltb_ge _ _)) in E by lia.
    unfold size in E. rewrite app_length in E.
    replace (N.to_nat (N.min (N.of_nat (length v + length g)) (N.of_nat n - 0))) with (length v + length g)%nat in E by lia.
    replace (o + N.to_nat 0)%nat with o in E by lia. injection E as <-. right.
    assert (HW : within m (Some (o, (length v + length g)%nat))) by (cbn [within] in *; lia).
    rewrite (bytes_len _ _ _ HW). split; [|reflexivity].
    intros Hb. apply (f_equal (@length byte)) in Hb. rewrite (bytes_len _ _ _ HW) in Hb. cbn in Hb. lia.
  - cbn in E. injection E as <-. left. split; reflexivity.
Qed.

Lemma Fits_part m v w : within m v -> Fits (bytes m v) -> part_of v w -> Fits (bytes m w).
Proof.
  intros H HF HP. assert (HW := part_of_within _ _ _ H HP). unfold Fits in *. rewrite <- vsize_bytes in * by assumption.
  destruct v as [[o n]|], w as [[o' n']|]; cbn [vsize part_of] in *; lia.
Qed.

Lemma trim_place m o n p w : within m (Some (o, n)) -> Fits (bytes m (Some (o, n))) ->
  v_trim_where m (Some (o, n)) p = Ok w ->
  (bytes m w = [] /\ w = None) \/
  (exists t, v_trim_start_where m (Some (o, n)) p = Ok t /\ bytes m w <> [] /\
     w = Some ((o + n - length (bytes m t))%nat, length (bytes m w))).
Proof.
  intros H HF E. unfold v_trim_where in E. destruct (v_trim_start_where m (Some (o, n)) p) as [t| | |] eqn:Et; cbn [bind] in E; try discriminate.
  destruct (trim_start_where_sim m _ p H) as [_ HP]. specialize (HP t Et).
  assert (HFt := Fits_part _ _ _ H HF HP). assert (HWt := part_of_within _ _ _ H HP).
  destruct (trim_start_place m o n p t H HF Et) as [[_ ->]|[Hne Ht]].
  - left. cbn in E. injection E as <-. split; reflexivity.
  - set (l := length (bytes m t)) in *. clearbody l. subst t.
    destruct (trim_end_place _ _ _ _ _ HWt HFt E) as [[Hb ->]|[Hb Hw]]; [left; auto|].
    right. exists (Some ((o + n - l)%nat, l)). split; [reflexivity|]. split; [exact Hb|].
    rewrite (bytes_len _ _ _ HWt). exact Hw.
Qed.

(** Substrings. *)
Lemma cp_substring_sim m v i j : within m v ->
  sim m v (v_get_codepoint_substring m v i j) (get_codepoint_substring (bytes m v) i j) /\
  (v <> None -> v_get_codepoint_substring m v i j <> Ok None).
Proof.
  intros H. unfold v_get_codepoint_substring, get_codepoint_substring.
  destruct (get_codepoint_substring_range (bytes m v) i j) as [r| | |]; cbn [bind]; try (split; [split; [reflexivity|discriminate]|discriminate]).
  destruct (vsubstr_sim m v (sub_offset r) (sub_length r) H) as [E1 E2]. split; [split; [exact E1|]|].
  - intros w E. now apply E2.
  - intros Hv E. now apply (proj2 (E2 _ E) Hv).
Qed.
Lemma char_substring_sim m v i j : within m v ->
  sim m v (v_get_char_substring m v i j) (get_char_substring (bytes m v) i j) /\
  (v <> None -> v_get_char_substring m v i j <> Ok None).
Proof.
  intros H. unfold v_get_char_substring, get_char_substring.
  destruct (get_char_substring_range (bytes m v) i j) as [r| | |]; cbn [bind]; try (split; [split; [reflexivity|discriminate]|discriminate]).
  destruct (vsubstr_sim m v (sub_offset r) (sub_length r) H) as [E1 E2]. split; [split; [exact E1|]|].
  - intros w E. now apply E2.
  - intros Hv E. now apply (proj2 (E2 _ E) Hv).
Qed.
Lemma vsubstr_place m o n off len w : within m (Some (o, n)) -> vsubstr (Some (o, n)) off len = Ok w ->
  w = Some ((o + N.to_nat off)%nat, length (bytes m w)).
Proof.
  intros H E. destruct (vsubstr_sim m _ off len H) as [_ HP]. destruct (HP _ E) as [HP' _].
  assert (HW := part_of_within _ _ _ H HP'). unfold vsubstr in E. destruct (_ <? _); [discriminate|]. injection E as <-.
  rewrite (bytes_len _ _ _ HW). reflexivity.
Qed.

(** The iterator. *)
Definition erase (m : str) (t : v_token_iterator) : token_iterator := TI (bytes m (vti_str t)) (vti_token t).
Definition held (m : str) (v : view) (t : v_token_iterator) : Prop := part_of v (vti_str t).

Lemma vti_next_sim m v f t : within m v -> held m v t ->
  ti_next f (erase m t) = omap (fun p => (fst p, erase m (snd p))) (vti_next m f t) /\
  forall b t', vti_next m f t = Ok (b, t') -> held m v t'.
Proof.
  intros H HH. assert (HW := part_of_within _ _ _ H HH). unfold ti_next, vti_next, erase. cbn [ti_str ti_token].
  destruct (sub_bool (vti_token t)).
  - unfold vsubstr_from, substr_from. destruct (vsubstr_sim m (vti_str t) (sub_end (vti_token t)) npos HW) as [E1 E2]. rewrite E1.
    destruct (vsubstr (vti_str t) (sub_end (vti_token t)) npos) as [w| | |]; cbn [omap bind]; try (split; [reflexivity|discriminate]).
    destruct (f (bytes m w)) as [tok| | |]; cbn [bind]; try (split; [reflexivity|discriminate]).
    split; [reflexivity|]. intros b t' E. injection E as <- <-. unfold held. cbn [vti_str].
    apply part_of_trans with (vti_str t); [exact HH|]. now apply E2.
  - destruct (negb (sub_start (vti_token t) =? 0)).
    + split; [reflexivity|]. intros b t' E. injection E as <- <-. exact HH.
    + destruct (f (bytes m (vti_str t))) as [tok| | |]; cbn [bind]; try (split; [reflexivity|discriminate]).
      split; [reflexivity|]. intros b t' E. injection E as <- <-. exact HH.
Qed.
Lemma vti_part_sim m v t : within m v -> held m v t -> sim m v (vti_part t) (ti_part (erase m t)).
Proof.
  intros H HH. assert (HW := part_of_within _ _ _ H HH). unfold ti_part, vti_part, erase. cbn [ti_str ti_token].
  destruct (sub_bool (vti_token t)).
  - destruct (vsubstr_sim m (vti_str t) 0 (sub_start (vti_token t)) HW) as [E1 E2]. split; [exact E1|].
    intros w E. apply part_of_trans with (vti_str t); [exact HH|]. now apply E2.
  - destruct (negb _); (split; [reflexivity|]); intros w E; injection E as <-; [exact HH|exact I].
Qed.
Lemma vti_token_sim m v t : within m v -> held m v t -> sim m v (vti_get_token t) (ti_get_token (erase m t)).
Proof.
  intros H HH. assert (HW := part_of_within _ _ _ H HH). unfold ti_get_token, vti_get_token, erase. cbn [ti_str ti_token].
  destruct (negb (sub_bool (vti_token t))).
  - split; [reflexivity|]; intros w E; injection E as <-; exact I.
  - destruct (vsubstr_sim m (vti_str t) (sub_start (vti_token t)) (sub_end (vti_token t)) HW) as [E1 E2]. split; [exact E1|].
    intros w E. apply part_of_trans with (vti_str t); [exact HH|]. now apply E2.
Qed.
Lemma vti_remainder_sim m v t : within m v -> held m v t -> sim m v (vti_remainder t) (ti_remainder (erase m t)).
Proof.
  intros H HH. assert (HW := part_of_within _ _ _ H HH). unfold ti_remainder, vti_remainder, erase. cbn [ti_str ti_token].
  destruct (_ || _).
  - destruct (vsubstr_sim m (vti_str t) (sub_end (vti_token t)) npos HW) as [E1 E2]. split; [exact E1|].
    intros w E. apply part_of_trans with (vti_str t); [exact HH|]. now apply E2.
  - split; [reflexivity|]; intros w E; injection E as <-; exact I.
Qed.

(** split *)
Lemma vsize_nil m v : within m v -> (vsize v =? 0) = is_nil (bytes m v).
Proof. intros H. rewrite (vsize_bytes _ _ H). destruct (bytes m v); reflexivity. Qed.

Definition parts_in (v : view) (l : list view) : Prop := Forall (part_of v) l.

Lemma v_split_loop_sim m v f n ign : within m v -> forall fuel t res, held m v t -> parts_in v res ->
  split_loop fuel f n ign (erase m t) (map (bytes m) res) =
    omap (fun p => (map (bytes m) (fst p), erase m (snd p))) (v_split_loop m fuel f n ign t res) /\
  forall res' t', v_split_loop m fuel f n ign t res = Ok (res', t') -> held m v t' /\ parts_in v res'.
Proof.
  intros H. induction fuel as [|fuel IH]; intros t res HH HR; [split; [reflexivity|discriminate]|].
  cbn [split_loop v_split_loop]. rewrite map_length. destruct (_ <? n).
  - destruct (vti_next_sim m v f t H HH) as [E1 E2]. rewrite E1.
    destruct (vti_next m f t) as [[b t']| | |]; cbn [omap bind fst snd]; try (split; [reflexivity|discriminate]).
    specialize (E2 b t' eq_refl). destruct b.
    + destruct (vti_part_sim m v t' H E2) as [E3 E4]. rewrite E3.
      destruct (vti_part t') as [w| | |]; cbn [omap bind]; try (split; [reflexivity|discriminate]).
      specialize (E4 w eq_refl). rewrite (vsize_nil m w (part_of_within _ _ _ H E4)).
      destruct (negb ign || negb (is_nil (bytes m w))).
      * replace (map (bytes m) res ++ [bytes m w]) with (map (bytes m) (res ++ [w])) by (now rewrite map_app).
        apply IH; [exact E2|]. apply Forall_app. split; [exact HR|]. now constructor.
      * now apply IH.
    + split; [reflexivity|]. intros res' t'' E. injection E as <- <-. auto.
  - split; [reflexivity|]. intros res' t'' E. injection E as <- <-. auto.
Qed.
Lemma v_split_sim m v f n ign : within m v ->
  split_where (bytes m v) f n ign = omap (map (bytes m)) (v_split_where m v f n ign) /\
  forall ws, v_split_where m v f n ign = Ok ws -> parts_in v ws.
Proof.
  intros H. unfold split_where, v_split_where.
  destruct (v_split_loop_sim m v f n ign H (S (S (length (bytes m v)))) (vti_init v) [] (part_of_refl v) (Forall_nil _)) as [E1 E2].
  change (erase m (vti_init v)) with (ti_init (bytes m v)) in E1. cbn [map] in E1. rewrite E1.
  destruct (v_split_loop m (S (S (length (bytes m v)))) f n ign (vti_init v) []) as [[res t]| | |]; cbn [omap bind fst snd]; try (split; [reflexivity|discriminate]).
  destruct (E2 res t eq_refl) as [HH HR]. change (ti_bool (erase m t)) with (vti_bool t). destruct (vti_bool t).
  - destruct (vti_remainder_sim m v t H HH) as [E3 E4]. rewrite E3.
    destruct (vti_remainder t) as [w| | |]; cbn [omap bind]; try (split; [reflexivity|discriminate]).
    specialize (E4 w eq_refl). rewrite (vsize_nil m w (part_of_within _ _ _ H E4)).
    destruct (negb ign || negb (is_nil (bytes m w))).
    + split; [now rewrite map_app|]. intros ws E. injection E as <-. apply Forall_app. split; [exact HR|]. now constructor.
    + split; [reflexivity|]. intros ws E. injection E as <-. exact HR.
  - split; [reflexivity|]. intros ws E. injection E as <-. exact HR.
Qed.

(** The places of the parts. *)
Definition lies (m : str) (o : nat) (s : str) : Prop := (o + length s <= length m)%nat /\ bytes m (Some (o, length s)) = s.

Lemma app_same_length {A} (a b c d : list A) : a ++ b = c ++ d -> length a = length c -> a = c /\ b = d.
Proof.
  revert c. induction a as [|x a IH]; intros [|y c] E L; cbn [length] in L; try lia; [auto|].
  cbn [app] in E. injection E as -> E. destruct (IH c E) as [-> ->]; [lia|auto].
Qed.
Lemma lies_app m o u v : lies m o (u ++ v) -> lies m o u /\ lies m (o + length u) v.
Proof.
  intros [H1 H2]. rewrite app_length in *. cbn [bytes] in *.
  assert (E : firstn (length u) (skipn o m) = u /\ firstn (length v) (skipn (o + length u) m) = v).
  { replace (o + length u)%nat with (length u + o)%nat by lia. rewrite <- skipn_skipn.
    set (x := skipn o m) in *. assert (L : (length u + length v <= length x)%nat) by (unfold x; rewrite skipn_length; lia).
    rewrite <- (firstn_skipn (length u) x), firstn_app, firstn_length in H2.
    rewrite firstn_firstn in H2. replace (Nat.min (length u + length v) (length u)) with (length u) in H2 by lia.
    replace (length u + length v - Nat.min (length u) (length x))%nat with (length v) in H2 by lia.
    apply app_same_length in H2; [exact H2|]. rewrite firstn_length. lia. }
  destruct E as [E1 E2]. split; split; cbn [bytes]; auto; lia.
Qed.

Definition vready (m : str) (t : v_token_iterator) (o : nat) (v : str) : Prop :=
  t = VTI (Some (o, length v)) (Sub 0 0) \/
  exists u g o0, g <> [] /\ Fits (u ++ g ++ v) /\ o = (o0 + length u + length g)%nat /\
    t = VTI (Some (o0, length (u ++ g ++ v))) (Sub (size u) (size g)).

Lemma vsubstr_from_app o (u v : str) : Fits (u ++ v) ->
  vsubstr_from (Some (o, length (u ++ v))) (size u) = Ok (Some ((o + length u)%nat, length v)).
Proof.
  intros HF. unfold vsubstr_from, vsubstr. cbn [vsize]. unfold Fits, size in *. rewrite app_length in *.
  rewrite (proj2 (N.ltb_ge _ _)) by lia. rewrite Nnat.Nat2N.id. do 3 f_equal. unfold npos, SIZE_MAX. lia.
Qed.
Lemma vsubstr_prefix o (u v : str) : vsubstr (Some (o, length (u ++ v))) 0 (size u) = Ok (Some (o, length u)).
Proof.
  unfold vsubstr. cbn [vsize]. unfold size. rewrite app_length. rewrite (proj2 (N.ltb_ge _ _)) by lia.
  do 3 f_equal; lia.
Qed.

Section Places.
Variable m : str.
Variable finder : str -> outcome subrange.

Lemma vnext_ready t o v : lies m o v -> vready m t o v ->
  vti_next m finder t =
    (let* tok := finder v in Ok (true, VTI (Some (o, length v)) (if negb (sub_bool tok) then Sub SIZE_MAX (sub_length tok) else tok))).
Proof.
  intros [_ HL] [->|(u & g & o0 & Hg & HF & -> & ->)]; unfold vti_next; cbn [vti_str vti_token].
  - change (sub_bool (Sub 0 0)) with false. cbn [sub_start sub_offset]. change (negb (0 =? 0)) with false. cbv iota. rewrite HL. reflexivity.
  - rewrite sub_bool_ne by exact Hg. rewrite (sub_end_fits u g v HF), app_assoc, vsubstr_from_app by now rewrite <- app_assoc.
    cbn [bind]. rewrite app_length, Nat.add_assoc. rewrite HL. reflexivity.
Qed.

Variable first : str -> str -> str -> Prop.
Hypothesis first_ne : forall u g v, first u g v -> g <> [].
Hypothesis first_ok : forall u g v, Fits (u ++ g ++ v) -> first u g v -> finder (u ++ g ++ v) = Ok (Sub (size u) (size g)).

(** The places of the parts before the rest. *)
Fixpoint cut_places (o : nat) (cuts : list (str * str)) : list view :=
  match cuts with [] => [] | (u, g) :: cuts' => Some (o, length u) :: cut_places (o + length u + length g) cuts' end.
Fixpoint cut_end (o : nat) (cuts : list (str * str)) : nat :=
  match cuts with [] => o | (u, g) :: cuts' => cut_end (o + length u + length g) cuts' end.

Lemma places_cut o cuts rest : places o cuts rest = cut_places o cuts ++ [Some (cut_end o cuts, length rest)].
Proof. revert o. induction cuts as [|[u g] cuts IH]; intros o; [reflexivity|]. cbn [places cut_places cut_end app]. now rewrite IH. Qed.
Lemma kept_places_app ign a b : kept_places ign (a ++ b) = kept_places ign a ++ kept_places ign b.
Proof. destruct ign; [apply filter_app|reflexivity]. Qed.
Lemma kept_places_push ign res o n :
  (if negb ign || negb (vsize (Some (o, n)) =? 0) then res ++ [Some (o, n)] else res) = res ++ kept_places ign [Some (o, n)].
Proof.
  destruct ign; cbn [negb orb kept_places]; [|reflexivity]. cbn [vsize filter].
  destruct n; cbn [N.of_nat Nat.ltb Nat.leb]; rewrite ?app_nil_r; reflexivity.
Qed.
Lemma kept_places_count ign o cuts : length (kept_places ign (cut_places o cuts)) = length (kept ign (map fst cuts)).
Proof.
  destruct ign; cbn [kept_places kept].
  - revert o. induction cuts as [|[u g] cuts IH]; intros o; [reflexivity|]. cbn [cut_places map fst filter].
    destruct u; cbn [length non_empty Nat.ltb Nat.leb]; cbn [length]; rewrite IH; reflexivity.
  - revert o. induction cuts as [|[u g] cuts IH]; intros o; [reflexivity|]. cbn [cut_places map fst length]. now rewrite IH.
Qed.
Lemma cut_places_app o a b : cut_places o (a ++ b) = cut_places o a ++ cut_places (cut_end o a) b.
Proof. revert o. induction a as [|[u g] a IH]; intros o; [reflexivity|]. cbn [app cut_places cut_end]. now rewrite IH. Qed.
Lemma cut_end_app o a b : cut_end o (a ++ b) = cut_end (cut_end o a) b.
Proof. revert o. induction a as [|[u g] a IH]; intros o; [reflexivity|]. cbn [app cut_end]. now rewrite IH. Qed.

Lemma vpart_found o (u g v : str) : g <> [] -> vti_part (VTI (Some (o, length (u ++ g ++ v))) (Sub (size u) (size g))) = Ok (Some (o, length u)).
Proof. intros Hg. unfold vti_part. cbn [vti_token vti_str]. rewrite sub_bool_ne by exact Hg. apply vsubstr_prefix. Qed.
Lemma vremainder_found o (u g v : str) : g <> [] -> Fits (u ++ g ++ v) ->
  vti_remainder (VTI (Some (o, length (u ++ g ++ v))) (Sub (size u) (size g))) = Ok (Some ((o + length u + length g)%nat, length v)).
Proof.
  intros Hg HF. unfold vti_remainder. cbn [vti_token vti_str]. rewrite sub_bool_ne by exact Hg. cbn [orb].
  rewrite (sub_end_fits u g v HF), app_assoc, vsubstr_from_app by now rewrite <- app_assoc. now rewrite app_length, Nat.add_assoc.
Qed.

Lemma vloop_cuts max ign s cuts rest : Cuts first s cuts rest -> forall o t res fuel,
  Fits s -> lies m o s -> vready m t o s ->
  N.of_nat (length res) + N.of_nat (length (kept ign (map fst cuts))) < max ->
  exists t', vready m t' (cut_end o cuts) rest /\ lies m (cut_end o cuts) rest /\
    v_split_loop m (length cuts + fuel) finder max ign t res =
    v_split_loop m fuel finder max ign t' (res ++ kept_places ign (cut_places o cuts)).
Proof using All.
  induction 1 as [s|u g v cuts rest F H IH]; intros o t res fuel HF HL HR Hm.
  - exists t. split; [exact HR|]. split; [exact HL|]. cbn [cut_places]. replace (kept_places ign []) with (@nil view) by (destruct ign; reflexivity).
    rewrite app_nil_r. reflexivity.
  - change (map fst ((u, g) :: cuts)) with ([u] ++ map fst cuts) in *.
    rewrite kept_app, app_length in Hm.
    assert (Hg := first_ne _ _ _ F).
    assert (HL' : lies m (o + length u + length g) v).
    { destruct (lies_app _ _ _ _ HL) as [_ H1]. now destruct (lies_app _ _ _ _ H1) as [_ H2]. }
    assert (HK : length (kept_places ign [Some (o, length u)]) = length (kept ign [u])).
    { apply (kept_places_count ign o [(u, g)]). }
    destruct (IH (o + length u + length g)%nat (VTI (Some (o, length (u ++ g ++ v))) (Sub (size u) (size g)))
                 (res ++ kept_places ign [Some (o, length u)]) fuel) as (t' & HR' & HL2 & E).
    + apply Fits_app_r with (u := u ++ g). now rewrite <- app_assoc.
    + exact HL'.
    + right. exists u, g, o. auto.
    + rewrite app_length, HK. lia.
    + exists t'. split; [exact HR'|]. split; [exact HL2|]. cbn [length plus v_split_loop].
      rewrite (proj2 (N.ltb_lt _ _)) by lia.
      rewrite (vnext_ready t o _ HL HR), (first_ok u g v HF F). cbn [bind].
      rewrite sub_bool_ne by exact Hg. cbn [negb]. cbv iota.
      rewrite vpart_found by exact Hg. cbn [bind]. rewrite kept_places_push. refine (eq_trans E _).
      change (cut_places o ((u, g) :: cuts)) with ([Some (o, length u)] ++ cut_places (o + length u + length g) cuts).
      rewrite kept_places_app, app_assoc. reflexivity.
Qed.

Lemma v_split_all max ign o s cuts rest e : Fits s -> lies m o s -> Cuts first s cuts rest ->
  finder rest = Ok (Sub e 0) -> N.of_nat (length (kept ign (map fst cuts))) < max ->
  v_split_where m (Some (o, length s)) finder max ign = Ok (kept_places ign (places o cuts rest)).
Proof using All.
  intros HF HL HC Hn Hm. unfold v_split_where. rewrite (proj2 HL).
  assert (HLen := Cuts_length finder first first_ne first_ok _ _ _ HC).
  replace (S (S (length s))) with (length cuts + (S (S (length s - length cuts))))%nat by lia.
  destruct (vloop_cuts max ign s cuts rest HC o (vti_init (Some (o, length s))) [] (S (S (length s - length cuts))) HF HL) as (t' & HR & HL2 & ->).
  - left. reflexivity.
  - cbn [length]. lia.
  - cbn [v_split_loop app]. rewrite kept_places_count, (proj2 (N.ltb_lt _ _)) by exact Hm.
    rewrite (vnext_ready t' _ rest HL2 HR), Hn. cbn [bind]. change (sub_bool (Sub e 0)) with false. cbn [negb sub_length]. cbv iota.
    change (vti_part (VTI (Some (cut_end o cuts, length rest)) (Sub SIZE_MAX 0))) with (Ok (Some (cut_end o cuts, length rest))). cbn [bind].
    rewrite kept_places_push, places_cut, kept_places_app.
    change (vti_next m finder (VTI (Some (cut_end o cuts, length rest)) (Sub SIZE_MAX 0))) with (Ok (false, VTI (Some (cut_end o cuts, length rest)) (Sub SIZE_MAX 0))).
    destruct (_ <? _); reflexivity.
Qed.

Lemma v_split_limit max ign o s cuts u g rest : Fits s -> lies m o s -> Cuts first s (cuts ++ [(u, g)]) rest ->
  N.of_nat (length (kept ign (map fst cuts))) < max ->
  N.of_nat (length (kept ign (map fst (cuts ++ [(u, g)])))) = max ->
  v_split_where m (Some (o, length s)) finder max ign = Ok (kept_places ign (places o (cuts ++ [(u, g)]) rest)).
Proof using All.
  intros HF HLs HC Hm HE. unfold v_split_where. rewrite (proj2 HLs).
  assert (HL := Cuts_length finder first first_ne first_ok _ _ _ HC). rewrite app_length in HL. cbn [length] in HL.
  destruct (Cuts_split _ _ _ _ _ HC) as (x & H1 & H2).
  assert (exists r, x = u ++ g ++ r /\ first u g r /\ rest = r) as (r & -> & F & ->).
  { clear -H2. inversion H2 as [|u' g' v cuts' rest' F H2' E1 E2 E3]; subst. inversion H2'; subst. eauto. }
  assert (HFm : Fits (u ++ g ++ r)).
  { rewrite (Cuts_concat _ _ _ _ H1) in HF. now apply Fits_app_r in HF. }
  assert (Hg := first_ne _ _ _ F).
  replace (S (S (length s))) with (length cuts + (S (S (length s - length cuts))))%nat by lia.
  destruct (vloop_cuts max ign s cuts (u ++ g ++ r) H1 o (vti_init (Some (o, length s))) [] (S (S (length s - length cuts))) HF HLs) as (t' & HR & HL2 & ->).
  - left. reflexivity.
  - cbn [length]. exact Hm.
  - cbn [v_split_loop app]. rewrite kept_places_count, (proj2 (N.ltb_lt _ _)) by exact Hm.
    rewrite (vnext_ready t' _ _ HL2 HR), (first_ok u g r HFm F). cbn [bind]. rewrite sub_bool_ne by exact Hg. cbn [negb]. cbv iota.
    rewrite vpart_found by exact Hg. cbn [bind]. rewrite kept_places_push.
    rewrite <- kept_places_app.
    replace (cut_places o cuts ++ [Some (cut_end o cuts, length u)]) with (cut_places o (cuts ++ [(u, g)])) by (rewrite cut_places_app; reflexivity).
    rewrite kept_places_count. rewrite (proj2 (N.ltb_ge _ _)) by lia. cbn [bind].
    unfold vti_bool. cbn [vti_token]. rewrite sub_bool_ne by exact Hg.
    rewrite vremainder_found by assumption. cbn [bind]. rewrite kept_places_push, <- kept_places_app.
    rewrite places_cut, cut_end_app. reflexivity.
Qed.
End Places.
