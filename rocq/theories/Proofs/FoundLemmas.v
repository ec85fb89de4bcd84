(** C147: what was found can be edited by its index. *)
From Verif Require Import Base Spec.Utf8Spec Spec.Strings Spec.Slices Spec.Split Spec.Replace
  Spec.Counts Model.Decode Model.Encode Model.Subrange Model.Search Model.CharClass Model.Chars
  Proofs.Utf8Lemmas Proofs.DecodeLemmas Proofs.EncodeLemmas Proofs.CodepointLemmas Proofs.SearchLemmas Proofs.SliceLemmas Proofs.PieceLemmas
  Proofs.AnyStringLemmas Proofs.NestedLemmas Proofs.NewlineLemmas Proofs.PositionProps Proofs.ReplaceLemmas Proofs.ReplaceCpLemmas Proofs.SyncLemmas
  Proofs.SplitLemmas Proofs.BatchLemmas Proofs.CharLemmas.

Lemma codepoints_count ps : Codepoints ps -> Fits (concat ps) -> count_codepoints (concat ps) = Ok (N.of_nat (length ps)).
Proof. intros H F. apply count_code_units; [left; exact H|exact F]. Qed.
Lemma firstn_size (u x : str) : firstn (N.to_nat (size u)) (u ++ x) = u.
Proof. unfold size. rewrite Nat2N.id, firstn_app, Nat.sub_diag, firstn_all. cbn. apply app_nil_r. Qed.

Lemma position_len (x y : list str) : position (x ++ y) (Z.of_nat (length x)) = size (concat x).
Proof.
  unfold position. rewrite app_length. replace (_ <? _)%Z with false by lia. unfold offset_of. rewrite resolve_nonneg by lia.
    rewrite Nat2Z.id, Nat.min_l by lia. rewrite firstn_app, Nat.sub_diag, firstn_all. cbn. now rewrite app_nil_r.
Qed.

(** A valid piece in a valid text, by its indices *)
Lemma piece_by_index u us p ps v vs : Text u us -> Text p ps -> Text v vs -> Fits (u ++ p ++ v) ->
  let k := N.of_nat (length us) in let m := N.of_nat (length ps) in let s := u ++ p ++ v in
  count_codepoints u = Ok k /\ count_codepoints p = Ok m /\ get_codepoint_pos s (Z.of_N k) = Ok (size u) /\
  get_codepoint_pos s (Z.of_N (k + m)) = Ok (size u + size p) /\
  get_codepoint_substring s (Z.of_N k) (Z.of_N (k + m)) = Ok p /\
  (forall t, replace_codepoints s (Z.of_N k) (Z.of_N (k + m)) t = Ok (u ++ t ++ v)) /\
  (forall t, insert_codepoints s (Z.of_N k) t = Ok (u ++ t ++ p ++ v)) /\
  (forall t, insert_codepoints s (Z.of_N (k + m)) t = Ok (u ++ p ++ t ++ v)).
Proof.
  intros HU HP HV HF. destruct (codepoints_of u us HU) as (a & <- & HA & LA). destruct (codepoints_of p ps HP) as (o & <- & HO & LO).
  destruct (codepoints_of v vs HV) as (r & <- & HR & _). cbv zeta. rewrite <- LA, <- LO. clear HU HP HV LA LO.
  rewrite <- !concat_app in *. pose proof HF as HF'. rewrite !concat_app in HF'.
  assert (Codepoints (a ++ o ++ r)) as HC by (unfold Codepoints in *; repeat (apply Forall_app; split); auto).
  assert (CodeUnits (a ++ o ++ r)) as HU by (left; exact HC).
  pose proof (units_len cp_unit _ cp_unit_ne HC) as L. rewrite !app_length in L.
  assert (N.of_nat (length (concat (a ++ o ++ r))) < 0x8000000000000000) as HF2 by (exact HF).
  assert (cp_ok (Z.of_nat (length a)) /\ cp_ok (Z.of_nat (length a + length o))) as [C1 C2] by (unfold cp_ok; lia).
  destruct (resolve_split a o r) as [E1 E2].
  replace (Z.of_N (N.of_nat (length a))) with (Z.of_nat (length a)) by lia.
  replace (Z.of_N (N.of_nat (length a) + N.of_nat (length o))) with (Z.of_nat (length a + length o)) by lia.
  split; [apply codepoints_count; [exact HA|unfold Fits, size in *; rewrite !app_length in HF'; lia]|].
  split; [apply codepoints_count; [exact HO|unfold Fits, size in *; rewrite !app_length in HF'; lia]|].
  split; [rewrite get_codepoint_pos_codepoints by assumption; now rewrite position_len|].
  split. { rewrite get_codepoint_pos_codepoints by assumption. rewrite app_assoc, <- app_length, position_len. f_equal. rewrite concat_app. unfold size. rewrite app_length. lia. }
  split. { rewrite cp_substring_ok by (auto; unfold in_order; lia). f_equal. f_equal. unfold units_between. rewrite !resolve_nonneg by lia.
    rewrite !Nat2Z.id, !app_length, !Nat.min_l by lia. replace (length a + length o - length a)%nat with (length o) by lia.
    rewrite skipn_app, Nat.sub_diag, skipn_all. cbn. rewrite firstn_app, Nat.sub_diag, firstn_all. cbn. apply app_nil_r. }
  split. { intros t. rewrite cp_replace_ok by (auto; unfold in_order; lia). unfold str in *. now rewrite E1, E2. }
  split.
  - intros t. rewrite cp_insert_str by (auto; rewrite ?app_length; lia). destruct (resolve_split a [] (o ++ r)) as [E3 E4]. cbn [app] in E3, E4.
    cbn [length] in E4. rewrite Nat.add_0_r in E4. unfold str in *. rewrite E3, E4, concat_app. reflexivity.
  - intros t. rewrite cp_insert_str by (auto; rewrite ?app_length; lia). destruct (resolve_split (a ++ o) [] r) as [E3 E4]. cbn [app] in E3, E4.
    rewrite <- app_assoc in E3, E4. cbn [length] in E4. rewrite app_length, Nat.add_0_r in *. unfold str in *. rewrite E3, E4, concat_app, <- app_assoc. reflexivity.
Qed.

Lemma replace_one u p v t : p <> [] -> (forall j, (j < length u)%nat -> ~ occurs_at p (u ++ p ++ v) j) -> replace (u ++ p ++ v) p t 1 = Ok (u ++ t ++ v).
Proof.
  intros HN H. destruct (replace_front (u ++ p ++ v) p t 1 HN ltac:(lia)) as (r & -> & HR). f_equal. apply (ReplaceFront_fun _ _ _ _ _ HR).
  apply (rf_step p t 0 u v v); [exact H|constructor].
Qed.
Lemma replace_one_back u p v t : p <> [] -> Fits (u ++ p ++ v) -> (forall j, (length u < j)%nat -> ~ occurs_at p (u ++ p ++ v) j) -> replace (u ++ p ++ v) p t (-1) = Ok (u ++ t ++ v).
Proof.
  intros HN HF H. destruct (replace_back (u ++ p ++ v) p t (-1) HN HF ltac:(unfold PTRDIFF_MIN; lia)) as (r & -> & HR). f_equal. apply (ReplaceBack_fun _ _ _ _ _ HR).
  apply (rb_step p t 0 v u u); [exact H|constructor].
Qed.
Lemma found_common s cs p ps i d : Text s cs -> Text p ps -> p <> [] -> Fits s -> occurs_at p s i ->
  (forall t, replace s p t d = Ok (firstn i s ++ t ++ skipn (i + length p) s)) ->
  exists k m, count_codepoints (firstn i s) = Ok k /\ count_codepoints p = Ok m /\
    get_codepoint_pos s (Z.of_N k) = Ok (N.of_nat i) /\ get_codepoint_substring s (Z.of_N k) (Z.of_N (k + m)) = Ok p /\
    forall t, replace_codepoints s (Z.of_N k) (Z.of_N (k + m)) t = replace s p t d /\
      insert_codepoints s (Z.of_N k) t = replace s p (t ++ p) d /\ insert_codepoints s (Z.of_N (k + m)) t = replace s p (p ++ t) d.
Proof.
  intros HS HP HN HF (u & v & -> & <-) HR. destruct (sync _ cs p ps u v HS HP HN eq_refl) as (us & vs & HU & HV & _).
  destruct (piece_by_index u us p ps v vs HU HP HV HF) as (P1 & P2 & P3 & _ & P5 & P6 & P7 & P8).
  assert (firstn (length u) (u ++ p ++ v) = u) as F1 by (rewrite firstn_app, Nat.sub_diag, firstn_all; cbn; apply app_nil_r).
  assert (skipn (length u + length p) (u ++ p ++ v) = v) as F2 by (rewrite app_assoc, <- app_length, skipn_app, Nat.sub_diag, skipn_all; reflexivity).
  rewrite F1. exists (N.of_nat (length us)), (N.of_nat (length ps)). split; [exact P1|]. split; [exact P2|]. split; [exact P3|]. split; [exact P5|].
  intros t. rewrite !HR, F1, F2. split; [apply P6|]. split; [rewrite <- app_assoc; apply P7|rewrite <- app_assoc; apply P8].
Qed.
Lemma p_c147_find_first : forall s cs p ps i n, Text s cs -> Text p ps -> p <> [] -> Fits s -> find_first s p 0 = Ok (Sub i n) -> n <> 0 ->
  exists k m, count_codepoints (firstn (N.to_nat i) s) = Ok k /\ count_codepoints p = Ok m /\
    get_codepoint_pos s (Z.of_N k) = Ok i /\ get_codepoint_substring s (Z.of_N k) (Z.of_N (k + m)) = Ok p /\
    forall t, replace_codepoints s (Z.of_N k) (Z.of_N (k + m)) t = replace s p t 1 /\
      insert_codepoints s (Z.of_N k) t = replace s p (t ++ p) 1 /\ insert_codepoints s (Z.of_N (k + m)) t = replace s p (p ++ t) 1.
Proof.
  intros s cs p ps i n HS HP HN HF E Hn. destruct (find_first_spec s p 0 HN ltac:(lia)) as [(j & _ & Ho & Hb & E2)|[_ E2]].
  2:{ change (N.of_nat 0) with 0 in E2. rewrite E2 in E. injection E as _ <-. congruence. }
  change (N.of_nat 0) with 0 in E2. rewrite E2 in E. injection E as <- _. rewrite Nat2N.id. apply (found_common s cs p ps j 1 HS HP HN HF Ho).
  intros t. destruct Ho as (u & v & -> & <-). rewrite replace_one; [|exact HN|intros j L; apply Hb; lia].
  rewrite firstn_app, Nat.sub_diag, firstn_all. cbn [firstn]. rewrite app_nil_r. do 3 f_equal. rewrite app_assoc, <- app_length, skipn_app, Nat.sub_diag, skipn_all. reflexivity.
Qed.
Lemma p_c147_find_last : forall s cs p ps i n, Text s cs -> Text p ps -> p <> [] -> Fits s -> find_last s p npos = Ok (Sub i n) -> n <> 0 ->
  exists k m, count_codepoints (firstn (N.to_nat i) s) = Ok k /\ count_codepoints p = Ok m /\
    get_codepoint_pos s (Z.of_N k) = Ok i /\ get_codepoint_substring s (Z.of_N k) (Z.of_N (k + m)) = Ok p /\
    forall t, replace_codepoints s (Z.of_N k) (Z.of_N (k + m)) t = replace s p t (-1) /\
      insert_codepoints s (Z.of_N k) t = replace s p (t ++ p) (-1) /\ insert_codepoints s (Z.of_N (k + m)) t = replace s p (p ++ t) (-1).
Proof.
  intros s cs p ps i n HS HP HN HF E Hn. destruct (find_last_spec s p npos HN) as [(j & Ho & _ & Hb & E2)|[_ E2]].
  2:{ rewrite E2 in E. injection E as _ <-. congruence. }
  rewrite E2 in E. injection E as <- _. rewrite Nat2N.id. apply (found_common s cs p ps j (-1) HS HP HN HF Ho).
  assert (N.min npos (size s) = size s) as HM by (unfold Fits in HF; assert (0x8000000000000000 < npos) by (vm_compute; reflexivity); lia).
  rewrite HM in Hb. intros t. destruct Ho as (u & v & -> & <-). rewrite replace_one_back; [|exact HN|exact HF|].
  - rewrite firstn_app, Nat.sub_diag, firstn_all. cbn [firstn]. rewrite app_nil_r. do 3 f_equal. rewrite app_assoc, <- app_length, skipn_app, Nat.sub_diag, skipn_all. reflexivity.
  - intros j L Ho. apply (Hb j L); [|exact Ho]. destruct Ho as (a & b & E3 & <-). rewrite E3. unfold size. rewrite !app_length. lia.
Qed.

(** Single code points *)
Lemma get_at u us g c v vs : Text u us -> uchar g c -> Text v vs -> Fits (u ++ g ++ v) ->
  get_codepoint (u ++ g ++ v) (Z.of_nat (length us)) = Ok (Sub (size u) (size g), c).
Proof.
  intros HU Hg HV HF. destruct (codepoints_of u us HU) as (a & <- & HA & <-). destruct (codepoints_of v vs HV) as (r & <- & HR & _).
  replace (concat a ++ g ++ concat r) with (concat (a ++ [g] ++ r)) by (rewrite !concat_app; cbn; now rewrite app_nil_r).
  assert (CodeUnits (a ++ [g] ++ r)) as HC.
  { left. unfold Codepoints in *. repeat (apply Forall_app; split); auto. constructor; [now exists c|constructor]. }
  destruct (p_c25 (a ++ [g] ++ r) (Z.of_nat (length a)) HC) as (G & _). rewrite (G g c).
  - rewrite Nat2Z.id. unfold offset_of. rewrite firstn_app, Nat.sub_diag, firstn_all. cbn [firstn]. now rewrite app_nil_r.
  - lia.
  - rewrite Nat2Z.id, nth_error_app2, Nat.sub_diag by lia. reflexivity.
  - exact Hg.
Qed.
Lemma p_c147_find_first_of : forall s cs chars i n c, Text s cs -> Fits s -> find_first_of s chars 0 = Ok (Sub i n, c) -> n <> 0 ->
  exists k, count_codepoints (firstn (N.to_nat i) s) = Ok k /\ get_codepoint s (Z.of_N k) = Ok (Sub i n, c) /\ get_codepoint_pos s (Z.of_N k) = Ok i.
Proof.
  intros s cs chars i n c HT HF E Hn. destruct (p_first_of chars []) as (F1 & F2 & _). cbn [app] in F1, F2. change (size []) with 0 in *.
  destruct (char_cases chars s) as [(u & g & v & Es & us & d & Hu & HN & Hg & Hd)|[(us & HU & HN)|HB]].
  - subst s. rewrite (F1 u us g d v Hu HN Hg Hd) in E. injection E as <- <- <-. rewrite firstn_size.
    destruct (Text_app_inv _ _ _ _ Hu HT) as (ws & -> & HT'). destruct (Text_app_inv _ _ _ _ (Text_one _ _ Hg) HT') as (vs & -> & HV).
    destruct (piece_by_index u us g [d] v vs Hu (Text_one _ _ Hg) HV HF) as (P1 & _ & P3 & _). exists (N.of_nat (length us)).
    split; [exact P1|]. split; [|exact P3]. replace (Z.of_N (N.of_nat (length us))) with (Z.of_nat (length us)) by lia. now apply get_at with vs.
  - rewrite (F2 s us HU HN) in E. injection E as _ <- _. congruence.
  - destruct (bad_char_not_text _ _ _ HT HB).
Qed.
Lemma last_in (chars cs : list N) : Forall (fun x => ~ In x chars) cs \/ exists us c vs, cs = us ++ c :: vs /\ In c chars /\ Forall (fun x => ~ In x chars) vs.
Proof.
  induction cs as [|c cs [IH|(us & d & vs & -> & Hd & HV)]]; [left; constructor| |].
  - destruct (in_dec N.eq_dec c chars) as [H|H]; [right; exists [], c, cs; auto|left; now constructor].
  - right. exists (c :: us), d, vs. auto.
Qed.
Lemma p_c147_find_last_of : forall s cs chars i n c, Text s cs -> Fits s -> find_last_of s chars npos = Ok (Sub i n, c) -> n <> 0 ->
  exists k, count_codepoints (firstn (N.to_nat i) s) = Ok k /\ get_codepoint s (Z.of_N k) = Ok (Sub i n, c) /\ get_codepoint_pos s (Z.of_N k) = Ok i.
Proof.
  intros s cs chars i n c HT HF E Hn. destruct (p_last_of chars [] npos) as (G1 & G2 & _).
  assert (forall x, Fits x -> N.min npos (size x) = size x) as HM by (intros x Fx; unfold Fits in Fx; assert (0x8000000000000000 < npos) by (vm_compute; reflexivity); lia).
  destruct (last_in chars cs) as [HN|(us & d & vs & -> & Hd & HN)].
  - specialize (G2 s cs). rewrite !app_nil_r in G2. rewrite G2 in E; [|now apply HM|exact HT|exact HN]. injection E as _ <- _. congruence.
  - apply Text_split in HT. destruct HT as (u & w & -> & HU & HW). inversion HW as [|g d' v vs' Hg HV E1 E2]. subst d' vs' w.
    specialize (G1 u v vs g d). rewrite !app_nil_r in G1. rewrite G1 in E; [|now apply HM|exact HV|exact HN|exact Hg|exact Hd].
    injection E as <- <- <-. rewrite firstn_size. destruct (piece_by_index u us g [d] v vs HU (Text_one _ _ Hg) HV HF) as (P1 & _ & P3 & _). exists (N.of_nat (length us)).
    split; [exact P1|]. split; [|exact P3]. replace (Z.of_N (N.of_nat (length us))) with (Z.of_nat (length us)) by lia. now apply get_at with vs.
Qed.

(** By characters *)
Definition no_mark_first (cs : list N) : Prop := match cs with [] => True | d :: _ => combining d = false end.
Lemma no_mark_app ps qs q qcs : Chars ps -> Chars qs -> concat qs = q -> Text q qcs -> no_mark_first qcs -> Chars (ps ++ qs).
Proof.
  intros HP HQ E HT HN. apply (Chars_app ps qs q HP HQ E). destruct HT as [|g d s ds Hg HT]; [left; reflexivity|].
  right. exists d, ds. split; [now constructor|exact HN].
Qed.
Lemma piece_by_char u us p c ps v vs : Text u us -> Text p (c :: ps) -> combining c = false -> Text v vs -> no_mark_first vs -> Fits (u ++ p ++ v) ->
  let s := u ++ p ++ v in exists k m, count_chars u = Ok k /\ count_chars p = Ok m /\ get_char_pos s (Z.of_N k) = Ok (size u) /\
  get_char_substring s (Z.of_N k) (Z.of_N (k + m)) = Ok p /\
  (forall t, replace_chars s (Z.of_N k) (Z.of_N (k + m)) t = Ok (u ++ t ++ v)) /\
  (forall t, insert_chars s (Z.of_N k) t = Ok (u ++ t ++ p ++ v)) /\
  (forall t, insert_chars s (Z.of_N (k + m)) t = Ok (u ++ p ++ t ++ v)).
Proof.
  intros HU HP Hc HV Hv HF. destruct (Chars_exist u us HU) as (a & HA & <-). destruct (Chars_exist p _ HP) as (o & HO & <-).
  destruct (Chars_exist v vs HV) as (r & HR & <-). cbv zeta.
  assert (Chars (o ++ r)) as HC2 by (eapply no_mark_app; eauto).
  assert (Chars (a ++ o ++ r)) as HC. { apply (no_mark_app _ _ (concat (o ++ r)) ((c :: ps) ++ vs) HA HC2 eq_refl); [|exact Hc]. rewrite concat_app. now apply Text_app. }
  exists (N.of_nat (length a)), (N.of_nat (length o)).
  rewrite <- !concat_app in *. pose proof HF as HF'. rewrite !concat_app in HF'.
  pose proof (Chars_length _ (proj1 HC)) as L. rewrite !app_length in L.
  assert (N.of_nat (length (concat (a ++ o ++ r))) < 0x8000000000000000) as HF2 by (exact HF).
  destruct (resolve_split a o r) as [E1 E2].
  replace (Z.of_N (N.of_nat (length a))) with (Z.of_nat (length a)) by lia.
  replace (Z.of_N (N.of_nat (length a) + N.of_nat (length o))) with (Z.of_nat (length a + length o)) by lia.
  assert (isz (Z.of_nat (length a)) /\ isz (Z.of_nat (length a + length o))) as [C1 C2] by (unfold isz, PTRDIFF_MIN, PTRDIFF_MAX; lia).
  split; [apply count_chars_spec; [exact HA|unfold Fits, size in *; rewrite !app_length in HF'; lia]|].
  split; [apply count_chars_spec; [exact HO|unfold Fits, size in *; rewrite !app_length in HF'; lia]|].
  split; [rewrite get_char_pos_spec by auto; now rewrite position_len|].
  split. { rewrite char_substring_ok by (auto; unfold char_in_order; lia). f_equal. f_equal. unfold units_between. rewrite !resolve_nonneg by lia.
    unfold str in *. rewrite !Nat2Z.id, !app_length, !Nat.min_l by lia. replace (length a + length o - length a)%nat with (length o) by lia.
    rewrite skipn_app, Nat.sub_diag, skipn_all. cbn. rewrite firstn_app, Nat.sub_diag, firstn_all. cbn. apply app_nil_r. }
  split. { intros t. rewrite char_replace_ok by (auto; unfold char_in_order; lia). unfold str in *. now rewrite E1, E2. }
  split.
  - intros t. rewrite char_insert_str; [|exact HC|exact HF|unfold str in *; rewrite !app_length; lia]. destruct (resolve_split a [] (o ++ r)) as [E3 E4]. cbn [app] in E3, E4.
    cbn [length] in E4. rewrite Nat.add_0_r in E4. unfold str in *. rewrite E3, E4, concat_app. reflexivity.
  - intros t. rewrite char_insert_str; [|exact HC|exact HF|unfold str in *; rewrite !app_length; lia]. destruct (resolve_split (a ++ o) [] r) as [E3 E4]. cbn [app] in E3, E4.
    rewrite <- app_assoc in E3, E4. cbn [length] in E4. rewrite app_length, Nat.add_0_r in *. unfold str in *. rewrite E3, E4, concat_app, <- app_assoc. reflexivity.
Qed.
Lemma found_chars s cs p c ps i d : Text s cs -> Text p (c :: ps) -> combining c = false -> Fits s -> occurs_at p s i ->
  (forall vs, Text (skipn (i + length p) s) vs -> no_mark_first vs) ->
  (forall t, replace s p t d = Ok (firstn i s ++ t ++ skipn (i + length p) s)) ->
  exists k m, count_chars (firstn i s) = Ok k /\ count_chars p = Ok m /\
    get_char_pos s (Z.of_N k) = Ok (N.of_nat i) /\ get_char_substring s (Z.of_N k) (Z.of_N (k + m)) = Ok p /\
    forall t, replace_chars s (Z.of_N k) (Z.of_N (k + m)) t = replace s p t d /\
      insert_chars s (Z.of_N k) t = replace s p (t ++ p) d /\ insert_chars s (Z.of_N (k + m)) t = replace s p (p ++ t) d.
Proof.
  intros HS HP Hc HF (u & v & -> & <-) HM HR. assert (p <> []) as HN by (intros ->; inversion HP as [|g ? ? ? Hg]; destruct g; [inversion Hg|discriminate]).
  destruct (sync _ cs p (c :: ps) u v HS HP HN eq_refl) as (us & vs & HU & HV & _).
  assert (firstn (length u) (u ++ p ++ v) = u) as F1 by (rewrite firstn_app, Nat.sub_diag, firstn_all; cbn; apply app_nil_r).
  assert (skipn (length u + length p) (u ++ p ++ v) = v) as F2 by (rewrite app_assoc, <- app_length, skipn_app, Nat.sub_diag, skipn_all; reflexivity).
  rewrite F2 in HM. destruct (piece_by_char u us p c ps v vs HU HP Hc HV (HM _ HV) HF) as (k & m & P1 & P2 & P3 & P5 & P6 & P7 & P8).
  rewrite F1. exists k, m. split; [exact P1|]. split; [exact P2|]. split; [exact P3|]. split; [exact P5|].
  intros t. rewrite !HR, F1, F2. split; [apply P6|]. split; [rewrite <- app_assoc; apply P7|rewrite <- app_assoc; apply P8].
Qed.
Lemma p_c147_chars_first : forall s cs p c ps i n, Text s cs -> Text p (c :: ps) -> combining c = false -> Fits s -> find_first s p 0 = Ok (Sub i n) -> n <> 0 ->
  (forall d ds, Text (skipn (N.to_nat (i + n)) s) (d :: ds) -> combining d = false) ->
  exists k m, count_chars (firstn (N.to_nat i) s) = Ok k /\ count_chars p = Ok m /\
    get_char_pos s (Z.of_N k) = Ok i /\ get_char_substring s (Z.of_N k) (Z.of_N (k + m)) = Ok p /\
    forall t, replace_chars s (Z.of_N k) (Z.of_N (k + m)) t = replace s p t 1 /\
      insert_chars s (Z.of_N k) t = replace s p (t ++ p) 1 /\ insert_chars s (Z.of_N (k + m)) t = replace s p (p ++ t) 1.
Proof.
  intros s cs p c ps i n HS HP Hc HF E Hn HM. assert (p <> []) as HN by (intros ->; inversion HP as [|g ? ? ? Hg]; destruct g; [inversion Hg|discriminate]).
  destruct (find_first_spec s p 0 HN ltac:(lia)) as [(j & _ & Ho & Hb & E2)|[_ E2]].
  2:{ change (N.of_nat 0) with 0 in E2. rewrite E2 in E. injection E as _ <-. congruence. }
  change (N.of_nat 0) with 0 in E2. rewrite E2 in E. injection E as <- <-. rewrite Nat2N.id.
  assert (N.to_nat (N.of_nat j + size p) = (j + length p)%nat) as EJ by (unfold size; lia). rewrite EJ in HM.
  apply (found_chars s cs p c ps j 1 HS HP Hc HF Ho).
  { intros [|d ds] HT; [exact I|]. now apply (HM d ds). }
  intros t. destruct Ho as (u & v & -> & <-). rewrite replace_one; [|exact HN|intros j L; apply Hb; lia].
  rewrite firstn_app, Nat.sub_diag, firstn_all. cbn [firstn]. rewrite app_nil_r. do 3 f_equal. rewrite app_assoc, <- app_length, skipn_app, Nat.sub_diag, skipn_all. reflexivity.
Qed.
Lemma p_c147_chars_last : forall s cs p c ps i n, Text s cs -> Text p (c :: ps) -> combining c = false -> Fits s -> find_last s p npos = Ok (Sub i n) -> n <> 0 ->
  (forall d ds, Text (skipn (N.to_nat (i + n)) s) (d :: ds) -> combining d = false) ->
  exists k m, count_chars (firstn (N.to_nat i) s) = Ok k /\ count_chars p = Ok m /\
    get_char_pos s (Z.of_N k) = Ok i /\ get_char_substring s (Z.of_N k) (Z.of_N (k + m)) = Ok p /\
    forall t, replace_chars s (Z.of_N k) (Z.of_N (k + m)) t = replace s p t (-1) /\
      insert_chars s (Z.of_N k) t = replace s p (t ++ p) (-1) /\ insert_chars s (Z.of_N (k + m)) t = replace s p (p ++ t) (-1).
Proof.
  intros s cs p c ps i n HS HP Hc HF E Hn HM. assert (p <> []) as HN by (intros ->; inversion HP as [|g ? ? ? Hg]; destruct g; [inversion Hg|discriminate]).
  destruct (find_last_spec s p npos HN) as [(j & Ho & _ & Hb & E2)|[_ E2]].
  2:{ rewrite E2 in E. injection E as _ <-. congruence. }
  rewrite E2 in E. injection E as <- <-. rewrite Nat2N.id.
  assert (N.min npos (size s) = size s) as HM2 by (unfold Fits in HF; assert (0x8000000000000000 < npos) by (vm_compute; reflexivity); lia).
  rewrite HM2 in Hb.
  assert (N.to_nat (N.of_nat j + size p) = (j + length p)%nat) as EJ by (unfold size; lia). rewrite EJ in HM.
  apply (found_chars s cs p c ps j (-1) HS HP Hc HF Ho).
  { intros [|d ds] HT; [exact I|]. now apply (HM d ds). }
  intros t. destruct Ho as (u & v & -> & <-). rewrite replace_one_back; [|exact HN|exact HF|].
  - rewrite firstn_app, Nat.sub_diag, firstn_all. cbn [firstn]. rewrite app_nil_r. do 3 f_equal. rewrite app_assoc, <- app_length, skipn_app, Nat.sub_diag, skipn_all. reflexivity.
  - intros j L Ho. apply (Hb j L); [|exact Ho]. destruct Ho as (a & b & E3 & <-). rewrite E3. unfold size. rewrite !app_length. lia.
Qed.
