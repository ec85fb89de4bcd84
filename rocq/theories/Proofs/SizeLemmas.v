(** Bounds on the sizes of results. *)
From Verif Require Import Base Spec.Utf8Spec Spec.Strings Spec.Category Spec.UnicodeData Spec.Case Spec.Escape Spec.Normalization Spec.Replace Spec.Slices Tables.UnicodeDataTables Model.Decode Model.Encode Model.CharClass Model.ConvertCase Model.Chars Model.Escape Model.Unescape Model.Normalize Model.Search Proofs.Utf8Lemmas Proofs.EncodeLemmas Proofs.DecodeLemmas Proofs.SearchLemmas Proofs.Utf8Props Proofs.ConcatLemmas.
From Verif Require Import Proofs.UnicodeProps Proofs.CaseStringLemmas Proofs.EscapeLemmas Proofs.NormProps Proofs.NormEquiv Proofs.NormLemmas Proofs.ReplaceCpLemmas Proofs.PositionProps Properties.Utf8 Properties.Unicode Properties.Escape Properties.Normalize Properties.Replace Properties.Positions.
Local Open Scope nat_scope.

Definition elen (c : N) : nat := length (rfc3629_bytes c).
Definition esum (cs : list N) : nat := list_sum (map elen cs).

Lemma elen_cases c : (elen c = 1 /\ (c <= 0x7F)%N) \/ (elen c = 2 /\ (0x80 <= c <= 0x7FF)%N) \/ (elen c = 3 /\ (0x800 <= c <= 0xFFFF)%N) \/ (elen c = 4 /\ (0x10000 <= c)%N).
Proof.
  unfold elen, rfc3629_bytes.
  destruct (N.leb_spec c 0x7F); [left; split; [reflexivity|assumption]|].
  destruct (N.leb_spec c 0x7FF); [right; left; split; [reflexivity|lia]|].
  destruct (N.leb_spec c 0xFFFF); [right; right; left; split; [reflexivity|lia]|].
  right; right; right; split; [reflexivity|lia].
Qed.
Lemma encodes_elen g c : encodes g c -> length g = elen c.
Proof. unfold encodes, elen. intros H. rewrite <- H. now rewrite map_length. Qed.
Lemma uchar_elen g c : uchar g c -> elen c <= length g.
Proof.
  intros H. destruct (elen_cases c) as [[E L]|[[E L]|[[E L]|[E L]]]]; rewrite E;
  destruct H; cbn [length]; unfold cont in *; lia.
Qed.
Lemma encoded_esum s cs : Encoded s cs -> length s = esum cs.
Proof.
  induction 1; [reflexivity|]. rewrite app_length, IHEncoded, (encodes_elen _ _ H). reflexivity.
Qed.
Lemma text_esum s cs : Text s cs -> esum cs <= length s.
Proof.
  induction 1; [apply le_n|]. rewrite app_length. pose proof (uchar_elen _ _ H).
  unfold esum in *. cbn [map list_sum fold_right]. fold (list_sum (map elen cs)). lia.
Qed.
Lemma esum_app a b : esum (a ++ b) = esum a + esum b.
Proof. unfold esum. now rewrite map_app, list_sum_app. Qed.
Lemma esum_cons c b : esum (c :: b) = elen c + esum b.
Proof. reflexivity. Qed.

(** Case *)
Lemma mapped_elen table c : forallb (fun p => Nat.leb (2 * elen (snd p)) (3 * elen (fst p))) table = true ->
  2 * elen (mapped table c) <= 3 * elen c.
Proof.
  intros H. unfold mapped. destruct (find _ table) as [p|] eqn:E; [|lia].
  apply find_some in E as [HI HE]. apply N.eqb_eq in HE. rewrite forallb_forall in H. specialize (H p HI).
  apply Nat.leb_le in H. now rewrite <- HE.
Qed.
Lemma lower_elen c : 2 * elen (simple_lower c) <= 3 * elen c.
Proof. apply mapped_elen. vm_compute. reflexivity. Qed.
Lemma upper_elen c : 2 * elen (simple_upper c) <= 3 * elen c.
Proof. apply mapped_elen. vm_compute. reflexivity. Qed.
Lemma title_elen c : 2 * elen (simple_title c) <= 3 * elen c.
Proof. apply mapped_elen. vm_compute. reflexivity. Qed.

Lemma lower_esum cs : 2 * esum (lower_cps cs) <= 3 * esum cs.
Proof.
  induction cs as [|c cs IH]; [apply le_n|]. unfold lower_cps in *. cbn [map].
  rewrite !esum_cons. pose proof (lower_elen c). lia.
Qed.
Lemma upper_esum cs : 2 * esum (upper_cps cs) <= 3 * esum cs.
Proof.
  induction cs as [|c cs IH]; [apply le_n|]. unfold upper_cps in *. cbn [flat_map].
  rewrite esum_app, esum_cons. destruct (N.eqb_spec c 0xDF).
  - subst. change (esum [83%N; 83%N]) with 2. change (elen 0xDF) with 2. lia.
  - rewrite esum_cons. change (esum []) with 0. pose proof (upper_elen c). lia.
Qed.
Lemma title_esum f cs : forall b, 2 * esum (title_cps f b cs) <= 3 * esum cs.
Proof.
  induction cs as [|c cs IH]; intros b; [apply le_n|]. cbn [title_cps].
  rewrite esum_cons. destruct (f c); [|rewrite esum_cons; specialize (IH false); lia].
  specialize (IH true). rewrite esum_app. destruct b.
  - rewrite esum_cons. change (esum []) with 0. pose proof (lower_elen c). lia.
  - destruct (N.eqb_spec c 0xDF).
    + subst. change (esum [83%N; 115%N]) with 2. change (elen 0xDF) with 2. lia.
    + rewrite esum_cons. change (esum []) with 0. pose proof (title_elen c). lia.
Qed.

Lemma text_limit_dec s : (exists cs, Text s cs /\ Forall (fun c => (c <= 0x10FFFF)%N) cs) \/
  (forall cs, Text s cs -> ~ Forall (fun c => (c <= 0x10FFFF)%N) cs).
Proof.
  destruct (text_dec s) as [(cs & H)|H]; [|right; intros cs HT; now destruct (H cs)].
  destruct (forallb (fun c => c <=? 0x10FFFF)%N cs) eqn:E.
  - left. exists cs. split; [exact H|]. rewrite forallb_forall in E. apply Forall_forall. intros x HI. specialize (E x HI). now apply N.leb_le.
  - right. intros ds HD. rewrite (Text_fun _ _ _ H HD) in E. intros HF. rewrite Forall_forall in HF.
    assert (forallb (fun c => (c <=? 0x10FFFF)%N) ds = true); [|congruence].
    apply forallb_forall. intros x HI. apply N.leb_le. now apply HF.
Qed.

Local Open Scope N_scope.
Lemma p_c99_case s r : to_lower_str s = Ok r \/ to_upper_str s = Ok r \/ to_title_str s = Ok r -> 2 * size r <= 3 * size s.
Proof.
  intros H. destruct (text_limit_dec s) as [(cs & HT & HL)|HN].
  - destruct (C44_to_lower s cs HT HL) as (l & E1 & L1). destruct (C44_to_upper s cs HT HL) as (u & E2 & L2).
    destruct (C45_to_title s cs HT HL) as (t & E3 & L3).
    apply encoded_esum in L1, L2, L3. pose proof (text_esum _ _ HT).
    pose proof (lower_esum cs). pose proof (upper_esum cs). pose proof (title_esum is_letter cs false).
    unfold size. destruct H as [H|[H|H]].
    + assert (l = r) by congruence. subst. lia.
    + assert (u = r) by congruence. subst. lia.
    + assert (t = r) by congruence. subst. lia.
  - destruct (C44_invalid_throws s HN) as (E1 & E2 & E3). destruct H as [H|[H|H]]; congruence.
Qed.

(** Escaping *)
Lemma jsonof_size s e : JsonOf s e -> (length s <= length e <= 6 * length s)%nat.
Proof.
  induction 1; cbn [length app] in *; try lia. rewrite app_length. lia.
Qed.
Lemma jsonof_same s e : JsonOf s e -> (length e = length s)%nat -> e = s.
Proof.
  induction 1; intros E; cbn [length app] in *; [reflexivity| | |].
  - f_equal. apply IHJsonOf. lia.
  - apply jsonof_size in H0. lia.
  - apply jsonof_size in H3. rewrite app_length in E. lia.
Qed.
Lemma p_c99_escape s : Fits s -> exists e, escape_json s = Ok e /\ size s <= size e <= 6 * size s /\ (size e = size s -> e = s).
Proof.
  intros HF. destruct (C57_json s HF) as (e & E & _ & HJ). exists e. split; [exact E|].
  pose proof (jsonof_size _ _ HJ). unfold size. split; [lia|]. intros HE. apply (jsonof_same _ _ HJ). lia.
Qed.
Lemma p_c99_unescape s t : Fits s -> unescape s = Ok t -> size t <= size s.
Proof. intros HF E. destruct (C62_in_place s t HF E) as [_ H]. unfold size. lia. Qed.

(** Decomposition *)
Lemma full_elen_table : forallb (fun p : N * (N * N) => let ds := F (fst p) in
  Nat.leb (elen (fst p)) (esum ds) && Nat.leb (esum ds) (3 * elen (fst p)) || Nat.eqb (length ds) 4)%bool UD_PAIRS = true.
Proof. vm_compute. reflexivity. Qed.
Lemma full_elen c ds : FullDecomp c ds -> (length ds <= 3)%nat -> (elen c <= esum ds <= 3 * elen c)%nat.
Proof.
  intros H HL. rewrite <- (F_fun _ _ H) in HL |- *. destruct H as [c H|c a b ds HP H].
  - assert (F c = [c]) as -> by (apply F_fun; now constructor). rewrite esum_cons. change (esum []) with 0%nat. lia.
  - pose proof full_elen_table as HT. rewrite forallb_forall in HT. specialize (HT _ HP). cbn [fst] in HT.
    apply Bool.orb_true_iff in HT as [HT|HT].
    + apply Bool.andb_true_iff in HT as [H2 H3]. apply Nat.leb_le in H2, H3. lia.
    + apply Nat.eqb_eq in HT. lia.
Qed.
Lemma dec_size s r t : DecomposedTo s r t -> (length t + 3 * length r <= 3 * length s)%nat.
Proof.
  induction 1; cbn [length]; rewrite ?app_length; try lia.
  destruct (full_elen _ _ H0) as [_ HL]; [lia|]. apply encoded_esum in H2. pose proof (uchar_elen _ _ H). lia.
Qed.
Lemma p_c99_decompose inner s t : to_decomposed inner s = Ok t -> size t <= 3 * size s.
Proof.
  intros H. destruct (C67_cases s) as (r & u & HD & HC).
  destruct HC as [->|[HM|(g & c & ds & r' & -> & Hg & HF & HL)]].
  - rewrite (C67_result inner _ _ HD) in H. assert (u = t) by congruence. subst. apply dec_size in HD. unfold size. cbn [length] in HD. lia.
  - rewrite (C67_malformed inner _ _ _ HD HM) in H. discriminate.
  - rewrite (C67_never_returns_refuted inner _ _ _ _ _ _ HD Hg HF) in H; [discriminate|lia].
Qed.
(** Composition *)
Definition seg_len (x : segment) : nat := match x with Copied g => length g | Made b => length b end.
Lemma whole_len segs : length (whole segs) = list_sum (map seg_len segs).
Proof. induction segs as [|x segs IH]; [reflexivity|]. unfold whole in *. cbn [flat_map map list_sum fold_right]. rewrite app_length, IH. now destruct x. Qed.
Lemma kept_len segs : forall b, (length (kept b segs) <= length (whole segs))%nat.
Proof.
  induction segs as [|x segs IH]; intros b; [apply le_n|]. unfold whole in *. destruct x as [g|m]; cbn [kept flat_map].
  - rewrite !app_length. specialize (IH false). destruct segs as [|[?|?] ?]; destruct b; cbn [length]; lia.
  - rewrite !app_length. specialize (IH true). lia.
Qed.
Lemma composes_elen a m d g b : composes true a m d \/ composes false a m d -> uchar g m -> encodes b d -> (length b <= 1 + length g)%nat.
Proof.
  intros H Hg Hb. assert (exists p q, has_pair d p q /\ p < 0x1000 /\ 0x300 <= m) as (p & q & HP & HL & HM).
  { destruct H as [(H1 & H2 & H3 & _)|(H1 & H2 & H3 & _)]; eauto 6. }
  assert (forallb (fun e : N * (N * N) => (0x1000 <=? fst (snd e)) || Nat.leb (elen (fst e)) 3)%bool UD_PAIRS = true) as HT by (vm_compute; reflexivity).
  rewrite forallb_forall in HT. specialize (HT _ HP). cbn [fst snd] in HT. apply Bool.orb_true_iff in HT as [HT|HT].
  - apply N.leb_le in HT. lia.
  - apply Nat.leb_le in HT. rewrite (encodes_elen _ _ Hb). pose proof (uchar_elen _ _ Hg).
    destruct (elen_cases m) as [[E L]|[[E L]|[[E L]|[E L]]]]; lia.
Qed.
Lemma composing_len adjacent s segs c : Composing adjacent s segs c ->
  (length (whole segs) <= length s)%nat /\ Forall (fun x => (1 <= seg_len x)%nat) segs.
Proof.
  induction 1 as [g c Hg|s segs x c g m d b H [IH1 IH2] Hg Hc Hb|s segs c g m H [IH1 IH2] Hg Hn Ho].
  - rewrite whole_len. cbn [map list_sum fold_right seg_len]. pose proof (uchar_length _ _ Hg).
    split; [lia|]. apply Forall_cons; [cbn [seg_len]; lia|apply Forall_nil].
  - rewrite whole_len in IH1 |- *. rewrite map_app, list_sum_app in IH1 |- *. cbn [map list_sum fold_right seg_len] in IH1 |- *.
    apply Forall_app in IH2 as [F1 F2]. apply Forall_inv in F2. rewrite app_length.
    assert (length b <= 1 + length g)%nat as HB. { apply (composes_elen c m d); [destruct adjacent; tauto|exact Hg|exact Hb]. }
    split; [lia|]. apply Forall_app. split; [exact F1|]. apply Forall_cons; [|apply Forall_nil]. cbn [seg_len].
    rewrite (encodes_elen _ _ Hb). destruct (elen_cases d) as [[E _]|[[E _]|[[E _]|[E _]]]]; lia.
  - rewrite whole_len in IH1 |- *. rewrite map_app, list_sum_app, app_length. cbn [map list_sum fold_right seg_len].
    pose proof (uchar_length _ _ Hg).
    split; [lia|]. apply Forall_app. split; [exact IH2|]. apply Forall_cons; [cbn [seg_len]; lia|apply Forall_nil].
Qed.
Lemma p_c99_compose adjacent s r : to_composed adjacent s = Ok r -> size r <= size s.
Proof.
  intros E. destruct (C70_cases adjacent s) as [->|[HM|[(segs & c & HC)|[(t & segs & c & q & -> & HC & HM)|(t & segs & c & g & m & q & -> & HC & Hg & HO)]]]].
  - vm_compute in E. assert (r = []) by congruence. subst. lia.
  - exfalso. revert E. unfold to_composed. change 0%nat with (length (@nil byte)); rewrite (safe_decode_next_malformed [] s HM : safe_decode_next s (length (@nil byte)) = _). discriminate.
  - rewrite (C68_result _ _ _ _ HC) in E. assert (kept false segs = r) by congruence. subst.
    pose proof (kept_len segs false). apply composing_len in HC as [HC _]. unfold size. lia.
  - rewrite (C68_malformed _ _ _ _ _ HC HM) in E. discriminate.
  - assert (to_composed adjacent (t ++ g ++ q) = UB); [|congruence]. apply C70_undefined. exists t, segs, c, g, m, q. auto.
Qed.

(** UTF-32 *)
Lemma text_lens s cs : Text s cs -> (length cs <= length s <= 4 * length cs)%nat.
Proof. induction 1; [cbn; lia|]. rewrite app_length. cbn [length]. pose proof (uchar_length _ _ H). lia. Qed.
Lemma p_c99_utf32 : (forall s cs, to_utf32 s = Ok cs -> N.of_nat (length cs) <= size s <= 4 * N.of_nat (length cs)) /\
  (forall cs, size (from_utf32 cs) <= 4 * N.of_nat (length cs)).
Proof.
  split.
  - intros s cs E. destruct (text_dec s) as [(ds & HT)|HN].
    + destruct (p_c06 s) as [H _]. destruct (H _ HT) as [_ E']. assert (cs = ds) by congruence. subst.
      apply text_lens in HT. unfold size. lia.
    + destruct (p_c06 s) as [_ H]. destruct (H HN) as [_ E']. congruence.
  - intros cs. pose proof (C02_from_utf32_is_rfc3629 cs) as H. apply encoded_esum in H. unfold size. rewrite H. clear H.
    enough (esum (filter (fun c => c <=? 0x10FFFF)%N cs) <= 4 * length cs)%nat by lia.
    induction cs as [|c cs IH]; [apply le_n|]. cbn [filter length].
    destruct (c <=? 0x10FFFF)%N; [|lia]. rewrite esum_cons. destruct (elen_cases c) as [[E _]|[[E _]|[[E _]|[E _]]]]; lia.
Qed.

(** Repairing and reversing *)
Lemma repaired_size repl s r : Repaired repl s r -> (length r <= Nat.max 1 (length repl) * length s)%nat.
Proof.
  induction 1; [apply Nat.le_0_l| |].
  - rewrite !app_length. nia.
  - cbn [length]. rewrite !app_length. nia.
Qed.
Lemma p_c99_repair s chr : size s <= 0xFFFFFFFF -> exists r, replace_invalid_utf8 s chr = Ok r /\ size r <= 4 * size s /\
  (chr = REPLACEMENT_CHARACTER -> size r <= 3 * size s).
Proof.
  intros H. destruct (C34_replace_invalid_utf8 s chr H) as (r & E & HR & _). exists r. split; [exact E|].
  pose proof (repaired_size _ _ _ HR) as HS. unfold size. split.
  - assert (length (from_utf32_char chr) <= 4)%nat as HL.
    { destruct (C02_from_utf32_char chr) as [H1 H2]. destruct (N.leb_spec chr 0x10FFFF) as [L|L].
      - rewrite (encodes_elen _ _ (H1 L)). destruct (elen_cases chr) as [[E' _]|[[E' _]|[[E' _]|[E' _]]]]; lia.
      - rewrite (H2 L). cbn. lia. }
    nia.
  - intros ->. change (length (from_utf32_char REPLACEMENT_CHARACTER)) with 3%nat in HS. cbn [Nat.max] in HS. lia.
Qed.
Lemma p_c99_reverse s r : Fits s -> reverse s = Ok r -> size r = size s.
Proof.
  intros HF E. destruct (text_dec s) as [(cs & HT)|HN].
  - destruct (C21_one_division s cs HT) as (ps & HC & HE & _). subst s. rewrite (C35_reverse ps HC HF) in E.
    assert (concat (rev ps) = r) by congruence. subst. unfold size. f_equal. clear.
    induction ps as [|p ps IH]; [reflexivity|]. cbn [rev concat]. rewrite concat_app, !app_length, IH. cbn [concat]. rewrite app_nil_r. lia.
  - destruct (text_suffix _ s (le_n _)) as (q & u & cs & -> & HT & [->|HM]); [now destruct (HN cs)|].
    destruct (C35_malformed q u cs HT HM HF) as [H1 H2]. destruct (long_cont_tail_dec q) as [HL|HL]; [rewrite (H2 HL) in E|rewrite (H1 HL) in E]; discriminate.
Qed.
