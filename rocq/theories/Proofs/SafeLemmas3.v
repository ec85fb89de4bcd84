(** No function misbehaves on malformed text (continued): characters, slices, splitting, replacing. *)
From Verif Require Import Base Spec.Utf8Spec Spec.Strings Spec.Safety Model.Decode Model.Encode Model.Subrange Model.Search Model.Split
  Model.CharClass Model.ConvertCase Model.CodepointSet Model.Chars Model.CaseInsensitive
  Proofs.Utf8Lemmas Proofs.DecodeLemmas Proofs.SkipLemmas Proofs.EncodeLemmas Proofs.CodepointLemmas Proofs.Utf8Props Proofs.SearchLemmas Proofs.SafeLemmas Proofs.SafeLemmas2.

(** Pieces of a text *)
Definition piece (t s : str) : Prop := exists u v, s = u ++ t ++ v.
Lemma piece_refl s : piece s s.
Proof. exists [], []. now rewrite app_nil_r. Qed.
Lemma piece_trans a b c : piece a b -> piece b c -> piece a c.
Proof. intros (u & v & ->) (x & y & ->). exists (x ++ u), (v ++ y). now rewrite <- !app_assoc. Qed.
Lemma piece_long t s : piece t s -> long_run t -> long_run s.
Proof. intros (u & v & ->) (x & b & g & y & -> & H). exists (u ++ x), b, g, (y ++ v). split; [|exact H]. rewrite <- !app_assoc. cbn [app]. now rewrite <- app_assoc. Qed.
Lemma piece_fits t s : piece t s -> Fits s -> Fits t.
Proof. intros (u & v & ->). unfold Fits, size. rewrite !app_length. lia. Qed.
Lemma piece_len t s : piece t s -> (length t <= length s)%nat.
Proof. intros (u & v & ->). rewrite !app_length. lia. Qed.
Lemma substr_piece U s p n : runs U (fun t => piece t s /\ size t <= n /\ size t <= size s - p) (substr s p n).
Proof.
  unfold substr. destruct (N.ltb_spec (size s) p); cbn [runs]; [exact I|]. set (k := N.to_nat (N.min n (size s - p))).
  split; [|unfold size, k; rewrite firstn_length, skipn_length; unfold size in *; lia].
  exists (firstn (N.to_nat p) s), (skipn k (skipn (N.to_nat p) s)). now rewrite !firstn_skipn.
Qed.
Lemma substr_from_piece U s p : Fits s -> runs U (fun t => piece t s /\ (p <= size s -> size t + p = size s)) (substr_from s p).
Proof.
  intros HF. unfold substr_from, substr. destruct (N.ltb_spec (size s) p); cbn [runs]; [exact I|].
  rewrite N.min_r by (unfold Fits, npos, SIZE_MAX in *; lia). replace (N.to_nat (size s - p)) with (length (skipn (N.to_nat p) s)) by (rewrite skipn_length; unfold size; lia). rewrite firstn_all. split.
  - exists (firstn (N.to_nat p) s), []. now rewrite app_nil_r, firstn_skipn.
  - intros _. unfold size in *. rewrite skipn_length. lia.
Qed.

(** Characters *)
Lemma next_char_loop_runs U s : forall fuel i, (i <= length s)%nat -> (length s - i < fuel)%nat -> runs U (fun e => (i <= e <= length s)%nat) (next_char_loop fuel s i i).
Proof.
  induction fuel as [|fuel IH]; intros i Hi Hf; [lia|]. cbn [next_char_loop]. rb (safe_next_runs U s i Hi). intros [[c j]|] Hj; [|cbn; lia].
  destruct (is_mark c); [|cbn; lia]. eapply runs_weaken; [apply IH; lia|auto|cbv beta; intros a Ha; lia].
Qed.
Lemma fits_w64 s n : Fits s -> n <= size s -> n < W64.
Proof. unfold Fits, W64. lia. Qed.
Lemma next_char_runs U s o : Fits s -> o <= size s ->
  runs U (fun r => sub_offset r = o /\ o + sub_length r <= size s /\ (sub_length r = 0 -> o = size s)) (get_next_char_range s o).
Proof.
  intros HF Ho. unfold get_next_char_range. rb (runs_begin U s o Ho). intros i (-> & Hi). rb (safe_next_runs U s (N.to_nat o) Hi). intros [[c j]|] Hj.
  - rb (next_char_loop_runs U s (S (length s)) j ltac:(lia) ltac:(lia)). intros e He. cbn [runs sub_offset sub_length].
    rewrite sub64_eq; [|lia|apply (fits_w64 s); [auto|unfold size; lia]]. unfold size. split; [reflexivity|]. split; lia.
  - cbn [runs sub_offset sub_length]. unfold size. split; [reflexivity|]. split; lia.
Qed.
Lemma prev_char_loop_runs s : forall fuel i, (i <= length s)%nat -> (i < fuel)%nat -> runs (long_run s) (fun e => (e <= i)%nat /\ (0 < i -> e < i)%nat) (prev_char_loop fuel s i).
Proof.
  induction fuel as [|fuel IH]; intros i Hi Hf; [lia|]. cbn [prev_char_loop]. rb (safe_prev_runs s i Hi). intros [[c j]|] Hj; [|cbn; lia].
  destruct (is_mark c); [|cbn; lia]. eapply runs_weaken; [apply IH; lia|auto|cbv beta; intros a Ha; lia].
Qed.
Lemma prev_char_runs s o : Fits s -> o <= size s ->
  runs (long_run s) (fun r => sub_offset r + sub_length r = o /\ (sub_length r = 0 -> o = 0)) (get_prev_char_range s o).
Proof.
  intros HF Ho. unfold get_prev_char_range. rb (runs_begin (long_run s) s o Ho). intros i (-> & Hi).
  rb (prev_char_loop_runs s (S (length s)) (N.to_nat o) Hi ltac:(lia)). intros e He. cbn [runs sub_offset sub_length].
  rewrite sub64_eq; [|lia|now apply (fits_w64 s)]. split; lia.
Qed.
Lemma count_chars_runs U s : Fits s -> runs U any (count_chars s).
Proof.
  intros HF. unfold count_chars. cut (forall fuel o n, o <= size s -> (length s - N.to_nat o < fuel)%nat -> runs U any (count_chars_loop fuel s o n)); [intros H; apply H; lia|].
  induction fuel as [|fuel IH]; intros o n Ho Hf; [lia|]. cbn [count_chars_loop]. destruct (N.eqb_spec o (size s)) as [E|E]; cbn [negb]; [exact I|].
  rb (next_char_runs U s o HF Ho). intros r (H1 & H2 & H3). rewrite (sub_end_eq s) by (auto; lia). unfold size in *. apply IH; lia.
Qed.
Lemma char_pos_fwd_runs U s : Fits s -> forall fuel p o, o <= size s -> (length s - N.to_nat o + 1 < fuel)%nat -> runs U (pos_ok s) (char_pos_fwd fuel s p o).
Proof.
  intros HF. induction fuel as [|fuel IH]; intros p o Ho Hf; [lia|]. cbn [char_pos_fwd]. destruct (0 <? p)%Z; [|now right].
  rb (next_char_runs U s o HF Ho). intros r (H1 & H2 & H3). unfold sub_bool. destruct (N.eqb_spec (sub_length r) 0) as [E|E]; cbn [negb]; [now left|].
  rewrite (sub_end_eq s) by (auto; lia). unfold size in *. apply IH; lia.
Qed.
Lemma char_pos_bwd_runs s : Fits s -> forall fuel p o, o <= size s -> (N.to_nat o + 1 < fuel)%nat -> runs (long_run s) (pos_ok s) (char_pos_bwd fuel s p o).
Proof.
  intros HF. induction fuel as [|fuel IH]; intros p o Ho Hf; [lia|]. cbn [char_pos_bwd]. destruct (p <? 0)%Z; [|now right].
  rb (prev_char_runs s o HF Ho). intros r (H1 & H3). unfold sub_bool. destruct (N.eqb_spec (sub_length r) 0) as [E|E]; cbn [negb]; [now left|].
  unfold sub_start. apply IH; lia.
Qed.
Lemma get_char_pos_runs s p : Fits s -> runs (long_run s) (pos_ok s) (get_char_pos s p).
Proof.
  intros HF. unfold get_char_pos. destruct (0 <=? p)%Z; [apply char_pos_fwd_runs; auto; lia|]. apply char_pos_bwd_runs; auto; unfold size; lia.
Qed.
Lemma get_char_range_runs s p : Fits s -> runs (long_run s) (inside s) (get_char_range s p).
Proof.
  intros HF. unfold get_char_range. destruct (0 <=? p)%Z; [|destruct (p <? -1)%Z].
  - rb (get_char_pos_runs s p HF). intros n Hn. destruct (N.eqb_spec n npos); [apply inside_none|]. destruct Hn as [Hn|Hn]; [contradiction|].
    eapply runs_weaken; [apply (next_char_runs (long_run s) s n HF Hn)|auto|cbv beta]. intros r (H1 & H2 & _). right. lia.
  - rb (get_char_pos_runs s (p + 1) HF). intros n Hn. destruct (N.eqb_spec n npos); [apply inside_none|]. destruct Hn as [Hn|Hn]; [contradiction|].
    eapply runs_weaken; [apply (prev_char_runs s n HF Hn)|auto|cbv beta]. intros r (H1 & _). right. lia.
  - eapply runs_weaken; [apply (prev_char_runs s (size s) HF); lia|auto|cbv beta]. intros r (H1 & _). right. lia.
Qed.
Lemma capped_char_runs s p : Fits s -> runs (long_run s) (fun n => n <= size s) (get_capped_char_pos s p).
Proof.
  intros HF. unfold get_capped_char_pos. rb (get_char_pos_runs s p HF). intros n [->|Hn].
  - cbn. destruct (0 <? p)%Z; lia.
  - destruct (negb (n =? npos)); cbn [runs]; [exact Hn|]. destruct (0 <? p)%Z; lia.
Qed.

Lemma signed_runs U z : index z -> runs U (fun y => y = z) (signed z).
Proof. intros H. unfold signed, is_ptrdiff. replace ((PTRDIFF_MIN <=? z) && (z <=? PTRDIFF_MAX))%Z with true by (symmetry; unfold index in H; apply andb_true_iff; split; lia). reflexivity. Qed.

Ltac idx := unfold index, PTRDIFF_MIN, PTRDIFF_MAX in *; lia.
Ltac swap_ends a b := destruct ((b <? a)%Z && Bool.eqb (0 <=? a)%Z (0 <=? b)%Z) eqn:?.

Lemma cp_range_runs U s a b : Fits s -> index a -> index b ->
  runs U (fun r => sub_offset r <= size s) (get_codepoint_substring_range s a b).
Proof.
  intros HF Ha Hb. unfold get_codepoint_substring_range.
  cbv zeta. match goal with |- context [if ?c then a else b] => set (b' := if c then a else b) end. assert (Hb' : index b' /\ ((a < 0)%Z -> (b' < 0)%Z -> (a <= b')%Z) /\ ((0 <= a)%Z -> (0 <= b')%Z -> (a <= b')%Z)).
  { unfold b'. destruct (Z.ltb_spec b a); cbn [andb]; [|split; [exact Hb|split; intros; lia]].
    destruct (Z.leb_spec 0 a), (Z.leb_spec 0 b); cbn [Bool.eqb]; (split; [assumption|split; intros; lia]). }
  clearbody b'. destruct Hb' as (Hb' & Hn & Hp). destruct (Z.leb_spec 0 a); cbn [andb]; [destruct (Z.leb_spec 0 b'); cbn [andb]|].
  - rb (capped_cp_runs U s a Ha). intros st Hst. rb (substr_from_piece U s st HF). intros t (Ht & Lt). rb (signed_runs U (b' - a) ltac:(idx)). intros d ->.
    rb (capped_cp_runs U t (b' - a) ltac:(idx)). intros e He. exact Hst.
  - replace ((a <? 0) && (b' <? 0))%Z with false by lia. replace (b' <? 0)%Z with true by lia.
    rb (capped_cp_runs U s a Ha). intros st Hst. rb (substr_from_piece U s st HF). intros t (Ht & Lt).
    rb (capped_cp_runs U t b' Hb'). intros e He. exact Hst.
  - replace (a <? 0)%Z with true by lia. cbn [andb]. destruct (Z.ltb_spec b' 0).
    + rb (capped_cp_runs U s b' Hb'). intros e He. rb (substr_piece U s 0 e). intros t (Ht & Lt & Lt2). rb (signed_runs U (a - b') ltac:(idx)). intros d ->.
      rb (capped_cp_runs U t (a - b') ltac:(idx)). intros st Hst. cbn [runs sub_offset]. lia.
    + rb (capped_cp_runs U s a Ha). intros st Hst. rb (capped_cp_runs U s b' Hb'). intros e He. exact Hst.
Qed.
Lemma ch_range_runs s a b : Fits s -> index a -> index b ->
  runs (long_run s) (fun r => sub_offset r <= size s) (get_char_substring_range s a b).
Proof.
  intros HF Ha Hb. set (U := long_run s). unfold get_char_substring_range.
  cbv zeta. match goal with |- context [if ?c then a else b] => set (b' := if c then a else b) end. assert (Hb' : index b' /\ ((a < 0)%Z -> (b' < 0)%Z -> (a <= b')%Z) /\ ((0 <= a)%Z -> (0 <= b')%Z -> (a <= b')%Z)).
  { unfold b'. destruct (Z.ltb_spec b a); cbn [andb]; [|split; [exact Hb|split; intros; lia]].
    destruct (Z.leb_spec 0 a), (Z.leb_spec 0 b); cbn [Bool.eqb]; (split; [assumption|split; intros; lia]). }
  assert (C : forall t p, piece t s -> runs U (fun n => n <= size t) (get_capped_char_pos t p)).
  { intros t p Ht. eapply runs_weaken; [apply (capped_char_runs t p (piece_fits _ _ Ht HF))|apply (piece_long _ _ Ht)|cbv beta; auto]. }
  pose proof (piece_refl s) as Hs.
  clearbody b'. destruct Hb' as (Hb' & Hn & Hp). destruct (Z.leb_spec 0 a); cbn [andb]; [destruct (Z.leb_spec 0 b'); cbn [andb]|].
  - rb (C s a Hs). intros st Hst. rb (substr_from_piece U s st HF). intros t (Ht & Lt). rb (signed_runs U (b' - a) ltac:(idx)). intros d ->.
    rb (C t (b' - a)%Z Ht). intros e He. exact Hst.
  - replace ((a <? 0) && (b' <? 0))%Z with false by lia. replace (b' <? 0)%Z with true by lia.
    rb (C s a Hs). intros st Hst. rb (substr_from_piece U s st HF). intros t (Ht & Lt).
    rb (C t b' Ht). intros e He. exact Hst.
  - replace (a <? 0)%Z with true by lia. cbn [andb]. destruct (Z.ltb_spec b' 0).
    + rb (C s b' Hs). intros e He. rb (substr_piece U s 0 e). intros t (Ht & Lt & Lt2). rb (signed_runs U (a - b') ltac:(idx)). intros d ->.
      rb (C t (a - b')%Z Ht). intros st Hst. cbn [runs sub_offset]. lia.
    + rb (C s a Hs). intros st Hst. rb (C s b' Hs). intros e He. exact Hst.
Qed.
Lemma runs_any {A} U (Q : A -> Prop) m : runs U Q m -> runs U any m.
Proof. intros H. eapply runs_weaken; [exact H|auto|]. intros; exact I. Qed.
Lemma cp_substring_runs U s a b : Fits s -> index a -> index b -> runs U (fun t => piece t s) (get_codepoint_substring s a b).
Proof. intros HF Ha Hb. unfold get_codepoint_substring. rb (cp_range_runs U s a b HF Ha Hb). intros r _. eapply runs_weaken; [apply (substr_piece False)|intros []|now intros t (H & _)]. Qed.
Lemma ch_substring_runs s a b : Fits s -> index a -> index b -> runs (long_run s) (fun t => piece t s) (get_char_substring s a b).
Proof. intros HF Ha Hb. unfold get_char_substring. rb (ch_range_runs s a b HF Ha Hb). intros r _. eapply runs_weaken; [apply (substr_piece False)|intros []|now intros t (H & _)]. Qed.
Lemma substr_any U s p n : runs U any (substr s p n).
Proof. eapply runs_any, substr_piece. Qed.
Lemma replace_subrange_runs U s r t : runs U any (replace_subrange s r t).
Proof. unfold replace_subrange, substr_from. rb (substr_any U s 0 (sub_start r)). intros a _. rb (substr_any U s (sub_end r) npos). intros b _. exact I. Qed.
Lemma replace_codepoints_runs U s a b t : Fits s -> index a -> index b -> runs U any (replace_codepoints s a b t).
Proof. intros HF Ha Hb. unfold replace_codepoints. rb (cp_range_runs U s a b HF Ha Hb). intros r _. apply replace_subrange_runs. Qed.
Lemma replace_chars_runs s a b t : Fits s -> index a -> index b -> runs (long_run s) any (replace_chars s a b t).
Proof. intros HF Ha Hb. unfold replace_chars. rb (ch_range_runs s a b HF Ha Hb). intros r _. apply replace_subrange_runs. Qed.
Lemma insert_str_runs U s o t : runs U any (insert_at_offset_str s o t).
Proof. unfold insert_at_offset_str, substr_from. destruct t; [exact I|]. destruct (o =? npos); [exact I|]. rb (substr_any U s 0 o). intros a _. rb (substr_any U s o npos). intros c _. exact I. Qed.
Lemma insert_cp_runs U s o c : runs U any (insert_at_offset_cp s o c).
Proof. unfold insert_at_offset_cp, substr_from. destruct (o =? npos); [exact I|]. rb (substr_any U s 0 o). intros a _. rb (append_runs U a c). intros r _. rb (substr_any U s o npos). intros b _. exact I. Qed.
Lemma insert_codepoint_runs U s p c : index p -> runs U any (insert_codepoint s p c).
Proof. intros H. unfold insert_codepoint. rb (get_codepoint_pos_runs U s p H). intros o _. apply insert_cp_runs. Qed.
Lemma insert_codepoints_runs U s p t : index p -> runs U any (insert_codepoints s p t).
Proof. intros H. unfold insert_codepoints. rb (get_codepoint_pos_runs U s p H). intros o _. apply insert_str_runs. Qed.
Lemma insert_char_runs s p c : Fits s -> runs (long_run s) any (insert_char s p c).
Proof. intros H. unfold insert_char. rb (get_char_pos_runs s p H). intros o _. apply insert_cp_runs. Qed.
Lemma insert_chars_runs s p t : Fits s -> runs (long_run s) any (insert_chars s p t).
Proof. intros H. unfold insert_chars. rb (get_char_pos_runs s p H). intros o _. apply insert_str_runs. Qed.

Lemma reverse_runs s : Fits s -> runs (long_run s) any (reverse s).
Proof.
  intros HF. unfold reverse. cut (forall fuel o r, o <= size s -> (N.to_nat o < fuel)%nat -> runs (long_run s) any (reverse_loop fuel s o r)); [intros H; apply H; unfold size; lia|].
  induction fuel as [|fuel IH]; intros o res Ho Hf; [lia|]. cbn [reverse_loop]. destruct (N.eqb_spec o 0) as [E|E]; cbn [negb]; [exact I|].
  rb (prev_char_runs s o HF Ho). intros r (H1 & H2). rewrite (sub_end_eq s) by (auto; lia).
  rb (runs_begin (long_run s) s (sub_start r) ltac:(unfold sub_start; lia)). intros b _. rb (runs_begin (long_run s) s (sub_offset r + sub_length r) ltac:(lia)). intros e _.
  unfold sub_start. apply IH; lia.
Qed.

(** Trimming *)
Lemma trim_end_where_runs s p : runs (long_run s) (fun t => piece t s) (trim_end_where s p).
Proof.
  unfold trim_end_where. rb (flw_runs s (fun c => negb (p c)) npos). intros [r c] _. destruct (negb (sub_bool r)); [exists [], s; reflexivity|].
  eapply runs_weaken; [apply (substr_piece False)|intros []|now intros t (H & _)].
Qed.
Lemma trim_start_where_runs U s p : runs U (fun t => piece t s) (trim_start_where s p).
Proof.
  unfold trim_start_where. rb (ffw_runs U s (fun c => negb (p c)) 0 ltac:(lia)). intros [r c] _. destruct (negb (sub_bool r)); [exists [], s; reflexivity|].
  unfold substr_from. eapply runs_weaken; [apply (substr_piece False)|intros []|now intros t (H & _)].
Qed.
Lemma trim_where_runs s p : runs (long_run s) (fun t => piece t s) (trim_where s p).
Proof.
  unfold trim_where. rb (trim_start_where_runs (long_run s) s p). intros t Ht. eapply runs_weaken; [apply (trim_end_where_runs t p)|apply (piece_long _ _ Ht)|cbv beta].
  intros x Hx. exact (piece_trans _ _ _ Hx Ht).
Qed.

(** Splitting with any finder that stays inside the text *)
Lemma split_where_runs U s f m ig : Fits s ->
  (forall t, piece t s -> runs U (inside t) (f t)) -> runs U any (split_where s f m ig).
Proof.
  intros HF Hf. unfold split_where.
  set (good := fun t : token_iterator => piece (ti_str t) s /\ inside (ti_str t) (ti_token t)).
  set (left := fun t : token_iterator => if sub_bool (ti_token t) then (length (ti_str t) - N.to_nat (sub_offset (ti_token t) + sub_length (ti_token t)) + 1)%nat
                      else if sub_offset (ti_token t) =? 0 then (length (ti_str t) + 1)%nat else 0%nat).
  assert (L : forall fuel t r, good t -> (left t < fuel)%nat -> runs U any (split_loop fuel f m ig t r)).
  { induction fuel as [|fuel IH]; intros t r (G1 & G2) Hl; [lia|]. cbn [split_loop]. destruct (N.of_nat (length r) <? m); [|exact I].
    assert (F : forall u, piece u s -> (length u < fuel)%nat -> runs U any
      (let* p := (let* tok := f u in Ok (true, TI u (if negb (sub_bool tok) then Sub SIZE_MAX (sub_length tok) else tok))) in
       let (ok, t) := p in if ok then let* part := ti_part t in split_loop fuel f m ig t (if negb ig || negb (is_nil part) then r ++ [part] else r) else Ok (r, t))).
    { intros u Hu Lu. eapply (runs_bind U (fun p : bool * token_iterator => fst p = true /\ exists k, inside u k /\ snd p = TI u (if negb (sub_bool k) then Sub SIZE_MAX (sub_length k) else k))).
      { eapply runs_bind; [apply (Hf u Hu)|]. intros tok Htok. cbn [runs fst snd]. split; [reflexivity|]. now exists tok. }
      cbv beta. intros [ok t'] (E1 & tok & Htok & E2). cbn [fst snd] in E1, E2. subst ok t'.
      eapply runs_bind; [|intros part _; apply IH].
      - unfold ti_part. cbn [ti_str ti_token]. destruct (sub_bool _); [apply substr_any|]. destruct (negb _); exact I.
      - split; [exact Hu|]. cbn [ti_str ti_token]. destruct (sub_bool tok) eqn:E; cbn [negb]; [exact Htok|]. unfold sub_bool in E. apply negb_false_iff, N.eqb_eq in E. left. exact E.
      - unfold left. cbn [ti_str ti_token]. destruct (sub_bool tok) eqn:E; cbn [negb]; [rewrite E|].
        + unfold sub_bool in E. destruct (N.eqb_spec (sub_length tok) 0); [discriminate|]. destruct Htok as [Z|Z]; [contradiction|]. unfold size in Z. lia.
        + unfold sub_bool in *. cbn [sub_length sub_offset]. rewrite E. cbn. lia. }
    unfold ti_next. unfold left in Hl. destruct (sub_bool (ti_token t)) eqn:E.
    - unfold sub_bool in E. destruct (N.eqb_spec (sub_length (ti_token t)) 0); [discriminate|]. destruct G2 as [Z|Z]; [contradiction|].
      rewrite (sub_end_eq (ti_str t)) by (try exact Z; eapply piece_fits; eauto).
      pose proof (substr_from_piece U (ti_str t) (sub_offset (ti_token t) + sub_length (ti_token t)) (piece_fits _ _ G1 HF)) as Hs.
      destruct (substr_from (ti_str t) (sub_offset (ti_token t) + sub_length (ti_token t))) as [u| | |]; cbn [bind]; try exact Hs.
      destruct Hs as (Hu & Lu). apply F; [exact (piece_trans _ _ _ Hu G1)|]. unfold size in *. lia.
    - unfold sub_start. destruct (N.eqb_spec (sub_offset (ti_token t)) 0); cbn [negb]; [|exact I]. apply F; [exact G1|]. lia. }
  eapply runs_bind; [apply L|].
  - split; [apply piece_refl|left; reflexivity].
  - unfold left. cbn. lia.
  - intros [r t] _. destruct (ti_bool t); [|exact I]. eapply (runs_bind U any); [|intros; exact I].
    unfold ti_remainder, substr_from. destruct (sub_bool (ti_token t) || (sub_start (ti_token t) =? 0)); [apply substr_any|exact I].
Qed.
Lemma first_inside_weak U s o m : runs U (first_inside s o) m -> runs U (inside s) m.
Proof. intros H. eapply runs_weaken; [exact H|auto|]. now intros r (H1 & _). Qed.
Lemma found_inside s o r : found_at s o r -> inside s (fst r).
Proof. intros [->|(i & j & c & H1 & H2 & H3 & ->)]; cbn [fst]; [apply inside_none|apply inside_its; lia]. Qed.
Lemma split_chars_runs U s l m ig : Fits s -> runs U any (split_chars s l m ig).
Proof. intros HF. apply split_where_runs; [exact HF|]. intros t Ht. unfold find_first_of. rb (ffw_runs U t (fun c => u32_contains l c) 0 ltac:(lia)). intros r Hr. apply (found_inside t _ r Hr). Qed.
Lemma ci_split_chars_runs U s l m ig : Fits s -> runs U any (ci_split_chars s l m ig).
Proof. intros HF. apply split_where_runs; [exact HF|]. intros t Ht. unfold ci_find_first_of. rb (ffw_runs U t (fun c => u32_ci_contains l c) 0 ltac:(lia)). intros r Hr. apply (found_inside t _ r Hr). Qed.
Lemma split_sep_runs U s p m ig : Fits s -> runs U any (split_sep s p m ig).
Proof. intros HF. apply split_where_runs; [exact HF|]. intros t Ht. apply (first_inside_weak U t 0), find_first_runs. lia. Qed.
Lemma split_lines_runs U after s m ig : In 0 after -> Fits s -> runs U any (split_lines after s m ig).
Proof. intros HZ HF. apply split_where_runs; [exact HF|]. intros t Ht. apply (first_inside_weak U t 0), find_first_newline_runs; [exact HZ|lia|]. exact (piece_fits _ _ Ht HF). Qed.
