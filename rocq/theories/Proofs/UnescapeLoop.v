(** The in-place loop of [unescape]. *)
From Verif Require Import Base Spec.Utf8Spec Spec.Strings Spec.Escape Model.Decode Model.Encode Model.Subrange Model.Unescape
  Proofs.Utf8Lemmas Proofs.DecodeLemmas Proofs.EncodeLemmas Proofs.CodepointLemmas Proofs.SearchLemmas Proofs.NumeralLemmas Proofs.EscapeScan
  Proofs.UnescapeLemmas Proofs.UnescapeStep.
From Coq Require Import ZifyBool ZifyNat ZifyN.

Lemma written_encode v : written v (fst (encode_utf8 v)) /\ encode_utf8 v = (fst (encode_utf8 v), size (fst (encode_utf8 v))).
Proof.
  split.
  - destruct (N.le_gt_cases v 0x10FFFF) as [H|H].
    + left. split; [exact H|now apply encode_encodes].
    + right. split; [exact H|]. now rewrite encode_large.
  - unfold size. rewrite encode_length. reflexivity.
Qed.
Lemma written_fun v b b' : written v b -> written v b' -> b = b'.
Proof.
  intros [[H1 H2]|[H1 H2]] [[H3 H4]|[H3 H4]]; try lia; [now apply (encodes_fun b b' v)|congruence].
Qed.
Lemma written_spec v b : written v b -> encode_utf8 v = (b, size b).
Proof.
  intros H. destruct (written_encode v) as [H1 H2]. rewrite (written_fun v b _ H H1). exact H2.
Qed.
Lemma written_size v b : written v b -> size b = if v <? 0x80 then 1 else if v <? 0x800 then 2 else if v <? 0x10000 then 3 else if v <=? 0x10FFFF then 4 else 0.
Proof. intros H. apply written_spec in H. injection H as _ H. rewrite <- H. reflexivity. Qed.

(** An escape sequence is never shorter than what it stands for. *)
Lemma pow16_lb a b : a <= b -> 16 ^ a <= 16 ^ b.
Proof. apply N.pow_le_mono_r. lia. Qed.
Lemma Denotes_shorter e r v b : Denotes e r v -> written v b -> (length b <= length e)%nat.
Proof.
  intros HD HW. apply written_size in HW. unfold size in HW.
  assert (B : N.of_nat (length b) <= 4 /\ (v < 0x10000 -> N.of_nat (length b) <= 3) /\ (v < 0x800 -> N.of_nat (length b) <= 2)).
  { destruct (N.ltb_spec v 0x80); [lia|]. destruct (N.ltb_spec v 0x800); [lia|].
    destruct (N.ltb_spec v 0x10000); [lia|]. destruct (N.leb_spec v 0x10FFFF); lia. }
  destruct HD as [c v r Hc|c r Hc1 Hc2 Hc3|x ds v r Hx Hl Hds Hv Hr|ds v r Hl Hds|ds v r Hl Hds HS
                 |ds1 hi ds2 lo r L1 H1 S1 L2 H2 S2|ds v r Hl Hds HS HN|ds v r Hl Hds Hr]; rewrite ?app_length; cbn [length].
  - assert (v < 0x800); [|lia]. cbn [letters In] in Hc.
    repeat (destruct Hc as [Hc|Hc]; [injection Hc as <- <-; reflexivity|]). destruct Hc.
  - lia.
  - lia.
  - lia.
  - lia.
  - lia.
  - lia.
  - assert (v < 0x200) by (apply (oct_lt ds v); [lia|exact Hds]). lia.
Qed.

(** ** The buffer operations *)

Lemma write_at_app out (b x : str) : (length b <= length x)%nat ->
  write_at (out ++ x) (size out) b = Ok (out ++ b ++ skipn (length b) x).
Proof.
  intros L. unfold write_at. rewrite size_app. replace (size out + size b <=? size out + size x) with true by (unfold size; lia).
  rewrite size_nat, firstn_length_app. do 3 f_equal.
  replace (N.to_nat (size out + size b)) with (length out + length b)%nat by (unfold size; lia).
  rewrite skipn_app, skipn_all2 by lia. cbn [app]. f_equal. lia.
Qed.

Lemma copy_step out mid lits w : Fits (out ++ mid ++ lits ++ w) ->
  (if negb (size (out ++ mid) =? size out)
   then copy_within (out ++ mid ++ lits ++ w) (size (out ++ mid)) (size (out ++ mid ++ lits)) (size out)
   else Ok (out ++ mid ++ lits ++ w))
  = Ok (out ++ lits ++ skipn (length lits) (mid ++ lits) ++ w).
Proof.
  intros HF. destruct mid as [|m mid].
  - rewrite app_nil_r, N.eqb_refl. cbn [negb app]. rewrite skipn_all. reflexivity.
  - replace (size (out ++ m :: mid) =? size out) with false by sz. cbn [negb].
    unfold copy_within.
    replace ((size (out ++ m :: mid) <=? size (out ++ (m :: mid) ++ lits)) && (size (out ++ (m :: mid) ++ lits) <=? size (out ++ (m :: mid) ++ lits ++ w)) &&
       ((size out <? size (out ++ m :: mid)) || (size (out ++ (m :: mid) ++ lits) <=? size out))) with true by sz.
    rewrite !size_nat. rewrite (app_assoc out (m :: mid) (lits ++ w)).
    rewrite (slice_app (out ++ m :: mid) lits w) by (rewrite ?app_length; cbn [length]; lia).
    rewrite <- app_assoc. rewrite (write_at_app out lits) by (rewrite !app_length; lia).
    do 3 f_equal. rewrite (app_assoc (m :: mid) lits w). rewrite skipn_app.
    replace (length lits - length ((m :: mid) ++ lits))%nat with 0%nat by (rewrite app_length; lia). reflexivity.
Qed.

Definition shifted (mid lits : str) : str := skipn (length lits) (mid ++ lits).
Lemma shifted_length mid lits : length (shifted mid lits) = length mid.
Proof. unfold shifted. rewrite skipn_length, app_length. lia. Qed.

Lemma loop_step fuel out mid lits w n : Fits (out ++ mid ++ lits ++ w) ->
  find_first_escaped_char (out ++ mid ++ lits ++ w) (size (out ++ mid)) = Ok (Sub (size (out ++ mid ++ lits)) n) ->
  unescape_loop (S fuel) (out ++ mid ++ lits ++ w) (size (out ++ mid)) (size out)
  = let buf := (out ++ lits) ++ shifted mid lits ++ w in
    if n =? 0 then Ok (buf, size (out ++ lits))
    else
      let* p := unescape_one buf (Sub (size ((out ++ lits) ++ shifted mid lits)) n) in
      let (ch, sub) := p in
      let (bytes, k) := encode_utf8 ch in
      let* buf := write_at buf (size (out ++ lits)) bytes in
      unescape_loop fuel buf (sub_end sub) (add64 (size (out ++ lits)) k).
Proof.
  intros HF HE. cbn [unescape_loop]. rewrite HE. cbn [bind sub_start sub_offset].
  rewrite copy_step by exact HF. cbn [bind].
  replace (add64 (size out) (sub64 (size (out ++ mid ++ lits)) (size (out ++ mid)))) with (size (out ++ lits)).
  2:{ rewrite sub64_small by sz. rewrite add64_small by sz. sz. }
  unfold sub_bool. cbn [sub_length]. rewrite negb_involutive.
  replace (size (out ++ mid ++ lits)) with (size ((out ++ lits) ++ shifted mid lits)).
  2:{ unfold size. rewrite !app_length, shifted_length. lia. }
  fold (shifted mid lits). rewrite <- !app_assoc. reflexivity.
Qed.

(** ** Reading *)

Lemma Reads_lits ok x r : (r = [] \/ exists q, r = x5c :: q) -> forall lits t, ~ In x5c lits ->
  Reads ok (lits ++ x) r t -> exists t', t = lits ++ t' /\ (length r <= length x)%nat /\ Reads ok x r t'.
Proof.
  intros Hr. induction lits as [|c lits IH]; intros t HL HR.
  - exists t. repeat split; [|exact HR]. cbn [app] in HR. clear - HR. induction HR; [lia|cbn [length app]; lia|rewrite app_length; lia].
  - cbn [app] in HR. remember (c :: lits ++ x) as s eqn:Es.
    destruct HR as [s|c' s r t Hc HR|e v b s r t HD Hok Hw HR].
    + subst s. destruct Hr as [Hr|[q Hr]]; [discriminate Hr|]. injection Hr as -> _. elim HL. now left.
    + injection Es as -> ->. destruct (IH t) as (t' & -> & HLn & HR'); [intros Hin; apply HL; now right|exact HR|].
      exists t'. auto.
    + destruct (Denotes_bs _ _ _ HD) as (c' & q & ->). cbn [app] in Es. injection Es as <- _. elim HL. now left.
Qed.
Lemma Reads_nil ok r t : Reads ok [] r t -> r = [] /\ t = [].
Proof.
  intros H. remember [] as s eqn:Es. destruct H as [s|c' s r t Hc HR|e v b s r t HD Hok Hw HR]; [auto|discriminate|].
  destruct (Denotes_bs _ _ _ HD) as (c' & q & ->). discriminate Es.
Qed.

Lemma BadEscape_bs w : BadEscape w -> exists q, w = x5c :: q.
Proof. destruct 1; cbn [app]; eauto. Qed.
Lemma Rejected_bs w : Rejected w -> exists q, w = x5c :: q.
Proof. destruct 1; cbn [app]; eauto. now apply BadEscape_bs. Qed.
Lemma Undefined_bs w : Undefined w -> exists q, w = x5c :: q.
Proof. destruct 1; cbn [app]; eauto. Qed.

Lemma write_at_cases buf pos b : write_at buf pos b = UB \/ exists buf', write_at buf pos b = Ok buf' /\ size buf' = size buf.
Proof.
  unfold write_at. destruct (N.leb_spec (pos + size b) (size buf)) as [L|L]; [right|now left].
  eexists. split; [reflexivity|]. unfold size in *. rewrite !app_length, firstn_length, skipn_length. lia.
Qed.

Lemma loop_spec n : forall w, (length w <= n)%nat -> forall out mid fuel r t,
  (length w < fuel)%nat -> Fits (out ++ mid ++ w) -> Reads handled w r t ->
  (r = [] -> unescape_loop fuel (out ++ mid ++ w) (size (out ++ mid)) (size out)
             = Ok (out ++ t ++ skipn (length t) (mid ++ w), size (out ++ t)) /\ (length t <= length w)%nat) /\
  (Undefined r -> unescape_loop fuel (out ++ mid ++ w) (size (out ++ mid)) (size out) = UB) /\
  (Rejected r -> unescape_loop fuel (out ++ mid ++ w) (size (out ++ mid)) (size out) = Throw YstringException).
Proof.
  induction n as [n IH] using lt_wf_ind. intros w Hn out mid fuel r t Hf HF HR.
  destruct fuel as [|fuel]; [lia|].
  destruct (backslash_cut w) as [NB|(lits & q & -> & NB)].
  - (* nothing to unescape *)
    assert (K : (r = [] \/ exists q, r = x5c :: q) -> r = [] /\ t = w).
    { intros Hr. rewrite <- (app_nil_r w) in HR. destruct (Reads_lits handled [] r Hr w t NB HR) as (t' & -> & _ & HR').
      apply Reads_nil in HR' as [-> ->]. now rewrite app_nil_r. }
    split; [|split].
    + intros Hr. destruct (K (or_introl Hr)) as [_ ->]. split; [|lia].
      pose proof (loop_step fuel out mid w [] 0) as LS. rewrite app_nil_r in LS. rewrite LS; [|exact HF|].
      * cbn zeta. cbn [N.eqb]. f_equal. f_equal. unfold shifted. now rewrite app_nil_r, <- app_assoc.
      * rewrite app_assoc. rewrite ffe_none by exact NB. now rewrite <- app_assoc.
    + intros HU. destruct (Undefined_bs _ HU) as [q Hq]. destruct (K (or_intror (ex_intro _ q Hq))). congruence.
    + intros HU. destruct (Rejected_bs _ HU) as [q Hq]. destruct (K (or_intror (ex_intro _ q Hq))). congruence.
  - assert (K : (r = [] \/ exists q, r = x5c :: q) -> exists t', t = lits ++ t' /\ Reads handled (x5c :: q) r t').
    { intros Hr. destruct (Reads_lits handled (x5c :: q) r Hr lits t NB HR) as (t' & E & _ & HR'). eauto. }
    set (P := (out ++ lits) ++ shifted mid lits).
    assert (HP : forall m, P ++ m = (out ++ lits) ++ shifted mid lits ++ m) by (intros m; unfold P; now rewrite <- app_assoc).
    assert (LP : length P = length (out ++ mid ++ lits)) by (unfold P; rewrite !app_length, shifted_length; lia).
    assert (HFP : Fits (P ++ x5c :: q)) by (unfold Fits, size in *; rewrite !app_length in *; rewrite ?LP, ?app_length; lia).
    (* a step that consumes an escape sequence *)
    assert (STEP : forall e s v b t'', x5c :: q = e ++ s -> Denotes e s v -> handled e s -> written v b -> Reads handled s r t'' ->
      t = lits ++ b ++ t'' ->
      (r = [] -> unescape_loop (S fuel) (out ++ mid ++ lits ++ x5c :: q) (size (out ++ mid)) (size out)
             = Ok (out ++ t ++ skipn (length t) (mid ++ lits ++ x5c :: q), size (out ++ t)) /\ (length t <= length (lits ++ x5c :: q))%nat) /\
      (Undefined r -> unescape_loop (S fuel) (out ++ mid ++ lits ++ x5c :: q) (size (out ++ mid)) (size out) = UB) /\
      (Rejected r -> unescape_loop (S fuel) (out ++ mid ++ lits ++ x5c :: q) (size (out ++ mid)) (size out) = Throw YstringException)).
    { intros e s v b t'' E HD HH HW HR' Et. rewrite E in *.
      destruct (one_denotes e s v HD HH) as (k & HE & HO).
      destruct (Denotes_bs _ _ _ HD) as (c1 & q1 & Ee).
      pose proof (Denotes_shorter e s v b HD HW) as Lb.
      assert (Le : (2 <= length e)%nat) by (rewrite Ee; cbn [length]; lia).
      rewrite (loop_step fuel out mid lits (e ++ s) k); [|exact HF|].
      2:{ rewrite app_assoc. rewrite (ffe_extent (out ++ mid) lits (e ++ s) k); [now rewrite <- app_assoc|now rewrite <- app_assoc|exact NB|exact HE]. }
      cbn zeta. replace (k =? 0) with false by (apply Extent_pos in HE; lia).
      fold P. rewrite <- HP, HO by exact HFP. cbn [bind]. rewrite (written_spec v b HW). rewrite HP.
      rewrite write_at_app by (rewrite !app_length; lia). cbn [bind].
      assert (S1 : skipn (length b) (shifted mid lits ++ e ++ s) = skipn (length b) (shifted mid lits ++ e) ++ s).
      { rewrite (app_assoc _ e s), skipn_app. replace (length b - length (shifted mid lits ++ e))%nat with 0%nat by (rewrite app_length; lia). reflexivity. }
      rewrite S1. set (mid' := skipn (length b) (shifted mid lits ++ e)) in *.
      assert (Lm : (length mid' = length mid + length e - length b)%nat).
      { unfold mid'. rewrite skipn_length, app_length, shifted_length. lia. }
      replace ((out ++ lits) ++ b ++ mid' ++ s) with (((out ++ lits) ++ b) ++ mid' ++ s) by now rewrite <- !app_assoc.
      assert (HF1 : Fits (((out ++ lits) ++ b) ++ mid' ++ s)) by (unfold Fits, size in *; rewrite !app_length in *; lia).
      replace (sub_end (Sub (size P) (size e))) with (size (((out ++ lits) ++ b) ++ mid')).
      2:{ unfold sub_end. cbn [sub_offset sub_length].
          rewrite add64_small by (unfold Fits, size, W64 in *; rewrite !app_length in *; lia).
          unfold size. rewrite !app_length, LP, !app_length, Lm. lia. }
      replace (add64 (size (out ++ lits)) (size b)) with (size ((out ++ lits) ++ b)).
      2:{ rewrite add64_small by (unfold Fits, size, W64 in *; rewrite !app_length in *; lia). now rewrite (size_app (out ++ lits)). }
      rewrite !app_length in Hn, Hf.
      assert (Ls : (length s < n)%nat) by lia.
      assert (Lf : (length s < fuel)%nat) by lia.
      specialize (IH (length s) Ls s (le_n _) ((out ++ lits) ++ b) mid' fuel r t'' Lf HF1 HR').
      destruct IH as (I1 & I2 & I3). split; [|split; assumption].
      intros Hr. destruct (I1 Hr) as [I1' I1l]. rewrite I1'. rewrite Et. rewrite !app_length. split; [|lia].
      f_equal. f_equal.
      - rewrite <- !app_assoc. do 4 f_equal. rewrite <- S1. unfold shifted.
        replace (skipn (length lits) (mid ++ lits) ++ e ++ s) with (skipn (length lits) (mid ++ lits ++ e ++ s)).
        + rewrite !skipn_skipn. f_equal. lia.
        + rewrite (app_assoc mid lits), skipn_app. replace (length lits - length (mid ++ lits))%nat with 0%nat by (rewrite app_length; lia). reflexivity.
      - now rewrite <- !app_assoc. }
    split; [|split].
    + intros Hr. destruct (K (or_introl Hr)) as (t' & Et & HR'). remember (x5c :: q) as w eqn:Ew.
      destruct HR' as [s|c s r t' Hc HR'|e v b s r t' HD Hok Hw HR'].
      * subst s. discriminate Hr.
      * injection Ew as -> _. congruence.
      * apply (STEP e s v b t' eq_refl HD Hok Hw HR' Et). exact Hr.
    + intros HU. destruct (K (or_intror (Undefined_bs _ HU))) as (t' & Et & HR'). remember (x5c :: q) as w eqn:Ew.
      destruct HR' as [s|c s r t' Hc HR'|e v b s r t' HD Hok Hw HR'].
      * destruct (one_undefined s HU) as (k & HE & HO).
        rewrite (loop_step fuel out mid lits s k); [|exact HF|].
        2:{ rewrite app_assoc. destruct HE as [HE|HE];
            [rewrite (ffe_extent (out ++ mid) lits s k)|rewrite (ffe_overhang (out ++ mid) lits s k)];
            try (now rewrite <- app_assoc); assumption. }
        cbn zeta. replace (k =? 0) with false by (destruct HE as [HE|HE]; [apply Extent_pos in HE|apply Overhang_pos in HE]; lia).
        fold P. rewrite <- HP. destruct (HO P HFP) as [->|(v & k' & -> & Hk)]; [reflexivity|].
        cbn [bind]. destruct (encode_utf8 v) as [bytes m].
        destruct (write_at_cases (P ++ s) (size (out ++ lits)) bytes) as [->|(buf' & -> & Sb)]; [reflexivity|]. cbn [bind].
        destruct fuel as [|fuel]; [rewrite app_length in Hf; rewrite Ew in Hf; cbn [length] in Hf; lia|].
        cbn [unescape_loop]. unfold find_first_escaped_char, begin_plus. rewrite Sb.
        replace (sub_end (Sub (size P) k')) with (size P + k')
          by (unfold sub_end; cbn [sub_offset sub_length]; rewrite add64_small; [reflexivity|clear - HFP Hk; unfold Fits, size, W64 in *; rewrite app_length in *; lia]).
        rewrite size_app. replace (size P + k' <=? size P + size s) with false by lia. reflexivity.
      * injection Ew as -> _. congruence.
      * apply (STEP e s v b t' eq_refl HD Hok Hw HR' Et). exact HU.
    + intros HU. destruct (K (or_intror (Rejected_bs _ HU))) as (t' & Et & HR'). remember (x5c :: q) as w eqn:Ew.
      destruct HR' as [s|c s r t' Hc HR'|e v b s r t' HD Hok Hw HR'].
      * destruct (one_rejected s HU) as [HB|(k & HE & HO)].
        { cbn [unescape_loop]. rewrite app_assoc. rewrite ffe_bad; [reflexivity|now rewrite <- app_assoc|exact NB|exact HB]. }
        rewrite (loop_step fuel out mid lits s k); [|exact HF|].
        2:{ rewrite app_assoc. destruct HE as [HE|HE];
            [rewrite (ffe_extent (out ++ mid) lits s k)|rewrite (ffe_overhang (out ++ mid) lits s k)];
            try (now rewrite <- app_assoc); assumption. }
        cbn zeta. replace (k =? 0) with false by (destruct HE as [HE|HE]; [apply Extent_pos in HE|apply Overhang_pos in HE]; lia).
        fold P. rewrite <- HP. now rewrite (HO P HFP).
      * injection Ew as -> _. congruence.
      * apply (STEP e s v b t' eq_refl HD Hok Hw HR' Et). exact HU.
Qed.

(** Every text is read up to its end, a rejected or an undefined escape sequence. *)
Lemma reads_total n : forall s, (length s <= n)%nat ->
  exists r t, Reads handled s r t /\ (r = [] \/ Rejected r \/ Undefined r).
Proof.
  induction n as [n IH] using lt_wf_ind. intros s Hn.
  destruct s as [|c s]; [exists [], []; split; [constructor|now left]|].
  destruct (Byte.byte_eq_dec c x5c) as [->|Hc].
  - destruct (head_cases s) as [(e & r & v & E & HD & HH)|[HR|HU]].
    + destruct (Denotes_bs _ _ _ HD) as (c1 & q1 & Ee). rewrite E in *. rewrite app_length in Hn.
      assert (Lr : (length r < n)%nat) by (rewrite Ee in Hn; cbn [length] in Hn; lia).
      destruct (IH (length r) Lr r (le_n _)) as (r' & t & HR & D).
      destruct (written_encode v) as [HW _].
      exists r', (fst (encode_utf8 v) ++ t). split; [now apply (reads_escape _ e v)|exact D].
    + exists (x5c :: s), []. split; [constructor|auto].
    + exists (x5c :: s), []. split; [constructor|auto].
  - cbn [length] in Hn. assert (Lr : (length s < n)%nat) by lia.
    destruct (IH (length s) Lr s (le_n _)) as (r' & t & HR & D).
    exists r', (c :: t). split; [now constructor|exact D].
Qed.

Lemma buf_ok s t : Fits s -> Reads handled s [] t ->
  unescape_buf s = Ok (t ++ skipn (length t) s, size t) /\ (length t <= length s)%nat.
Proof.
  intros HF HR. pose proof (loop_spec (length s) s (le_n _) [] [] (S (length s)) [] t (Nat.lt_succ_diag_r _) HF HR) as (H & _ & _).
  cbn [app] in H. exact (H eq_refl).
Qed.
Lemma buf_ub s r t : Fits s -> Reads handled s r t -> Undefined r -> unescape_buf s = UB.
Proof.
  intros HF HR HU. pose proof (loop_spec (length s) s (le_n _) [] [] (S (length s)) r t (Nat.lt_succ_diag_r _) HF HR) as (_ & H & _).
  cbn [app] in H. exact (H HU).
Qed.
Lemma buf_throw s r t : Fits s -> Reads handled s r t -> Rejected r -> unescape_buf s = Throw YstringException.
Proof.
  intros HF HR HU. pose proof (loop_spec (length s) s (le_n _) [] [] (S (length s)) r t (Nat.lt_succ_diag_r _) HF HR) as (_ & _ & H).
  cbn [app] in H. exact (H HU).
Qed.
Lemma unescape_ok s t : Fits s -> Reads handled s [] t -> unescape s = Ok t.
Proof.
  intros HF HR. unfold unescape. destruct (buf_ok s t HF HR) as [-> L]. cbn [bind].
  rewrite size_nat, firstn_length_app, app_length, skipn_length.
  replace (length t - (length t + (length s - length t)))%nat with 0%nat by lia. cbn [repeat]. now rewrite app_nil_r.
Qed.

(** C60, C61 in full *)
Lemma p_c61_ok s t : Fits s -> unescape s = Ok t <-> Reads handled s [] t.
Proof.
  intros HF. split; [|now apply unescape_ok].
  intros E. destruct (reads_total (length s) s (le_n _)) as (r & t' & HR & [->|[D|D]]).
  - rewrite (unescape_ok s t' HF HR) in E. now injection E as ->.
  - unfold unescape in E. rewrite (buf_throw s r t' HF HR D) in E. discriminate E.
  - unfold unescape in E. rewrite (buf_ub s r t' HF HR D) in E. discriminate E.
Qed.
Lemma p_c61_throw s : Fits s -> unescape s = Throw YstringException <-> exists r t, Reads handled s r t /\ Rejected r.
Proof.
  intros HF. split.
  - intros E. destruct (reads_total (length s) s (le_n _)) as (r & t' & HR & [->|[D|D]]).
    + rewrite (unescape_ok s t' HF HR) in E. discriminate E.
    + eauto.
    + unfold unescape in E. rewrite (buf_ub s r t' HF HR D) in E. discriminate E.
  - intros (r & t & HR & D). unfold unescape. now rewrite (buf_throw s r t HF HR D).
Qed.
Lemma p_c60_ub s : Fits s -> unescape s = UB <-> exists r t, Reads handled s r t /\ Undefined r.
Proof.
  intros HF. split.
  - intros E. destruct (reads_total (length s) s (le_n _)) as (r & t' & HR & [->|[D|D]]).
    + rewrite (unescape_ok s t' HF HR) in E. discriminate E.
    + unfold unescape in E. rewrite (buf_throw s r t' HF HR D) in E. discriminate E.
    + eauto.
  - intros (r & t & HR & D). unfold unescape. now rewrite (buf_ub s r t HF HR D).
Qed.
Lemma p_c60_total s : Fits s -> (exists t, unescape s = Ok t) \/ unescape s = Throw YstringException \/ unescape s = UB.
Proof.
  intros HF. destruct (reads_total (length s) s (le_n _)) as (r & t & HR & [->|[D|D]]).
  - left. exists t. now apply unescape_ok.
  - right. left. apply p_c61_throw; eauto.
  - right. right. apply p_c60_ub; eauto.
Qed.
