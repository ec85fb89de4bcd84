(** C111: the caller's variables after a call. *)
From Verif Require Import Base Model.Decode Model.Encode Model.Subrange Model.Search Model.Escape Model.Unescape Model.Callbacks Model.References.
From Verif Require Import Spec.Utf8Spec Spec.Strings Spec.Escape.
From Verif Require Import Proofs.Utf8Lemmas Proofs.DecodeLemmas Proofs.EncodeLemmas Proofs.CodepointLemmas Proofs.SearchLemmas Proofs.NumeralLemmas
  Proofs.EscapeScan Proofs.UnescapeLemmas Proofs.UnescapeStep Proofs.UnescapeLoop Proofs.UnescapeNext Proofs.Utf8Props.

(** The buffer version agrees with the one of Model/Unescape.v. *)
Definition keep {A} (p : outcome A * str) : outcome (str * A) :=
  match p with (Ok a, b) => Ok (b, a) | (Throw e, _) => Throw e | (UB, _) => UB | (OutOfFuel, _) => OutOfFuel end.

Lemma unescape_loop_keep fuel : forall buf from to, keep (unescape_loop_ref fuel from to buf) = unescape_loop fuel buf from to.
Proof.
  induction fuel as [|fuel IH]; intros buf from to; [reflexivity|].
  cbn [unescape_loop_ref unescape_loop]. unfold fx_bind, reading, writing, fx_lift.
  destruct (find_first_escaped_char buf from) as [sub| | |]; cbn [bind]; try reflexivity.
  destruct (negb (from =? to)).
  - destruct (copy_within buf from (sub_start sub) to) as [buf'| | |]; cbn [bind]; try reflexivity.
    destruct (negb (sub_bool sub)); [reflexivity|].
    destruct (unescape_one buf' sub) as [[ch sub']| | |]; cbn [bind]; try reflexivity.
    destruct (encode_utf8 ch) as [bytes n].
    destruct (write_at buf' (add64 to (sub64 (sub_start sub) from)) bytes) as [buf''| | |]; cbn [bind]; try reflexivity.
    apply IH.
  - cbn [bind]. destruct (negb (sub_bool sub)); [reflexivity|].
    destruct (unescape_one buf sub) as [[ch sub']| | |]; cbn [bind]; try reflexivity.
    destruct (encode_utf8 ch) as [bytes n].
    destruct (write_at buf (add64 to (sub64 (sub_start sub) from)) bytes) as [buf''| | |]; cbn [bind]; try reflexivity.
    apply IH.
Qed.

Lemma loop_step_ref fuel out mid lits w n : Fits (out ++ mid ++ lits ++ w) -> n <> 0 ->
  find_first_escaped_char (out ++ mid ++ lits ++ w) (size (out ++ mid)) = Ok (Sub (size (out ++ mid ++ lits)) n) ->
  unescape_loop_ref (S fuel) (size (out ++ mid)) (size out) (out ++ mid ++ lits ++ w)
  = fx_bind (reading (fun buf => unescape_one buf (Sub (size ((out ++ lits) ++ shifted mid lits)) n))) (fun p =>
      let (ch, sub) := p in
      let (bytes, k) := encode_utf8 ch in
      fx_bind (writing (fun buf => write_at buf (size (out ++ lits)) bytes)) (fun _ =>
      unescape_loop_ref fuel (sub_end sub) (add64 (size (out ++ lits)) k)))
      ((out ++ lits) ++ shifted mid lits ++ w).
Proof.
  intros HF Hn HE. cbn [unescape_loop_ref]. unfold fx_bind at 1. unfold reading at 1. rewrite HE. cbn [sub_start sub_offset].
  assert (CS := copy_step out mid lits w HF).
  unfold fx_bind at 1.
  assert (E : (if negb (size (out ++ mid) =? size out)
     then writing (fun buf : str => copy_within buf (size (out ++ mid)) (size (out ++ mid ++ lits)) (size out))
     else fx_lift (Ok tt)) (out ++ mid ++ lits ++ w) = (Ok tt, (out ++ lits) ++ shifted mid lits ++ w)).
  { unfold shifted. rewrite <- app_assoc. destruct (negb (size (out ++ mid) =? size out)).
    - unfold writing. now rewrite CS.
    - injection CS as CS. unfold fx_lift. now rewrite CS. }
  rewrite E. clear E.
  replace (add64 (size out) (sub64 (size (out ++ mid ++ lits)) (size (out ++ mid)))) with (size (out ++ lits)).
  2:{ rewrite sub64_small by sz. rewrite add64_small by sz. sz. }
  unfold sub_bool. cbn [sub_length]. rewrite (proj2 (N.eqb_neq n 0) Hn). cbn [negb].
  replace (size (out ++ mid ++ lits)) with (size ((out ++ lits) ++ shifted mid lits)).
  2:{ unfold size. rewrite !app_length, shifted_length. lia. }
  reflexivity.
Qed.

Lemma loop_throw n : forall w, (length w <= n)%nat -> forall out mid fuel r t,
  (length w < fuel)%nat -> Fits (out ++ mid ++ w) -> Reads handled w r t -> Rejected r ->
  exists t1 t2 a, t = t1 ++ t2 /\ w = a ++ t2 ++ r /\ ~ In x5c t2 /\ (length t1 <= length a)%nat /\
    unescape_loop_ref fuel (size (out ++ mid)) (size out) (out ++ mid ++ w)
    = (Throw YstringException, out ++ t1 ++ skipn (length t1) (mid ++ w)).
Proof.
  induction n as [n IH] using lt_wf_ind. intros w Hn out mid fuel r t Hf HF HR HU.
  destruct fuel as [|fuel]; [lia|].
  destruct (Rejected_bs _ HU) as [qr Hqr].
  destruct (backslash_cut w) as [NB|(lits & q & -> & NB)].
  { exfalso. rewrite <- (app_nil_r w) in HR. destruct (Reads_lits handled [] r (or_intror (ex_intro _ qr Hqr)) w t NB HR) as (t' & -> & _ & HR').
    apply Reads_nil in HR' as [-> _]. discriminate. }
  destruct (Reads_lits handled (x5c :: q) r (or_intror (ex_intro _ qr Hqr)) lits t NB HR) as (t' & -> & _ & HR').
  set (P := (out ++ lits) ++ shifted mid lits).
  assert (HP : forall m, P ++ m = (out ++ lits) ++ shifted mid lits ++ m) by (intros m; unfold P; now rewrite <- app_assoc).
  assert (LP : length P = length (out ++ mid ++ lits)) by (unfold P; rewrite !app_length, shifted_length; lia).
  assert (HFP : Fits (P ++ x5c :: q)) by (unfold Fits, size in *; rewrite !app_length in *; rewrite ?LP, ?app_length; lia).
  remember (x5c :: q) as w eqn:Ew.
  destruct HR' as [s|c s r t' Hc HR'|e v b s r t' HD Hok Hw HR'].
  - (* the rejected sequence itself *)
    destruct (one_rejected s HU) as [HB|(k & HE & HO)].
    + exists [], lits, []. rewrite app_nil_r. split; [reflexivity|]. split; [reflexivity|]. split; [exact NB|]. split; [cbn; lia|].
      cbn [unescape_loop_ref]. unfold fx_bind at 1, reading at 1. rewrite app_assoc.
      rewrite ffe_bad; [|now rewrite <- app_assoc|exact NB|exact HB]. cbn [app length skipn]. now rewrite <- app_assoc.
    + exists lits, [], lits. rewrite app_nil_r. split; [reflexivity|]. split; [reflexivity|]. split; [intros []|]. split; [lia|].
      rewrite (loop_step_ref fuel out mid lits s k); [|exact HF| |].
      2:{ destruct HE as [HE|HE]; [apply Extent_pos in HE|apply Overhang_pos in HE]; lia. }
      2:{ rewrite app_assoc. destruct HE as [HE|HE];
          [rewrite (ffe_extent (out ++ mid) lits s k)|rewrite (ffe_overhang (out ++ mid) lits s k)];
          try (now rewrite <- app_assoc); assumption. }
      fold P. rewrite <- HP. unfold fx_bind at 1, reading at 1. rewrite (HO P HFP). f_equal.
      rewrite HP. unfold shifted. rewrite <- !app_assoc. do 2 f_equal.
      rewrite (app_assoc mid lits s), (skipn_app (length lits) (mid ++ lits) s). replace (length lits - length (mid ++ lits))%nat with 0%nat by (rewrite app_length; lia). reflexivity.
  - injection Ew as -> _. congruence.
  - destruct (one_denotes e s v HD Hok) as (k & HE & HO).
    destruct (Denotes_bs _ _ _ HD) as (c1 & q1 & Ee).
    pose proof (Denotes_shorter e s v b HD Hw) as Lb.
    assert (Le : (2 <= length e)%nat) by (rewrite Ee; cbn [length]; lia).
    rewrite (loop_step_ref fuel out mid lits (e ++ s) k); [|exact HF| |].
    2:{ apply Extent_pos in HE; lia. }
    2:{ rewrite app_assoc. rewrite (ffe_extent (out ++ mid) lits (e ++ s) k); [now rewrite <- app_assoc|now rewrite <- app_assoc|exact NB|exact HE]. }
    fold P. rewrite <- HP. unfold fx_bind at 1, reading at 1. rewrite HO by exact HFP. rewrite (written_spec v b Hw).
    unfold fx_bind at 1, writing at 1. rewrite HP.
    rewrite write_at_app by (rewrite !app_length; lia).
    assert (S1 : skipn (length b) (shifted mid lits ++ e ++ s) = skipn (length b) (shifted mid lits ++ e) ++ s).
    { rewrite (app_assoc _ e s), skipn_app. replace (length b - length (shifted mid lits ++ e))%nat with 0%nat by (rewrite app_length; lia). reflexivity. }
    rewrite S1. set (mid' := skipn (length b) (shifted mid lits ++ e)) in *.
    assert (Lm : (length mid' = length mid + length e - length b)%nat).
    { unfold mid'. rewrite skipn_length, app_length, shifted_length. lia. }
    replace ((out ++ lits) ++ b ++ mid' ++ s) with (((out ++ lits) ++ b) ++ mid' ++ s) by now rewrite <- !app_assoc.
    assert (HF1 : Fits (((out ++ lits) ++ b) ++ mid' ++ s)) by (unfold Fits, size in *; rewrite !app_length in *; lia).
    replace (sub_end (Sub (size P) (size e))) with (size (((out ++ lits) ++ b) ++ mid')).
    2:{ unfold sub_end. cbn [sub_offset sub_length].
        rewrite add64_small by (unfold Fits, size, W64 in *; rewrite !app_length in *; lia).
        unfold size. rewrite !app_length, LP, !app_length, Lm. lia. }
    replace (add64 (size (out ++ lits)) (size b)) with (size ((out ++ lits) ++ b)).
    2:{ rewrite add64_small by (unfold Fits, size, W64 in *; rewrite !app_length in *; lia). now rewrite (size_app (out ++ lits)). }
    rewrite !app_length in Hn, Hf.
    assert (Ls : (length s < n)%nat) by lia.
    assert (Lf : (length s < fuel)%nat) by lia.
    destruct (IH (length s) Ls s (le_n _) ((out ++ lits) ++ b) mid' fuel r t' Lf HF1 HR' HU) as (t1 & t2 & a & -> & Es & NB2 & L1 & ET).
    exists (lits ++ b ++ t1), t2, (lits ++ e ++ a). rewrite Es. split; [now rewrite <- !app_assoc|]. split; [now rewrite <- !app_assoc|].
    split; [exact NB2|]. split; [rewrite !app_length; lia|]. rewrite <- Es, ET. f_equal.
    rewrite <- !app_assoc, !app_length. do 4 f_equal. rewrite <- S1. unfold shifted.
    replace (skipn (length lits) (mid ++ lits) ++ e ++ s) with (skipn (length lits) (mid ++ lits ++ e ++ s)).
    + rewrite !skipn_skipn. f_equal. lia.
    + rewrite (app_assoc mid lits), (skipn_app (length lits) (mid ++ lits) (e ++ s)). replace (length lits - length (mid ++ lits))%nat with 0%nat by (rewrite app_length; lia). reflexivity.
Qed.

Lemma p_c111_next pre r ch :
  (r = [] -> safe_decode_next_ref (pre ++ r) (length pre, ch) = (Ok false, (length pre, ch))) /\
  (forall g c t, r = g ++ t -> uchar g c -> safe_decode_next_ref (pre ++ r) (length pre, ch) = (Ok true, ((length pre + length g)%nat, c))) /\
  (Malformed r -> safe_decode_next_ref (pre ++ r) (length pre, ch) = (Throw YstringException, (length pre, INVALID_CHAR))).
Proof.
  unfold safe_decode_next_ref. repeat split.
  - intros ->. now rewrite app_nil_r, Nat.eqb_refl.
  - intros g c t -> H. assert (L := uchar_length g c H).
    replace (Nat.eqb (length pre) (length (pre ++ g ++ t))) with false by (symmetry; apply Nat.eqb_neq; rewrite !app_length; lia).
    rewrite decode_next_uchar with (c := c) by exact H. now rewrite (INVALID_not_uchar g c H).
  - intros H. replace (Nat.eqb (length pre) (length (pre ++ r))) with false.
    2:{ symmetry; apply Nat.eqb_neq; rewrite !app_length. destruct H as [H _]. destruct r; [contradiction|cbn; lia]. }
    rewrite decode_next_malformed by exact H. reflexivity.
Qed.
Lemma p_c111_prev r post ch :
  (r = [] -> safe_decode_prev_ref (r ++ post) (length r, ch) = (Ok false, (length r, ch))) /\
  (forall t g c, r = t ++ g -> uchar g c -> safe_decode_prev_ref (r ++ post) (length r, ch) = (Ok true, (length t, c))) /\
  (MalformedEnd r -> ~ long_cont_tail r -> safe_decode_prev_ref (r ++ post) (length r, ch) = (Throw YstringException, (length r, INVALID_CHAR))).
Proof.
  unfold safe_decode_prev_ref. repeat split.
  - now intros ->.
  - intros t g c -> H. assert (L := uchar_length g c H).
    replace (Nat.eqb 0 (length (t ++ g))) with false by (symmetry; apply Nat.eqb_neq; rewrite !app_length; lia).
    rewrite <- app_assoc. rewrite app_length. rewrite decode_prev_uchar with (c := c) by exact H. now rewrite (INVALID_not_uchar g c H).
  - intros H HL. replace (Nat.eqb 0 (length r)) with false.
    2:{ symmetry; apply Nat.eqb_neq. destruct H as [H _]. destruct r; [contradiction|cbn; lia]. }
    rewrite decode_prev_malformed by assumption. reflexivity.
Qed.
Lemma p_c111_pop ch0 s :
  (s = [] -> pop_utf8_codepoint_ref ch0 s = (Ok None, s)) /\
  (forall g c t, s = g ++ t -> uchar g c -> pop_utf8_codepoint_ref ch0 s = (Ok (Some c), t)) /\
  (Malformed s -> pop_utf8_codepoint_ref ch0 s = (Throw YstringException, s)).
Proof.
  destruct (p_c111_next [] s ch0) as (H1 & H2 & H3). cbn [app length plus] in *. unfold pop_utf8_codepoint_ref. repeat split.
  - intros E. now rewrite (H1 E).
  - intros g c t E H. rewrite (H2 g c t E H). subst s. now rewrite skipn_length_app.
  - intros H. now rewrite (H3 H).
Qed.
Lemma p_c111_pop_last ch0 s :
  (s = [] -> pop_last_utf8_codepoint_ref ch0 s = (Ok None, s)) /\
  (forall t g c, s = t ++ g -> uchar g c -> pop_last_utf8_codepoint_ref ch0 s = (Ok (Some c), t)) /\
  (MalformedEnd s -> ~ long_cont_tail s -> pop_last_utf8_codepoint_ref ch0 s = (Throw YstringException, s)).
Proof.
  destruct (p_c111_prev s [] ch0) as (H1 & H2 & H3). rewrite app_nil_r in *. unfold pop_last_utf8_codepoint_ref. repeat split.
  - intros E. now rewrite (H1 E).
  - intros t g c E H. rewrite (H2 t g c E H). subst s. now rewrite firstn_length_app.
  - intros H HL. now rewrite (H3 H HL).
Qed.
Lemma p_c111_flag s s' b : unescape_next s = ((Throw YstringException, s'), b) ->
  (s' = [x5c] /\ b = None) \/ (exists t, s' = x5c :: t /\ t <> [] /\ b = Some true) \/ (exists a t, s' = a :: t /\ a <> x5c /\ b = Some false).
Proof.
  unfold unescape_next. destruct (skip_escaped_newlines s) as [|a t]; [discriminate|].
  destruct (byte_eqb a x5c) eqn:Ea; cbn [negb].
  - apply byte_eqb_eq in Ea as ->. destruct t as [|ty t]; [intros E; injection E as <- <-; auto|].
    destruct (unescape_switch (x5c :: ty :: t) ty t) as [[r|[]| |] s2]; intros E; try discriminate.
    injection E as <- <-. right. left. exists (ty :: t). split; [reflexivity|]. split; [discriminate|reflexivity].
  - intros E. right. right. exists a, t. unfold pop_view in E.
    destruct (pop_utf8_codepoint (a :: t)) as [[c s2]| | |]; try discriminate. injection E as _ <- <-.
    split; [reflexivity|]. split; [|reflexivity]. intros ->. discriminate Ea.
Qed.
Lemma p_c111_buffer_ok s b n : unescape_buf s = Ok (b, n) <-> unescape_buf_ref s = (Ok n, b).
Proof.
  unfold unescape_buf, unescape_buf_ref. rewrite <- unescape_loop_keep.
  destruct (unescape_loop_ref (S (length s)) 0 0 s) as [[m| | |] b']; cbn [keep]; split; congruence.
Qed.
Lemma p_c111_buffer s b : Fits s -> unescape_buf_ref s = (Throw YstringException, b) ->
  exists a t2 r t1, s = a ++ t2 ++ r /\ Reads handled s r (t1 ++ t2) /\ Rejected r /\ ~ In x5c t2 /\ (length t1 <= length a)%nat /\
    b = t1 ++ skipn (length t1) s.
Proof.
  intros HF E.
  assert (ET : unescape s = Throw YstringException).
  { unfold unescape, unescape_buf. rewrite <- unescape_loop_keep. fold (unescape_buf_ref s). rewrite E. reflexivity. }
  apply (p_c61_throw s HF) in ET as (r & t & HR & HRj).
  destruct (loop_throw (length s) s (le_n _) [] [] (S (length s)) r t (Nat.lt_succ_diag_r _) HF HR HRj)
    as (t1 & t2 & a & -> & Es & NB & L & EL).
  cbn [app] in EL. change (size []) with 0 in EL. unfold unescape_buf_ref in E. rewrite E in EL. injection EL as ->.
  exists a, t2, r, t1. repeat split; auto.
Qed.
