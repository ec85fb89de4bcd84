(** contains, count_codepoints, is_valid_utf8, append, pop / remove, boundaries. *)
From Verif Require Import Base Spec.Utf8Spec Spec.Strings Spec.Boundaries Model.Decode Model.Encode Model.Subrange Model.Search
  Proofs.Utf8Lemmas Proofs.DecodeLemmas Proofs.SkipLemmas Proofs.EncodeLemmas.
From Coq Require Import ZifyBool ZifyNat ZifyN.
Ltac Zify.zify_post_hook ::= Z.div_mod_to_equations.

(** ** is_valid_utf8 *)

Lemma is_valid_loop_text cs : forall pre t fuel,
  Text t cs -> (length cs < fuel)%nat ->
  is_valid_utf8_loop fuel (pre ++ t) (length pre) = Ok true.
Proof.
  induction cs as [|c cs IH]; intros pre t fuel HT Hf; (destruct fuel as [|fuel]; [lia|]); cbn [is_valid_utf8_loop].
  - apply Text_nil_inv in HT. subst t. rewrite app_nil_r, Nat.eqb_refl. reflexivity.
  - apply Text_cons_inv in HT. destruct HT as (g & t' & -> & Hg & HT).
    pose proof (uchar_length _ _ Hg).
    replace (Nat.eqb (length pre) (length (pre ++ g ++ t'))) with false by (rewrite !app_length; lia).
    rewrite decode_next_uchar with (c := c) by exact Hg. cbn [bind].
    rewrite (INVALID_not_uchar g) by exact Hg.
    rewrite app_assoc, <- app_length. apply IH; auto. cbn in Hf; lia.
Qed.

Lemma is_valid_loop_malformed cs : forall pre t r fuel,
  Text t cs -> Malformed r -> (length cs < fuel)%nat ->
  is_valid_utf8_loop fuel (pre ++ t ++ r) (length pre) = Ok false.
Proof.
  induction cs as [|c cs IH]; intros pre t r fuel HT Hr Hf; (destruct fuel as [|fuel]; [lia|]); cbn [is_valid_utf8_loop].
  - apply Text_nil_inv in HT. subst t. cbn [app].
    destruct Hr as [Hne Hr].
    replace (Nat.eqb (length pre) (length (pre ++ r))) with false
      by (rewrite app_length; destruct r; [congruence|cbn; lia]).
    rewrite decode_next_malformed by (split; assumption). reflexivity.
  - apply Text_cons_inv in HT. destruct HT as (g & t' & -> & Hg & HT).
    pose proof (uchar_length _ _ Hg). rewrite <- app_assoc.
    replace (Nat.eqb (length pre) (length (pre ++ g ++ t' ++ r))) with false by (rewrite !app_length; lia).
    rewrite decode_next_uchar with (c := c) by exact Hg. cbn [bind].
    rewrite (INVALID_not_uchar g) by exact Hg.
    rewrite app_assoc, <- app_length. apply IH; auto. cbn in Hf; lia.
Qed.

Lemma is_valid_text s cs : Text s cs -> is_valid_utf8 s = Ok true.
Proof.
  intros H. unfold is_valid_utf8. apply (is_valid_loop_text cs [] s); auto.
  apply Text_length in H. lia.
Qed.

Lemma is_valid_malformed u cs r : Text u cs -> Malformed r -> is_valid_utf8 (u ++ r) = Ok false.
Proof.
  intros H Hr. unfold is_valid_utf8. apply (is_valid_loop_malformed cs [] u r); auto.
  apply Text_length in H. rewrite app_length. lia.
Qed.

Lemma not_Text_inv s : (forall cs, ~ Text s cs) ->
  exists u cs r, s = u ++ r /\ Text u cs /\ Malformed r.
Proof.
  intros H. destruct (text_prefix s) as (u & cs & r & -> & HT & [->|Hr]).
  - rewrite app_nil_r in H. destruct (H _ HT).
  - eauto 6.
Qed.

Lemma Text_dec s : (exists cs, Text s cs) \/ (forall cs, ~ Text s cs).
Proof.
  destruct (text_prefix s) as (u & cs & r & -> & HT & [->|Hr]).
  - left. rewrite app_nil_r. eauto.
  - right. intros ds HD. destruct (Text_app_inv _ _ _ _ HT HD) as (es & -> & He).
    exact (Malformed_not_Text _ _ Hr He).
Qed.

Lemma is_valid_spec s : exists b, is_valid_utf8 s = Ok b /\ (b = true <-> exists cs, Text s cs).
Proof.
  destruct (Text_dec s) as [[cs H]|H].
  - exists true. split; [now apply is_valid_text with cs|]. split; eauto.
  - exists false. destruct (not_Text_inv s H) as (u & cs & r & -> & HT & Hr).
    split; [now apply is_valid_malformed with cs|]. split; [discriminate|].
    intros [ds HD]. destruct (H ds HD).
Qed.

Lemma to_utf32_spec s :
  (forall cs, Text s cs -> to_utf32 s = Ok cs) /\
  ((forall cs, ~ Text s cs) -> to_utf32 s = Throw YstringException).
Proof.
  split; [intros; now apply to_utf32_text|].
  intros H. destruct (not_Text_inv s H) as (u & cs & r & -> & HT & Hr).
  now apply to_utf32_malformed with cs.
Qed.

(** RFC 3629 *)

Lemma rfc3629_Text s : rfc3629_valid s -> exists cs, Text s cs.
Proof.
  intros (cs & HE & HF). exists cs. apply Encoded_Text; [exact HE|].
  eapply Forall_impl; [|exact HF]. now intros c [H _].
Qed.

(** Shortest forms of the sequences accepted by the decoder. *)
Lemma uchar_encodes g c : uchar g c -> c <= 0x10FFFF ->
  (length g = 1%nat \/ (length g = 2%nat /\ 0x80 <= c) \/ (length g = 3%nat /\ 0x800 <= c) \/
   (length g = 4%nat /\ 0x10000 <= c)) -> encodes g c.
Proof.
  intros Hg Hc Hl. unfold encodes, rfc3629_bytes. unfold cont in *.
  inversion Hg as [a Ha E1 E2|a b Ha Hb E1 E2|a b d Ha Hb Hd E1 E2|a b d e Ha Hb Hd He E1 E2];
    clear Hg; subst g; unfold cont in *; cbn [length map] in *.
  - rewrite E2. now replace (c <=? 0x7F) with true by lia.
  - rewrite ?E2. replace (c <=? 0x7F) with false by lia. replace (c <=? 0x7FF) with true by lia. conseq.
  - rewrite ?E2. replace (c <=? 0x7F) with false by lia. replace (c <=? 0x7FF) with false by lia.
    replace (c <=? 0xFFFF) with true by lia. conseq.
  - rewrite ?E2. replace (c <=? 0x7F) with false by lia. replace (c <=? 0x7FF) with false by lia.
    replace (c <=? 0xFFFF) with false by lia. conseq.
Qed.

Lemma filter_all {A} (f : A -> bool) l : Forall (fun x => f x = true) l -> filter f l = l.
Proof. induction 1 as [|x l Hx H IH]; [reflexivity|]. cbn. now rewrite Hx, IH. Qed.

Lemma Encoded_fun s cs : forall s', Encoded s cs -> Encoded s' cs -> s = s'.
Proof.
  intros s' H. revert s'. induction H as [|g c s cs Hg H IH]; intros s' H'; inversion H' as [|g' ? t ? Hg' Ht]; subst; [reflexivity|].
  f_equal; [now apply encodes_fun with c|now apply IH].
Qed.

Lemma rfc3629_check s :
  rfc3629_valid s <-> exists cs, to_utf32 s = Ok cs /\ Forall scalar cs /\ from_utf32 cs = s.
Proof.
  split.
  - intros (cs & HE & HF). exists cs.
    assert (HB : Forall (fun c => c <= 0x10FFFF) cs) by (eapply Forall_impl; [|exact HF]; now intros c [H _]).
    split; [apply to_utf32_text; now apply Encoded_Text|]. split; [exact HF|].
    apply Encoded_fun with cs; [|exact HE].
    pose proof (from_utf32_Encoded cs) as H. rewrite filter_all in H; [exact H|].
    eapply Forall_impl; [|exact HB]. cbn. intros; lia.
  - intros (cs & _ & HF & <-). exists cs. split; [|exact HF].
    pose proof (from_utf32_Encoded cs) as H. rewrite filter_all in H; [exact H|].
    eapply Forall_impl; [|exact HF]. cbn. intros c [Hc _]; lia.
Qed.

Lemma valid_not_rfc s cs : Text s cs -> from_utf32 cs <> s \/ ~ Forall scalar cs -> ~ rfc3629_valid s.
Proof.
  intros HT H HR. apply rfc3629_check in HR. destruct HR as (ds & H1 & H2 & H3).
  rewrite (to_utf32_text s cs HT) in H1. injection H1 as <-. tauto.
Qed.

(** ** contains *)

Lemma contains_loop_text cs c : forall pre t r fuel,
  Text t cs -> ~ In c cs -> (r = [] \/ Malformed r) -> (length cs < fuel)%nat ->
  contains_loop fuel (pre ++ t ++ r) c (length pre)
  = match r with [] => Ok false | _ => Throw YstringException end.
Proof.
  induction cs as [|d cs IH]; intros pre t r fuel HT Hc Hr Hf; (destruct fuel as [|fuel]; [lia|]); cbn [contains_loop].
  - apply Text_nil_inv in HT. subst t. cbn [app]. destruct Hr as [->|Hr].
    + rewrite app_nil_r, safe_decode_next_end. reflexivity.
    + rewrite safe_decode_next_malformed by exact Hr.
      destruct r; [destruct Hr; congruence|reflexivity].
  - apply Text_cons_inv in HT. destruct HT as (g & t' & -> & Hg & HT).
    rewrite <- app_assoc.
    rewrite safe_decode_next_uchar with (c := d) by exact Hg. cbn [bind].
    cbn in Hc. replace (d =? c) with false by lia.
    rewrite app_assoc, <- app_length. apply IH; auto. cbn in Hf; lia.
Qed.

Lemma contains_loop_found cs c : forall pre t r fuel,
  Text t cs -> In c cs -> (length cs < fuel)%nat ->
  contains_loop fuel (pre ++ t ++ r) c (length pre) = Ok true.
Proof.
  induction cs as [|d cs IH]; intros pre t r fuel HT Hc Hf; (destruct fuel as [|fuel]; [lia|]); cbn [contains_loop].
  - destruct Hc.
  - apply Text_cons_inv in HT. destruct HT as (g & t' & -> & Hg & HT).
    rewrite <- app_assoc.
    rewrite safe_decode_next_uchar with (c := d) by exact Hg. cbn [bind].
    destruct (N.eqb_spec d c) as [->|Hn]; [reflexivity|].
    rewrite app_assoc, <- app_length. apply IH; auto; [|cbn in Hf; lia].
    destruct Hc; [congruence|assumption].
Qed.

Lemma contains_spec u cs r c : Text u cs -> (r = [] \/ Malformed r) ->
  contains (u ++ r) c =
    (if existsb (N.eqb c) cs then Ok true
     else match r with [] => Ok false | _ => Throw YstringException end).
Proof.
  intros HT Hr. unfold contains.
  assert (Hl : (length cs < S (length (u ++ r)))%nat)
    by (apply Text_length in HT; rewrite app_length; lia).
  destruct (existsb (N.eqb c) cs) eqn:E.
  - apply existsb_exists in E. destruct E as (x & Hx & Ex). apply N.eqb_eq in Ex. subst x.
    now apply (contains_loop_found cs c [] u r).
  - apply (contains_loop_text cs c [] u r); auto.
    intros Hin. assert (existsb (N.eqb c) cs = true); [|congruence].
    apply existsb_exists. exists c. split; [exact Hin|apply N.eqb_refl].
Qed.

(** ** count_codepoints *)

Lemma count_loop_text cs : forall pre t fuel n,
  Text t cs -> (length cs < fuel)%nat -> n + N.of_nat (length cs) < W64 ->
  count_codepoints_loop fuel (pre ++ t) (length pre) n = Ok (n + N.of_nat (length cs)).
Proof.
  induction cs as [|d cs IH]; intros pre t fuel n HT Hf Hn; (destruct fuel as [|fuel]; [lia|]); cbn [count_codepoints_loop].
  - apply Text_nil_inv in HT. subst t. rewrite app_nil_r, skip_next_end. cbn [bind length]. f_equal. lia.
  - apply Text_cons_inv in HT. destruct HT as (g & t' & -> & Hg & HT).
    rewrite skip_next_uchar with (c := d) by exact Hg. cbn [bind].
    cbn [length] in *.
    unfold add64. rewrite (N.mod_small (n + 1)) by lia.
    rewrite app_assoc, <- app_length.
    rewrite IH; auto; [|lia|lia]. f_equal. lia.
Qed.

Lemma count_text s cs : Fits s -> Text s cs -> count_codepoints s = Ok (N.of_nat (length cs)).
Proof.
  intros HF HT. unfold count_codepoints, Fits, size in *. pose proof (Text_length _ _ HT).
  apply (count_loop_text cs [] s); auto; [lia|]. unfold W64. lia.
Qed.

(** ** append *)

Lemma append_ok s c : c <= 0x10FFFF ->
  exists g, encodes g c /\ append_to s c = (Ok tt, s ++ g) /\ append s c = Ok (s ++ g).
Proof.
  intros H. exists (fst (encode_utf8 c)). split; [now apply encode_encodes|].
  pose proof (encode_length c). pose proof (encode_uchar c H) as Hu. apply uchar_length in Hu.
  unfold append, append_to. destruct (encode_utf8 c) as [b n] eqn:E.
  assert (n = get_utf8_encoded_length c) as Hn by (unfold encode_utf8 in E; congruence).
  cbn [fst] in *. replace (n =? 0) with false by lia. now split.
Qed.

Lemma append_bad s c : 0x10FFFF < c ->
  append_to s c = (Throw YstringException, s) /\ append s c = Throw YstringException.
Proof.
  intros H. unfold append, append_to. rewrite encode_large by exact H.
  cbn. rewrite app_nil_r. now split.
Qed.

(** ** pop / remove *)

Lemma skipn_length_app {A} (u v : list A) : skipn (length u) (u ++ v) = v.
Proof. rewrite skipn_app, skipn_all, Nat.sub_diag. reflexivity. Qed.
Lemma firstn_length_app {A} (u v : list A) : firstn (length u) (u ++ v) = u.
Proof. rewrite firstn_app, firstn_all, Nat.sub_diag. cbn. apply app_nil_r. Qed.

Lemma pop_first_ok g c t : uchar g c -> pop_utf8_codepoint (g ++ t) = Ok (Some c, t).
Proof.
  intros H. unfold pop_utf8_codepoint.
  change 0%nat with (length (@nil byte)). change (g ++ t) with ([] ++ g ++ t) at 1.
  rewrite safe_decode_next_uchar with (c := c) by exact H. cbn [bind length Nat.add].
  now rewrite skipn_length_app.
Qed.
Lemma pop_first_malformed r : Malformed r -> pop_utf8_codepoint r = Throw YstringException.
Proof.
  intros H. unfold pop_utf8_codepoint.
  change 0%nat with (length (@nil byte)). change r with ([] ++ r) at 1.
  now rewrite safe_decode_next_malformed.
Qed.
Lemma pop_last_ok g c t : uchar g c -> pop_last_utf8_codepoint (t ++ g) = Ok (Some c, t).
Proof.
  intros H. unfold pop_last_utf8_codepoint.
  rewrite app_length. rewrite <- (app_nil_r g) at 1.
  rewrite safe_decode_prev_uchar with (c := c) by exact H. cbn [bind].
  now rewrite firstn_length_app.
Qed.
Lemma pop_last_malformed r : MalformedEnd r -> ~ long_cont_tail r ->
  pop_last_utf8_codepoint r = Throw YstringException.
Proof.
  intros H H'. unfold pop_last_utf8_codepoint.
  rewrite <- (app_nil_r r) at 1.
  now rewrite safe_decode_prev_malformed.
Qed.
Lemma remove_first_ok g c t : uchar g c -> remove_utf8_codepoint (g ++ t) = Ok (true, t).
Proof.
  intros H. unfold remove_utf8_codepoint.
  change 0%nat with (length (@nil byte)). change (g ++ t) with ([] ++ g ++ t) at 1.
  rewrite skip_next_uchar with (c := c) by exact H. cbn [bind length Nat.add].
  now rewrite skipn_length_app.
Qed.
Lemma remove_last_ok g c t : uchar g c -> remove_last_utf8_codepoint (t ++ g) = Ok (true, t).
Proof.
  intros H. unfold remove_last_utf8_codepoint.
  rewrite app_length. rewrite <- (app_nil_r g) at 1.
  rewrite skip_prev_uchar with (c := c) by exact H. cbn [bind].
  now rewrite firstn_length_app.
Qed.

(** ** Boundaries *)

Inductive chain (s : str) : nat -> nat -> Prop :=
| chain_refl i : chain s i i
| chain_step i j k : skip_next s i = Ok (Some j) -> skip_prev s j = Ok (Some i) -> chain s j k -> chain s i k.

Lemma chain_trans s i j k : chain s i j -> chain s j k -> chain s i k.
Proof. induction 1; intros; [assumption|]. econstructor; eauto. Qed.

Lemma chain_last s i k : chain s i k -> i = k \/ exists j, chain s i j /\ skip_next s j = Ok (Some k) /\ skip_prev s k = Ok (Some j).
Proof.
  induction 1 as [i|i j k H1 H2 H3 IH]; [now left|]. right.
  destruct IH as [->|(l & Hl & Hn & Hp)].
  - exists i. split; [constructor|auto].
  - exists l. split; [econstructor; eauto|auto].
Qed.

Lemma chain_all n : forall pre post, (length post <= n)%nat ->
  bnd pre post -> N.of_nat (length (pre ++ post)) < UINT32_MAX ->
  chain (pre ++ post) (length pre) (length (pre ++ post)).
Proof.
  induction n as [|n IH]; intros pre post Hl Hb Hs.
  - destruct post; [|cbn in Hl; lia]. rewrite app_nil_r. constructor.
  - destruct (list_eq_dec Byte.byte_eq_dec post []) as [->|Hne]; [rewrite app_nil_r; constructor|].
    destruct (skip_step pre post Hb Hne Hs) as (g & r & -> & Hg & Hn & Hp & Hb').
    eapply chain_step; [exact Hn|exact Hp|].
    rewrite app_assoc. apply IH; auto.
    + rewrite app_length in Hl. destruct g; [congruence|cbn in Hl; lia].
    + rewrite app_assoc in Hs. exact Hs.
Qed.

Lemma chain_full s : size s < UINT32_MAX -> chain s 0 (length s).
Proof.
  intros H. apply (chain_all (length s) [] s); auto. right. now left.
Qed.

Lemma boundaries_agree s i : size s < UINT32_MAX -> fwd_boundary s i <-> bwd_boundary s i.
Proof.
  intros Hs. pose proof (chain_full s Hs) as HC. split.
  - intros H. assert (chain s 0 i /\ chain s i (length s)) as [_ H2].
    { induction H as [|i j H IH Hj]; [split; [constructor|exact HC]|].
      destruct IH as [I1 I2]. inversion I2 as [?|? k ? H1 H2 H3]; subst.
      - rewrite skip_next_end in Hj. discriminate.
      - rewrite H1 in Hj. injection Hj as ->. split; [|exact H3].
        eapply chain_trans; [exact I1|]. econstructor; [exact H1|exact H2|constructor]. }
    clear H HC. remember (length s) as e eqn:Ee. induction H2 as [i|i j k H1 H2 H3 IH].
    + subst. constructor.
    + eapply bwd_step; [apply IH; exact Ee|exact H2].
  - intros H. assert (chain s 0 i) as H2.
    { induction H as [|i j H IH Hj]; [exact HC|].
      destruct (chain_last _ _ _ IH) as [<-|(k & H1 & H2 & H3)].
      - rewrite skip_prev_begin in Hj. discriminate.
      - rewrite H3 in Hj. injection Hj as ->. exact H1. }
    clear H HC. remember 0%nat as z eqn:Ez.
    assert (Hz : fwd_boundary s z) by (subst; constructor). clear Ez.
    induction H2 as [i|i j k H1 H2 H3 IH]; [exact Hz|].
    apply IH. eapply fwd_step; eauto.
Qed.

Lemma fwd_boundary_text s cs i : Text s cs ->
  (fwd_boundary s i <-> exists u v us vs, s = u ++ v /\ length u = i /\ Text u us /\ Text v vs).
Proof.
  intros HT. split.
  - induction 1 as [|i j H IH Hj].
    + exists [], s, [], cs. repeat split; auto; constructor.
    + destruct IH as (u & v & us & vs & -> & <- & Hu & Hv).
      destruct vs as [|c vs].
      * apply Text_nil_inv in Hv. subst v. rewrite app_nil_r, skip_next_end in Hj. discriminate.
      * apply Text_cons_inv in Hv. destruct Hv as (g & v' & -> & Hg & Hv).
        rewrite skip_next_uchar with (c := c) in Hj by exact Hg. injection Hj as <-.
        exists (u ++ g), v', (us ++ [c]), vs. rewrite <- app_assoc, app_length.
        repeat split; auto. now apply Text_snoc.
  - intros (u & v & us & vs & -> & <- & Hu & Hv). clear HT.
    revert v vs Hv. induction Hu as [|g c u us Hg Hu IH] using Text_rev_ind; intros v vs Hv; [constructor|].
    rewrite <- app_assoc, app_length. eapply fwd_step.
    + apply (IH (g ++ v) (c :: vs)). constructor; assumption.
    + now apply skip_next_uchar with c.
Qed.

(** Beyond 2^32 bytes skip_prev's 32-bit counter wraps. *)
Lemma skip_prev_loop_run_mod t : forall pre a post n,
  Forall cont t -> ~ cont a ->
  skip_prev_loop (pre ++ a :: t ++ post) (S (length pre + length t)) (n mod W32)
  = Ok (inr ((n + N.of_nat (length t)) mod W32, length pre)).
Proof.
  induction t as [|b t IH] using rev_ind; intros pre a post n Ht Ha.
  - cbn [length app]. rewrite Nat.add_0_r. cbn [skip_prev_loop].
    rewrite deref_mid. cbn [bind]. rewrite cont_mask.
    replace (contb a) with false by (symmetry; now apply contb_false).
    cbn [N.of_nat]. now rewrite N.add_0_r.
  - apply Forall_app in Ht. destruct Ht as [Ht Hb]. apply Forall_inv in Hb.
    rewrite snoc_length. rewrite <- app_assoc. cbn [skip_prev_loop].
    assert (deref (pre ++ a :: t ++ [b] ++ post) (length pre + S (length t)) = Ok b) as ->.
    { apply deref_at with (pre := pre ++ a :: t) (t := post); [now rewrite <- app_assoc|].
      rewrite app_length. cbn. lia. }
    cbn [bind]. rewrite cont_mask. replace (contb b) with true by (symmetry; now apply contb_cont).
    rewrite <- plus_n_Sm.
    replace ((n mod W32 + 1) mod W32) with ((n + 1) mod W32) by (unfold W32; lia).
    change (a :: t ++ [b] ++ post) with (a :: (t ++ ([b] ++ post))).
    rewrite IH by assumption.
    now replace (n + 1 + N.of_nat (length t)) with (n + N.of_nat (S (length t))) by lia.
Qed.

Lemma boundaries_disagree_huge : exists s i, fwd_boundary s i /\ ~ bwd_boundary s i.
Proof.
  assert (exists t, Forall cont t /\ length t = N.to_nat W32) as (t & Ht & Hl).
  { exists (repeat x80 (N.to_nat W32)). split; [|apply repeat_length].
    apply Forall_forall. intros b Hb. apply repeat_spec in Hb. subst b. unfold cont. cbn. lia. }
  exists (x61 :: t), 1%nat. split.
  - eapply fwd_step; [constructor|].
    change (x61 :: t) with ([] ++ x61 :: t). change 0%nat with (length (@nil byte)).
    rewrite skip_next_at. change (allow x61) with 0.
    assert (lead_conts t 0 = []) as ->; [|reflexivity].
    destruct t as [|b t']; [reflexivity|]. cbn. now destruct (contb b).
  - assert (Hp : skip_prev (x61 :: t) (length (x61 :: t)) = Ok (Some 0%nat)).
    { cbn [length]. unfold skip_prev.
      change (x61 :: t) with ([] ++ x61 :: t). rewrite <- (app_nil_r t) at 1.
      change (S (length t)) with (S (length (@nil byte) + length t)).
      change 0 with (0 mod W32).
      rewrite skip_prev_loop_run_mod; [|exact Ht|intros [Hx _]; vm_compute in Hx; now apply Hx].
      rewrite Hl, N2Nat.id. reflexivity. }
    assert (forall i, bwd_boundary (x61 :: t) i -> i = length (x61 :: t) \/ i = 0%nat) as H.
    { induction 1 as [|i j H IH Hj]; [now left|].
      destruct IH as [->| ->].
      - rewrite Hp in Hj. injection Hj as <-. now right.
      - rewrite skip_prev_begin in Hj. discriminate. }
    intros Hb. apply H in Hb. cbn [length] in Hb. rewrite Hl in Hb.
    destruct Hb as [Hb|Hb]; [|discriminate].
    apply (f_equal N.of_nat) in Hb. rewrite (Nat2N.inj_succ (N.to_nat W32)), N2Nat.id in Hb. discriminate.
Qed.
