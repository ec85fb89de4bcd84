(** skip_next and skip_prev see the same boundaries on every byte string. *)
From Verif Require Import Base Spec.Utf8Spec Model.Decode Proofs.Utf8Lemmas Proofs.DecodeLemmas.
From Coq Require Import ZifyBool ZifyNat ZifyN.
Ltac Zify.zify_post_hook ::= Z.div_mod_to_equations.

(** Number of continuation bytes [skip_next] accepts after a lead byte. *)
Definition allow (b : byte) : N :=
  if u8 b <? 0x80 then 0
  else if (0xC0 <=? u8 b) && (u8 b <? 0xE0) then 1
  else if (0xE0 <=? u8 b) && (u8 b <? 0xF0) then 2
  else if (0xF0 <=? u8 b) && (u8 b <? 0xF8) then 3
  else UINT32_MAX.

(** Does [l] start with a continuation byte? *)
Definition starts_cont (l : str) : bool :=
  match l with [] => false | b :: _ => contb b end.

(** The leading continuation bytes of [l], at most [n] of them. *)
Fixpoint lead_conts (l : str) (n : N) : str :=
  match l with
  | [] => []
  | b :: l' => if contb b then if n =? 0 then [] else b :: lead_conts l' (n - 1) else []
  end.

Lemma lead_conts_split l : forall n, exists r, l = lead_conts l n ++ r /\
  Forall cont (lead_conts l n) /\ N.of_nat (length (lead_conts l n)) <= n /\
  (N.of_nat (length (lead_conts l n)) = n \/ starts_cont r = false).
Proof.
  induction l as [|b l IH]; intros n.
  - exists []. cbn. repeat split; auto; lia.
  - cbn [lead_conts]. destruct (contb b) eqn:Eb.
    + destruct (N.eqb_spec n 0) as [->|Hn].
      * exists (b :: l). cbn. repeat split; auto; lia.
      * destruct (IH (n - 1)) as (r & E & Hf & Hl & Hm).
        exists r. cbn [length app]. rewrite <- E. repeat split; auto.
        -- constructor; [now apply contb_cont|exact Hf].
        -- lia.
        -- destruct Hm as [Hm|Hm]; [left; lia|now right].
    + exists (b :: l). cbn [length app]. repeat split; auto.
      * cbn. lia.
Qed.

Lemma skip_next_loop_spec r : forall pre n,
  skip_next_loop (pre ++ r) (length r) n (length pre)
  = Ok (length pre + length (lead_conts r n))%nat.
Proof.
  induction r as [|b r IH]; intros pre n.
  - cbn. f_equal. lia.
  - cbn [length skip_next_loop lead_conts]. rewrite deref_mid. cbn [bind].
    rewrite cont_mask. destruct (contb b).
    + destruct (n =? 0).
      * cbn. f_equal. lia.
      * rewrite (app_cons_assoc pre b), <- snoc_length with (a := b), IH, snoc_length.
        cbn [length]. f_equal. lia.
    + cbn. f_equal. lia.
Qed.

Lemma skip_next_end s : skip_next s (length s) = Ok None.
Proof. unfold skip_next. now rewrite Nat.eqb_refl. Qed.

Lemma skip_next_at pre a r :
  skip_next (pre ++ a :: r) (length pre)
  = Ok (Some (S (length pre + length (lead_conts r (allow a))))).
Proof.
  unfold skip_next.
  replace (Nat.eqb (length pre) (length (pre ++ a :: r))) with false
    by (symmetry; apply Nat.eqb_neq; rewrite app_length; cbn; lia).
  rewrite deref_mid. cbn [bind].
  rewrite ascii_mask, lead2_mask, lead3_mask, lead4_mask.
  unfold allow. destruct (u8 a <? 0x80) eqn:E1.
  - assert (lead_conts r 0 = []) as -> by (destruct r as [|b r]; cbn; [reflexivity|now destruct (contb b)]).
    cbn. do 2 f_equal. lia.
  - replace (length (pre ++ a :: r) - S (length pre))%nat with (length r)
      by (rewrite app_length; cbn; lia).
    rewrite (app_cons_assoc pre a), <- snoc_length with (a := a).
    rewrite skip_next_loop_spec, snoc_length. cbn [bind]. reflexivity.
Qed.

(** The backward loop over continuation bytes down to a byte that is not one. *)
Lemma skip_prev_loop_run t : forall pre a post n,
  Forall cont t -> ~ cont a -> n + N.of_nat (length t) < W32 ->
  skip_prev_loop (pre ++ a :: t ++ post) (S (length pre + length t)) n
  = Ok (inr (n + N.of_nat (length t), length pre)).
Proof.
  induction t as [|b t IH] using rev_ind; intros pre a post n Ht Ha Hn.
  - cbn [length app skip_prev_loop]. rewrite Nat.add_0_r, deref_mid. cbn [bind].
    apply contb_false in Ha. rewrite cont_mask, Ha. now rewrite N.add_0_r.
  - apply Forall_app in Ht. destruct Ht as [Ht Hb]. inversion Hb as [|? ? Hb' _]; subst.
    rewrite snoc_length in *. rewrite <- app_assoc. cbn [app].
    cbn [skip_prev_loop].
    replace (pre ++ a :: t ++ b :: post) with ((pre ++ a :: t) ++ b :: post)
      by (rewrite <- app_assoc; reflexivity).
    rewrite (deref_at _ (pre ++ a :: t) b post) by (rewrite ?app_length; cbn; reflexivity || lia).
    cbn [bind]. apply contb_cont in Hb'. rewrite cont_mask, Hb'.
    destruct (length pre + S (length t))%nat as [|k] eqn:Ek; [lia|].
    rewrite N.mod_small by lia.
    rewrite <- app_assoc. cbn [app].
    replace (S k) with (S (length pre + length t)) by lia.
    rewrite IH by (assumption || lia). do 3 f_equal. lia.
Qed.

Lemma skip_prev_loop_begin t : forall post n,
  Forall cont t -> t <> [] ->
  skip_prev_loop (t ++ post) (length t) n = Ok (inl 0%nat).
Proof.
  induction t as [|b t IH] using rev_ind; intros post n Ht Hne; [contradiction|].
  apply Forall_app in Ht. destruct Ht as [Ht Hb]. inversion Hb as [|? ? Hb' _]; subst.
  rewrite snoc_length, <- app_assoc. cbn [app skip_prev_loop]. rewrite deref_mid. cbn [bind].
  apply contb_cont in Hb'. rewrite cont_mask, Hb'.
  destruct (length t) as [|k] eqn:Ek; [reflexivity|].
  apply IH; [exact Ht|]. now intros ->.
Qed.

Definition allow1 (b : byte) : N :=
  if u8 b <? 0x80 then 1
  else if (0xC0 <=? u8 b) && (u8 b <? 0xE0) then 2
  else if (0xE0 <=? u8 b) && (u8 b <? 0xF0) then 3
  else if (0xF0 <=? u8 b) && (u8 b <? 0xF8) then 4
  else UINT32_MAX.

Lemma skip_prev_run pre a t post :
  Forall cont t -> ~ cont a -> N.of_nat (length t) < UINT32_MAX ->
  skip_prev (pre ++ a :: t ++ post) (S (length pre + length t))
  = Ok (Some (if (N.of_nat (length t) + 1 <=? allow1 a) then length pre
              else (length pre + N.to_nat (allow1 a))%nat)).
Proof.
  intros Ht Ha Hl. unfold skip_prev, UINT32_MAX in *.
  rewrite skip_prev_loop_run by (assumption || unfold W32; lia). cbn [bind].
  rewrite deref_mid. cbn [bind].
  rewrite ascii_mask, lead2_mask, lead3_mask, lead4_mask. fold UINT32_MAX. fold (allow1 a).
  unfold add32. rewrite N.add_0_l, N.mod_small by (unfold W32; lia).
  now destruct (_ <=? allow1 a).
Qed.

Lemma skip_prev_allcont t post :
  Forall cont t -> t <> [] -> skip_prev (t ++ post) (length t) = Ok (Some 0%nat).
Proof.
  intros Ht Hne. unfold skip_prev. destruct (length t) as [|k] eqn:E.
  - destruct t; [contradiction|discriminate].
  - rewrite <- E, skip_prev_loop_begin by assumption. reflexivity.
Qed.

(** ** Boundaries *)

(** What holds between what precedes a forward boundary and what follows. *)
Definition bnd (pre post : str) : Prop :=
  starts_cont post = false \/ pre = [] \/
  exists u a t, pre = u ++ a :: t /\ Forall cont t /\ N.of_nat (length t) = allow a.

Lemma allow_noncont a : ~ cont a -> allow a < UINT32_MAX -> allow1 a = allow a + 1.
Proof. unfold allow, allow1, cont. intros H. repeat match goal with |- context [if ?b then _ else _] => destruct b end; lia. Qed.

Lemma allow_allow1 a n : n < UINT32_MAX -> n <= allow a -> n + 1 <= allow1 a.
Proof. unfold allow, allow1, UINT32_MAX. intros H1 H2. repeat match goal with |- context [if ?b then _ else _] => destruct b end; lia. Qed.

Lemma allow_cont a : cont a -> allow a = UINT32_MAX.
Proof.
  unfold allow, cont. intros H.
  replace (u8 a <? 128) with false by lia.
  replace ((192 <=? u8 a) && (u8 a <? 224)) with false by lia.
  replace ((224 <=? u8 a) && (u8 a <? 240)) with false by lia.
  replace ((240 <=? u8 a) && (u8 a <? 248)) with false by lia. reflexivity.
Qed.

Lemma skip_step pre post :
  bnd pre post -> post <> [] -> N.of_nat (length (pre ++ post)) < UINT32_MAX ->
  exists g r, post = g ++ r /\ g <> [] /\
    skip_next (pre ++ post) (length pre) = Ok (Some (length (pre ++ g))) /\
    skip_prev (pre ++ post) (length (pre ++ g)) = Ok (Some (length pre)) /\
    bnd (pre ++ g) r.
Proof.
  intros Hb Hne Hsz. destruct post as [|a r0]; [contradiction|].
  destruct (lead_conts_split r0 (allow a)) as (r & E & Hf & Hl & Hm).
  set (t := lead_conts r0 (allow a)) in *.
  assert (length r0 = length t + length r)%nat as Lr by (rewrite E at 1; rewrite app_length; lia).
  rewrite app_length in Hsz. cbn [length] in Hsz.
  exists (a :: t), r. split; [cbn; now rewrite <- E|]. split; [discriminate|].
  split; [|split].
  - rewrite skip_next_at. fold t. rewrite app_length. cbn [length]. do 2 f_equal. lia.
  - rewrite app_length. cbn [length].
    destruct (contb a) eqn:Ea.
    + destruct Hb as [Hb|[->|(u & a' & t' & -> & Ht' & Ha')]].
      * cbn in Hb. congruence.
      * cbn [length]. change (0 + S (length t))%nat with (length (a :: t)).
        replace ([] ++ a :: r0) with ((a :: t) ++ r) by (cbn; now rewrite <- E).
        apply skip_prev_allcont; [|discriminate].
        constructor; [now apply contb_cont|exact Hf].
      * rewrite app_length in Hsz |- *. cbn [length] in Hsz |- *.
        replace ((u ++ a' :: t') ++ a :: r0) with (u ++ a' :: (t' ++ a :: t) ++ r)
          by (rewrite E; repeat (rewrite <- app_assoc; cbn [app]); reflexivity).
        replace (length u + S (length t') + S (length t))%nat
          with (S (length u + length (t' ++ a :: t)))%nat by (rewrite app_length; cbn; lia).
        destruct (contb a') eqn:Eca.
        { exfalso. apply contb_cont, allow_cont in Eca. lia. }
        apply contb_false in Eca.
        rewrite skip_prev_run; [|apply Forall_app; split; [exact Ht'|constructor; [now apply contb_cont|exact Hf]]|exact Eca|rewrite app_length; cbn [length]; lia].
        rewrite allow_noncont by (assumption || lia).
        rewrite app_length. cbn [length].
        replace (N.of_nat (length t' + S (length t)) + 1 <=? allow a' + 1) with false by lia.
        do 2 f_equal. lia.
    + apply contb_false in Ea. rewrite Nat.add_succ_r.
      rewrite E. rewrite skip_prev_run by (assumption || lia).
      assert (N.of_nat (length t) + 1 <= allow1 a) by (apply allow_allow1; lia).
      replace (N.of_nat (length t) + 1 <=? allow1 a) with true by lia. reflexivity.
  - destruct Hm as [Hm|Hm]; [|now left].
    right. right. exists pre, a, t. auto.
Qed.

(** On a well-formed sequence. *)
Lemma uchar_allow g c : uchar g c -> exists a t, g = a :: t /\ ~ cont a /\ Forall cont t /\
  N.of_nat (length t) = allow a /\ allow1 a = N.of_nat (length t) + 1 /\ allow a <= 3.
Proof.
  intros H; inversion H as [a Ha|a b Ha Hb|a b d Ha Hb Hd|a b d e Ha Hb Hd He]; subst;
  eexists; eexists; (split; [reflexivity|]); (split; [unfold cont; lia|]); (split; [auto|]); unfold allow, allow1.
  - replace (u8 a <? 128) with true by lia. cbn. lia.
  - replace (u8 a <? 128) with false by lia.
    replace ((192 <=? u8 a) && (u8 a <? 224)) with true by lia. cbn. lia.
  - replace (u8 a <? 128) with false by lia.
    replace ((192 <=? u8 a) && (u8 a <? 224)) with false by lia.
    replace ((224 <=? u8 a) && (u8 a <? 240)) with true by lia. cbn. lia.
  - replace (u8 a <? 128) with false by lia.
    replace ((192 <=? u8 a) && (u8 a <? 224)) with false by lia.
    replace ((224 <=? u8 a) && (u8 a <? 240)) with false by lia.
    replace ((240 <=? u8 a) && (u8 a <? 248)) with true by lia. cbn. lia.
Qed.

Lemma lead_conts_full t : forall r, Forall cont t -> lead_conts (t ++ r) (N.of_nat (length t)) = t.
Proof.
  induction t as [|b t IH]; intros r Ht.
  - destruct r as [|x r]; cbn; [reflexivity|now destruct (contb x)].
  - inversion Ht as [|? ? Hb Ht']; subst. cbn [app lead_conts length].
    apply contb_cont in Hb. rewrite Hb.
    replace (N.of_nat (S (length t)) =? 0) with false by lia.
    replace (N.of_nat (S (length t)) - 1) with (N.of_nat (length t)) by lia.
    now rewrite IH.
Qed.

Lemma skip_next_uchar pre g c post : uchar g c ->
  skip_next (pre ++ g ++ post) (length pre) = Ok (Some (length pre + length g)%nat).
Proof.
  intros H. destruct (uchar_allow g c H) as (a & t & -> & Ha & Ht & Hl & _).
  cbn [app]. rewrite skip_next_at, <- Hl, lead_conts_full by exact Ht.
  cbn [length]. do 2 f_equal. lia.
Qed.

Lemma skip_prev_uchar pre g c post : uchar g c ->
  skip_prev (pre ++ g ++ post) (length pre + length g) = Ok (Some (length pre)).
Proof.
  intros H. destruct (uchar_allow g c H) as (a & t & -> & Ha & Ht & Hl & H1 & H3).
  cbn [app length]. rewrite Nat.add_succ_r, skip_prev_run.
  - replace (N.of_nat (length t) + 1 <=? allow1 a) with true by lia. reflexivity.
  - exact Ht.
  - exact Ha.
  - unfold UINT32_MAX. lia.
Qed.

Lemma skip_prev_begin s : skip_prev s 0 = Ok None.
Proof. reflexivity. Qed.
