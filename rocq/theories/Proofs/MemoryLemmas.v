(** Running out of memory: proofs for C120. *)
From Verif Require Import Base Model.Decode Model.Encode Model.Subrange Model.Search Model.CodepointSet Model.Callbacks Model.Memory.
From Verif Require Import Spec.Utf8Spec Proofs.Utf8Lemmas Proofs.EncodeLemmas Proofs.CodepointLemmas Proofs.Utf8Props.

Lemma push_bytes_spec mem : forall g s n,
  ((forall i, (i < length g)%nat -> mem (n + i)%nat = None) /\ push_bytes mem g (s, n) = (Ok tt, (s ++ g, (n + length g)%nat))) \/
  (exists a b e, g = a ++ b /\ b <> [] /\ (forall i, (i < length a)%nat -> mem (n + i)%nat = None) /\ mem (n + length a)%nat = Some e /\
     push_bytes mem g (s, n) = (Throw e, (s ++ a, S (n + length a)))).
Proof.
  induction g as [|b g IH]; intros s n.
  - left. split; [cbn; lia|]. cbn. rewrite app_nil_r, Nat.add_0_r. reflexivity.
  - cbn [push_bytes]. unfold fx_bind, growing. destruct (mem n) as [e|] eqn:M.
    + right. exists [], (b :: g), e. split; [reflexivity|]. split; [discriminate|]. split; [cbn; lia|]. cbn [length]. rewrite Nat.add_0_r, app_nil_r. auto.
    + destruct (IH (s ++ [b]) (S n)) as [[H E]|(a & c & e & -> & Hc & H & He & E)].
      * left. split.
        -- intros [|i] Hi; [now rewrite Nat.add_0_r|]. rewrite Nat.add_succ_r, <- Nat.add_succ_l. apply H. cbn in Hi. lia.
        -- etransitivity; [exact E|]. cbn [length]. rewrite <- app_assoc, Nat.add_succ_r. reflexivity.
      * right. exists (b :: a), c, e. split; [reflexivity|]. split; [exact Hc|]. split.
        -- intros [|i] Hi; [now rewrite Nat.add_0_r|]. rewrite Nat.add_succ_r, <- Nat.add_succ_l. apply H. cbn in Hi. lia.
        -- cbn [length]. rewrite Nat.add_succ_r, <- Nat.add_succ_l. split; [exact He|]. etransitivity; [exact E|]. rewrite <- app_assoc. reflexivity.
Qed.

Lemma p_c120_append mem s n c g : c <= 0x10FFFF -> encodes g c ->
  ((forall i, (i < length g)%nat -> mem (n + i)%nat = None) /\ append_mem mem c (s, n) = (Ok tt, (s ++ g, (n + length g)%nat))) \/
  (exists a b e, g = a ++ b /\ b <> [] /\ (forall i, (i < length a)%nat -> mem (n + i)%nat = None) /\ mem (n + length a)%nat = Some e /\
     append_mem mem c (s, n) = (Throw e, (s ++ a, S (n + length a)))).
Proof.
  intros Hc Hg. assert (g = fst (encode_utf8 c)) as -> by (eapply encodes_fun; [exact Hg|now apply encode_encodes]).
  assert (snd (encode_utf8 c) <> 0) as HN.
  { cbn [encode_utf8 snd]. unfold get_utf8_encoded_length, UNICODE_MAX. destruct (c <? 0x80); [lia|]. destruct (c <? 0x800); [lia|]. destruct (c <? 0x10000); [lia|].
    destruct (N.leb_spec c 0x10FFFF); lia. }
  unfold append_mem. destruct (encode_utf8 c) as [g k] eqn:E. cbn [fst snd] in *.
  destruct (push_bytes_spec mem g s n) as [[H P]|(a & b & e & -> & Hb & H & He & P)].
  - left. split; [exact H|]. unfold fx_bind. rewrite P. destruct (N.eqb_spec k 0); [contradiction|reflexivity].
  - right. exists a, b, e. split; [reflexivity|]. split; [exact Hb|]. split; [exact H|]. split; [exact He|]. unfold fx_bind. rewrite P. reflexivity.
Qed.

Lemma p_c120_bad mem s n c : 0x10FFFF < c ->
  append_mem mem c (s, n) = (Throw (match mem n with None => YstringException | Some e => e end), (s, S n)).
Proof. intros H. unfold append_mem. rewrite encode_large by exact H. cbn. unfold fx_bind, growing. destruct (mem n); reflexivity. Qed.

(** A part of a code point is not a text. *)
Lemma part_not_text g c a b us : uchar g c -> g = a ++ b -> a <> [] -> b <> [] -> ~ Text a us.
Proof.
  intros Hg E Ha Hb HT. destruct HT as [|h d t ds Hh HT]; [congruence|].
  destruct (uchar_prefix_unique g c [] h d (t ++ b) Hg Hh) as (Eg & _ & Et).
  - now rewrite app_nil_r, E, <- app_assoc.
  - symmetry in Et. apply app_eq_nil in Et. tauto.
Qed.
Lemma p_c120_damage s cs c g a b us : Text s cs -> c <= 0x10FFFF -> encodes g c -> g = a ++ b -> a <> [] -> b <> [] -> ~ Text (s ++ a) us.
Proof.
  intros HS Hc Hg E Ha Hb HT. destruct (Text_app_inv _ _ _ _ HS HT) as (ds & _ & HD).
  exact (part_not_text g c a b ds (encodes_uchar g c Hc Hg) E Ha Hb HD).
Qed.

Lemma p_c120_range mem s n x y :
  (mem n = None -> add_range_mem mem x y (s, n) = (Ok tt, (add_range s x y, S n))) /\
  (forall e, mem n = Some e -> add_range_mem mem x y (s, n) = (Throw e, (s, S n))).
Proof. unfold add_range_mem, growing. split; [intros ->|intros e ->]; reflexivity. Qed.

Lemma p_c120_codepoint mem s n c :
  (exists n', add_codepoint_mem mem c (s, n) = (Ok tt, (add_codepoint s c, n'))) \/
  (exists e, mem n = Some e /\ add_codepoint_mem mem c (s, n) = (Throw e, (s, S n))).
Proof.
  unfold add_codepoint_mem, add_codepoint. destruct (p_c120_range mem s n c c) as [A B].
  assert ((exists n', add_range_mem mem c c (s, n) = (Ok tt, (add_range s c c, n'))) \/ (exists e, mem n = Some e /\ add_range_mem mem c c (s, n) = (Throw e, (s, S n)))) as K.
  { destruct (mem n) as [e|] eqn:M; [right|left]; eauto. }
  destruct (rev (cps_ranges s)) as [|[f l] t]; [exact K|]. destruct (add32 l 1 =? c); [left; eauto|exact K].
Qed.

Lemma p_c120_codepoints mem : forall cs s n,
  (exists n', add_codepoints_mem mem cs (s, n) = (Ok tt, (add_codepoints s cs, n'))) \/
  (exists a b e m, cs = a ++ b /\ b <> [] /\ mem m = Some e /\ add_codepoints_mem mem cs (s, n) = (Throw e, (add_codepoints s a, S m))).
Proof.
  induction cs as [|c cs IH]; intros s n; [left; exists n; reflexivity|].
  cbn [add_codepoints_mem]. unfold fx_bind. destruct (p_c120_codepoint mem s n c) as [(k & ->)|(e & He & ->)].
  - destruct (IH (add_codepoint s c) k) as [(k' & ->)|(a & b & e & m & -> & Hb & He & ->)].
    + left. exists k'. reflexivity.
    + right. exists (c :: a), b, e, m. auto.
  - right. exists [], (c :: cs), e, n. split; [reflexivity|]. split; [discriminate|]. auto.
Qed.
Lemma p_c120_enough mem : (forall i, mem i = None) ->
  (forall s n c, exists n', append_mem mem c (s, n) = (fst (append_to s c), (snd (append_to s c), n'))) /\
  (forall s n cs, exists n', add_codepoints_mem mem cs (s, n) = (Ok tt, (add_codepoints s cs, n'))).
Proof.
  intros M. split.
  - intros s n c. destruct (N.le_gt_cases c 0x10FFFF) as [H|H].
    + destruct (append_ok s c H) as (g & Hg & E & _). rewrite E. cbn [fst snd].
      destruct (p_c120_append mem s n c g H Hg) as [[_ P]|(a & b & e & _ & _ & _ & He & _)]; [eauto|]. rewrite M in He. discriminate.
    + rewrite (p_c120_bad mem s n c H), M. rewrite (proj1 (append_bad s c H)). eexists. reflexivity.
  - intros s n cs. destruct (p_c120_codepoints mem cs s n) as [K|(a & b & e & m & _ & _ & He & _)]; [exact K|]. rewrite M in He. discriminate.
Qed.

(** ** replace_invalid_utf8 *)
Lemma invalid_loop_mem mem s repl fuel : forall it prev result n,
  (exists n', match replace_invalid_loop fuel s repl it prev result with
     | Ok (r, k) => replace_invalid_loop_mem mem fuel s repl it prev (result, n) = (Ok k, (r, n'))
     | Throw e => exists r, replace_invalid_loop_mem mem fuel s repl it prev (result, n) = (Throw e, (r, n'))
     | UB => exists r, replace_invalid_loop_mem mem fuel s repl it prev (result, n) = (UB, (r, n'))
     | OutOfFuel => exists r, replace_invalid_loop_mem mem fuel s repl it prev (result, n) = (OutOfFuel, (r, n'))
     end) \/
  (exists e m r, mem m = Some e /\ replace_invalid_loop_mem mem fuel s repl it prev (result, n) = (Throw e, (r, S m))).
Proof.
  induction fuel as [|fuel IH]; intros it prev result n; [left; exists n, result; reflexivity|].
  cbn [replace_invalid_loop replace_invalid_loop_mem]. destruct (Nat.eqb it (length s)); [left; exists n; reflexivity|].
  unfold fx_bind, fx_lift. destruct (decode_next s it) as [[ch it']|e| |]; cbn [bind]; try (left; exists n, result; reflexivity).
  destruct (negb (ch =? INVALID_CHAR)); [apply IH|]. unfold growing.
  destruct (mem n) as [e|] eqn:M; [right; exists e, n, result; split; [exact M|reflexivity]|].
  destruct (mem (S n)) as [e|] eqn:M1; [right; exists e, (S n), (result ++ slice s prev it'); split; [exact M1|reflexivity]|].
  destruct (skip_next s it') as [r|e| |]; cbn [bind]; try (left; eexists; eexists; reflexivity).
  rewrite <- app_assoc. apply IH.
Qed.

Lemma p_c120_repair mem s n c r : replace_invalid_utf8_inplace s c = Ok r ->
  (exists n', replace_invalid_inplace_mem mem c (s, n) = (Ok tt, (r, n'))) \/
  (exists e m, mem m = Some e /\ replace_invalid_inplace_mem mem c (s, n) = (Throw e, (s, S m))).
Proof.
  unfold replace_invalid_utf8_inplace, replace_invalid_inplace_mem. destruct (is_valid_utf8 s) as [[|]| | |]; cbn [bind]; try discriminate.
  - intros K. injection K as <-. left. eauto.
  - unfold replace_invalid_utf8, replace_invalid_utf8_mem. destruct (encode_utf8_buf c 4) as [repl k].
    destruct (invalid_loop_mem mem s repl (S (length s)) 0%nat 0%nat [] n) as [(n' & H)|(e & m & x & He & H)].
    + destruct (replace_invalid_loop (S (length s)) s repl 0 0 []) as [[x j]| | |]; cbn [bind]; try discriminate. intros K. injection K as <-.
      unfold fx_bind. unfold str in *. rewrite H. unfold growing. destruct (mem n') as [e|] eqn:M; [right|left]; eauto.
    + intros _. right. exists e, m. split; [exact He|]. unfold fx_bind. unfold str in *. rewrite H. reflexivity.
Qed.
