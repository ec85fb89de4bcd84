(** [find_first_escaped_char]: finding and measuring escape sequences. *)
From Verif Require Import Base Spec.Utf8Spec Spec.Strings Spec.Escape Model.Decode Model.Encode Model.Subrange Model.Unescape
  Proofs.Utf8Lemmas Proofs.DecodeLemmas Proofs.EncodeLemmas Proofs.CodepointLemmas Proofs.SearchLemmas Proofs.NumeralLemmas.
From Coq Require Import ZifyBool ZifyNat ZifyN.

Lemma find_if_skip {A} (pred : A -> bool) u : forall w i, Forall (fun c => pred c = false) u ->
  find_if_from pred (u ++ w) i = find_if_from pred w (i + length u)%nat.
Proof.
  induction u as [|c u IH]; intros w i H; [now rewrite Nat.add_0_r|].
  inversion H; subst. cbn [app find_if_from length]. rewrite H2, IH by assumption. f_equal. lia.
Qed.
Lemma not_in_forall (x : byte) u : ~ In x u <-> Forall (fun c => byte_eqb c x = false) u.
Proof.
  rewrite Forall_forall. split.
  - intros H c Hc. destruct (byte_eqb c x) eqn:E; [|reflexivity]. apply byte_eqb_eq in E. subst. contradiction.
  - intros H Hx. specialize (H x Hx). rewrite byte_eqb_refl in H. discriminate.
Qed.
Lemma size_app (u v : str) : size (u ++ v) = size u + size v.
Proof. unfold size. rewrite app_length. lia. Qed.
Lemma size_cons c (v : str) : size (c :: v) = 1 + size v.
Proof. unfold size. cbn [length]. lia. Qed.
Lemma begin_plus_size (u v : str) : begin_plus (u ++ v) (size u) = Ok (length u).
Proof. unfold size. rewrite begin_plus_ok; [reflexivity|rewrite app_length; lia]. Qed.
Lemma size_nat (u : str) : N.to_nat (size u) = length u.
Proof. unfold size. lia. Qed.

(** No backslash from [pre] on. *)
Lemma ffe_none pre lits : ~ In x5c lits ->
  find_first_escaped_char (pre ++ lits) (size pre) = Ok (Sub (size (pre ++ lits)) 0).
Proof.
  intros H. unfold find_first_escaped_char. rewrite begin_plus_size. cbn [bind].
  unfold std_find_if. rewrite skipn_length_app. rewrite <- (app_nil_r lits) at 1.
  rewrite find_if_skip by now apply not_in_forall. cbn [find_if_from].
  replace (Nat.eqb (length pre + length lits) (length (pre ++ lits))) with true by (rewrite app_length; lia).
  reflexivity.
Qed.
Lemma ffe_lone pre lits : ~ In x5c lits ->
  find_first_escaped_char (pre ++ lits ++ [x5c]) (size pre) = Throw YstringException.
Proof.
  intros H. unfold find_first_escaped_char. rewrite begin_plus_size. cbn [bind].
  unfold std_find_if. rewrite skipn_length_app.
  rewrite find_if_skip by now apply not_in_forall. cbn [find_if_from]. rewrite byte_eqb_refl.
  replace (Nat.eqb (length pre + length lits) (length (pre ++ lits ++ [x5c]))) with false by (rewrite !app_length; cbn [length]; lia).
  replace (Nat.eqb (S (length pre + length lits)) (length (pre ++ lits ++ [x5c]))) with true by (rewrite !app_length; cbn [length]; lia).
  reflexivity.
Qed.
Lemma ffe_at pre lits c q : ~ In x5c lits ->
  find_first_escaped_char (pre ++ lits ++ x5c :: c :: q) (size pre)
  = classify_escape ((pre ++ lits) ++ x5c :: c :: q) (size (pre ++ lits)) c.
Proof.
  intros H. unfold find_first_escaped_char. rewrite begin_plus_size. cbn [bind].
  unfold std_find_if. rewrite skipn_length_app.
  rewrite find_if_skip by now apply not_in_forall. cbn [find_if_from]. rewrite byte_eqb_refl.
  replace (Nat.eqb (length pre + length lits) (length (pre ++ lits ++ x5c :: c :: q))) with false by (rewrite !app_length; cbn [length]; lia).
  replace (Nat.eqb (S (length pre + length lits)) (length (pre ++ lits ++ x5c :: c :: q))) with false by (rewrite !app_length; cbn [length]; lia).
  rewrite (deref_at _ (pre ++ lits ++ [x5c]) c q)
    by (rewrite ?app_length; cbn [length]; rewrite <- ?app_assoc; cbn [app]; try reflexivity; lia).
  cbn [bind]. unfold size. rewrite app_length, <- app_assoc. reflexivity.
Qed.

Lemma stops_cons_hex c r : stops hex_digit (c :: r) -> negb (is_hex_digit_char c) = true.
Proof. cbn [stops]. intros H. now rewrite is_hex_digit_false. Qed.
Lemma stops_cons_oct c r : stops oct_digit (c :: r) -> negb (is_oct_digit_char c) = true.
Proof. cbn [stops]. intros H. now rewrite is_oct_digit_false. Qed.

(** The digit runs of the three hexadecimal forms. *)
Lemma cons2_app {A} (a b : A) p l : p ++ a :: b :: l = (p ++ [a; b]) ++ l.
Proof. now rewrite <- app_assoc. Qed.
Lemma cons1_app {A} (a : A) p l : p ++ a :: l = (p ++ [a]) ++ l.
Proof. now rewrite <- app_assoc. Qed.

Lemma hex_seq_end p a b ds v r e : Hex ds v ->
  e = size p + 2 + size ds \/ (r = [] /\ size p + 2 + size ds <= e) -> size p + 2 < W64 ->
  find_end_of_hex_sequence (p ++ a :: b :: ds ++ r) (add64 (size p) 2) e = Ok e.
Proof.
  intros H He HW. rewrite add64_small by exact HW. unfold find_end_of_hex_sequence.
  rewrite cons2_app. replace (size p + 2) with (size (p ++ [a; b])) by (rewrite size_app; unfold size; cbn [length]; lia).
  apply uf_find_end; [now apply hex_negb with v|]. rewrite size_app. unfold size in *. cbn [length] in *.
  destruct He as [He|[Hr He]]; [left; lia|right; split; [exact Hr|lia]].
Qed.
Lemma hex_seq_stop p a b ds v c r e : Hex ds v -> stops hex_digit (c :: r) -> size p + 2 + size ds < e -> size p + 2 < W64 ->
  find_end_of_hex_sequence (p ++ a :: b :: ds ++ c :: r) (add64 (size p) 2) e = Ok (size p + 2 + size ds).
Proof.
  intros H Hc He HW. rewrite add64_small by exact HW. unfold find_end_of_hex_sequence.
  rewrite cons2_app. replace (size p + 2) with (size (p ++ [a; b])) in * by (rewrite size_app; unfold size; cbn [length]; lia).
  apply uf_find_stop; [now apply hex_negb with v|now apply stops_cons_hex with r|exact He].
Qed.
Lemma oct_seq_end p a ds v r e : Oct ds v ->
  e = size p + 1 + size ds \/ (r = [] /\ size p + 1 + size ds <= e) -> size p + 1 < W64 ->
  find_end_of_oct_sequence (p ++ a :: ds ++ r) (add64 (size p) 1) e = Ok e.
Proof.
  intros H He HW. rewrite add64_small by exact HW. unfold find_end_of_oct_sequence.
  rewrite cons1_app. replace (size p + 1) with (size (p ++ [a])) by (rewrite size_app; unfold size; cbn [length]; lia).
  apply uf_find_end; [now apply oct_negb with v|]. rewrite size_app. unfold size in *. cbn [length] in *.
  destruct He as [He|[Hr He]]; [left; lia|right; split; [exact Hr|lia]].
Qed.
Lemma oct_seq_stop p a ds v c r e : Oct ds v -> stops oct_digit (c :: r) -> size p + 1 + size ds < e -> size p + 1 < W64 ->
  find_end_of_oct_sequence (p ++ a :: ds ++ c :: r) (add64 (size p) 1) e = Ok (size p + 1 + size ds).
Proof.
  intros H Hc He HW. rewrite add64_small by exact HW. unfold find_end_of_oct_sequence.
  rewrite cons1_app. replace (size p + 1) with (size (p ++ [a])) in * by (rewrite size_app; unfold size; cbn [length]; lia).
  apply uf_find_stop; [now apply oct_negb with v|now apply stops_cons_oct with r|exact He].
Qed.

(** The first character after the backslash decides. *)
Lemma classify_two s n c : u8 c < 0x80 -> ~ In c numeric_letters -> classify_escape s n c = Ok (Sub n 2).
Proof.
  intros H1 H2. destruct c; try (exfalso; apply H2; cbn; tauto); try reflexivity; vm_compute in H1; discriminate.
Qed.
Lemma classify_high s n c : 0x80 <= u8 c -> classify_escape s n c = Throw YstringException.
Proof.
  intros H. destruct c; try reflexivity; vm_compute in H; now elim H.
Qed.
Lemma finish_ok start e m : start <= e < W64 -> m <= e - start ->
  (if sub64 e start <? m then Throw YstringException else Ok (Sub start (sub64 e start))) = Ok (Sub start (e - start)).
Proof. intros H1 H2. rewrite sub64_small by lia. now replace (e - start <? m) with false by lia. Qed.
Lemma finish_bad start e m : start <= e < W64 -> e - start < m ->
  (if sub64 e start <? m then Throw YstringException else Ok (Sub start (sub64 e start))) = Throw YstringException.
Proof. intros H1 H2. rewrite sub64_small by lia. now replace (e - start <? m) with true by lia. Qed.

Lemma classify_x s n x : x = x78 \/ x = x58 -> classify_escape s n x =
  let* e := find_end_of_hex_sequence s (add64 n 2) (size s) in
  if sub64 e n <? 4 then Throw YstringException else Ok (Sub n (sub64 e n)).
Proof. intros [-> | ->]; reflexivity. Qed.
Lemma classify_u s n : classify_escape s n x75 =
  let* e := find_end_of_hex_sequence s (add64 n 2) (add64 n 6) in
  if sub64 e n <? 6 then Throw YstringException else Ok (Sub n (sub64 e n)).
Proof. reflexivity. Qed.
Lemma classify_U s n : classify_escape s n x55 =
  let* e := find_end_of_hex_sequence s (add64 n 2) (add64 n 10) in
  if sub64 e n <? 10 then Throw YstringException else Ok (Sub n (sub64 e n)).
Proof. reflexivity. Qed.
Lemma classify_oct s n c d : oct_digit c d -> classify_escape s n c =
  let* e := find_end_of_oct_sequence s (add64 n 1) (add64 n 4) in
  if sub64 e n <? 2 then Throw YstringException else Ok (Sub n (sub64 e n)).
Proof.
  intros [Hd Hc]. assert (HC : In (u8 c) [0x30; 0x31; 0x32; 0x33; 0x34; 0x35; 0x36; 0x37]) by (cbn; lia).
  destruct c; try reflexivity; exfalso; vm_compute in HC; repeat (destruct HC as [HC|HC]; [discriminate|]); exact HC.
Qed.

Ltac sz := unfold Fits, W64, size in *; repeat (rewrite ?app_length in *; cbn [length] in *); try lia.
Ltac sd := solve [sz; lia | left; sz; lia | right; split; [reflexivity|sz; lia]].

(** [Extent] and [Overhang] are what is reported, [BadEscape] what is rejected. *)
Lemma oct_head ds v : Oct ds v -> (1 <= length ds)%nat -> exists c d ds', ds = c :: ds' /\ oct_digit c d.
Proof.
  intros H L. destruct ds as [|c ds]; [cbn in L; lia|]. apply num_forall in H. inversion H as [|? ? [d Hd] _]; subst. eauto.
Qed.
Lemma classify_extent p c q n : Fits (p ++ x5c :: c :: q) -> Extent (x5c :: c :: q) n ->
  classify_escape (p ++ x5c :: c :: q) (size p) c = Ok (Sub (size p) n).
Proof.
  intros HF H. remember (x5c :: c :: q) as w eqn:Ew.
  destruct H as [c' r H1 H2|x ds v r Hx Hl Hds Hr|ds v r Hl Hds|ds v r Hl Hds|ds v r Hl Hds Hr].
  - injection Ew as -> _. now apply classify_two.
  - injection Ew as -> _. rewrite classify_x by exact Hx. cbn [app].
    destruct r as [|c' r'].
    + rewrite (hex_seq_end p x5c c ds v [] _ Hds) by sd.
      cbn [bind]. rewrite finish_ok by sz. f_equal. f_equal. sz.
    + rewrite (hex_seq_stop p x5c c ds v c' r' _ Hds Hr) by sz.
      cbn [bind]. rewrite finish_ok by sz. f_equal. f_equal. sz.
  - injection Ew as <- _. rewrite classify_u. cbn [app].
    rewrite (add64_small (size p) 6) by sz. rewrite (hex_seq_end p x5c x75 ds v r _ Hds) by sd.
    cbn [bind]. rewrite finish_ok by sz. f_equal. f_equal. sz.
  - injection Ew as <- _. rewrite classify_U. cbn [app].
    rewrite (add64_small (size p) 10) by sz. rewrite (hex_seq_end p x5c x55 ds v r _ Hds) by sd.
    cbn [bind]. rewrite finish_ok by sz. f_equal. f_equal. sz.
  - destruct (oct_head ds v Hds) as (c' & d & ds' & -> & Hd); [lia|]. injection Ew as <- _.
    rewrite (classify_oct _ _ c' d Hd). cbn [app]. rewrite (add64_small (size p) 4) by sz.
    change (c' :: ds' ++ r) with ((c' :: ds') ++ r) in *.
    destruct Hr as [Hr|[Hne Hr]].
    + rewrite (oct_seq_end p x5c (c' :: ds') v r _ Hds) by sd.
      cbn [bind]. rewrite finish_ok by sz. f_equal. f_equal. sz.
    + destruct r as [|c2 r2]; [congruence|].
      destruct (Nat.eq_dec (length (c' :: ds')) 3) as [E3|E3].
      * rewrite (oct_seq_end p x5c (c' :: ds') v (c2 :: r2) _ Hds) by sd.
        cbn [bind]. rewrite finish_ok by sz. f_equal. f_equal. sz.
      * rewrite (oct_seq_stop p x5c (c' :: ds') v c2 r2 _ Hds Hr) by sz.
        cbn [bind]. rewrite finish_ok by sz. f_equal. f_equal. sz.
Qed.
Lemma classify_overhang p c q n : Fits (p ++ x5c :: c :: q) -> Overhang (x5c :: c :: q) n ->
  classify_escape (p ++ x5c :: c :: q) (size p) c = Ok (Sub (size p) n).
Proof.
  intros HF H. remember (x5c :: c :: q) as w eqn:Ew.
  destruct H as [ds v Hl Hds|ds v Hl Hds|ds v Hl Hds].
  - injection Ew as <- _. rewrite classify_u, (add64_small (size p) 6) by sz. rewrite <- (app_nil_r ds).
    rewrite (hex_seq_end p x5c x75 ds v [] _ Hds) by sd.
    cbn [bind]. rewrite finish_ok by sz. f_equal. f_equal. sz.
  - injection Ew as <- _. rewrite classify_U. rewrite (add64_small (size p) 10) by sz. rewrite <- (app_nil_r ds).
    rewrite (hex_seq_end p x5c x55 ds v [] _ Hds) by sd.
    cbn [bind]. rewrite finish_ok by sz. f_equal. f_equal. sz.
  - destruct (oct_head ds v Hds) as (c' & d & ds' & -> & Hd); [lia|]. injection Ew as <- _.
    rewrite (classify_oct _ _ c' d Hd). rewrite (add64_small (size p) 4) by sz. rewrite <- (app_nil_r (c' :: ds')).
    rewrite (oct_seq_end p x5c (c' :: ds') v [] _ Hds) by sd.
    cbn [bind]. rewrite finish_ok by sz. f_equal. f_equal. sz.
Qed.
Lemma classify_bad p c q : Fits (p ++ x5c :: c :: q) -> BadEscape (x5c :: c :: q) ->
  classify_escape (p ++ x5c :: c :: q) (size p) c = Throw YstringException.
Proof.
  intros HF H. remember (x5c :: c :: q) as w eqn:Ew.
  destruct H as [|c' r H1|x ds v r Hx Hl Hds Hr|ds v r Hl Hds Hne Hr|ds v r Hl Hds Hne Hr].
  - discriminate.
  - injection Ew as -> _. now apply classify_high.
  - injection Ew as -> _. rewrite classify_x by exact Hx. cbn [app].
    destruct r as [|c' r'].
    + rewrite (hex_seq_end p x5c c ds v [] _ Hds) by sd. cbn [bind]. now rewrite finish_bad by sz.
    + rewrite (hex_seq_stop p x5c c ds v c' r' _ Hds Hr) by sz. cbn [bind]. now rewrite finish_bad by sz.
  - injection Ew as <- _. rewrite classify_u. cbn [app]. destruct r as [|c' r']; [congruence|].
    rewrite (add64_small (size p) 6) by sz. rewrite (hex_seq_stop p x5c x75 ds v c' r' _ Hds Hr) by sz.
    cbn [bind]. now rewrite finish_bad by sz.
  - injection Ew as <- _. rewrite classify_U. cbn [app]. destruct r as [|c' r']; [congruence|].
    rewrite (add64_small (size p) 10) by sz. rewrite (hex_seq_stop p x5c x55 ds v c' r' _ Hds Hr) by sz.
    cbn [bind]. now rewrite finish_bad by sz.
Qed.

(** Every text starting with a backslash is one of the three. *)
Lemma escape_cases q : BadEscape (x5c :: q) \/ (exists n, Extent (x5c :: q) n) \/ (exists n, Overhang (x5c :: q) n).
Proof.
  destruct q as [|c q]; [left; constructor|].
  destruct (N.le_gt_cases 0x80 (u8 c)) as [Hc|Hc]; [left; now constructor|].
  assert (D : In c numeric_letters \/ ~ In c numeric_letters).
  { destruct (in_dec Byte.byte_eq_dec c numeric_letters); auto. }
  destruct D as [D|D]; [|right; left; exists 2; now constructor].
  assert (HX : forall x, x = x78 \/ x = x58 -> BadEscape (x5c :: x :: q) \/ (exists n, Extent (x5c :: x :: q) n)).
  { intros x Hx. destruct (hex_run q) as (ds & r & -> & [v Hv] & Hr).
    destruct (Nat.lt_ge_cases (length ds) 2) as [L|L].
    - left. now apply (bad_x x ds v r).
    - right. exists (2 + size ds). now apply (ext_x x ds v r). }
  assert (HO : forall d, oct_digit c d -> (exists n, Extent (x5c :: c :: q) n) \/ (exists n, Overhang (x5c :: c :: q) n)).
  { intros d Hd. destruct (run_upto oct_digit 8 3 (c :: q) oct_digit_dec) as (ds & r & E & [v Hv] & Hl & Hr). rewrite E.
    assert (1 <= length ds)%nat.
    { destruct ds; [|cbn [length]; lia]. cbn [app] in E. subst r. destruct Hr as [Hr|Hr]; [discriminate|]. now elim (Hr d). }
    destruct r as [|c2 r2].
    - destruct (Nat.eq_dec (length ds) 3) as [L|L].
      + left. exists (1 + size ds). apply (ext_oct ds v []); [lia|exact Hv|now left].
      + right. exists 4. rewrite app_nil_r. apply (over_oct ds v); [lia|exact Hv].
    - left. exists (1 + size ds). apply (ext_oct ds v (c2 :: r2)); [lia|exact Hv|].
      destruct Hr as [Hr|Hr]; [now left|right; split; [discriminate|exact Hr]]. }
  cbn [numeric_letters In] in D.
  destruct D as [<-|[<-|[<-|[<-|D]]]].
  - destruct (HX x78); auto.
  - destruct (HX x58); auto.
  - destruct (run_upto hex_digit 16 4 q hex_digit_dec) as (ds & r & -> & [v Hv] & Hl & Hr).
    destruct (Nat.eq_dec (length ds) 4) as [L|L].
    + right. left. exists 6. now apply (ext_u ds v r).
    + destruct Hr as [Hr|Hr]; [congruence|]. destruct r as [|c2 r2].
      * right. right. exists 6. rewrite app_nil_r. apply (over_u ds v); [lia|exact Hv].
      * left. apply (bad_u ds v (c2 :: r2)); [lia|exact Hv|discriminate|exact Hr].
  - destruct (run_upto hex_digit 16 8 q hex_digit_dec) as (ds & r & -> & [v Hv] & Hl & Hr).
    destruct (Nat.eq_dec (length ds) 8) as [L|L].
    + right. left. exists 10. now apply (ext_U ds v r).
    + destruct Hr as [Hr|Hr]; [congruence|]. destruct r as [|c2 r2].
      * right. right. exists 10. rewrite app_nil_r. apply (over_U ds v); [lia|exact Hv].
      * left. apply (bad_U ds v (c2 :: r2)); [lia|exact Hv|discriminate|exact Hr].
  - right. assert (exists d, oct_digit c d) as [d Hd].
    { destruct D as [<-|[<-|[<-|[<-|[<-|[<-|[<-|[<-|[]]]]]]]]];
      [exists 0|exists 1|exists 2|exists 3|exists 4|exists 5|exists 6|exists 7]; split; reflexivity. }
    exact (HO d Hd).
Qed.

(** [find_first_escaped_char] in full. *)
Lemma ffe_extent pre lits w n : Fits (pre ++ lits ++ w) -> ~ In x5c lits -> Extent w n ->
  find_first_escaped_char (pre ++ lits ++ w) (size pre) = Ok (Sub (size (pre ++ lits)) n).
Proof.
  intros HF HL HE. assert (exists c q, w = x5c :: c :: q) as (c & q & ->).
  { destruct HE as [c r ? ?|x ds v r ? ? ? ?|ds v r ? ?|ds v r ? ?|ds v r Hl Hds Hr]; cbn [app]; eauto.
    destruct (oct_head ds v Hds) as (c' & d & ds' & -> & Hd); [lia|]. cbn [app]. eauto. }
  rewrite ffe_at by exact HL. apply classify_extent; [now rewrite <- app_assoc|exact HE].
Qed.
Lemma ffe_overhang pre lits w n : Fits (pre ++ lits ++ w) -> ~ In x5c lits -> Overhang w n ->
  find_first_escaped_char (pre ++ lits ++ w) (size pre) = Ok (Sub (size (pre ++ lits)) n).
Proof.
  intros HF HL HE. assert (exists c q, w = x5c :: c :: q) as (c & q & ->).
  { destruct HE as [ds v ? ?|ds v ? ?|ds v Hl Hds]; eauto.
    destruct (oct_head ds v Hds) as (c' & d & ds' & -> & Hd); [lia|]. eauto. }
  rewrite ffe_at by exact HL. apply classify_overhang; [now rewrite <- app_assoc|exact HE].
Qed.
Lemma ffe_bad pre lits w : Fits (pre ++ lits ++ w) -> ~ In x5c lits -> BadEscape w ->
  find_first_escaped_char (pre ++ lits ++ w) (size pre) = Throw YstringException.
Proof.
  intros HF HL HE. assert (w = [x5c] \/ exists c q, w = x5c :: c :: q) as [->|(c & q & ->)].
  { destruct HE; cbn [app]; eauto. }
  - now apply ffe_lone.
  - rewrite ffe_at by exact HL. apply classify_bad; [now rewrite <- app_assoc|exact HE].
Qed.
Lemma backslash_cut s : ~ In x5c s \/ exists lits q, s = lits ++ x5c :: q /\ ~ In x5c lits.
Proof.
  induction s as [|c s IH]; [left; intros []|].
  destruct (Byte.byte_eq_dec c x5c) as [->|Hc].
  - right. exists [], s. split; [reflexivity|intros []].
  - destruct IH as [IH|(lits & q & -> & H)].
    + left. intros [H|H]; auto.
    + right. exists (c :: lits), q. split; [reflexivity|]. intros [H'|H']; auto.
Qed.

(** C74 *)
Lemma Extent_size w n : Extent w n -> n <= size w.
Proof. intros H. destruct H; rewrite ?size_app; unfold size in *; rewrite ?app_length; cbn [length]; lia. Qed.
Lemma Overhang_size w n : Overhang w n -> size w < n.
Proof. intros H. destruct H; unfold size in *; cbn [length]; lia. Qed.
Lemma p_c74 pre lits w : Fits (pre ++ lits ++ w) -> ~ In x5c lits ->
  (w = [] -> find_first_escaped_char (pre ++ lits ++ w) (size pre) = Ok (Sub (size (pre ++ lits)) 0)) /\
  (forall n, Extent w n -> find_first_escaped_char (pre ++ lits ++ w) (size pre) = Ok (Sub (size (pre ++ lits)) n) /\ n <= size w) /\
  (BadEscape w -> find_first_escaped_char (pre ++ lits ++ w) (size pre) = Throw YstringException) /\
  (forall n, Overhang w n -> find_first_escaped_char (pre ++ lits ++ w) (size pre) = Ok (Sub (size (pre ++ lits)) n) /\ size w < n).
Proof.
  intros HF HL. split; [|split; [|split]].
  - intros ->. rewrite app_nil_r. now apply ffe_none.
  - intros n H. split; [now apply ffe_extent|now apply Extent_size].
  - intros H. now apply ffe_bad.
  - intros n H. split; [now apply ffe_overhang|now apply Overhang_size].
Qed.
Lemma Extent_pos w n : Extent w n -> 0 < n.
Proof. intros H. destruct H; lia. Qed.
Lemma Overhang_pos w n : Overhang w n -> 0 < n.
Proof. intros H. destruct H; lia. Qed.
Lemma has_eq s o : find_first_escaped_char ([] ++ s) (size []) = o -> has_escaped_chars s = (let* r := o in Ok (sub_bool r)).
Proof. intros <-. reflexivity. Qed.
Lemma has_cases s : Fits s ->
  (~ In x5c s /\ has_escaped_chars s = Ok false) \/
  ((exists lits w, s = lits ++ w /\ ~ In x5c lits /\ BadEscape w) /\ has_escaped_chars s = Throw YstringException) \/
  ((exists lits w n, s = lits ++ w /\ ~ In x5c lits /\ (Extent w n \/ Overhang w n)) /\ has_escaped_chars s = Ok true).
Proof.
  intros HF.  destruct (backslash_cut s) as [HN|(lits & q & -> & HL)].
  - left. split; [exact HN|]. rewrite (has_eq _ _ (ffe_none [] s HN)). reflexivity.
  - right. destruct (escape_cases q) as [H|[[n H]|[n H]]].
    + left. split; [exists lits, (x5c :: q); auto|]. rewrite (has_eq _ _ (ffe_bad [] lits _ HF HL H)). reflexivity.
    + right. split; [exists lits, (x5c :: q), n; auto|]. rewrite (has_eq _ _ (ffe_extent [] lits _ n HF HL H)). cbn [bind]. unfold sub_bool. cbn [sub_length].
      apply Extent_pos in H. destruct n; [lia|reflexivity].
    + right. split; [exists lits, (x5c :: q), n; auto|]. rewrite (has_eq _ _ (ffe_overhang [] lits _ n HF HL H)). cbn [bind]. unfold sub_bool. cbn [sub_length].
      apply Overhang_pos in H. destruct n; [lia|reflexivity].
Qed.
Lemma has_of s lits w : Fits s -> s = lits ++ w -> ~ In x5c lits ->
  (BadEscape w -> has_escaped_chars s = Throw YstringException) /\ (forall n, Extent w n \/ Overhang w n -> has_escaped_chars s = Ok true).
Proof.
  intros HF -> HL.  split.
  - intros H. rewrite (has_eq _ _ (ffe_bad [] lits _ HF HL H)). reflexivity.
  - intros n [H|H].
    + rewrite (has_eq _ _ (ffe_extent [] lits _ n HF HL H)). cbn [bind]. unfold sub_bool. cbn [sub_length]. apply Extent_pos in H. destruct n; [lia|reflexivity].
    + rewrite (has_eq _ _ (ffe_overhang [] lits _ n HF HL H)). cbn [bind]. unfold sub_bool. cbn [sub_length]. apply Overhang_pos in H. destruct n; [lia|reflexivity].
Qed.
Lemma p_c74_has s : Fits s ->
  (has_escaped_chars s = Ok false <-> ~ In x5c s) /\
  (has_escaped_chars s = Throw YstringException <-> exists lits w, s = lits ++ w /\ ~ In x5c lits /\ BadEscape w) /\
  (has_escaped_chars s = Ok true <-> exists lits w n, s = lits ++ w /\ ~ In x5c lits /\ (Extent w n \/ Overhang w n)).
Proof.
  intros HF. split; [|split]; split.
  - intros E. destruct (has_cases s HF) as [[H _]|[[_ H]|[_ H]]]; [exact H|congruence|congruence].
  - intros H. rewrite (has_eq s _ (ffe_none [] s H)). reflexivity.
  - intros E. destruct (has_cases s HF) as [[_ H]|[[H _]|[_ H]]]; [congruence|exact H|congruence].
  - intros (lits & w & E & HL & H). now apply (has_of s lits w HF E HL).
  - intros E. destruct (has_cases s HF) as [[_ H]|[[_ H]|[H _]]]; [congruence|congruence|exact H].
  - intros (lits & w & n & E & HL & H). now apply (proj2 (has_of s lits w HF E HL) n).
Qed.
