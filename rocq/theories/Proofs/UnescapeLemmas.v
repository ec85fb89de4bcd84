(** One step of [unescape]: the value of an escape sequence. *)
From Verif Require Import Base Spec.Utf8Spec Spec.Strings Spec.Escape Model.Decode Model.Encode Model.Subrange Model.Unescape
  Proofs.Utf8Lemmas Proofs.DecodeLemmas Proofs.EncodeLemmas Proofs.CodepointLemmas Proofs.SearchLemmas Proofs.NumeralLemmas Proofs.EscapeScan.
From Coq Require Import ZifyBool ZifyNat ZifyN.

Lemma deref_second P a c q : Fits (P ++ a :: c :: q) ->
  deref (P ++ a :: c :: q) (N.to_nat (add64 (size P) 1)) = Ok c.
Proof.
  intros HF. rewrite add64_small by sz. rewrite cons1_app. apply (deref_at _ (P ++ [a]) c q); [reflexivity|].
  sz.
Qed.
Lemma substr_rest P w n : size w <= n -> substr (P ++ w) (size P) n = Ok w.
Proof.
  intros H. unfold substr. rewrite size_app. replace (size P + size w <? size P) with false by lia.
  rewrite size_nat, skipn_length_app. replace (N.to_nat (N.min n (size P + size w - size P))) with (length w) by (unfold size in *; lia).
  now rewrite firstn_all.
Qed.
Lemma substr_rest_firstn P w n : substr (P ++ w) (size P) (N.of_nat n) = Ok (firstn n w).
Proof.
  unfold substr. rewrite size_app. replace (size P + size w <? size P) with false by lia.
  rewrite size_nat, skipn_length_app. f_equal.
  destruct (Nat.le_gt_cases (length w) n) as [L|L].
  - transitivity w; [|symmetry]; apply firstn_all2; unfold size in *; lia.
  - f_equal. unfold size in *. lia.
Qed.

(** The switch. *)
Lemma one_self sv sub c : deref sv (N.to_nat (add64 (sub_start sub) 1)) = Ok c ->
  ~ In c numeric_letters -> (forall v, ~ In (c, v) letters) -> unescape_one sv sub = Ok (u8 c, sub).
Proof.
  intros E H1 H2. unfold unescape_one. rewrite E. cbn [bind].
  destruct c; try reflexivity; exfalso; first [apply H1; cbn; tauto | eapply H2; cbn; eauto 20].
Qed.
Lemma one_letter sv sub c v : deref sv (N.to_nat (add64 (sub_start sub) 1)) = Ok c ->
  In (c, v) letters -> unescape_one sv sub = Ok (v, sub).
Proof.
  intros E H. unfold unescape_one. rewrite E. cbn [bind].
  cbn [letters In] in H. repeat (destruct H as [H|H]; [injection H as <- <-; reflexivity|]). destruct H.
Qed.
Lemma one_hex sv sub c : deref sv (N.to_nat (add64 (sub_start sub) 1)) = Ok c -> c = x78 \/ c = x58 \/ c = x55 ->
  unescape_one sv sub = let* t := substr sv (sub_start sub) (sub_length sub) in
    let* ch := parse_escaped_hex_char t in Ok (ch, sub).
Proof. intros E H. unfold unescape_one. rewrite E. cbn [bind]. destruct H as [-> | [-> | ->]]; reflexivity. Qed.
Lemma one_u sv sub : deref sv (N.to_nat (add64 (sub_start sub) 1)) = Ok x75 -> unescape_one sv sub = parse_utf16 sv sub.
Proof. intros E. unfold unescape_one. now rewrite E. Qed.
Lemma one_oct sv sub c d : deref sv (N.to_nat (add64 (sub_start sub) 1)) = Ok c -> oct_digit c d ->
  unescape_one sv sub = let* t := substr sv (sub_start sub) (sub_length sub) in
    let* ch := parse_escaped_oct_char t in Ok (ch, sub).
Proof.
  intros E [Hd Hc]. unfold unescape_one. rewrite E. cbn [bind].
  assert (HC : In (u8 c) [0x30; 0x31; 0x32; 0x33; 0x34; 0x35; 0x36; 0x37]) by (cbn; lia).
  destruct c; try reflexivity; exfalso; vm_compute in HC; repeat (destruct HC as [HC|HC]; [discriminate|]); exact HC.
Qed.

Lemma parse_hex_ok a x ds v : Hex ds v -> ds <> [] -> v < 0x100000000 -> parse_escaped_hex_char (a :: x :: ds) = Ok v.
Proof.
  intros H1 H2 H3. unfold parse_escaped_hex_char. cbn [length Nat.ltb Nat.leb skipn].
  rewrite (from_chars_hex_all ds v H1 H2 H3). destruct ds; [congruence|reflexivity].
Qed.
Lemma parse_hex_none a x : parse_escaped_hex_char [a; x] = Throw YstringException.
Proof. reflexivity. Qed.
Lemma parse_hex_over a x ds v : Hex ds v -> 0x100000000 <= v -> parse_escaped_hex_char (a :: x :: ds) = UB.
Proof.
  intros H1 H3. assert (ds <> []) as H2.
  { intros ->. pose proof (Hex_fun [] v 0 H1 (num_nil _ _)). lia. }
  unfold parse_escaped_hex_char. cbn [length Nat.ltb Nat.leb skipn].
  rewrite <- (app_nil_r ds). rewrite (from_chars_hex ds v [] H1 I H2).
  replace (v <? 0x100000000) with false by lia. destruct ds; [congruence|reflexivity].
Qed.
Lemma parse_oct_ok a ds v : Oct ds v -> ds <> [] -> v < 0x100000000 -> parse_escaped_oct_char (a :: ds) = Ok v.
Proof.
  intros H1 H2 H3. unfold parse_escaped_oct_char. cbn [length Nat.ltb Nat.leb skipn].
  rewrite (from_chars_oct_all ds v H1 H2 H3). destruct ds; [congruence|reflexivity].
Qed.

Lemma combine_ok hi lo : high_surrogate hi -> low_surrogate lo ->
  combine_surrogate_pair hi lo = 0x10000 + (hi - 0xD800) * 0x400 + (lo - 0xDC00).
Proof.
  unfold high_surrogate, low_surrogate, combine_surrogate_pair. intros H1 H2.
  assert (E1 : N.land hi 0x3FF = hi - 0xD800).
  { change 0x3FF with (N.ones 10). rewrite N.land_ones. change (2 ^ 10) with 1024.
    symmetry. apply (N.mod_unique hi 1024 54); lia. }
  assert (E2 : N.land lo 0x3FF = lo - 0xDC00).
  { change 0x3FF with (N.ones 10). rewrite N.land_ones. change (2 ^ 10) with 1024.
    symmetry. apply (N.mod_unique lo 1024 55); lia. }
  rewrite E1, E2, shl32_lor; [|change (2 ^ 10) with 1024; unfold W32; lia|change (2 ^ 10) with 1024; lia].
  unfold add32. change (2 ^ 10) with 1024. rewrite N.mod_small by (unfold W32; lia). lia.
Qed.

Lemma len_cons2 (ds : str) n : length ds = S n -> ds <> [].
Proof. now destruct ds. Qed.
Lemma hex4_lt ds v : length ds = 4%nat -> Hex ds v -> v < 0x10000.
Proof. intros L H. apply Hex_bound in H. rewrite L in H. exact H. Qed.
Lemma hex8_lt ds v : length ds = 8%nat -> Hex ds v -> v < 0x100000000.
Proof. intros L H. apply Hex_bound in H. rewrite L in H. exact H. Qed.
Lemma hex_short_lt ds v k : (length ds < k)%nat -> (k <= 8)%nat -> Hex ds v -> v < 0x100000000.
Proof.
  intros L K H. apply Hex_bound in H. change 0x100000000 with (16 ^ 8).
  eapply N.lt_le_trans; [exact H|]. apply N.pow_le_mono_r; lia.
Qed.
Lemma oct_lt ds v : (length ds <= 3)%nat -> Oct ds v -> v < 0x200.
Proof.
  intros L H. apply Oct_bound in H. change 0x200 with (8 ^ 3).
  eapply N.lt_le_trans; [exact H|]. apply N.pow_le_mono_r; lia.
Qed.

(** The first half of a surrogate pair. *)
Lemma utf16_plain P ds v r : length ds = 4%nat -> Hex ds v -> ~ high_surrogate v ->
  parse_utf16 (P ++ (x5c :: x75 :: ds) ++ r) (Sub (size P) 6) = Ok (v, Sub (size P) 6).
Proof.
  intros L H HS. unfold parse_utf16. cbn [sub_offset sub_length].
  rewrite (substr_mid P (x5c :: x75 :: ds) r) by sz. cbn [bind].
  rewrite (parse_hex_ok x5c x75 ds v H (len_cons2 _ _ L)) by (pose proof (hex4_lt _ _ L H); lia).
  cbn [bind]. replace ((v <? 0xD800) || (0xDBFF <? v)) with true; [reflexivity|].
  unfold high_surrogate in HS. lia.
Qed.

Lemma firstn_app_exact {A} (u v : list A) n : length u = n -> firstn n (u ++ v) = u.
Proof. intros <-. apply firstn_length_app. Qed.

Lemma utf16_window P ds v r : Fits (P ++ (x5c :: x75 :: ds) ++ r) -> length ds = 4%nat -> Hex ds v -> high_surrogate v ->
  parse_utf16 (P ++ (x5c :: x75 :: ds) ++ r) (Sub (size P) 6)
  = let* sub2 := find_first_escaped_char (firstn 6 r) 0 in
    if negb (sub_bool sub2) || negb (sub_offset sub2 =? 0) || negb (sub_length sub2 =? 6)
    then Ok (v, Sub (size P) 6)
    else
      let* c := deref ((P ++ x5c :: x75 :: ds) ++ r) (length (P ++ x5c :: x75 :: ds) + 1) in
      if negb (byte_eqb c x75) then Ok (v, Sub (size P) 6)
      else
        let* ch2 := parse_escaped_hex_char (firstn 6 r) in
        if (ch2 <? 0xDC00) || (0xDFFF <? ch2) then Ok (v, Sub (size P) 6)
        else Ok (combine_surrogate_pair v ch2, Sub (size P) 12).
Proof.
  intros HF L H HS. unfold parse_utf16. cbn [sub_offset sub_length].
  rewrite (substr_mid P (x5c :: x75 :: ds) r) by sz. cbn [bind].
  rewrite (parse_hex_ok x5c x75 ds v H (len_cons2 _ _ L)) by (pose proof (hex4_lt _ _ L H); lia).
  cbn [bind]. replace ((v <? 0xD800) || (0xDBFF <? v)) with false by (unfold high_surrogate in HS; lia).
  assert (E : sub_end (Sub (size P) 6) = size (P ++ x5c :: x75 :: ds)).
  { unfold sub_end. cbn [sub_offset sub_length]. rewrite add64_small by sz. sz. }
  rewrite E, app_assoc. change 6 with (N.of_nat 6) at 1. rewrite substr_rest_firstn. cbn [bind].
  rewrite add64_small by sz.
  replace (N.to_nat (size (P ++ x5c :: x75 :: ds) + 1)) with (length (P ++ x5c :: x75 :: ds) + 1)%nat by (unfold size; lia).
  reflexivity.
Qed.

Lemma Extent_pos w n : Extent w n -> 2 <= n.
Proof. destruct 1; sz. Qed.
Lemma Overhang_pos w n : Overhang w n -> 4 <= n.
Proof. destruct 1; sz. Qed.
Lemma Extent_bs w n : Extent w n -> exists q, w = x5c :: q.
Proof. destruct 1; cbn [app]; eauto. Qed.
Lemma Overhang_bs w n : Overhang w n -> exists q, w = x5c :: q.
Proof. destruct 1; cbn [app]; eauto. Qed.

Lemma utf16_pair P ds1 hi ds2 lo r : Fits (P ++ (x5c :: x75 :: ds1) ++ (x5c :: x75 :: ds2) ++ r) ->
  length ds1 = 4%nat -> Hex ds1 hi -> high_surrogate hi -> length ds2 = 4%nat -> Hex ds2 lo -> low_surrogate lo ->
  parse_utf16 (P ++ (x5c :: x75 :: ds1) ++ (x5c :: x75 :: ds2) ++ r) (Sub (size P) 6)
  = Ok (0x10000 + (hi - 0xD800) * 0x400 + (lo - 0xDC00), Sub (size P) 12).
Proof.
  intros HF L1 H1 HS1 L2 H2 HS2. rewrite (utf16_window P ds1 hi _ HF L1 H1 HS1).
  rewrite (firstn_app_exact (x5c :: x75 :: ds2) r 6) by (cbn [length]; lia).
  pose proof (ffe_extent [] [] (x5c :: x75 :: ds2) 6) as FE. cbn [app size length N.of_nat] in FE.
  rewrite FE; [|clear - L2; sz|intros []|pose proof (ext_u ds2 lo [] L2 H2) as X; rewrite app_nil_r in X; exact X].
  cbn [bind sub_bool sub_length sub_offset N.eqb negb orb Pos.eqb].
  rewrite deref_app_r. cbn [app deref nth_error bind byte_eqb]. rewrite byte_eqb_refl. cbn [negb].
  rewrite (parse_hex_ok x5c x75 ds2 lo H2 (len_cons2 _ _ L2)) by (pose proof (hex4_lt _ _ L2 H2); lia).
  cbn [bind]. replace ((lo <? 0xDC00) || (0xDFFF <? lo)) with false by (unfold low_surrogate in HS2; lia).
  now rewrite combine_ok.
Qed.

Lemma utf16_obstructed P ds v r : Fits (P ++ (x5c :: x75 :: ds) ++ r) -> length ds = 4%nat -> Hex ds v -> high_surrogate v ->
  Obstructed r -> parse_utf16 (P ++ (x5c :: x75 :: ds) ++ r) (Sub (size P) 6) = Throw YstringException.
Proof.
  intros HF L H HS HO. rewrite (utf16_window P ds v _ HF L H HS).
  destruct HO as [(lits & w & E & HL & HB) | ->].
  - rewrite E. pose proof (ffe_bad [] lits w) as FE. cbn [app size length N.of_nat] in FE.
    rewrite FE; [reflexivity| |exact HL|exact HB].
    rewrite <- E. pose proof (firstn_le_length 6 r). sz.
  - cbn [firstn]. pose proof (ffe_overhang [] [] [x5c; x75] 6) as FE. cbn [app size length N.of_nat] in FE.
    rewrite FE; [|sz|intros []|apply (over_u [] 0); [cbn; lia|constructor]].
    cbn [bind sub_bool sub_length sub_offset N.eqb negb orb Pos.eqb].
    rewrite deref_app_r. cbn [app deref nth_error bind byte_eqb]. rewrite byte_eqb_refl. reflexivity.
Qed.

Lemma utf16_lone P ds v r : Fits (P ++ (x5c :: x75 :: ds) ++ r) -> length ds = 4%nat -> Hex ds v -> high_surrogate v ->
  ~ starts_low r -> ~ Obstructed r -> parse_utf16 (P ++ (x5c :: x75 :: ds) ++ r) (Sub (size P) 6) = Ok (v, Sub (size P) 6).
Proof.
  intros HF L H HS HL HO. rewrite (utf16_window P ds v _ HF L H HS).
  assert (HF6 : Fits (firstn 6 r)) by (pose proof (firstn_le_length 6 r); sz).
  destruct (backslash_cut (firstn 6 r)) as [NB|(lits & q & E & NB)].
  - pose proof (ffe_none [] (firstn 6 r) NB) as FE. cbn [app size length N.of_nat] in FE. now rewrite FE.
  - assert (X : exists n, find_first_escaped_char (firstn 6 r) 0 = Ok (Sub (size lits) n) /\
              (Extent (x5c :: q) n \/ Overhang (x5c :: q) n)).
    { destruct (escape_cases q) as [HB|[[n HE]|[n HE]]].
      - elim HO. left. exists lits, (x5c :: q). auto.
      - exists n. split; [|now left]. rewrite E. rewrite E in HF6.
        pose proof (ffe_extent [] lits (x5c :: q) n) as FE. cbn [app size length N.of_nat] in FE. now apply FE.
      - exists n. split; [|now right]. rewrite E. rewrite E in HF6.
        pose proof (ffe_overhang [] lits (x5c :: q) n) as FE. cbn [app size length N.of_nat] in FE. now apply FE. }
    destruct X as (n & -> & HE). cbn [bind]. unfold sub_bool. cbn [sub_length sub_offset].
    destruct (negb (negb (n =? 0)) || negb (size lits =? 0) || negb (n =? 6)) eqn:C; [reflexivity|].
    assert (n = 6 /\ lits = []) as [-> ->].
    { destruct lits; [split; [lia|reflexivity]|]. exfalso. sz. }
    cbn [app] in E.
    assert (exists c q', q = c :: q') as (c & q' & ->).
    { destruct q as [|c q']; [|eauto]. exfalso. destruct HE as [HE|HE].
      - remember [x5c] as w eqn:Ew. destruct HE; try discriminate Ew.
        destruct (oct_head ds0 v0 H1) as (c' & d & ds' & -> & Hd); [lia|]. discriminate Ew.
      - remember [x5c] as w eqn:Ew. destruct HE; try discriminate Ew.
        destruct (oct_head ds0 v0 H1) as (c' & d & ds' & -> & Hd); [lia|]. discriminate Ew. }
    assert (exists r', r = x5c :: c :: r') as (r' & ->).
    { destruct r as [|a [|b r']]; [discriminate E|discriminate E|]. cbn [firstn] in E. injection E as -> -> _. eauto. }
    rewrite deref_app_r. cbn [deref nth_error bind].
    destruct (byte_eqb c x75) eqn:Ec; [|reflexivity]. apply byte_eqb_eq in Ec. subst c. cbn [negb].
    rewrite E. change (firstn 6 (x5c :: x75 :: r')) with (x5c :: x75 :: firstn 4 r') in E. apply cons_eq in E as [_ E]. apply cons_eq in E as [_ E].
    (* the digits after the second \u *)
    destruct HE as [HE|HE].
    + remember (x5c :: x75 :: q') as w eqn:Ew. remember 6 as n eqn:En.
      destruct HE as [c' r0 A1 A2|x ds0 v0 r0 A1 A2 A3 A4|ds0 v0 r0 A1 A2|ds0 v0 r0 A1 A2|ds0 v0 r0 A1 A2 A3];
        try discriminate En.
      * injection Ew as -> _. destruct A1; discriminate.
      * cbn [app] in Ew. apply cons_eq in Ew as [_ Ew]. apply cons_eq in Ew as [_ Ew].
        assert (r0 = []) as ->.
        { destruct r0; [reflexivity|]. exfalso. pose proof (firstn_le_length 4 r') as F. rewrite E, <- Ew, app_length in F.
          cbn [length] in F. lia. }
        change (ds0 ++ [] = q') in Ew. rewrite app_nil_r in Ew. subst ds0. cbn [app]. rewrite app_nil_r.
        rewrite (parse_hex_ok x5c x75 q' v0 A2 (len_cons2 _ _ A1)) by (pose proof (hex4_lt _ _ A1 A2); lia).
        cbn [bind]. destruct ((v0 <? 0xDC00) || (0xDFFF <? v0)) eqn:C2; [reflexivity|].
        elim HL. exists q', v0, (skipn 4 r'). rewrite <- E at 1.
        split; [rewrite firstn_skipn; reflexivity|]. repeat split; [exact A1|exact A2|unfold low_surrogate; lia|unfold low_surrogate; lia].
      * destruct (oct_head ds0 v0 A2) as (c' & d & ds' & -> & Hd); [lia|]. injection Ew as -> _. destruct Hd as [D1 D2]. change (u8 x75) with 0x75 in D2. lia.
    + remember (x5c :: x75 :: q') as w eqn:Ew. remember 6 as n eqn:En.
      destruct HE as [ds0 v0 A1 A2|ds0 v0 A1 A2|ds0 v0 A1 A2]; try discriminate En.
      injection Ew as ->. 
      destruct q' as [|c0 q''].
      { elim HO. right. destruct r'; [reflexivity|discriminate E]. }
      rewrite (parse_hex_ok x5c x75 (c0 :: q'') v0 A2) by first [discriminate|now apply (hex_short_lt (c0 :: q'') v0 4); [| lia|]].
      cbn [bind]. assert (v0 < 0x1000).
      { apply Hex_bound in A2. change 0x1000 with (16 ^ 3). eapply N.lt_le_trans; [exact A2|]. apply N.pow_le_mono_r; lia. }
      now replace ((v0 <? 0xDC00) || (0xDFFF <? v0)) with true by lia.
Qed.
