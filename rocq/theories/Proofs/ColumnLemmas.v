(** C150: lines and columns. *)
From Verif Require Import Base Spec.Utf8Spec Spec.Strings Spec.Algebra Spec.Split Model.Decode Model.Subrange Model.Search Model.Split
  Proofs.Utf8Lemmas Proofs.SearchLemmas Proofs.SplitLemmas Proofs.AlgebraLemmas Proofs.StoredLemmas Proofs.SyncLemmas Proofs.FoundLemmas.

Lemma split_bytes b s : Fits s -> exists l, split_sep s [b] SIZE_MAX false = Ok l /\ join l [b] = s /\ l <> [] /\ Forall (fun x => ~ In b x) l.
Proof.
  intros HF. destruct (p_c36_join s [b] SIZE_MAX ltac:(discriminate) HF ltac:(vm_compute; congruence)) as (l & E & J & _).
  exists l. split; [exact E|]. split; [exact J|]. rewrite <- J in E, HF. apply p_c83 in E; [|discriminate|exact HF]. now apply p_c83_byte in E.
Qed.
Lemma split_is b l : l <> [] -> Forall (fun x => ~ In b x) l -> Fits (join l [b]) -> split_sep (join l [b]) [b] SIZE_MAX false = Ok l.
Proof. intros H1 H2 HF. apply p_c83; [discriminate|exact HF|]. now apply p_c83_byte. Qed.
Lemma join_cut b l (x y : str) r : join (l ++ [x ++ y] ++ r) [b] = join (l ++ [x]) [b] ++ join (y :: r) [b].
Proof.
  rewrite !join_spec. induction l as [|z l IH].
  - cbn [app]. destruct r as [|w r]; [reflexivity|].
    change (interleave [b] ((x ++ y) :: w :: r)) with ((x ++ y) ++ [b] ++ interleave [b] (w :: r)).
    change (interleave [b] (y :: w :: r)) with (y ++ [b] ++ interleave [b] (w :: r)). cbn [interleave]. now rewrite <- app_assoc.
  - cbn [app] in *. rewrite !interleave_cons by (destruct l; discriminate). rewrite IH. now rewrite <- !app_assoc.
Qed.
Lemma join_last b l (x : str) : join (l ++ [x]) [b] = match l with [] => [] | _ => join l [b] ++ [b] end ++ x.
Proof.
  rewrite !join_spec. destruct l as [|z l]; [reflexivity|]. revert z. induction l as [|w l IH]; intros z.
  - cbn [app interleave]. now rewrite <- app_assoc.
  - change ((z :: w :: l) ++ [x]) with (z :: (w :: l) ++ [x]). rewrite !interleave_cons by discriminate. rewrite IH. now rewrite <- !app_assoc.
Qed.
Lemma join_first b (y : str) r : join (y :: r) [b] = y ++ match r with [] => [] | _ => [b] ++ join r [b] end.
Proof. rewrite !join_spec. destruct r as [|w r]; cbn [interleave]; [now rewrite app_nil_r|reflexivity]. Qed.
Lemma split_unique b s l l' : Fits s -> split_sep s [b] SIZE_MAX false = Ok l -> l' <> [] -> Forall (fun x => ~ In b x) l' -> join l' [b] = s -> l = l'.
Proof. intros HF E H1 H2 J. rewrite <- J in E, HF. rewrite (split_is b l' H1 H2 HF) in E. now injection E. Qed.

(** Cutting a text anywhere cuts exactly one of its lines *)
Lemma p_c150_cut : forall b u v, Fits (u ++ v) -> exists l x y r,
  split_sep u [b] SIZE_MAX false = Ok (l ++ [x]) /\ split_sep v [b] SIZE_MAX false = Ok (y :: r) /\ split_sep (u ++ v) [b] SIZE_MAX false = Ok (l ++ [x ++ y] ++ r) /\
  u = join (l ++ [x]) [b] /\ v = join (y :: r) [b] /\ ~ In b x /\ ~ In b y.
Proof.
  intros b u v HF. assert (Fits u /\ Fits v) as [FU FV] by (unfold Fits, size in *; rewrite app_length in HF; lia).
  destruct (split_bytes b u FU) as (lu & EU & JU & NU & BU). destruct (split_bytes b v FV) as (lv & EV & JV & NV & BV).
  destruct (exists_last NU) as (l & x & ->). destruct lv as [|y r]; [congruence|]. exists l, x, y, r.
  apply Forall_app in BU. destruct BU as [BL BX]. inversion BX as [|? ? BX' _]; subst. inversion BV as [|? ? BY BR]; subst.
  split; [exact EU|]. split; [exact EV|]. split; [|repeat split; auto]. rewrite <- join_cut in *. apply split_is.
  - destruct l; discriminate.
  - apply Forall_app. split; [exact BL|]. constructor; [|exact BR]. rewrite in_app_iff. tauto.
  - exact HF.
Qed.
(** and the other way: a place in a line is a place in the text *)
Lemma p_c150_back : forall b s l x y r, Fits s -> split_sep s [b] SIZE_MAX false = Ok (l ++ [x ++ y] ++ r) ->
  let i := size (join (l ++ [x]) [b]) in i <= size s /\ split_sep (firstn (N.to_nat i) s) [b] SIZE_MAX false = Ok (l ++ [x]) /\
  split_sep (skipn (N.to_nat i) s) [b] SIZE_MAX false = Ok (y :: r).
Proof.
  intros b s l x y r HF E i. destruct (split_bytes b s HF) as (l' & E' & J & _ & HB). assert (l' = l ++ [x ++ y] ++ r) as -> by congruence. rewrite join_cut in J. subst s.
  assert (Fits (join (l ++ [x]) [b]) /\ Fits (join (y :: r) [b])) as [F1 F2] by (clear - HF; unfold Fits, size, str in HF |- *; rewrite app_length in HF; lia).
  unfold i, size. clear i. rewrite Nat2N.id, firstn_app, Nat.sub_diag, firstn_all, skipn_app, Nat.sub_diag, skipn_all. cbn [firstn skipn app]. rewrite app_nil_r.
  apply Forall_app in HB. destruct HB as [BL BX]. cbn in BX. inversion BX as [|? ? BX' BR]; subst. rewrite in_app_iff in BX'.
  split; [unfold str in *; rewrite app_length; lia|]. split; apply split_is; try exact F1; try exact F2; try (destruct l; discriminate); try discriminate; [apply Forall_app; split; [exact BL|]|];
    (constructor; [tauto|first [constructor|exact BR]]).
Qed.
(** Where the line begins and ends *)
Lemma byte_at_app b (u v : str) i : nth_error (u ++ v) i = Some b -> ~ In b v -> (i < length u)%nat.
Proof.
  intros E H. destruct (Nat.lt_ge_cases i (length u)) as [L|L]; [exact L|]. rewrite nth_error_app2 in E by exact L. apply nth_error_In in E. contradiction.
Qed.
Lemma p_c150_line : forall b s i, Fits s -> i <= size s -> exists l x y r j n k m,
  split_sep s [b] SIZE_MAX false = Ok (l ++ [x ++ y] ++ r) /\ split_sep (firstn (N.to_nat i) s) [b] SIZE_MAX false = Ok (l ++ [x]) /\
  find_last s [b] i = Ok (Sub j n) /\ j + n + size x = i /\ (n = 0 <-> l = []) /\
  find_first s [b] i = Ok (Sub k m) /\ i + size y = k /\ (m = 0 <-> r = []) /\
  substr s (j + n) (k - (j + n)) = Ok (x ++ y).
Proof.
  intros b s i HF Hi. pose proof (firstn_skipn (N.to_nat i) s) as ES.
  assert (length (firstn (N.to_nat i) s) = N.to_nat i) as LF by (apply firstn_length_le; unfold size in Hi; lia).
  remember (firstn (N.to_nat i) s) as u eqn:Eu. remember (skipn (N.to_nat i) s) as v eqn:Ev. subst s.
  destruct (p_c150_cut b u v HF) as (l & x & y & r & EU & EV & EUV & JU & JV & HX & HY).
  pose proof (find_last_spec (u ++ v) [b] i ltac:(discriminate)) as HL. cbv zeta in HL.
  pose proof (find_first_spec (u ++ v) [b] (N.to_nat i) ltac:(discriminate) ltac:(unfold size in Hi; lia)) as HR. rewrite N2Nat.id in HR.
  assert (size [b] = 1) as S1 by reflexivity. rewrite S1 in HL, HR. rewrite (N.min_l i) in HL by exact Hi.
  rewrite join_last in JU. rewrite join_first in JV.
  assert (exists j n, find_last (u ++ v) [b] i = Ok (Sub j n) /\ j + n + size x = i /\ (n = 0 <-> l = [])) as (j & n & L1 & L2 & L3).
  { destruct l as [|z l].
    - cbn [app] in JU. subst x. exists 0, 0. split; [|split; [unfold size; lia|tauto]]. destruct HL as [(q & HO & HW & _ & _)|[_ HL]]; [|exact HL].
      exfalso. apply occurs_byte in HO. rewrite nth_error_app1 in HO by lia. apply nth_error_In in HO. contradiction.
    - remember (join (z :: l) [b]) as h eqn:Eh. clear Eh. destruct HL as [(q & HO & HW & HN & HL)|[HN _]].
      + exists (N.of_nat q), 1. split; [exact HL|]. split; [|split; discriminate]. apply occurs_byte in HO. rewrite nth_error_app1 in HO by lia. rewrite JU in HO.
        pose proof (byte_at_app b _ _ _ HO HX) as Lq. rewrite app_length in Lq. cbn [length] in Lq.
        assert (q = length h) as ->; [|rewrite JU, !app_length in LF; cbn [length] in LF; unfold size; lia].
        destruct (Nat.eq_dec q (length h)) as [|Nq]; [assumption|exfalso]. apply (HN (length h)); [lia| |].
        * rewrite JU, !app_length in LF. cbn [length] in LF. lia.
        * apply occurs_byte. rewrite JU, <- !app_assoc, nth_error_app2, Nat.sub_diag by lia. reflexivity.
      + exfalso. apply (HN (length h)).
        * rewrite JU, !app_length in LF. cbn [length] in LF. lia.
        * apply occurs_byte. rewrite JU, <- !app_assoc, nth_error_app2, Nat.sub_diag by lia. reflexivity. }
  assert (exists k m, find_first (u ++ v) [b] i = Ok (Sub k m) /\ i + size y = k /\ (m = 0 <-> r = [])) as (k & m & R1 & R2 & R3).
  { destruct r as [|w r].
    - rewrite app_nil_r in JV. subst y. exists (size (u ++ v)), 0. split; [|split; [unfold size; rewrite app_length; lia|tauto]].
      destruct HR as [(q & Hq & HO & _)|[_ HR]]; [|exact HR]. exfalso. apply occurs_byte in HO. rewrite nth_error_app2 in HO by lia. apply nth_error_In in HO. contradiction.
    - remember (join (w :: r) [b]) as h eqn:Eh. clear Eh.
      assert (occurs_at [b] (u ++ v) (N.to_nat i + length y)) as HO2.
      { apply occurs_byte. rewrite nth_error_app2 by lia. rewrite JV, nth_error_app2 by lia. replace (_ - _ - _)%nat with 0%nat by lia. reflexivity. }
      destruct HR as [(q & Hq & HO & HN & HR)|[HN _]]; [|exfalso; apply (HN (N.to_nat i + length y)%nat); [lia|exact HO2]].
      exists (N.of_nat q), 1. split; [exact HR|]. split; [|split; discriminate].
      assert (q = N.to_nat i + length y)%nat as ->; [|unfold size; lia].
      destruct (Nat.lt_trichotomy q (N.to_nat i + length y)) as [L|[L|L]]; [|exact L|].
      + exfalso. apply occurs_byte in HO. rewrite nth_error_app2 in HO by lia. rewrite JV, nth_error_app1 in HO by lia. apply nth_error_In in HO. contradiction.
      + exfalso. apply (HN (N.to_nat i + length y)%nat); [lia|exact HO2]. }
  exists l, x, y, r, j, n, k, m. split; [exact EUV|]. split; [exact EU|]. split; [exact L1|]. split; [exact L2|]. split; [exact L3|]. split; [exact R1|]. split; [exact R2|]. split; [exact R3|].
  rewrite JU, JV, <- app_assoc. remember (match l with [] => [] | _ => _ end) as pre eqn:Ep. remember (match r with [] => [] | _ => _ end) as post eqn:Eq.
  rewrite (app_assoc x y post). apply substr_mid; [rewrite JU, app_length in LF; unfold size in *; lia|]. unfold size in *. rewrite app_length. lia.
Qed.
(** Columns counted in code points *)
Lemma after_byte b (h x : str) hs : u8 b < 0x80 -> Text (h ++ [b] ++ x) hs -> (exists as_, Text h as_) /\ exists xs, Text x xs.
Proof.
  intros Hb HT. assert (Text [b] [u8 b]) as HB by (apply Text_one; now apply uchar1).
  destruct (sync _ hs [b] [u8 b] h x HT HB ltac:(discriminate) eq_refl) as (us & vs & H1 & H2 & _). split; [now exists us|now exists vs].
Qed.
Lemma p_c150_column : forall b u us v vs, u8 b < 0x80 -> Text u us -> Text v vs -> Fits (u ++ v) -> exists l x y r c,
  split_sep u [b] SIZE_MAX false = Ok (l ++ [x]) /\ split_sep v [b] SIZE_MAX false = Ok (y :: r) /\ split_sep (u ++ v) [b] SIZE_MAX false = Ok (l ++ [x ++ y] ++ r) /\
  count_codepoints x = Ok c /\ get_codepoint_pos (x ++ y) (Z.of_N c) = Ok (size x) /\ get_codepoint_substring (x ++ y) 0 (Z.of_N c) = Ok x.
Proof.
  intros b u us v vs Hb HU HV HF. destruct (p_c150_cut b u v HF) as (l & x & y & r & EU & EV & EUV & JU & JV & _). rewrite join_last in JU. rewrite join_first in JV.
  assert (exists xs, Text x xs) as (xs & HX).
  { destruct l as [|z l]; [exists us; now subst|]. rewrite JU, <- app_assoc in HU. now destruct (after_byte b _ _ _ Hb HU). }
  assert (exists ys, Text y ys) as (ys & HY).
  { destruct r as [|z r]; [exists vs; rewrite app_nil_r in JV; now subst|]. rewrite JV in HV. now destruct (after_byte b _ _ _ Hb HV). }
  assert (Fits (x ++ y)) as FXY. { unfold Fits, size in *. rewrite JU, JV, !app_length in HF. rewrite app_length. lia. }
  exists l, x, y, r, (N.of_nat (length xs)). split; [exact EU|]. split; [exact EV|]. split; [exact EUV|].
  destruct (piece_by_index [] [] x xs y ys Text_nil HX HY FXY) as (_ & P2 & _ & P4 & P5 & _). cbn [length app] in *. change (N.of_nat 0) with 0 in *. rewrite N.add_0_l in *.
  split; [exact P2|]. split; [exact P4|exact P5].
Qed.
