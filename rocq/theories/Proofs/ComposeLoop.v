(** [to_composed]: a simulation along the left-to-right reading of the text. *)
From Verif Require Import Base Spec.Utf8Spec Spec.Strings Spec.Normalization Tables.UnicodeDataTables Tables.NormalizationTables
  Model.Decode Model.Encode Model.Normalize
  Proofs.Utf8Lemmas Proofs.DecodeLemmas Proofs.EncodeLemmas Proofs.CodepointLemmas Proofs.SearchLemmas Proofs.ReplaceLemmas Proofs.TableLemmas
  Proofs.NormLemmas Proofs.ComposeLemmas.
From Coq Require Import ZifyBool ZifyNat ZifyN.

(** ** What is kept, given what follows *)
Definition made (x : segment) : bool := match x with Made _ => true | Copied _ => false end.
Definition next_kind (l : list segment) (nx : option bool) : option bool := match l with [] => nx | x :: _ => Some (made x) end.
Definition loses (nx : option bool) : bool := match nx with Some false => false | _ => true end.
Fixpoint keptx (am : bool) (l : list segment) (nx : option bool) : str :=
  match l with
  | [] => []
  | Made b :: r => b ++ keptx true r nx
  | Copied g :: r => (if am && loses (next_kind r nx) then [] else g) ++ keptx false r nx
  end.
Definition ends (am : bool) (l : list segment) : bool := fold_left (fun _ x => made x) l am.

Lemma keptx_kept l : forall am, keptx am l None = kept am l.
Proof.
  induction l as [|x l IH]; intros am; [reflexivity|]. destruct x as [g|b]; cbn [keptx kept]; rewrite IH; f_equal.
  destruct l as [|[g'|b'] l]; cbn [next_kind made loses]; now rewrite ?andb_true_r, ?andb_false_r.
Qed.
Lemma keptx_app l : forall am x nx, keptx am (l ++ [x]) nx = keptx am l (Some (made x)) ++ keptx (ends am l) [x] nx.
Proof.
  induction l as [|y l IH]; intros am x nx; [reflexivity|]. unfold ends in *. cbn [app fold_left].
  destruct y as [g|b]; cbn [keptx made]; rewrite IH, app_assoc; [|reflexivity].
  do 2 f_equal. destruct l as [|z l]; reflexivity.
Qed.
Lemma ends_app am l x : ends am (l ++ [x]) = made x.
Proof. unfold ends. now rewrite fold_left_app. Qed.
Lemma keptx_made am l b nx : keptx am (l ++ [Made b]) nx = keptx am l (Some true) ++ b.
Proof. rewrite keptx_app. cbn [keptx made]. now rewrite app_nil_r. Qed.
Lemma keptx_copied am l g nx : keptx am (l ++ [Copied g]) nx = keptx am l (Some false) ++ (if ends am l && loses nx then [] else g).
Proof. rewrite keptx_app. cbn [keptx made next_kind]. now rewrite app_nil_r. Qed.
Lemma keptx_after_made am l nx nx' : ends am l = true -> l <> [] -> keptx am l nx = keptx am l nx'.
Proof.
  intros H NE. destruct (exists_last NE) as (l' & x & ->). rewrite ends_app in H. destruct x; [discriminate|]. now rewrite !keptx_made.
Qed.
Lemma ends_true_nonempty l : ends false l = true -> l <> [].
Proof. intros H ->. discriminate H. Qed.

(** ** Configurations *)
Section Sim.
Variable adj : bool.

Definition finish (s : str) (p : str * nat * nat) : outcome str := let '(result, from, prev) := p in append_range result s from prev.
Definition Kout (s : str) (fuel : nat) (ch : N) (from it to prev : nat) (result : str) : outcome str :=
  let* p := to_composed_loop adj fuel s ch from it to prev result in finish s p.
Definition Kin (s : str) (fuel ifuel : nat) (d mark : N) (it : nat) (result : str) : outcome str :=
  let* p := compose_inner adj ifuel s d mark it it in
  let '(ch, mark, it, base) := p in Kout s fuel mark base it base base (result ++ fst (encode_utf8 ch)).

Inductive Conf (p q : str) (segs : list segment) (c : N) : outcome str -> Prop :=
| conf_N A g p0 from result fuel : segs = A ++ [Copied g] -> p = p0 ++ g -> ends false A = false ->
    (forall nx, keptx false A nx = result ++ slice (p ++ q) from (length p0)) -> (from <= length p0)%nat -> (length q < fuel)%nat ->
    Conf p q segs c (Kout (p ++ q) fuel c from (length p) (length p0) (length p) result)
| conf_L1 A g p0 result fuel : segs = A ++ [Copied g] -> p = p0 ++ g -> ends false A = true -> keptx false A None = result -> (length q < fuel)%nat ->
    Conf p q segs c (Kout (p ++ q) fuel c (length p0) (length p) (length p0) (length p0) result)
| conf_L2 A g1 g2 p0 result fuel : segs = (A ++ [Copied g1]) ++ [Copied g2] -> p = p0 ++ g1 ++ g2 -> ends false A = true -> keptx false A None = result ->
    (length q < fuel)%nat -> Conf p q segs c (Kout (p ++ q) fuel c (length p0) (length p) (length p0) (length p) result)
| conf_I A b result fuel ifuel mark : segs = A ++ [Made b] -> encodes b c -> c <= 0x10FFFF -> keptx false A (Some true) = result ->
    (length q < fuel)%nat -> (length q < ifuel)%nat ->
    Conf p q segs c (Kin (p ++ q) fuel ifuel c mark (length p) result).

Lemma Composing_bound p segs c : Composing adj p segs c -> c < 2 ^ 21.
Proof.
  intros H. destruct H as [g c Hg|s segs x c g m d b H Hg HC HB|s segs c g m H Hg HC HO].
  - apply uchar_bound in Hg. change (2 ^ 21) with 0x200000. lia.
  - destruct HC as (_ & HC & _). apply has_pair_bounds in HC. lia.
  - apply uchar_bound in Hg. change (2 ^ 21) with 0x200000. lia.
Qed.
Lemma enc_ok b d : d <= 0x10FFFF -> encodes b d -> fst (encode_utf8 d) = b.
Proof. intros H HB. apply encodes_fun with d; [now apply encode_encodes|exact HB]. Qed.
Lemma append_ok2 result s from to : (from <= to)%nat -> (to <= length s)%nat -> append_range result s from to = Ok (result ++ slice s from to).
Proof. intros H1 H2. unfold append_range. now rewrite (proj2 (Nat.leb_le _ _) H1), (proj2 (Nat.leb_le _ _) H2). Qed.

(** One step of either loop. *)
Lemma out_apart s fuel c from it to prev result m it' : safe_decode_next s it = Ok (Some (m, it')) -> find_composed adj c m = Ok 0 ->
  Kout s (S fuel) c from it to prev result = Kout s fuel m from it' prev it' result.
Proof. intros H1 H2. unfold Kout. cbn [to_composed_loop]. rewrite H1. cbn [bind]. rewrite H2. reflexivity. Qed.
Lemma out_comp s fuel c from it to prev result m it' d : safe_decode_next s it = Ok (Some (m, it')) -> find_composed adj c m = Ok d -> d <> 0 ->
  (from <= to)%nat -> (to <= length s)%nat ->
  Kout s (S fuel) c from it to prev result = Kin s fuel (S (length s)) d m it' (result ++ slice s from to).
Proof.
  intros H1 H2 Hd L1 L2. unfold Kout, Kin. cbn [to_composed_loop]. rewrite H1. cbn [bind]. rewrite H2. cbn [bind].
  rewrite (proj2 (N.eqb_neq _ _) Hd), append_ok2 by assumption. cbn [bind].
  destruct (compose_inner adj (S (length s)) s d m it' it') as [[[[ch mk] it2] base]| | |]; reflexivity.
Qed.
Lemma in_comp s fuel ifuel c mark it result m it' d : safe_decode_next s it = Ok (Some (m, it')) -> find_composed adj c m = Ok d -> d <> 0 ->
  Kin s fuel (S ifuel) c mark it result = Kin s fuel ifuel d m it' result.
Proof.
  intros H1 H2 Hd. unfold Kin. cbn [compose_inner]. rewrite H1. cbn [bind]. rewrite H2. cbn [bind]. now rewrite (proj2 (N.eqb_neq _ _) Hd).
Qed.
Lemma in_apart s fuel ifuel c mark it result m it' : safe_decode_next s it = Ok (Some (m, it')) -> find_composed adj c m = Ok 0 ->
  Kin s fuel (S ifuel) c mark it result = Kout s fuel m it it' it it (result ++ fst (encode_utf8 c)).
Proof. intros H1 H2. unfold Kin. cbn [compose_inner]. rewrite H1. cbn [bind]. now rewrite H2. Qed.

Lemma sim p segs c : Composing adj p segs c -> forall q, Conf p q segs c (to_composed adj (p ++ q)).
Proof.
  induction 1 as [g c Hg|s segs x c g m d b H IH Hg HC HB|s segs c g m H IH Hg HC HO]; intros q.
  - unfold to_composed. pose proof (safe_decode_next_uchar [] g c q Hg) as D. cbn [app length Nat.add] in D. rewrite D. cbn [bind].
    change (Conf g q [Copied g] c (Kout (g ++ q) (S (length (g ++ q))) c 0 (length g) (length (@nil byte)) (length g) [])).
    apply (conf_N g q [Copied g] c [] g [] 0 []); auto; rewrite app_length; lia.
  - (* composed *)
    pose proof (Composing_bound _ _ _ H) as Bc. pose proof (uchar_bound _ _ Hg) as Bm. change 0x200000 with (2 ^ 21) in Bm.
    destruct (find_composed_eq adj c m Bc ltac:(lia)) as (_ & _ & F & _). destruct (F d HC) as (Fd & ND & _). clear F.
    assert (Bd : d <= 0x10FFFF) by (destruct HC as (_ & HP & _); apply has_pair_bounds in HP; lia).
    specialize (IH (g ++ q)). pose proof (uchar_length g m Hg) as LG.
    pose proof (safe_decode_next_uchar s g m q Hg) as D. rewrite <- app_length in D.
    rewrite <- (app_assoc s g q). rewrite (app_assoc s g q) in D.
    remember (to_composed adj (s ++ g ++ q)) as o eqn:Eo. clear Eo.
    destruct IH as [A g0 p0 from result fuel E1 E2 E3 E4 E5 E6|A g0 p0 result fuel E1 E2 E3 E4 E5|A g1 g2 p0 result fuel E1 E2 E3 E4 E5|A b0 result fuel ifuel mark E1 E2 E3 E4 E5 E6];
    rewrite (app_length g q) in *; rewrite (app_assoc s g q).
    + apply app_inj_tail in E1 as [-> ->]. destruct fuel as [|fuel]; [lia|].
      rewrite (out_comp _ _ _ _ _ _ _ _ _ _ _ D Fd ND E5) by (rewrite !app_length, E2, app_length; lia).
      apply (conf_I (s ++ g) q _ d A b); auto; try lia; [|rewrite !app_length; lia].
      rewrite E4, (app_assoc s g q). reflexivity.
    + apply app_inj_tail in E1 as [-> ->]. destruct fuel as [|fuel]; [lia|].
      rewrite (out_comp _ _ _ _ _ _ _ _ _ _ _ D Fd ND (le_n _)) by (rewrite !app_length, E2, app_length; lia). rewrite slice_self, app_nil_r.
      apply (conf_I (s ++ g) q _ d A b); auto; try lia; [|rewrite !app_length; lia].
      rewrite <- E4. apply keptx_after_made; [exact E3|now apply ends_true_nonempty].
    + apply app_inj_tail in E1 as [-> ->]. destruct fuel as [|fuel]; [lia|].
      rewrite (out_comp _ _ _ _ _ _ _ _ _ _ _ D Fd ND (le_n _)) by (rewrite !app_length, E2, !app_length; lia). rewrite slice_self, app_nil_r.
      apply (conf_I (s ++ g) q _ d (A ++ [Copied g1]) b); auto; try lia; [|rewrite !app_length; lia].
      rewrite keptx_copied, E3. cbn [andb loses]. rewrite app_nil_r, <- E4. apply keptx_after_made; [exact E3|now apply ends_true_nonempty].
    + apply app_inj_tail in E1 as [-> ->]. destruct ifuel as [|ifuel]; [lia|].
      rewrite (in_comp _ _ _ _ _ _ _ _ _ _ D Fd ND).
      apply (conf_I (s ++ g) q _ d A b); auto; lia.
  - (* not composed *)
    pose proof (Composing_bound _ _ _ H) as Bc. pose proof (uchar_bound _ _ Hg) as Bm. change 0x200000 with (2 ^ 21) in Bm.
    destruct (find_composed_eq adj c m Bc ltac:(lia)) as (_ & _ & _ & F). specialize (F HO HC).
    specialize (IH (g ++ q)). pose proof (uchar_length g m Hg) as LG.
    pose proof (safe_decode_next_uchar s g m q Hg) as D. rewrite <- app_length in D.
    rewrite <- (app_assoc s g q). rewrite (app_assoc s g q) in D.
    remember (to_composed adj (s ++ g ++ q)) as o eqn:Eo. clear Eo.
    destruct IH as [A g0 p0 from result fuel E1 E2 E3 E4 E5 E6|A g0 p0 result fuel E1 E2 E3 E4 E5|A g1 g2 p0 result fuel E1 E2 E3 E4 E5|A b0 result fuel ifuel mark E1 E2 E3 E4 E5 E6];
    rewrite (app_length g q) in *; rewrite (app_assoc s g q).
    + destruct fuel as [|fuel]; [lia|]. rewrite (out_apart _ _ _ _ _ _ _ _ _ _ D F).
      apply (conf_N (s ++ g) q _ m segs g s); auto; try lia.
      * rewrite E1. apply ends_app.
      * intros nx. rewrite E1, keptx_copied, E3. cbn [andb]. rewrite E4, <- app_assoc. f_equal. rewrite (app_assoc s g q).
        rewrite <- (slice_cat _ from (length p0) (length s)) by (rewrite E2, app_length; lia). f_equal.
        symmetry. rewrite E2, <- !app_assoc. apply slice_app; [reflexivity|]. rewrite app_length. lia.
      * rewrite E2, app_length. lia.
    + destruct fuel as [|fuel]; [lia|]. rewrite (out_apart _ _ _ _ _ _ _ _ _ _ D F).
      apply (conf_L2 (s ++ g) q _ m A g0 g p0); auto; try lia; [now rewrite E1|now rewrite E2, app_assoc].
    + destruct fuel as [|fuel]; [lia|]. rewrite (out_apart _ _ _ _ _ _ _ _ _ _ D F).
      apply (conf_N (s ++ g) q _ m segs g s); auto; try lia.
      * rewrite E1. apply ends_app.
      * intros nx. rewrite E1, keptx_copied, ends_app. cbn [made andb]. rewrite keptx_copied, E3. cbn [andb loses].
        rewrite (keptx_after_made _ _ _ None E3) by now apply ends_true_nonempty. rewrite E4, <- app_assoc. f_equal.
        symmetry. rewrite E2. rewrite <- !app_assoc. rewrite (app_assoc g1 g2). apply slice_app; [reflexivity|]. rewrite !app_length. lia.
      * rewrite E2, app_length. lia.
    + destruct ifuel as [|ifuel]; [lia|]. rewrite (in_apart _ _ _ _ _ _ _ _ _ D F). rewrite (enc_ok b0 c E3 E2).
      apply (conf_L1 (s ++ g) q _ m segs g s); auto; try lia.
      * rewrite E1. apply ends_app.
      * rewrite E1, keptx_made. now rewrite E4.
Qed.

Lemma conf_end p segs c o : Conf p [] segs c o -> o = Ok (kept false segs).
Proof.
  intros H. destruct H as [A g0 p0 from result fuel E1 E2 E3 E4 E5 E6|A g0 p0 result fuel E1 E2 E3 E4 E5|A g1 g2 p0 result fuel E1 E2 E3 E4 E5|A b0 result fuel ifuel mark E1 E2 E3 E4 E5 E6];
  rewrite app_nil_r; rewrite <- keptx_kept.
  - destruct fuel as [|fuel]; [cbn in E6; lia|]. unfold Kout. cbn [to_composed_loop]. rewrite safe_decode_next_end. cbn [bind finish].
    rewrite append_ok2 by (rewrite ?E2, ?app_length; lia). f_equal. rewrite E1, keptx_copied, E3. cbn [andb]. rewrite E4, app_nil_r, <- app_assoc. f_equal.
    rewrite <- (slice_cat p from (length p0) (length p)) by (rewrite E2, app_length; lia). f_equal.
    rewrite E2. rewrite <- (app_nil_r (p0 ++ g0)), <- app_assoc at 1. apply slice_app; [reflexivity|]. rewrite app_length. lia.
  - destruct fuel as [|fuel]; [cbn in E5; lia|]. unfold Kout. cbn [to_composed_loop]. rewrite safe_decode_next_end. cbn [bind finish].
    rewrite append_ok2 by (rewrite ?E2, ?app_length; lia). rewrite slice_self, app_nil_r. f_equal. rewrite E1, keptx_copied, E3. cbn [andb loses].
    rewrite app_nil_r, <- E4. apply keptx_after_made; [exact E3|now apply ends_true_nonempty].
  - destruct fuel as [|fuel]; [cbn in E5; lia|]. unfold Kout. cbn [to_composed_loop]. rewrite safe_decode_next_end. cbn [bind finish].
    rewrite append_ok2 by (rewrite ?E2, ?app_length; lia). f_equal. rewrite E1, keptx_copied, ends_app. cbn [made andb]. rewrite keptx_copied, E3. cbn [andb loses].
    rewrite (keptx_after_made _ _ _ None E3) by now apply ends_true_nonempty. rewrite E4, <- app_assoc. f_equal.
    rewrite E2. rewrite <- (app_nil_r (p0 ++ g1 ++ g2)), <- app_assoc at 1. apply slice_app; [reflexivity|]. rewrite !app_length. lia.
  - destruct ifuel as [|ifuel]; [cbn in E6; lia|]. destruct fuel as [|fuel]; [cbn in E5; lia|].
    unfold Kin. cbn [compose_inner]. rewrite safe_decode_next_end. cbn [bind]. unfold Kout. cbn [to_composed_loop]. rewrite safe_decode_next_end. cbn [bind finish].
    rewrite append_ok2 by lia. rewrite slice_self, app_nil_r, (enc_ok b0 c E3 E2). now rewrite E1, keptx_made, E4.
Qed.
Lemma conf_malformed p r segs c o : Malformed r -> Conf p r segs c o -> o = Throw YstringException.
Proof.
  intros HM H. pose proof (safe_decode_next_malformed p r HM) as D.
  destruct H as [A g0 p0 from result fuel E1 E2 E3 E4 E5 E6|A g0 p0 result fuel E1 E2 E3 E4 E5|A g1 g2 p0 result fuel E1 E2 E3 E4 E5|A b0 result fuel ifuel mark E1 E2 E3 E4 E5 E6].
  1-3: destruct fuel as [|fuel]; [lia|]; unfold Kout; cbn [to_composed_loop]; rewrite D; reflexivity.
  destruct ifuel as [|ifuel]; [lia|]. unfold Kin. cbn [compose_inner]. now rewrite D.
Qed.
Lemma conf_off p g m r segs c o : uchar g m -> find_composed adj c m = UB -> Conf p (g ++ r) segs c o -> o = UB.
Proof.
  intros Hg HU H. pose proof (safe_decode_next_uchar p g m r Hg) as D.
  destruct H as [A g0 p0 from result fuel E1 E2 E3 E4 E5 E6|A g0 p0 result fuel E1 E2 E3 E4 E5|A g1 g2 p0 result fuel E1 E2 E3 E4 E5|A b0 result fuel ifuel mark E1 E2 E3 E4 E5 E6].
  1-3: destruct fuel as [|fuel]; [lia|]; unfold Kout; cbn [to_composed_loop]; rewrite D; cbn [bind]; rewrite HU; reflexivity.
  destruct ifuel as [|ifuel]; [lia|]. unfold Kin. cbn [compose_inner]. rewrite D. cbn [bind]. now rewrite HU.
Qed.

(** C68, C70 *)
Lemma p_c68_result s segs c : Composing adj s segs c -> to_composed adj s = Ok (kept false segs).
Proof. intros H. rewrite <- (app_nil_r s) at 1. now apply (conf_end s segs c), sim. Qed.
Lemma p_c68_throw s segs c r : Composing adj s segs c -> Malformed r -> to_composed adj (s ++ r) = Throw YstringException.
Proof. intros H HM. now apply (conf_malformed s r segs c), sim. Qed.
Lemma p_c68_throw0 r : Malformed r -> to_composed adj r = Throw YstringException.
Proof. intros HM. unfold to_composed. pose proof (safe_decode_next_malformed [] r HM) as D. cbn [app length] in D. now rewrite D. Qed.
Lemma p_c70_ub s segs c g m r : Composing adj s segs c -> uchar g m -> off_table c m -> to_composed adj (s ++ g ++ r) = UB.
Proof.
  intros H Hg HO. pose proof (Composing_bound _ _ _ H) as Bc. pose proof (uchar_bound _ _ Hg) as Bm. change 0x200000 with (2 ^ 21) in Bm.
  apply (conf_off s g m r segs c); [exact Hg|now apply find_composed_eq|now apply sim].
Qed.
Lemma p_c70_cases s : s = [] \/ Malformed s \/ (exists segs c, Composing adj s segs c) \/
  (exists t segs c r, s = t ++ r /\ Composing adj t segs c /\ Malformed r) \/
  (exists t segs c g m r, s = t ++ g ++ r /\ Composing adj t segs c /\ uchar g m /\ off_table c m).
Proof.
  destruct (text_prefix s) as (u & cs & r & -> & HT & Hr).
  destruct HT as [|g c u cs Hg HT]; [cbn [app]; tauto|].
  assert (K : forall u cs, Text u cs -> forall t segs c, Composing adj t segs c ->
    (exists segs c, Composing adj (t ++ u) segs c) \/
    (exists t' segs c g m r, t ++ u = t' ++ g ++ r /\ Composing adj t' segs c /\ uchar g m /\ off_table c m)).
  { clear. induction 1 as [|g m u cs Hg HT IH]; intros t segs c HC; [left; rewrite app_nil_r; eauto|].
    pose proof (Composing_bound _ _ _ HC) as Bc. pose proof (uchar_bound _ _ Hg) as Bm. change 0x200000 with (2 ^ 21) in Bm.
    destruct (consult adj c m Bc ltac:(lia)) as [O|[[d D]|[NO ND]]].
    - right. exists t, segs, c, g, m, u. auto.
    - rewrite app_assoc. assert (NE : segs <> []) by (destruct HC; [discriminate|destruct segs; discriminate|destruct segs; discriminate]).
      destruct (exists_last NE) as (segs' & x & ->). apply (IH (t ++ g) (segs' ++ [Made (fst (encode_utf8 d))]) d).
      apply (comp_join adj t segs' x c g m d); auto. apply encode_encodes. destruct D as (_ & D & _). apply has_pair_bounds in D. lia.
    - rewrite app_assoc. apply (IH (t ++ g) (segs ++ [Copied g]) m). now apply (comp_next adj t segs c). }
  destruct (K u cs HT g [Copied g] c (comp_first adj g c Hg)) as [(segs & c' & HC)|(t' & segs & c' & g' & m & r' & E & HC & Hg' & HO)].
  - destruct Hr as [-> |HM]; [rewrite app_nil_r; right; right; left; eauto|]. right. right. right. left. exists (g ++ u), segs, c', r. auto.
  - right. right. right. right. exists t', segs, c', g', m, (r' ++ r). rewrite E, <- !app_assoc. auto.
Qed.
End Sim.
