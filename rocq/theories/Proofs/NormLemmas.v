(** Decomposition. *)
From Verif Require Import Base Spec.Utf8Spec Spec.Strings Spec.Normalization Tables.UnicodeDataTables Tables.NormalizationTables
  Model.Decode Model.Encode Model.Normalize
  Proofs.Utf8Lemmas Proofs.DecodeLemmas Proofs.EncodeLemmas Proofs.CodepointLemmas Proofs.SearchLemmas Proofs.ReplaceLemmas Proofs.TableLemmas.
From Coq Require Import ZifyBool ZifyNat ZifyN.

(** ** The table *)
Definition pack_d (p : N * (N * N)) : N := let '(c, (a, b)) := p in c * 2 ^ 40 + a * 2 ^ 20 + b.
Lemma to_decomposed_table : TO_DECOMPOSED = map pack_d UD_PAIRS.
Proof. vm_compute. reflexivity. Qed.

Definition small_pair (p : N * (N * N)) : bool :=
  let '(c, (a, b)) := p in (0xC0 <=? c) && (c <? 2 ^ 20) && (0x3C <=? a) && (a <? 2 ^ 20) && (0x300 <=? b) && (b <? 2 ^ 20).
Lemma pairs_small : forallb small_pair UD_PAIRS = true.
Proof. vm_compute. reflexivity. Qed.
Lemma has_pair_bounds c a b : has_pair c a b -> (0xC0 <= c < 2 ^ 20) /\ (0x3C <= a < 2 ^ 20) /\ (0x300 <= b < 2 ^ 20).
Proof.
  intros H. pose proof (proj1 (forallb_forall _ _) pairs_small _ H) as K. cbn [small_pair] in K. lia.
Qed.

Definition lookup (c : N) : option (N * (N * N)) := find (fun p => fst p =? c) UD_PAIRS.
Lemma pairs_increasing : increasing (@fst N (N * N)) UD_PAIRS = true.
Proof. vm_compute. reflexivity. Qed.
Lemma lookup_some c p : lookup c = Some p -> exists a b, p = (c, (a, b)) /\ has_pair c a b.
Proof.
  intros H. apply find_some in H as [H1 H2]. destruct p as [c' [a b]]. cbn [fst] in H2. apply N.eqb_eq in H2. subst c'.
  exists a, b. auto.
Qed.
Lemma lookup_none c : lookup c = None -> forall a b, ~ has_pair c a b.
Proof. intros H a b HP. apply (find_none _ _ H) in HP. cbn [fst] in HP. rewrite N.eqb_refl in HP. discriminate. Qed.

Lemma has_pair_fun c a b a' b' : has_pair c a b -> has_pair c a' b' -> a = a' /\ b = b'.
Proof.
  intros H1 H2. apply in_split in H1 as (u & v & E).
  unfold has_pair in H2. pose proof pairs_increasing as HI. rewrite E in H2, HI.
  apply in_app_or in H2 as [H2|[H2|H2]].
  - apply in_split in H2 as (u1 & u2 & ->). pose proof (increasing_lt _ _ HI u1 (c, (a', b')) u2 (c, (a, b)) v) as K.
    cbn [fst] in K. rewrite <- app_assoc in K. specialize (K eq_refl). lia.
  - injection H2 as -> ->. auto.
  - apply in_split in H2 as (u1 & u2 & ->). pose proof (increasing_lt _ _ HI u (c, (a, b)) u1 (c, (a', b')) u2 eq_refl) as K.
    cbn [fst] in K. lia.
Qed.
Lemma lookup_pair c a b : has_pair c a b -> lookup c = Some (c, (a, b)).
Proof.
  intros H. destruct (lookup c) as [p|] eqn:E.
  - apply lookup_some in E as (a' & b' & -> & H'). now destruct (has_pair_fun _ _ _ _ _ H H') as [-> ->].
  - now apply (lookup_none c E) in H.
Qed.

Lemma lower_bound_map {A B} (f : A -> B) less l : lower_bound less (map f l) = option_map f (lower_bound (fun x => less (f x)) l).
Proof. induction l as [|x l IH]; [reflexivity|]. cbn [map lower_bound]. destruct (less (f x)); [exact IH|reflexivity]. Qed.
Lemma lower_bound_ext {A} (f g : A -> bool) l : (forall x, In x l -> f x = g x) -> lower_bound f l = lower_bound g l.
Proof.
  induction l as [|x l IH]; [reflexivity|]. intros H. cbn [lower_bound]. rewrite (H x (or_introl eq_refl)). destruct (g x); [|reflexivity].
  apply IH. intros y Hy. apply H. now right.
Qed.

Lemma pack_parts c a b : has_pair c a b ->
  N.shiftr (pack_d (c, (a, b))) 40 mod W32 = c /\ N.land (N.shiftr (pack_d (c, (a, b))) 20) 0xFFFFF = a /\ N.land (pack_d (c, (a, b))) 0xFFFFF = b.
Proof.
  intros H. apply has_pair_bounds in H as (Hc & Ha & Hb). cbn [pack_d].
  change (0xFFFFF) with (N.ones 20). rewrite !N.land_ones, !N.shiftr_div_pow2.
  assert (E1 : (c * 2 ^ 40 + a * 2 ^ 20 + b) / 2 ^ 40 = c).
  { symmetry. apply (N.div_unique _ _ _ (a * 2 ^ 20 + b)); lia. }
  assert (E2 : (c * 2 ^ 40 + a * 2 ^ 20 + b) / 2 ^ 20 = c * 2 ^ 20 + a).
  { symmetry. apply (N.div_unique _ _ _ b); lia. }
  rewrite E1, E2. split; [apply N.mod_small; unfold W32; lia|]. split.
  - symmetry. apply (N.mod_unique _ _ c); lia.
  - symmetry. apply (N.mod_unique _ _ (c * 2 ^ 20 + a)); lia.
Qed.

Lemma find_decomposed_eq c : find_decomposed c = match lookup c with Some (_, ab) => ab | None => (c, 0) end.
Proof.
  unfold find_decomposed. destruct (N.ltb_spec c 0xC0) as [L|L].
  { destruct (lookup c) as [p|] eqn:E; [|reflexivity]. apply lookup_some in E as (a & b & -> & H). apply has_pair_bounds in H. lia. }
  rewrite to_decomposed_table, lower_bound_map.
  destruct (N.lt_ge_cases c (2 ^ 24)) as [S|S].
  - unfold lookup. rewrite (find_lower_bound (@fst N (N * N)) UD_PAIRS c pairs_increasing).
    rewrite (lower_bound_ext _ (fun e => fst e <? c)).
    + destruct (lower_bound (fun e => fst e <? c) UD_PAIRS) as [[c' [a b]]|] eqn:E; [|reflexivity].
      apply lower_bound_some in E as (u & v & E & _ & _).
      assert (H : has_pair c' a b) by (unfold has_pair; rewrite E; apply in_elt).
      destruct (pack_parts _ _ _ H) as (P1 & P2 & P3). cbn [option_map]. rewrite P1, P2, P3. cbn [fst].
      destruct (N.eqb_spec c' c) as [->|]; reflexivity.
    + intros [c' [a b]] H. apply has_pair_bounds in H. cbn [fst pack_d]. unfold shl64. rewrite N.shiftl_mul_pow2, N.mod_small by (unfold W64; lia).
      destruct (N.ltb_spec c' c), (N.ltb_spec (c' * 2 ^ 40 + a * 2 ^ 20 + b) (c * 2 ^ 40)); lia.
  - assert (E : lookup c = None).
    { destruct (lookup c) as [p|] eqn:E; [|reflexivity]. apply lookup_some in E as (a & b & -> & H). apply has_pair_bounds in H. lia. }
    rewrite E. destruct (lower_bound _ UD_PAIRS) as [[c' [a b]]|] eqn:E2; [|reflexivity]. cbn [option_map].
    apply lower_bound_some in E2 as (u & v & E2 & _ & _).
    assert (H : has_pair c' a b) by (unfold has_pair; rewrite E2; apply in_elt).
    destruct (pack_parts _ _ _ H) as (P1 & _ & _). rewrite P1. apply has_pair_bounds in H.
    destruct (N.eqb_spec c' c); [lia|reflexivity].
Qed.
Lemma fd_pair c a b : has_pair c a b -> find_decomposed c = (a, b).
Proof. intros H. rewrite find_decomposed_eq, (lookup_pair _ _ _ H). reflexivity. Qed.
Lemma fd_atom c : (forall a b, ~ has_pair c a b) -> find_decomposed c = (c, 0).
Proof.
  intros H. rewrite find_decomposed_eq. destruct (lookup c) as [p|] eqn:E; [|reflexivity].
  apply lookup_some in E as (a & b & _ & K). now apply H in K.
Qed.

(** ** Full decompositions *)
Fixpoint full (fuel : nat) (c : N) : list N :=
  match fuel with
  | O => [c]
  | S f => match lookup c with Some (_, (a, b)) => full f a ++ [b] | None => [c] end
  end.
(** Three steps always suffice, and no second element decomposes. *)
Definition depth_ok (p : N * (N * N)) : bool :=
  let '(_, (a, b)) := p in
  match lookup b with Some _ => false | None => true end &&
  match lookup a with
  | None => true
  | Some (_, (a2, _)) =>
    match lookup a2 with None => true | Some (_, (a3, _)) => match lookup a3 with None => true | Some _ => false end end
  end.
Lemma pairs_depth : forallb depth_ok UD_PAIRS = true.
Proof. vm_compute. reflexivity. Qed.

Lemma second_atom c a b : has_pair c a b -> forall x y, ~ has_pair b x y.
Proof.
  intros H. pose proof (proj1 (forallb_forall _ _) pairs_depth _ H) as K. cbn [depth_ok] in K. apply andb_true_iff in K as [K _].
  destruct (lookup b) eqn:E; [discriminate|]. now apply lookup_none.
Qed.
Lemma pair_dec c : (exists a b, has_pair c a b) \/ (forall a b, ~ has_pair c a b).
Proof.
  destruct (lookup c) as [p|] eqn:E; [left|right; now apply lookup_none]. apply lookup_some in E as (a & b & _ & H). eauto.
Qed.
Lemma third_atom c a b a2 b2 a3 b3 : has_pair c a b -> has_pair a a2 b2 -> has_pair a2 a3 b3 -> forall x y, ~ has_pair a3 x y.
Proof.
  intros H1 H2 H3. pose proof (proj1 (forallb_forall _ _) pairs_depth _ H1) as K. cbn [depth_ok] in K. apply andb_true_iff in K as [_ K].
  rewrite (lookup_pair _ _ _ H2), (lookup_pair _ _ _ H3) in K. destruct (lookup a3) eqn:E; [discriminate|]. now apply lookup_none.
Qed.

(** The four shapes of a full decomposition. *)
Inductive Shape : N -> list N -> Prop :=
| shape1 c : (forall x y, ~ has_pair c x y) -> Shape c [c]
| shape2 c a b : has_pair c a b -> (forall x y, ~ has_pair a x y) -> Shape c [a; b]
| shape3 c a b a2 b2 : has_pair c a b -> has_pair a a2 b2 -> (forall x y, ~ has_pair a2 x y) -> Shape c [a2; b2; b]
| shape4 c a b a2 b2 a3 b3 : has_pair c a b -> has_pair a a2 b2 -> has_pair a2 a3 b3 -> (forall x y, ~ has_pair a3 x y) ->
    Shape c [a3; b3; b2; b].
Lemma shape_total c : exists ds, Shape c ds.
Proof.
  destruct (pair_dec c) as [(a & b & H1)|H1]; [|exists [c]; now constructor].
  destruct (pair_dec a) as [(a2 & b2 & H2)|H2]; [|exists [a; b]; now constructor].
  destruct (pair_dec a2) as [(a3 & b3 & H3)|H3]; [|exists [a2; b2; b]; now apply (shape3 c a)].
  exists [a3; b3; b2; b]. apply (shape4 c a b a2); try assumption. now apply (third_atom c a b a2 b2 a3 b3).
Qed.
Lemma FullDecomp_fun c ds : FullDecomp c ds -> forall ds', FullDecomp c ds' -> ds = ds'.
Proof.
  induction 1 as [c H|c a b ds H HD IH]; intros ds' H'; inversion H' as [c' K|c' a' b' ds'' K HD']; subst.
  - reflexivity.
  - now apply H in K.
  - now apply K in H.
  - destruct (has_pair_fun _ _ _ _ _ H K) as [<- <-]. now rewrite (IH _ HD').
Qed.
Lemma shape_full c ds : Shape c ds -> FullDecomp c ds.
Proof.
  intros H. destruct H as [c H|c a b H1 H2|c a b a2 b2 H1 H2 H3|c a b a2 b2 a3 b3 H1 H2 H3 H4].
  - now constructor.
  - apply (full_pair c a b [a]); [assumption|now constructor].
  - apply (full_pair c a b [a2; b2]); [assumption|]. apply (full_pair a a2 b2 [a2]); [assumption|now constructor].
  - apply (full_pair c a b [a3; b3; b2]); [assumption|]. apply (full_pair a a2 b2 [a3; b3]); [assumption|].
    apply (full_pair a2 a3 b3 [a3]); [assumption|now constructor].
Qed.
Lemma full_shape c ds : FullDecomp c ds <-> Shape c ds.
Proof.
  split; [|apply shape_full]. intros H. destruct (shape_total c) as [ds' H']. now rewrite (FullDecomp_fun _ _ H _ (shape_full _ _ H')).
Qed.
Lemma shape_small c ds : Shape c ds -> ds <> [c] -> Forall (fun d => d < 2 ^ 20) ds.
Proof.
  intros H. destruct H as [c H|c a b H1 H2|c a b a2 b2 H1 H2 H3|c a b a2 b2 a3 b3 H1 H2 H3 H4]; intros E; [congruence| | |];
  repeat (match goal with HP : has_pair _ _ _ |- _ => apply has_pair_bounds in HP end); repeat (apply Forall_cons; [lia|]); constructor.
Qed.

(** ** decompose_char *)
Lemma size_atom c : (forall x y, ~ has_pair c x y) -> forall f n, decomposed_size_loop (S (S f)) c n = if c =? 0 then Ok n else Ok (add64 n 1).
Proof. intros H f n. cbn [decomposed_size_loop]. rewrite (fd_atom c H). cbn [snd]. reflexivity. Qed.
Lemma get_size_pair c a b : has_pair c a b -> get_decomposed_size c = Ok 2.
Proof.
  intros H. unfold get_decomposed_size. rewrite (fd_pair _ _ _ H). cbn [snd]. rewrite size_atom by now apply (second_atom c a).
  apply has_pair_bounds in H. destruct (N.eqb_spec b 0); [lia|reflexivity].
Qed.
Lemma eqb0 b : 0x300 <= b -> (b =? 0) = false.
Proof. lia. Qed.
Ltac marks := repeat match goal with H : has_pair _ _ ?b |- context [?b =? 0] => rewrite (eqb0 b) by (apply has_pair_bounds in H; lia) end.
(** With room for three. *)
Lemma decompose_char3 c ds x y z : Shape c ds ->
  match ds with
  | [d1] => decompose_char c [x; y; z] = Ok (true, 1, [d1; y; z])
  | [d1; d2] => decompose_char c [x; y; z] = Ok (true, 2, [d1; d2; z])
  | [d1; d2; d3] => decompose_char c [x; y; z] = Ok (true, 3, [d1; d2; d3])
  | [d1; d2; d3; d4] => decompose_char c [x; y; z] = Ok (false, 2, [d4; d3; z])
  | _ => False
  end.
Proof.
  intros H. destruct H as [c H|c a b H1 H2|c a b a2 b2 H1 H2 H3|c a b a2 b2 a3 b3 H1 H2 H3 H4]; unfold decompose_char.
  - rewrite (fd_atom c H). reflexivity.
  - rewrite (fd_pair _ _ _ H1). marks. cbn [length Nat.ltb Nat.leb]. rewrite (fd_atom a H2). reflexivity.
  - rewrite (fd_pair _ _ _ H1). marks. cbn [length Nat.ltb Nat.leb]. rewrite (fd_pair _ _ _ H2). marks.
    cbn [set_nth Nat.ltb Nat.leb length bind firstn skipn app decompose_loop]. marks. cbn [Nat.add Nat.eqb set_nth Nat.ltb Nat.leb length bind firstn skipn app].
    rewrite (fd_atom a2 H3). reflexivity.
  - rewrite (fd_pair _ _ _ H1). marks. cbn [length Nat.ltb Nat.leb]. rewrite (fd_pair _ _ _ H2). marks.
    cbn [set_nth Nat.ltb Nat.leb length bind firstn skipn app decompose_loop]. marks. cbn [Nat.add Nat.eqb set_nth Nat.ltb Nat.leb length bind firstn skipn app].
    rewrite (fd_pair _ _ _ H3). marks. cbn [Nat.add Nat.eqb set_nth Nat.ltb Nat.leb length bind firstn skipn app].
    rewrite (get_size_pair _ _ _ H1). reflexivity.
Qed.
Lemma decompose_char2 c d1 d2 d3 d4 x y : Shape c [d1; d2; d3; d4] -> decompose_char c [x; y] = Ok (false, 2, [d4; y]).
Proof.
  intros H. inversion H as [| | |c0 a b a2 b2 a3 b3 H1 H2 H3 H4]; subst. unfold decompose_char.
  rewrite (fd_pair _ _ _ H1). marks. cbn [length Nat.ltb Nat.leb]. rewrite (fd_pair _ _ _ H2). marks.
  cbn [set_nth Nat.ltb Nat.leb length bind firstn skipn app decompose_loop]. marks. cbn [Nat.add Nat.eqb bind].
  rewrite (get_size_pair _ _ _ H1). reflexivity.
Qed.

(** C66 *)
Lemma p_c66 c ds : FullDecomp c ds ->
  ((length ds <= 3)%nat -> decompose c = Ok ds) /\
  (forall d1 d2 d3 d4, ds = [d1; d2; d3; d4] -> decompose c = Ok [d4; d3]) /\ (1 <= length ds <= 4)%nat.
Proof.
  rewrite full_shape. intros H. pose proof (decompose_char3 c ds 0 0 0 H) as K. unfold decompose.
  destruct ds as [|d1 [|d2 [|d3 [|d4 [|d5 ds]]]]]; try contradiction K; cbn [repeat]; rewrite K; (split; [|split]).
  all: try (cbn [length]; lia).
  all: try (intros ? ? ? ? E; discriminate E).
  all: try (intros _; reflexivity).
  intros ? ? ? ? E. injection E as <- <- <- <-. cbn [bind]. change (resize [d4; d3; 0] 2) with [d4; d3]. cbn [negb].
  now rewrite (decompose_char2 c d1 d2 d3 d4 d4 d3 H).
Qed.

(** C67 *)
Lemma encode_all ds : Forall (fun d => d < 2 ^ 20) ds -> Encoded (from_utf32 ds) ds.
Proof.
  intros H. pose proof (from_utf32_Encoded ds) as K.
  replace (filter (fun c => c <=? 0x10FFFF) ds) with ds in K; [exact K|].
  clear K. induction H as [|d ds Hd H IH]; [reflexivity|]. cbn [filter]. rewrite (proj2 (N.leb_le _ _)) by lia. now rewrite <- IH.
Qed.
Lemma DecomposedTo_suffix q r t : DecomposedTo q r t -> exists u, q = u ++ r.
Proof.
  induction 1 as [s|g c s r t Hg HF H [u IH]|g c ds b s r t Hg HF HL HE H [u IH]]; [now exists []| |]; exists (g ++ u); rewrite IH, app_assoc; reflexivity.
Qed.

(** One code point. *)
Lemma td_keep inner fuel p g c q x y z from result : uchar g c -> Shape c [c] ->
  exists b, to_decomposed_loop inner (S fuel) (p ++ g ++ q) [x; y; z] from (length p) (length p) result =
  to_decomposed_loop inner fuel ((p ++ g) ++ q) [b; y; z] from (length (p ++ g)) (length (p ++ g)) result.
Proof.
  intros Hg HS. exists c. cbn [to_decomposed_loop]. rewrite (safe_decode_next_uchar _ _ _ _ Hg). cbn [bind].
  pose proof (decompose_char3 c [c] x y z HS) as K. cbv iota beta in K. rewrite K. cbn [bind].
  replace (decompose_until inner c true 1 [c; y; z]) with (Ok (1, [c; y; z])) by (destruct inner; reflexivity).
  cbn [bind N.eqb Pos.eqb]. rewrite app_length, <- app_assoc. reflexivity.
Qed.
Lemma td_split inner fuel p g c ds q x y z from result : uchar g c -> Shape c ds -> (2 <= length ds <= 3)%nat -> (from <= length p)%nat ->
  exists b0 b1 b2, to_decomposed_loop inner (S fuel) (p ++ g ++ q) [x; y; z] from (length p) (length p) result =
  to_decomposed_loop inner fuel ((p ++ g) ++ q) [b0; b1; b2] (length (p ++ g)) (length (p ++ g)) (length (p ++ g))
    ((result ++ slice (p ++ g ++ q) from (length p)) ++ from_utf32 ds).
Proof.
  intros Hg HS HL HF. pose proof (decompose_char3 c ds x y z HS) as K.
  assert (A : append_range result (p ++ g ++ q) from (length p) = Ok (result ++ slice (p ++ g ++ q) from (length p))).
  { unfold append_range. rewrite (proj2 (Nat.leb_le _ _) HF). rewrite (proj2 (Nat.leb_le (length p) _)); [reflexivity|].
    rewrite app_length. lia. }
  destruct ds as [|d1 [|d2 [|d3 [|d4 ds]]]]; cbn [length] in HL; try lia.
  - exists d1, d2, z. cbn [to_decomposed_loop]. rewrite (safe_decode_next_uchar _ _ _ _ Hg). cbn [bind]. rewrite K. cbn [bind].
    replace (decompose_until inner c true 2 [d1; d2; z]) with (Ok (2, [d1; d2; z])) by (destruct inner; reflexivity).
    cbn [bind N.eqb Pos.eqb]. rewrite A. cbn [bind]. change (N.to_nat 2) with 2%nat. cbn [firstn]. rewrite (app_length p g), <- (app_assoc p g q). reflexivity.
  - exists d1, d2, d3. cbn [to_decomposed_loop]. rewrite (safe_decode_next_uchar _ _ _ _ Hg). cbn [bind]. rewrite K. cbn [bind].
    replace (decompose_until inner c true 3 [d1; d2; d3]) with (Ok (3, [d1; d2; d3])) by (destruct inner; reflexivity).
    cbn [bind N.eqb Pos.eqb]. rewrite A. cbn [bind]. change (N.to_nat 3) with 3%nat. cbn [firstn]. rewrite (app_length p g), <- (app_assoc p g q). reflexivity.
Qed.

Lemma td_loop q r t : DecomposedTo q r t -> forall inner p x y z from result fuel, (from <= length p)%nat -> (length q < fuel)%nat ->
  exists p' x' y' z' from' result' fuel', p ++ q = p' ++ r /\
  to_decomposed_loop inner fuel (p ++ q) [x; y; z] from (length p) (length p) result =
  to_decomposed_loop inner fuel' (p' ++ r) [x'; y'; z'] from' (length p') (length p') result' /\
  (from' <= length p')%nat /\ (length r < fuel')%nat /\
  result' ++ slice (p' ++ r) from' (length p') = (result ++ slice (p ++ q) from (length p)) ++ t.
Proof.
  induction 1 as [s|g c s r t Hg HF H IH|g c ds b s r t Hg HF HL HE H IH]; intros inner p x y z from result fuel Hfrom Hfuel.
  - exists p, x, y, z, from, result, fuel. rewrite app_nil_r. auto 10.
  - rewrite full_shape in HF. destruct fuel as [|fuel]; [lia|]. pose proof (uchar_length g c Hg) as LG.
    rewrite app_length in Hfuel.
    destruct (td_keep inner fuel p g c s x y z from result Hg HF) as [b E].
    destruct (IH inner (p ++ g) b y z from result fuel) as (p' & x' & y' & z' & from' & result' & fuel' & E1 & E2 & E3 & E4 & E5); [rewrite app_length; lia|lia|].
    assert (SL : slice ((p ++ g) ++ s) from (length (p ++ g)) = slice (p ++ g ++ s) from (length p) ++ g).
    { rewrite <- (app_assoc p g s). rewrite <- (slice_cat (p ++ g ++ s) from (length p) (length (p ++ g))) by (rewrite app_length; lia).
      f_equal. apply slice_app; [reflexivity|]. rewrite app_length. lia. }
    exists p', x', y', z', from', result', fuel'. split; [rewrite (app_assoc p g s); exact E1|]. split; [now rewrite E|].
    split; [exact E3|]. split; [exact E4|]. rewrite E5, SL, !app_assoc. reflexivity.
  - rewrite full_shape in HF. destruct fuel as [|fuel]; [lia|]. pose proof (uchar_length g c Hg) as LG.
    rewrite app_length in Hfuel.
    destruct (td_split inner fuel p g c ds s x y z from result Hg HF HL Hfrom) as (b0 & b1 & b2 & E).
    destruct (IH inner (p ++ g) b0 b1 b2 (length (p ++ g)) ((result ++ slice (p ++ g ++ s) from (length p)) ++ from_utf32 ds) fuel)
      as (p' & x' & y' & z' & from' & result' & fuel' & E1 & E2 & E3 & E4 & E5); [lia|lia|].
    exists p', x', y', z', from', result', fuel'. split; [rewrite (app_assoc p g s); exact E1|]. split; [now rewrite E|].
    split; [exact E3|]. split; [exact E4|]. rewrite E5, slice_self, app_nil_r, <- (app_assoc _ (from_utf32 ds) t). f_equal. f_equal.
    apply Encoded_fun with ds; [apply encode_all; apply (shape_small c ds HF); intros ->; cbn in HL; lia|exact HE].
Qed.
Lemma td_start inner q r t : DecomposedTo q r t -> exists p' x' y' z' from' result' fuel', q = p' ++ r /\
  to_decomposed inner q = (let* p := to_decomposed_loop inner fuel' q [x'; y'; z'] from' (length p') (length p') result' in
    let '(result, from, to) := p in append_range result q from to) /\
  (from' <= length p')%nat /\ (length r < fuel')%nat /\ result' ++ slice q from' (length p') = t.
Proof.
  intros H. destruct (td_loop q r t H inner [] 0 0 0 0%nat [] (S (length q))) as (p' & x' & y' & z' & from' & result' & fuel' & E1 & E2 & E3 & E4 & E5); [cbn; lia|lia|].
  cbn [app length] in E1, E2, E5. exists p', x', y', z', from', result', fuel'. rewrite <- E1 in E2, E5.
  split; [exact E1|]. split; [|auto]. unfold to_decomposed. cbn [repeat]. now rewrite E2.
Qed.
Lemma p_c67_ok inner s t : DecomposedTo s [] t -> to_decomposed inner s = Ok t.
Proof.
  intros H. destruct (td_start inner s [] t H) as (p' & x' & y' & z' & from' & result' & fuel' & E1 & E2 & E3 & E4 & E5).
  rewrite app_nil_r in E1. subst p'. rewrite E2. destruct fuel' as [|fuel']; [cbn in E4; lia|].
  cbn [to_decomposed_loop]. rewrite safe_decode_next_end. cbn [bind]. unfold append_range.
  rewrite (proj2 (Nat.leb_le _ _) E3), Nat.leb_refl. cbn [andb]. now rewrite E5.
Qed.
Lemma p_c67_throw inner s r t : DecomposedTo s r t -> Malformed r -> to_decomposed inner s = Throw YstringException.
Proof.
  intros H HM. destruct (td_start inner s r t H) as (p' & x' & y' & z' & from' & result' & fuel' & E1 & E2 & E3 & E4 & E5).
  rewrite E2, E1. destruct fuel' as [|fuel']; [cbn in E4; lia|].
  cbn [to_decomposed_loop]. rewrite safe_decode_next_malformed by exact HM. reflexivity.
Qed.
Lemma until_loops c d1 d2 d3 d4 : Shape c [d1; d2; d3; d4] -> forall fuel x y, decompose_until fuel c false 2 [x; y] = OutOfFuel.
Proof.
  intros H. induction fuel as [|fuel IH]; intros x y; [reflexivity|]. cbn [decompose_until].
  change (resize [x; y] 2) with [x; y]. rewrite (decompose_char2 c d1 d2 d3 d4 x y H). cbn [bind]. apply IH.
Qed.
Lemma p_c67_loops inner s g c ds r t : DecomposedTo s (g ++ r) t -> uchar g c -> FullDecomp c ds -> (3 < length ds)%nat ->
  to_decomposed inner s = OutOfFuel.
Proof.
  rewrite full_shape. intros H Hg HS HL. destruct (td_start inner s (g ++ r) t H) as (p' & x & y & z & from' & result' & fuel' & E1 & E2 & E3 & E4 & E5).
  rewrite E2, E1. destruct fuel' as [|fuel']; [cbn in E4; lia|].
  cbn [to_decomposed_loop]. rewrite (safe_decode_next_uchar _ _ _ _ Hg). cbn [bind].
  pose proof (decompose_char3 c ds x y z HS) as K. destruct ds as [|d1 [|d2 [|d3 [|d4 [|d5 ds]]]]]; cbn [length] in HL; try lia; try contradiction K.
  rewrite K. cbn [bind]. destruct inner as [|inner]; [reflexivity|]. cbn [decompose_until].
  change (resize [d4; d3; z] 2) with [d4; d3]. rewrite (decompose_char2 c d1 d2 d3 d4 _ _ HS). cbn [bind].
  now rewrite (until_loops c d1 d2 d3 d4 HS).
Qed.
Lemma p_c67_cases s : exists r t, DecomposedTo s r t /\
  (r = [] \/ Malformed r \/ exists g c ds r', r = g ++ r' /\ uchar g c /\ FullDecomp c ds /\ length ds = 4%nat).
Proof.
  destruct (text_prefix s) as (u & cs & r & -> & HT & Hr). revert r Hr. induction HT as [|g c u cs Hg HT IH]; intros r Hr.
  - exists r, []. split; [constructor|tauto].
  - rewrite <- app_assoc. destruct (shape_total c) as [ds HS]. pose proof (shape_full _ _ HS) as HF.
    pose proof (decompose_char3 c ds 0 0 0 HS) as K.
    assert (L : ds = [c] \/ (2 <= length ds <= 3)%nat \/ length ds = 4%nat).
    { destruct ds as [|d1 [|d2 [|d3 [|d4 [|d5 ds]]]]]; try contradiction K; cbn [length]; [left|lia..].
      inversion HS; subst; reflexivity. }
    destruct L as [L|[L|L]].
    + destruct (IH r Hr) as (r' & t & HD & HC). exists r', (g ++ t). split; [|exact HC]. subst ds. now apply (dec_keep g c).
    + destruct (IH r Hr) as (r' & t & HD & HC). exists r', (from_utf32 ds ++ t). split; [|exact HC]. apply (dec_split g c ds); try assumption.
      apply encode_all. apply (shape_small c ds HS). intros ->. cbn in L. lia.
    + exists (g ++ u ++ r), []. split; [constructor|]. right. right. exists g, c, ds, (u ++ r). auto.
Qed.
