(** C102: a search from an offset is a search in the text from there on; a
    search backwards from an offset is a search in the text up to there. *)
From Verif Require Import Base Model.Decode Model.Encode Model.Subrange Model.Search Model.Split Model.CharClass Model.ConvertCase
  Model.CodepointSet Model.Chars Model.CaseInsensitive Spec.Utf8Spec Spec.Strings Spec.Offsets
  Proofs.Utf8Lemmas Proofs.DecodeLemmas Proofs.SearchLemmas Proofs.Utf8Props.
Require Import Lia ZifyBool ZifyNat ZifyN.

Lemma cut_at (s : str) i : (i <= length s)%nat -> exists a b, s = a ++ b /\ i = length a.
Proof. intros H. exists (firstn i s), (skipn i s). rewrite firstn_skipn, firstn_length. split; [reflexivity|lia]. Qed.

(** *** Decoding looks only forwards (backwards) *)
Definition mv (k : nat) (r : option (N * nat)) : option (N * nat) := option_map (fun p => (fst p, (k + snd p)%nat)) r.

Lemma next_local pre t i : (i <= length t)%nat ->
  safe_decode_next (pre ++ t) (length pre + i) = omap (mv (length pre)) (safe_decode_next t i).
Proof.
  intros H. destruct (cut_at t i H) as (a & b & -> & ->). rewrite <- app_length, app_assoc.
  destruct (seq_dec b) as [->|[M|(g & c & v & Hg & ->)]].
  - rewrite app_nil_r, safe_decode_next_end. rewrite app_nil_r, safe_decode_next_end. reflexivity.
  - rewrite !safe_decode_next_malformed by exact M. reflexivity.
  - rewrite !(safe_decode_next_uchar _ _ _ _ Hg). cbn [omap bind mv option_map fst snd]. rewrite !app_length, Nat.add_assoc. reflexivity.
Qed.
Lemma next_step t i c j : (i <= length t)%nat -> safe_decode_next t i = Ok (Some (c, j)) -> (i < j <= length t)%nat.
Proof.
  intros H. destruct (cut_at t i H) as (a & b & -> & ->).
  destruct (seq_dec b) as [->|[M|(g & d & v & Hg & ->)]].
  - rewrite app_nil_r, safe_decode_next_end. discriminate.
  - rewrite safe_decode_next_malformed by exact M. discriminate.
  - rewrite (safe_decode_next_uchar _ _ _ _ Hg). intros E. injection E as _ <-. pose proof (uchar_length _ _ Hg). rewrite !app_length. lia.
Qed.
Lemma prev_local t post i : (i <= length t)%nat -> safe_decode_prev (t ++ post) i = safe_decode_prev t i.
Proof.
  intros H. destruct (cut_at t i H) as (a & b & -> & ->). rewrite <- app_assoc.
  destruct (seq_dec_end a) as [->|[M|(v & g & c & Hg & ->)]].
  - reflexivity.
  - destruct (long_cont_tail_dec a) as [L|L]; [rewrite !safe_decode_prev_long by exact L|rewrite !safe_decode_prev_malformed by assumption]; reflexivity.
  - rewrite app_length, <- !app_assoc. rewrite !(safe_decode_prev_uchar _ _ _ _ Hg). reflexivity.
Qed.
Lemma prev_step t i c j : (i <= length t)%nat -> safe_decode_prev t i = Ok (Some (c, j)) -> (j < i)%nat.
Proof.
  intros H. destruct (cut_at t i H) as (a & b & -> & ->).
  destruct (seq_dec_end a) as [->|[M|(v & g & d & Hg & ->)]].
  - discriminate.
  - destruct (long_cont_tail_dec a) as [L|L]; [rewrite safe_decode_prev_long by exact L|rewrite safe_decode_prev_malformed by assumption]; discriminate.
  - rewrite app_length, <- !app_assoc. rewrite (safe_decode_prev_uchar _ _ _ _ Hg). intros E. injection E as _ <-. pose proof (uchar_length _ _ Hg). lia.
Qed.

(** *** Forwards *)
Section Forward.
Variables (pre t : str).
Hypothesis HF : Fits (pre ++ t).
Notation k := (length pre).

Lemma moved_at i n : (i <= length t)%nat -> moved (size pre) (Sub (N.of_nat i) n) = Sub (N.of_nat (k + i)) n.
Proof using HF.
  intros H. unfold moved. cbn [sub_offset sub_length]. unfold Fits, size in *; rewrite app_length in HF.
  rewrite (proj2 (N.eqb_neq _ _)) by (unfold npos, SIZE_MAX, W64; lia). f_equal. lia.
Qed.
Lemma moved_its i j : (i <= j <= length t)%nat -> moved (size pre) (sub_its 0 i j) = sub_its 0 (k + i) (k + j).
Proof using HF. intros H. unfold sub_its. rewrite !Nat.sub_0_r, moved_at by lia. do 2 f_equal. lia. Qed.

Lemma begin_moved o : begin_plus (pre ++ t) (size pre + o) = omap (fun i => k + i)%nat (begin_plus t o).
Proof using.
  unfold begin_plus, size. rewrite app_length. destruct (N.leb_spec o (N.of_nat (length t))) as [L|L].
  - rewrite (proj2 (N.leb_le _ _)) by lia. cbn. f_equal. lia.
  - rewrite (proj2 (N.leb_gt _ _)) by lia. reflexivity.
Qed.
Lemma begin_inv (s : str) o i : begin_plus s o = Ok i -> (i <= length s)%nat /\ o = N.of_nat i.
Proof using. unfold begin_plus, size. destruct (N.leb_spec o (N.of_nat (length s))); [|discriminate]. intros E. injection E as <-. lia. Qed.

Lemma where_loop pred f1 : forall f2 p i, (i <= length t)%nat -> (p <= i)%nat -> (length t - i < f1)%nat -> (length t - i < f2)%nat ->
  find_first_where_loop f1 (pre ++ t) pred (k + p) (k + i) = moved_char (size pre) (find_first_where_loop f2 t pred p i).
Proof using HF.
  induction f1 as [|f1 IH]; intros f2 p i Hi Hp H1 H2; [lia|]. destruct f2 as [|f2]; [lia|]. cbn [find_first_where_loop].
  rewrite next_local by exact Hi. destruct (safe_decode_next t i) as [[[c j]|]| | |] eqn:D; cbn [bind omap mv option_map]; try reflexivity.
  apply next_step in D; [|exact Hi]. cbn [fst snd]. destruct (pred c).
  - unfold moved_char. cbn [omap bind fst snd]. rewrite moved_its by lia. reflexivity.
  - apply IH; lia.
Qed.
Lemma where_moved pred o : find_first_where (pre ++ t) pred (size pre + o) = moved_char (size pre) (find_first_where t pred o).
Proof using HF.
  unfold find_first_where. rewrite begin_moved. destruct (begin_plus t o) as [i| | |] eqn:B; cbn [bind omap]; try reflexivity.
  apply begin_inv in B. destruct B as [B _]. apply where_loop; rewrite ?app_length; lia.
Qed.

Lemma mis_moved cmp f1 : forall f2 i j, (i <= length t)%nat -> (length t - i < f1)%nat -> (length t - i < f2)%nat ->
  next_ci_mismatch f1 (pre ++ t) cmp (k + i) j = omap (fun p => ((k + fst p)%nat, snd p)) (next_ci_mismatch f2 t cmp i j) /\
  (forall a b, next_ci_mismatch f2 t cmp i j = Ok (a, b) -> (i <= a <= length t)%nat).
Proof using.
  induction f1 as [|f1 IH]; intros f2 i j Hi H1 H2; [lia|]. destruct f2 as [|f2]; [lia|]. cbn [next_ci_mismatch].
  rewrite next_local by exact Hi. destruct (safe_decode_next t i) as [[[c i']|]| | |] eqn:D; cbn [bind omap mv option_map]; try (split; [reflexivity|discriminate]).
  2:{ split; [reflexivity|]. intros a b E. injection E as <- <-. lia. }
  apply next_step in D; [|exact Hi]. cbn [fst snd].
  destruct (safe_decode_next cmp j) as [[[d j']|]| | |]; cbn [bind omap]; try (split; [reflexivity|discriminate]).
  - destruct (case_insensitive_equal c d); cbn [negb].
    + destruct (IH f2 i' j') as [E1 E2]; try lia. split; [exact E1|]. intros a b E. apply E2 in E. lia.
    + split; [reflexivity|]. intros a b E. injection E as <- <-. lia.
  - split; [reflexivity|]. intros a b E. injection E as <- <-. lia.
Qed.
Lemma ci_loop cmp d n f1 : forall f2 p i, (i <= length t)%nat -> (p <= i)%nat -> (length t - i < f1)%nat -> (length t - i < f2)%nat ->
  ci_find_first_loop f1 (pre ++ t) cmp d n (k + p) (k + i) = moved_result (size pre) (ci_find_first_loop f2 t cmp d n p i).
Proof using HF.
  induction f1 as [|f1 IH]; intros f2 p i Hi Hp H1 H2; [lia|]. destruct f2 as [|f2]; [lia|]. cbn [ci_find_first_loop].
  rewrite next_local by exact Hi. destruct (safe_decode_next t i) as [[[c j]|]| | |] eqn:D; cbn [bind omap mv option_map]; try reflexivity.
  apply next_step in D; [|exact Hi]. cbn [fst snd]. destruct (case_insensitive_equal c d); [|apply IH; lia].
  destruct (mis_moved cmp (S (length (pre ++ t))) (S (length t)) j n) as [E1 E2]; rewrite ?app_length; try lia.
  rewrite app_length in E1. rewrite E1. destruct (next_ci_mismatch (S (length t)) t cmp j n) as [[a b]| | |]; cbn [bind omap]; try reflexivity.
  cbn [fst snd]. specialize (E2 a b eq_refl). destruct (Nat.eqb b (length cmp)); [|apply IH; lia].
  unfold moved_result. cbn [omap bind]. rewrite moved_its by lia. reflexivity.
Qed.
Lemma ci_moved p o : ci_find_first (pre ++ t) p (size pre + o) = moved_result (size pre) (ci_find_first t p o).
Proof using HF.
  unfold ci_find_first. destruct (safe_decode_next p 0) as [[[d n]|]| | |]; cbn [bind]; try reflexivity.
  rewrite begin_moved. destruct (begin_plus t o) as [i| | |] eqn:B; cbn [bind omap]; try reflexivity.
  apply begin_inv in B. destruct B as [B _]. apply ci_loop; rewrite ?app_length; lia.
Qed.

Lemma occurs_moved p i : occurs_at p (pre ++ t) (k + i) <-> occurs_at p t i.
Proof using.
  split; intros (u & v & E & L).
  - exists (skipn k u), v. split; [|rewrite skipn_length; lia].
    apply (f_equal (skipn k)) in E. rewrite skipn_app, skipn_all, Nat.sub_diag in E. cbn [app skipn] in E. rewrite E.
    rewrite skipn_app. replace (k - length u)%nat with 0%nat by lia. reflexivity.
  - exists (pre ++ u), v. rewrite E, <- app_assoc, app_length. split; [reflexivity|lia].
Qed.
Lemma occurs_le (p s : str) i : occurs_at p s i -> (i <= length s)%nat.
Proof using. intros (u & v & -> & <-). rewrite app_length. lia. Qed.
Lemma first_moved p o : find_first (pre ++ t) p (size pre + o) = moved_result (size pre) (find_first t p o).
Proof using HF.
  destruct (N.le_gt_cases o (size t)) as [L|L].
  2:{ unfold find_first. rewrite begin_moved. unfold begin_plus. rewrite (proj2 (N.leb_gt _ _) L). reflexivity. }
  assert (X : exists i, o = N.of_nat i /\ (i <= length t)%nat) by (exists (N.to_nat o); unfold size in L; lia).
  destruct X as (i & -> & Hi). replace (size pre + N.of_nat i) with (N.of_nat (k + i)) by (unfold size; lia).
  destruct p as [|x p].
  - unfold find_first. rewrite !begin_plus_ok by (rewrite ?app_length; lia). cbn [bind std_search].
    rewrite app_length. change (size []) with 0. destruct (Nat.eqb_spec i (length t)) as [->|Hn].
    + rewrite Nat.eqb_refl. unfold moved_result. cbn [omap bind]. rewrite (moved_at _ _ (le_n _)). unfold size. now rewrite app_length.
    + rewrite (proj2 (Nat.eqb_neq _ _)) by lia. unfold moved_result. cbn [omap bind]. now rewrite moved_at.
  - set (q := x :: p).
    destruct (find_first_spec t q i ltac:(discriminate) Hi) as [(a & H1 & H2 & H3 & H4)|[H1 H2]];
    destruct (find_first_spec (pre ++ t) q (k + i) ltac:(discriminate) ltac:(rewrite app_length; lia)) as [(b & G1 & G2 & G3 & G4)|[G1 G2]].
    + rewrite H4, G4. unfold moved_result. cbn [omap bind].
      pose proof (occurs_le _ _ _ H2) as La.
      rewrite moved_at by exact La. replace b with (k + (b - k))%nat in * by lia. apply occurs_moved in G2. do 2 f_equal. f_equal.
      destruct (Nat.lt_trichotomy a (b - k)) as [C|[C|C]]; [|lia|].
      * exfalso. apply (G3 (k + a)%nat); [lia|]. now apply occurs_moved.
      * exfalso. apply (H3 (b - k)%nat); [lia|exact G2].
    + exfalso. apply (G1 (k + a)%nat); [lia|]. now apply occurs_moved.
    + exfalso. replace b with (k + (b - k))%nat in * by lia. apply occurs_moved in G2. apply (H1 (b - k)%nat); [lia|exact G2].
    + rewrite H2, G2. unfold moved_result. cbn [omap bind]. rewrite (moved_at _ _ (le_n _)). unfold size. now rewrite app_length.
Qed.

Lemma next_char_moved f1 : forall f2 i e, (i <= length t)%nat -> (length t - i < f1)%nat -> (length t - i < f2)%nat ->
  next_char_loop f1 (pre ++ t) (k + i) (k + e) = omap (fun x => k + x)%nat (next_char_loop f2 t i e).
Proof using.
  induction f1 as [|f1 IH]; intros f2 i e Hi H1 H2; [lia|]. destruct f2 as [|f2]; [lia|]. cbn [next_char_loop].
  rewrite next_local by exact Hi. destruct (safe_decode_next t i) as [[[c j]|]| | |] eqn:D; cbn [bind omap mv option_map]; try reflexivity.
  apply next_step in D; [|exact Hi]. cbn [fst snd]. destruct (is_mark c); [apply IH; lia|reflexivity].
Qed.
Lemma next_char_bound f : forall i e r, (i <= length t)%nat -> (e <= length t)%nat -> next_char_loop f t i e = Ok r -> (e <= r \/ i <= r)%nat /\ (r <= length t)%nat.
Proof using.
  induction f as [|f IH]; intros i e r Hi He; cbn [next_char_loop]; [discriminate|].
  destruct (safe_decode_next t i) as [[[c j]|]| | |] eqn:D; cbn [bind]; try discriminate; [|intros E; injection E as <-; lia].
  apply next_step in D; [|exact Hi]. destruct (is_mark c); [|intros E; injection E as <-; lia].
  intros E. apply IH in E; lia.
Qed.
Lemma char_moved o : get_next_char_range (pre ++ t) (size pre + o) = moved_result (size pre) (get_next_char_range t o).
Proof using HF.
  unfold get_next_char_range. rewrite begin_moved. destruct (begin_plus t o) as [i| | |] eqn:B; cbn [bind omap]; try reflexivity.
  apply begin_inv in B. destruct B as [B ->].
  assert (E0 : forall n, Sub (size pre + N.of_nat i) n = moved (size pre) (Sub (N.of_nat i) n)) by (intros n; rewrite moved_at by exact B; f_equal; unfold size; lia).
  rewrite next_local by exact B. destruct (safe_decode_next t i) as [[[c j]|]| | |] eqn:D; cbn [bind omap mv option_map]; try reflexivity.
  2:{ rewrite E0. reflexivity. }
  apply next_step in D; [|exact B]. cbn [fst snd].
  rewrite (next_char_moved (S (length (pre ++ t))) (S (length t)) j j) by (rewrite ?app_length; lia).
  destruct (next_char_loop (S (length t)) t j j) as [e| | |] eqn:L; cbn [bind omap]; try reflexivity.
  apply next_char_bound in L; [|lia|lia]. rewrite E0. unfold moved_result. cbn [omap bind]. do 3 f_equal.
  unfold Fits, size in HF. rewrite app_length in HF. unfold sub64, size. rewrite (N.mod_small _ _ (ltac:(unfold W64; lia) : N.of_nat k + N.of_nat i < W64)), (N.mod_small _ _ (ltac:(unfold W64; lia) : N.of_nat i < W64)).
  rewrite <- (N.mod_unique (N.of_nat e + (W64 - N.of_nat i)) W64 1 (N.of_nat e - N.of_nat i)) by (unfold W64; lia).
  rewrite <- (N.mod_unique (N.of_nat (k + e) + (W64 - (N.of_nat k + N.of_nat i))) W64 1 (N.of_nat e - N.of_nat i)) by (unfold W64; lia).
  reflexivity.
Qed.
End Forward.

(** *** Newlines, forwards *)
Lemma where_result t pred f : forall p i r c, (p <= i)%nat -> (i <= length t)%nat -> find_first_where_loop f t pred p i = Ok (r, c) ->
  (r = sub_at npos /\ c = INVALID_CHAR) \/ exists a b, (a < b <= length t)%nat /\ r = sub_its 0 a b.
Proof.
  induction f as [|f IH]; intros p i r c Hp Hi; cbn [find_first_where_loop]; [discriminate|].
  destruct (safe_decode_next t i) as [[[d j]|]| | |] eqn:D; cbn [bind]; try discriminate.
  - apply next_step in D; [|exact Hi]. destruct (pred d).
    + intros E. injection E as <- <-. right. exists p, j. split; [lia|reflexivity].
    + intros E. apply IH in E; [exact E|lia|lia].
  - intros E. injection E as <- <-. now left.
Qed.
Lemma newline_moved after pre t o : Fits (pre ++ t) -> find_first_newline after (pre ++ t) (size pre + o) = moved_result (size pre) (find_first_newline after t o).
Proof.
  intros HF. unfold find_first_newline. destruct (u32view_of_ptr (NEWLINES ++ after)) as [chars| | |]; cbn [bind]; try reflexivity.
  unfold find_first_of. rewrite where_moved by exact HF. set (pred := fun c => u32_contains chars c).
  destruct (find_first_where t pred o) as [[r c]| | |] eqn:W; unfold moved_char; cbn [omap bind fst snd]; try reflexivity.
  destruct (N.eqb_spec c 0x0D) as [->|Hc]; cbn [negb]; [|reflexivity].
  unfold find_first_where in W. destruct (begin_plus t o) as [i| | |] eqn:B; cbn [bind] in W; try discriminate.
  apply begin_inv in B. destruct B as [B _]. apply where_result in W; [|lia|exact B].
  destruct W as [[_ K]|(a & b & L & ->)]; [discriminate K|].
  rewrite (moved_its pre t HF) by lia.
  pose proof HF as HF'. unfold Fits, size in HF'. rewrite app_length in HF'.
  assert (E1 : sub_end (sub_its 0 a b) = N.of_nat b).
  { unfold sub_end, sub_its, add64. cbn [sub_offset sub_length]. rewrite N.mod_small by (unfold W64; lia). lia. }
  assert (E2 : sub_end (sub_its 0 (length pre + a) (length pre + b)) = size pre + N.of_nat b).
  { unfold sub_end, sub_its, add64, size. cbn [sub_offset sub_length]. rewrite N.mod_small by (unfold W64; lia). lia. }
  rewrite E1, E2, begin_moved, begin_plus_ok by lia. cbn [omap bind]. rewrite next_local by lia.
  destruct (safe_decode_next t b) as [[[d j]|]| | |] eqn:D; cbn [omap bind mv option_map fst snd]; try reflexivity.
  - apply next_step in D; [|lia]. destruct (d =? 0x0A).
    + unfold moved_result. cbn [omap bind]. unfold sub_start, sub_its. cbn [sub_offset]. rewrite !Nat.sub_0_r, (moved_at pre t HF) by lia. do 2 f_equal.
      rewrite !sub64_small by (unfold W64; lia). lia.
    + unfold moved_result. cbn [omap bind]. now rewrite (moved_its pre t HF) by lia.
  - unfold moved_result. cbn [omap bind]. now rewrite (moved_its pre t HF) by lia.
Qed.

(** *** Backwards *)
Section Backward.
Variables (t post : str).

Lemma begin_prefix o : o <= size t -> begin_plus (t ++ post) o = begin_plus t o.
Proof using. unfold begin_plus, size. rewrite app_length. intros H. rewrite !(proj2 (N.leb_le _ _)) by lia. reflexivity. Qed.
Lemma min_prefix o : o <= size t -> N.min o (size (t ++ post)) = N.min o (size t).
Proof using. unfold size. rewrite app_length. lia. Qed.

Lemma lwhere_loop pred f1 : forall f2 i e, (i <= length t)%nat -> (i < f1)%nat -> (i < f2)%nat ->
  find_last_where_loop f1 (t ++ post) pred i e = find_last_where_loop f2 t pred i e.
Proof using.
  induction f1 as [|f1 IH]; intros f2 i e Hi H1 H2; [lia|]. destruct f2 as [|f2]; [lia|]. cbn [find_last_where_loop].
  rewrite prev_local by exact Hi. destruct (safe_decode_prev t i) as [[[c j]|]| | |] eqn:D; cbn [bind]; try reflexivity.
  apply prev_step in D; [|exact Hi]. destruct (pred c); [reflexivity|]. apply IH; lia.
Qed.
Lemma lwhere_prefix pred o : o <= size t -> find_last_where (t ++ post) pred o = find_last_where t pred o.
Proof using.
  intros H. unfold find_last_where. rewrite min_prefix, begin_prefix by lia.
  destruct (begin_plus t (N.min o (size t))) as [i| | |] eqn:B; cbn [bind]; try reflexivity.
  apply begin_inv in B. destruct B as [B _]. apply lwhere_loop; rewrite ?app_length; lia.
Qed.

Lemma pmis_prefix cmp f1 : forall f2 i j, (i <= length t)%nat -> (i < f1)%nat -> (i < f2)%nat ->
  prev_ci_mismatch f1 (t ++ post) cmp i j = prev_ci_mismatch f2 t cmp i j.
Proof using.
  induction f1 as [|f1 IH]; intros f2 i j Hi H1 H2; [lia|]. destruct f2 as [|f2]; [lia|]. cbn [prev_ci_mismatch].
  rewrite prev_local by exact Hi. destruct (safe_decode_prev t i) as [[[c i']|]| | |] eqn:D; cbn [bind]; try reflexivity.
  apply prev_step in D; [|exact Hi].
  destruct (safe_decode_prev cmp j) as [[[d j']|]| | |]; cbn [bind]; try reflexivity.
  destruct (case_insensitive_equal c d); cbn [negb]; [|reflexivity]. apply IH; lia.
Qed.
Lemma ci_last_loop cmp d n f1 : forall f2 p i, (i <= length t)%nat -> (i < f1)%nat -> (i < f2)%nat ->
  ci_find_last_loop f1 (t ++ post) cmp d n p i = ci_find_last_loop f2 t cmp d n p i.
Proof using.
  induction f1 as [|f1 IH]; intros f2 p i Hi H1 H2; [lia|]. destruct f2 as [|f2]; [lia|]. cbn [ci_find_last_loop].
  rewrite prev_local by exact Hi. destruct (safe_decode_prev t i) as [[[c j]|]| | |] eqn:D; cbn [bind]; try reflexivity.
  apply prev_step in D; [|exact Hi]. destruct (case_insensitive_equal c d); [|apply IH; lia].
  rewrite (pmis_prefix cmp (S (length (t ++ post))) (S (length t)) j n) by (rewrite ?app_length; lia).
  destruct (prev_ci_mismatch (S (length t)) t cmp j n) as [[a b]| | |]; cbn [bind]; try reflexivity.
  destruct (Nat.eqb b 0); [reflexivity|]. apply IH; lia.
Qed.
Lemma ci_last_prefix p o : o <= size t -> ci_find_last (t ++ post) p o = ci_find_last t p o.
Proof using.
  intros H. unfold ci_find_last. destruct (safe_decode_prev p (length p)) as [[[d n]|]| | |]; cbn [bind]; try reflexivity.
  rewrite min_prefix, begin_prefix by lia.
  destruct (begin_plus t (N.min o (size t))) as [i| | |] eqn:B; cbn [bind]; try reflexivity.
  apply begin_inv in B. destruct B as [B _]. apply ci_last_loop; rewrite ?app_length; lia.
Qed.

Lemma slice_prefix i e : (e <= length t)%nat -> slice (t ++ post) i e = slice t i e.
Proof using.
  intros H. unfold slice. destruct (Nat.le_gt_cases i e) as [L|L].
  - rewrite skipn_app. replace (i - length t)%nat with 0%nat by lia. cbn [skipn]. rewrite firstn_app, skipn_length.
    replace (e - i - (length t - i))%nat with 0%nat by lia. cbn [firstn]. now rewrite app_nil_r.
  - replace (e - i)%nat with 0%nat by lia. reflexivity.
Qed.
Lemma last_prefix p o : o <= size t -> find_last (t ++ post) p o = find_last t p o.
Proof using.
  intros H. unfold find_last. rewrite min_prefix, begin_prefix by lia.
  destruct (begin_plus t (N.min o (size t))) as [e| | |] eqn:B; cbn [bind]; try reflexivity.
  apply begin_inv in B. destruct B as [B _].
  assert (K : search_last (t ++ post) e p = search_last t e p).
  { unfold search_last. destruct (Nat.eqb (length p) 0 || Nat.ltb e (length p))%bool; [reflexivity|].
    generalize (e - length p)%nat as i. induction i as [|i IH]; cbn [search_last_loop]; rewrite slice_prefix by exact B; [reflexivity|]. now rewrite IH. }
  now rewrite K.
Qed.
Lemma prev_char_prefix o : o <= size t -> get_prev_char_range (t ++ post) o = get_prev_char_range t o.
Proof using.
  intros H. unfold get_prev_char_range. rewrite begin_prefix by lia.
  destruct (begin_plus t o) as [e| | |] eqn:B; cbn [bind]; try reflexivity.
  apply begin_inv in B. destruct B as [B ->].
  assert (K : forall f1 f2 i, (i <= length t)%nat -> (i < f1)%nat -> (i < f2)%nat -> prev_char_loop f1 (t ++ post) i = prev_char_loop f2 t i).
  { induction f1 as [|f1 IH]; intros f2 i Hi H1 H2; [lia|]. destruct f2 as [|f2]; [lia|]. cbn [prev_char_loop].
    rewrite prev_local by exact Hi. destruct (safe_decode_prev t i) as [[[c j]|]| | |] eqn:D; cbn [bind]; try reflexivity.
    apply prev_step in D; [|exact Hi]. destruct (is_mark c); [|reflexivity]. apply IH; lia. }
  rewrite (K (S (length (t ++ post))) (S (length t)) e) by (rewrite ?app_length; lia). reflexivity.
Qed.

Lemma lwhere_result pred f : forall i e r c, (i <= e)%nat -> (e <= length t)%nat -> find_last_where_loop f t pred i e = Ok (r, c) -> i = e ->
  (r = sub_at npos /\ c = INVALID_CHAR) \/ exists a b, (a < b <= length t)%nat /\ r = sub_its 0 a b.
Proof using.
  induction f as [|f IH]; intros i e r c Hp Hi; cbn [find_last_where_loop]; [discriminate|].
  destruct (safe_decode_prev t i) as [[[d j]|]| | |] eqn:D; cbn [bind]; try discriminate.
  - apply prev_step in D; [|lia]. destruct (pred d).
    + intros E ->. injection E as <- <-. right. exists j, e. split; [lia|reflexivity].
    + intros E ->. apply IH in E; [exact E|lia|lia|reflexivity].
  - intros E _. injection E as <- <-. now left.
Qed.
Lemma lnewline_prefix after o : Fits t -> o <= size t -> find_last_newline after (t ++ post) o = find_last_newline after t o.
Proof using.
  intros HF H. unfold find_last_newline. destruct (u32view_of_ptr (NEWLINES ++ after)) as [chars| | |]; cbn [bind]; try reflexivity.
  unfold find_last_of. rewrite lwhere_prefix by exact H. set (pred := fun c => u32_contains chars c).
  destruct (find_last_where t pred o) as [[r c]| | |] eqn:W; cbn [bind]; try reflexivity.
  destruct (N.eqb_spec c 0x0A) as [->|Hc]; cbn [negb]; [|reflexivity].
  unfold find_last_where in W. destruct (begin_plus t (N.min o (size t))) as [i| | |] eqn:B; cbn [bind] in W; try discriminate.
  apply begin_inv in B. destruct B as [B _]. apply lwhere_result in W; [|lia|exact B|reflexivity].
  destruct W as [[_ K]|(a & b & L & ->)]; [discriminate K|].
  unfold Fits, size in HF.
  assert (E1 : sub_end (sub_its 0 a b) = N.of_nat b).
  { unfold sub_end, sub_its, add64. cbn [sub_offset sub_length]. rewrite N.mod_small by (unfold W64; lia). lia. }
  assert (E2 : sub_start (sub_its 0 a b) = N.of_nat a) by (unfold sub_start, sub_its; cbn [sub_offset]; lia).
  rewrite E1, E2. rewrite !begin_prefix, !begin_plus_ok by (unfold size; lia). cbn [bind]. rewrite prev_local by lia. reflexivity.
Qed.
End Backward.
