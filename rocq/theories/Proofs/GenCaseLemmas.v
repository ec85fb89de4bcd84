(** C106: the case mapping tables, for every Unicode data file. *)
From Verif Require Import Base Spec.UnicodeData Spec.TableRows Model.ConvertCase Model.GenCase Proofs.TableLemmas Proofs.CaseLemmas.
From Coq Require Import ZifyBool ZifyNat ZifyN.
Ltac Zify.zify_post_hook ::= Z.div_mod_to_equations.

Lemma sorted_increasing {A} (key : A -> N) l : StronglySorted (fun a b => key a < key b) l -> increasing key l = true.
Proof.
  induction 1 as [|x l HS IH HF]; [reflexivity|]. cbn [increasing]. destruct l as [|y l]; [reflexivity|]. inversion HF; subst.
  rewrite IH, andb_true_r. now apply N.ltb_lt.
Qed.

(** *** The groups *)
Definition major_of (p : N * N) : N := fst p / 32 * 32.
Definition group (rows : list (N * N)) (m : N) : list (N * N) := filter (fun p => major_of p =? m) rows.
Lemma chars_add_get chars m p k : chars_get (chars_add chars m p) k = chars_get chars k ++ (if m =? k then [p] else []).
Proof.
  unfold chars_get. induction chars as [|[j l] chars IH]; cbn [chars_add find fst snd].
  - destruct (m =? k); reflexivity.
  - destruct (N.eqb_spec j m) as [->|D]; cbn [find fst snd].
    + destruct (m =? k); [reflexivity|now rewrite app_nil_r].
    + destruct (N.eqb_spec j k) as [->|D2]; [|exact IH]. cbn [snd]. replace (m =? k) with false by lia. now rewrite app_nil_r.
Qed.
Lemma chars_add_keys chars m p : forall k, In k (map fst (chars_add chars m p)) <-> k = m \/ In k (map fst chars).
Proof.
  induction chars as [|[j l] chars IH]; intros k; cbn [chars_add map fst In].
  - intuition.
  - destruct (N.eqb_spec j m) as [->|D]; cbn [map fst In]; [intuition|]. rewrite IH. intuition.
Qed.
Lemma chars_add_nodup chars m p : NoDup (map fst chars) -> NoDup (map fst (chars_add chars m p)).
Proof.
  induction chars as [|[j l] chars IH]; cbn [chars_add map fst]; intros H.
  - constructor; [intros []|constructor].
  - inversion H; subst. destruct (N.eqb_spec j m) as [->|D]; cbn [map fst]; [assumption|]. constructor; [|now apply IH].
    rewrite chars_add_keys. intros [E|E]; [lia|contradiction].
Qed.
Lemma group_chars_spec rows : NoDup (map fst (group_chars rows)) /\ (forall m, chars_get (group_chars rows) m = group rows m) /\
  (forall m, In m (map fst (group_chars rows)) <-> exists p, In p rows /\ major_of p = m).
Proof.
  unfold group_chars. induction rows as [|p rows IH] using rev_ind.
  - cbn. repeat split; [constructor|intros []|intros (p & [] & _)].
  - rewrite fold_left_app. cbn [fold_left]. fold (major_of p). destruct IH as (I1 & I2 & I3). split; [now apply chars_add_nodup|]. split.
    + intros m. rewrite chars_add_get, I2. unfold group. rewrite filter_app. cbn [filter]. reflexivity.
    + intros m. rewrite chars_add_keys, I3. split.
      * intros [->|(q & H & E)]; [exists p; split; [apply in_elt|reflexivity]|exists q; split; [apply in_or_app; now left|exact E]].
      * intros (q & H & E). apply in_app_or in H as [H|[<-|[]]]; [right; now exists q|now left].
Qed.

Lemma insert_key_in k l x : In x (insert_key k l) <-> x = k \/ In x l.
Proof. induction l as [|y l IH]; cbn [insert_key In]; [intuition|]. destruct (k <=? y); cbn [In]; [intuition|]. rewrite IH. intuition. Qed.
Lemma insert_key_sorted k l : StronglySorted N.lt l -> ~ In k l -> StronglySorted N.lt (insert_key k l).
Proof.
  induction 1 as [|y l HS IH HF]; cbn [insert_key]; intros HN; [constructor; constructor|]. destruct (N.leb_spec k y) as [L|L].
  - assert (k <> y) by (intros ->; apply HN; now left). constructor; [now constructor|]. constructor; [lia|]. eapply Forall_impl; [|exact HF]. intros z Hz. lia.
  - constructor; [apply IH; intros H; apply HN; now right|]. apply Forall_forall. intros z Hz. apply insert_key_in in Hz as [->|Hz]; [exact L|].
    rewrite Forall_forall in HF. now apply HF.
Qed.
Lemma sorted_keys_spec chars : NoDup (map fst chars) -> StronglySorted N.lt (sorted_keys chars) /\ forall x, In x (sorted_keys chars) <-> In x (map fst chars).
Proof.
  unfold sorted_keys. induction (map fst chars) as [|k l IH]; intros HD; cbn [fold_right].
  - split; [constructor|tauto].
  - inversion HD; subst. destruct IH as [I1 I2]; [assumption|]. split; [apply insert_key_sorted; [exact I1|now rewrite I2]|].
    intros x. rewrite insert_key_in, I2. cbn [In]. intuition.
Qed.

(** *** One group *)
Definition diff_fold (major : N) (diff : Z) := fun (st : N * N * list (N * N)) (p : N * N) =>
      let '(bit_set, nbit_set, remainder) := st in
      let '(bit_set, remainder) :=
        if Z.eqb (diff_of p) diff then (N.lor bit_set (N.shiftl 1 (fst p - major)), remainder)
        else (bit_set, remainder ++ [p]) in
      (bit_set, N.lxor nbit_set (N.shiftl 1 (fst p - major)), remainder).
Lemma bit_one i j : N.testbit (N.shiftl 1 i) j = (i =? j).
Proof.
  rewrite N.shiftl_1_l. destruct (N.eqb_spec i j) as [->|D]; [apply N.pow2_bits_true|now apply N.pow2_bits_false].
Qed.
Lemma diff_fold_spec major diff values : NoDup (map fst values) -> Forall (fun p => major <= fst p) values ->
  exists b n r, fold_left (diff_fold major diff) values (0, 0xFFFFFFFF, []) = (b, n, r) /\
    r = filter (fun p => negb (Z.eqb (diff_of p) diff)) values /\
    (forall i, N.testbit b i = existsb (fun p => (fst p - major =? i) && Z.eqb (diff_of p) diff) values) /\
    (forall i, i < 32 -> N.testbit n i = negb (existsb (fun p => fst p - major =? i) values)).
Proof.
  induction values as [|p values IH] using rev_ind; intros HD HF.
  - exists 0, 0xFFFFFFFF, []. split; [reflexivity|]. split; [reflexivity|]. split; [intros i; apply N.bits_0|].
    intros i Hi. cbn [existsb negb]. change 0xFFFFFFFF with (N.ones 32). now apply N.ones_spec_low.
  - rewrite map_app in HD. cbn [map] in HD. apply NoDup_remove in HD as [HD HN]. rewrite app_nil_r in *.
    apply Forall_app in HF as [HF HP]. inversion HP as [|? ? HP1 _]; subst.
    destruct (IH HD HF) as (b & n & r & E & E1 & E2 & E3). rewrite fold_left_app, E. cbn [fold_left].
    unfold diff_fold at 1. rewrite filter_app. cbn [filter].
    exists (if Z.eqb (diff_of p) diff then N.lor b (N.shiftl 1 (fst p - major)) else b), (N.lxor n (N.shiftl 1 (fst p - major))),
      (if Z.eqb (diff_of p) diff then r else r ++ [p]). split; [now destruct (Z.eqb _ _)|]. split; [|split].
    + rewrite <- E1. destruct (Z.eqb (diff_of p) diff); cbn [negb]; [now rewrite app_nil_r|reflexivity].
    + intros i. rewrite existsb_app. cbn [existsb]. rewrite orb_false_r, <- E2. destruct (Z.eqb (diff_of p) diff).
      * now rewrite N.lor_spec, bit_one, andb_true_r.
      * now rewrite andb_false_r, orb_false_r.
    + intros i Hi. rewrite existsb_app. cbn [existsb]. rewrite orb_false_r, N.lxor_spec, bit_one, (E3 i Hi).
      destruct (N.eqb_spec (fst p - major) i) as [D|D]; [|now rewrite orb_false_r, xorb_false_r].
      destruct (existsb (fun p0 : N * N => fst p0 - major =? i) values) eqn:EX; [|reflexivity].
      exfalso. apply existsb_exists in EX as (q & Hq & Eq). apply HN. rewrite Forall_forall in HF. specialize (HF q Hq).
      replace (fst p) with (fst q) by lia. now apply in_map.
Qed.

Lemma mask_bit i b : i < 32 -> negb (N.land (shl32 1 i) b =? 0) = N.testbit b i.
Proof.
  intros Hi. assert (shl32 1 i = 2 ^ i) as ->.
  { unfold shl32, W32. rewrite N.shiftl_1_l, N.mod_small; [reflexivity|]. change 0x100000000 with (2 ^ 32). apply N.pow_lt_mono_r; lia. }
  destruct (N.testbit b i) eqn:E.
  - apply negb_true_iff, N.eqb_neq. intros H. apply (f_equal (fun x => N.testbit x i)) in H. rewrite N.land_spec, N.pow2_bits_true, E, N.bits_0 in H. discriminate.
  - apply negb_false_iff, N.eqb_eq. apply N.bits_inj. intros j. rewrite N.land_spec, N.bits_0. destruct (N.eq_dec i j) as [->|D]; [rewrite E; apply andb_false_r|].
    now rewrite N.pow2_bits_false.
Qed.

Lemma find_sorted {A} (key : A -> N) l x : StronglySorted (fun a b => key a < key b) l -> In x l -> find (fun e => key e =? key x) l = Some x.
Proof.
  induction 1 as [|y l HS IH HF]; intros H; [destruct H|]. cbn [find]. destruct H as [->|H]; [now rewrite N.eqb_refl|].
  rewrite Forall_forall in HF. pose proof (HF _ H). replace (key y =? key x) with false by lia. now apply IH.
Qed.
Lemma find_missing {A} (key : A -> N) l k : (forall x, In x l -> key x <> k) -> find (fun e => key e =? k) l = None.
Proof. induction l as [|y l IH]; intros H; [reflexivity|]. cbn [find]. rewrite (proj2 (N.eqb_neq _ _) (H y (or_introl eq_refl))). apply IH. intros x Hx. apply H. now right. Qed.
Lemma lookup_lower {A} (key : A -> N) l k : StronglySorted (fun a b => key a < key b) l ->
  match lower_bound (fun e => key e <? k) l with Some e => if negb (key e =? k) then None else Some e | None => None end = find (fun e => key e =? k) l.
Proof.
  intros HS. rewrite (find_lower_bound key l k (sorted_increasing key l HS)). destruct (lower_bound _ l) as [e|]; [|reflexivity]. now destruct (key e =? k).
Qed.
Lemma sorted_filter {A} (R : A -> A -> Prop) f l : StronglySorted R l -> StronglySorted R (filter f l).
Proof.
  induction 1 as [|x l HS IH HF]; [constructor|]. cbn [filter]. destruct (f x); [|exact IH]. constructor; [exact IH|]. apply Forall_forall. intros y Hy.
  apply filter_In in Hy as [Hy _]. rewrite Forall_forall in HF. now apply HF.
Qed.
Lemma sorted_nodup {A} (key : A -> N) l : StronglySorted (fun a b => key a < key b) l -> NoDup (map key l).
Proof.
  induction 1 as [|x l HS IH HF]; [constructor|]. cbn [map]. constructor; [|exact IH]. intros H. apply in_map_iff in H as (y & E & Hy).
  rewrite Forall_forall in HF. specialize (HF y Hy). lia.
Qed.

Lemma convert_group_spec m g : increasing_rows g -> Forall (fun p => major_of p = m /\ snd p < W32) g ->
  exists cs ms, convert_group m g = (cs, ms) /\
    ((cs = [] /\ ms = g) \/
     exists off b n diff, cs = [(m, off, b, n)] /\ ms = filter (fun p => negb (Z.eqb (diff_of p) diff)) g /\
       forall c, c / 32 * 32 = m -> c < W32 -> compact_get (m, off, b, n) c =
         match find (fun p => fst p =? c) g with None => Some c | Some p => if Z.eqb (diff_of p) diff then Some (snd p) else None end).
Proof.
  intros HS HM. unfold convert_group. destruct (get_most_prevalent_diff g) as [diff count]. destruct (2 <? count); [|exists [], g; split; [reflexivity|now left]].
  unfold make_diff_set. change (fold_left _ g (0, 0xFFFFFFFF, [])) with (fold_left (diff_fold m diff) g (0, 0xFFFFFFFF, [])).
  destruct (diff_fold_spec m diff g) as (b & n & r & E & E1 & E2 & E3).
  { now apply sorted_nodup. } { eapply Forall_impl; [|exact HM]. unfold major_of. intros p [Hp _]. lia. }
  rewrite E. exists [(m, diff_number diff, b, n)], r. split; [reflexivity|]. right. exists (diff_number diff), b, n, diff. split; [reflexivity|]. split; [exact E1|].
  intros c Hc Hw. cbn [compact_get]. rewrite !mask_bit by lia. rewrite E2, E3 by lia. rewrite Forall_forall in HM.
  assert (forall p, In p g -> (fst p - m =? c - m) = (fst p =? c)) as K.
  { intros p Hp. destruct (HM p Hp) as [Hp1 _]. unfold major_of in Hp1. lia. }
  destruct (find (fun p => fst p =? c) g) as [p|] eqn:F.
  - apply find_some in F as [F1 F2]. destruct (Z.eqb_spec (diff_of p) diff) as [D|D].
    + replace (existsb _ g) with true.
      2:{ symmetry. apply existsb_exists. exists p. split; [exact F1|]. rewrite K by exact F1. rewrite F2. lia. }
      f_equal. destruct (HM p F1) as [_ Hp]. apply N.eqb_eq in F2. subst c. unfold add32, diff_number, diff_of, W32 in *. clear - D Hp Hw.
      destruct p as [v w]. cbn [fst snd] in *. subst diff. destruct (Z.ltb_spec (Z.of_N w - Z.of_N v) 0).
      * change (2 ^ 32)%Z with 4294967296%Z. replace (v + Z.to_N (4294967296 + (Z.of_N w - Z.of_N v))) with (w + 1 * 4294967296) by lia. rewrite N.mod_add by lia. now apply N.mod_small.
      * replace (v + Z.to_N (Z.of_N w - Z.of_N v)) with w by lia. now apply N.mod_small.
    + replace (existsb (fun p0 => (fst p0 - m =? c - m) && Z.eqb (diff_of p0) diff) g) with false.
      2:{ symmetry. apply not_true_iff_false. intros H. apply existsb_exists in H as (q & Hq & H). rewrite K in H by exact Hq. apply andb_true_iff in H as [H1 H2].
          apply N.eqb_eq in H1, F2. assert (Some p = Some q) as EQ; [|inversion EQ; subst; lia].
          rewrite <- (find_sorted fst g p HS F1), <- (find_sorted fst g q HS Hq). now rewrite H1, F2. }
      replace (existsb (fun p0 => fst p0 - m =? c - m) g) with true; [reflexivity|]. symmetry. apply existsb_exists. exists p. split; [exact F1|]. now rewrite K.
  - replace (existsb (fun p0 => (fst p0 - m =? c - m) && Z.eqb (diff_of p0) diff) g) with false.
    2:{ symmetry. apply not_true_iff_false. intros H. apply existsb_exists in H as (q & Hq & H). rewrite K in H by exact Hq. apply andb_true_iff in H as [H1 H2].
        pose proof (find_none _ _ F q Hq) as F'. cbn beta in F'. congruence. }
    replace (existsb (fun p0 => fst p0 - m =? c - m) g) with false; [reflexivity|]. symmetry. apply not_true_iff_false. intros H. apply existsb_exists in H as (q & Hq & H).
    rewrite K in H by exact Hq. pose proof (find_none _ _ F q Hq) as F'. cbn beta in F'. congruence.
Qed.

Lemma flat_sorted {A} (key : A -> N) (f : N -> list A) sk : StronglySorted N.lt sk ->
  (forall m, In m sk -> StronglySorted (fun a b => key a < key b) (f m) /\ forall x, In x (f m) -> key x / 32 * 32 = m) ->
  StronglySorted (fun a b => key a < key b) (flat_map f sk).
Proof.
  induction 1 as [|m sk HS IH HF]; intros H; [constructor|]. cbn [flat_map]. rewrite Forall_forall in HF.
  assert (StronglySorted (fun a b => key a < key b) (flat_map f sk)) as HT by (apply IH; intros; apply H; now right).
  destruct (H m (or_introl eq_refl)) as [H1 H2].
  assert (forall x y, In x (f m) -> In y (flat_map f sk) -> key x < key y) as L.
  { intros x y Hx Hy. apply in_flat_map in Hy as (m' & Hm' & Hy). specialize (HF m' Hm'). apply H2 in Hx. apply (H m' (or_intror Hm')) in Hy. lia. }
  clear H H2. induction H1 as [|x l HS' IH' HF']; [exact HT|]. cbn [app]. constructor; [apply IH'; intros; apply L; [now right|assumption]|].
  apply Forall_app. split; [exact HF'|]. apply Forall_forall. intros y Hy. apply L; [now left|exact Hy].
Qed.

Lemma p_c106 rows c : increasing_rows rows -> Forall (fun p => fst p < 2 ^ 32 /\ snd p < 2 ^ 32) rows -> c < 2 ^ 32 ->
  convert (fst (make_case_tables rows)) (snd (make_case_tables rows)) c = mapped rows c.
Proof.
  intros HI HB Hc. unfold make_case_tables. cbv zeta. cbn [fst snd]. destruct (group_chars_spec rows) as (G1 & G2 & G3).
  destruct (sorted_keys_spec (group_chars rows) G1) as [S1 S2]. set (sk := sorted_keys (group_chars rows)) in *.
  rewrite (map_ext _ (fun m => convert_group m (group rows m))) by (intros; now rewrite G2).
  rewrite !flat_map_concat_map, !map_map, <- !flat_map_concat_map.
  assert (forall m, increasing_rows (group rows m) /\ Forall (fun p => major_of p = m /\ snd p < W32) (group rows m)) as HG.
  { intros m. split; [now apply sorted_filter|]. apply Forall_forall. intros p Hp. apply filter_In in Hp as [Hp E]. split; [now apply N.eqb_eq|].
    rewrite Forall_forall in HB. exact (proj2 (HB p Hp)). }
  assert (forall m, exists cs ms, convert_group m (group rows m) = (cs, ms) /\
    ((cs = [] /\ ms = group rows m) \/
     exists off b n diff, cs = [(m, off, b, n)] /\ ms = filter (fun p => negb (Z.eqb (diff_of p) diff)) (group rows m) /\
       forall c, c / 32 * 32 = m -> c < W32 -> compact_get (m, off, b, n) c =
         match find (fun p => fst p =? c) (group rows m) with None => Some c | Some p => if Z.eqb (diff_of p) diff then Some (snd p) else None end)) as CG.
  { intros m. now apply convert_group_spec; apply HG. }
  assert (forall m, In m sk -> m / 32 * 32 = m) as HM.
  { intros m Hm. apply S2, G3 in Hm as (p & _ & <-). unfold major_of. lia. }
  assert (StronglySorted (fun a b => segment_of a < segment_of b) (flat_map (fun m => fst (convert_group m (group rows m))) sk)) as SC.
  { apply flat_sorted; [exact S1|]. intros m Hm. destruct (CG m) as (cs & ms & -> & [[-> _]|(off & b & n & d & -> & _)]); cbn [fst].
    - split; [constructor|intros x []].
    - split; [constructor; constructor|]. intros x [<-|[]]. now apply HM. }
  assert (StronglySorted (fun a b : N * N => fst a < fst b) (flat_map (fun m => snd (convert_group m (group rows m))) sk)) as SM.
  { apply flat_sorted; [exact S1|]. intros m Hm. destruct (HG m) as [HG1 HG2]. rewrite Forall_forall in HG2.
    destruct (CG m) as (cs & ms & -> & [[_ ->]|(off & b & n & d & _ & -> & _)]); cbn [snd].
    - split; [exact HG1|]. intros x Hx. now apply HG2.
    - split; [now apply sorted_filter|]. intros x Hx. apply filter_In in Hx as [Hx _]. now apply HG2. }
  assert (mapped rows c = match find (fun p => fst p =? c) (group rows (c / 32 * 32)) with Some p => snd p | None => c end) as ->.
  { unfold mapped. destruct (find (fun p => fst p =? c) rows) as [p|] eqn:F.
    - apply find_some in F as [F1 F2]. apply N.eqb_eq in F2. subst c. rewrite (find_sorted fst); [reflexivity|apply HG|]. apply filter_In. split; [exact F1|apply N.eqb_refl].
    - rewrite find_missing; [reflexivity|]. intros x Hx. apply filter_In in Hx as [Hx _]. pose proof (find_none _ _ F x Hx). cbn beta in *. lia. }
  unfold convert, find_in_compact_mapping, find_in_mapping.
  assert (N.land c SEGMENT_MASK = c / 32 * 32) as EM. { pose proof (land_segment c Hc). lia. }
  rewrite EM. set (m := c / 32 * 32) in *.
  pose proof (lookup_lower segment_of _ m SC) as LC. pose proof (lookup_lower fst _ c SM) as LM.
  set (compact := flat_map (fun m => fst (convert_group m (group rows m))) sk) in *. set (mapping := flat_map (fun m => snd (convert_group m (group rows m))) sk) in *.
  assert (match lower_bound (fun m0 => segment_of m0 <? m) compact with Some set => if negb (segment_of set =? m) then None else compact_get set c | None => None end =
          match find (fun e => segment_of e =? m) compact with Some e => compact_get e c | None => None end) as ->.
  { rewrite <- LC. destruct (lower_bound _ compact) as [e|]; [|reflexivity]. now destruct (negb _). }
  assert (match lower_bound (fun m0 : N * N => fst m0 <? c) mapping with Some it => if negb (fst it =? c) then None else Some (snd it) | None => None end =
          match find (fun e : N * N => fst e =? c) mapping with Some e => Some (snd e) | None => None end) as ->.
  { rewrite <- LM. destruct (lower_bound _ mapping) as [e|]; [|reflexivity]. now destruct (negb _). }
  clear LC LM. destruct (HG m) as [HG1 HG2]. rewrite Forall_forall in HG2.
  assert (forall x, In x mapping -> fst x = c -> In x (snd (convert_group m (group rows m)))) as IM.
  { intros x Hx Ex. subst mapping. apply in_flat_map in Hx as (m' & Hm' & Hx). assert (m' = m) as <-; [|exact Hx].
    destruct (HG m') as [_ HG']. rewrite Forall_forall in HG'. assert (In x (group rows m')) as Hx'.
    { destruct (CG m') as (cs & ms & EE & [[_ ->]|(off & b & n & d & _ & -> & _)]); rewrite EE in Hx; cbn [snd] in Hx; [exact Hx|]. now apply filter_In in Hx. }
    apply HG' in Hx' as [Hx' _]. subst m c. now symmetry. }
  assert (forall e, In e compact -> segment_of e = m -> In e (fst (convert_group m (group rows m)))) as IC.
  { intros e He Ee. subst compact. apply in_flat_map in He as (m' & Hm' & He). assert (m' = m) as <-; [|exact He].
    destruct (CG m') as (cs & ms & EE & [[-> _]|(off & b & n & d & -> & _)]); rewrite EE in He; cbn [fst] in He; [destruct He|]. destruct He as [<-|[]]. exact Ee. }
  destruct (CG m) as (cs & ms & EE & CASES). rewrite EE in IM, IC. cbn [fst snd] in IM, IC.
  assert (find (fun e => segment_of e =? m) compact = None -> (forall p, In p (group rows m) -> In p ms) ->
          match (match find (fun e : N * N => fst e =? c) mapping with Some e => Some (snd e) | None => None end) with Some d => d | None => c end =
          match find (fun p : N * N => fst p =? c) (group rows m) with Some p => snd p | None => c end) as PLAIN.
  { intros _ HP. destruct (find (fun p : N * N => fst p =? c) (group rows m)) as [p|] eqn:F.
    - apply find_some in F as [F1 F2]. apply N.eqb_eq in F2. enough (In p mapping) as HIn by (pose proof (find_sorted fst mapping p SM HIn) as FS; rewrite F2 in FS; now rewrite FS).
      subst mapping. apply in_flat_map. exists m. split; [|rewrite EE; now apply HP]. apply S2, G3. exists p. apply filter_In in F1 as [F0 _]. split; [exact F0|]. unfold major_of. now rewrite F2.
    - rewrite find_missing; [reflexivity|]. intros x Hx Ex. pose proof (IM x Hx Ex) as Hx'.
      destruct CASES as [[_ ->]|(off & b & n & d & _ & -> & _)].
      + pose proof (find_none _ _ F x Hx'). cbn beta in *. lia.
      + apply filter_In in Hx' as [Hx' _]. pose proof (find_none _ _ F x Hx'). cbn beta in *. lia. }
  destruct CASES as [[-> ->]|(off & b & n & d & -> & -> & GET)].
  - assert (find (fun e => segment_of e =? m) compact = None) as FN by (apply find_missing; intros e He Ee; exact (IC e He Ee)).
    rewrite FN. apply PLAIN; [exact FN|tauto].
  - destruct (in_dec N.eq_dec m sk) as [Hm|Hm].
    + assert (find (fun e => segment_of e =? m) compact = Some (m, off, b, n)) as ->.
      { change m with (segment_of (m, off, b, n)) at 1. apply find_sorted; [exact SC|]. subst compact. apply in_flat_map. exists m. split; [exact Hm|]. rewrite EE. now left. }
      rewrite (GET c eq_refl Hc). destruct (find (fun p : N * N => fst p =? c) (group rows m)) as [p|] eqn:F; [|reflexivity].
      destruct (Z.eqb (diff_of p) d) eqn:D; [reflexivity|]. apply find_some in F as [F1 F2]. apply N.eqb_eq in F2. 
      enough (In p mapping) as HIn by (pose proof (find_sorted fst mapping p SM HIn) as FS; rewrite F2 in FS; now rewrite FS).
      subst mapping. apply in_flat_map. exists m. split; [exact Hm|]. rewrite EE. cbn [snd]. apply filter_In. split; [exact F1|]. now rewrite D.
    + assert (group rows m = []) as E0.
      { destruct (group rows m) as [|p l] eqn:E; [reflexivity|]. exfalso. apply Hm, S2, G3. exists p. assert (In p (p :: l)) as H0 by (now left). pose proof H0 as H. rewrite <- E in H.
        split; [now apply filter_In in H|]. now apply (HG2 p H0). }
      assert (find (fun e => segment_of e =? m) compact = None) as FN.
      { apply find_missing. intros e He Ee. subst compact. apply in_flat_map in He as (m' & Hm' & He). apply Hm. replace m with m'; [exact Hm'|].
        destruct (CG m') as (cs & ms & EE' & [[-> _]|(off' & b' & n' & d' & -> & _)]); rewrite EE' in He; cbn [fst] in He; [destruct He|]. destruct He as [<-|[]]. exact Ee. }
      rewrite FN. apply PLAIN; [exact FN|]. rewrite E0. intros p [].
Qed.
