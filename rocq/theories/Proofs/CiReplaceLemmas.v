(** Case-insensitive replacement and splitting. *)
From Verif Require Import Base Model.Decode Model.Encode Model.Subrange Model.Search Model.Split Model.CharClass Model.ConvertCase
  Model.CodepointSet Model.CaseInsensitive Spec.Utf8Spec Spec.Strings Spec.UnicodeData Spec.CaseFold Spec.Split
  Proofs.Utf8Lemmas Proofs.DecodeLemmas Proofs.EncodeLemmas Proofs.CodepointLemmas Proofs.SearchLemmas Proofs.CaseLemmas Proofs.CaseStringLemmas Proofs.Utf8Props
  Proofs.CiLemmas Proofs.CiFindLemmas Proofs.CiFindLastLemmas Proofs.SplitLemmas Proofs.NewlineLemmas.
Require Import Lia ZifyBool ZifyNat ZifyN.

Lemma first_ci_ne ps u g v : ps <> [] -> first_ci ps u g v -> g <> [].
Proof.
  intros Hne (us & gs & _ & Hg & E & _) ->. assert (gs = []) by (eapply Text_fun; eauto; constructor). subst gs.
  apply fold_len in E. destruct ps; [congruence|discriminate].
Qed.
Lemma last_ci_ne ps u g v : ps <> [] -> last_ci ps u g v -> g <> [].
Proof.
  intros Hne (gs & us & _ & Hg & E & _) ->. assert (gs = []) by (eapply Text_fun; eauto; constructor). subst gs.
  apply fold_len in E. destruct ps; [congruence|discriminate].
Qed.

Lemma ffirst ps p u g v : ps <> [] -> Text p ps -> first_ci ps u g v ->
  ci_find_first (u ++ g ++ v) p 0 = Ok (Sub (size u) (size g)).
Proof. intros Hne Hp H. exact (proj1 (p_c50_first ps p [] Hne Hp) u g v H). Qed.
Lemma fnone ps p t : ps <> [] -> Text p ps -> no_ci ps t -> ci_find_first t p 0 = Ok (Sub npos 0).
Proof. intros Hne Hp H. exact (proj1 (proj2 (p_c50_first ps p [] Hne Hp)) t H). Qed.

(** *** C51, from the left *)
Lemma ci_front ps from to n s r : ps <> [] -> Text from ps -> CiReplaceFront ps to n s r -> Fits s ->
  forall fuel acc, (length s < fuel)%nat -> exists a b,
    ci_replace_front_loop fuel s from to (Z.of_N n) acc = Ok (a, b) /\ acc ++ r = a ++ b.
Proof.
  intros Hne Hp H. induction H as [s|n s Hn|n u g v r F H IH]; intros HF fuel acc Hf; (destruct fuel as [|fuel]; [lia|]).
  - exists acc, s. auto.
  - exists acc, s. split; [|reflexivity]. cbn [ci_replace_front_loop]. destruct (0 <? Z.of_N n)%Z; [|reflexivity].
    rewrite (fnone ps from s Hne Hp Hn). reflexivity.
  - cbn [ci_replace_front_loop]. rewrite (proj2 (Z.ltb_lt _ _)) by lia.
    rewrite (ffirst ps from u g v Hne Hp F). cbn [bind].
    pose proof (first_ci_ne _ _ _ _ Hne F) as Hg. rewrite sub_bool_ne by exact Hg. cbn [negb sub_start sub_offset].
    rewrite substr_prefix by reflexivity. cbn [bind].
    rewrite (sub_end_fits u g v HF), app_assoc, substr_from_app; [|reflexivity|now rewrite <- app_assoc]. cbn [bind].
    replace (Z.of_N (n + 1) - 1)%Z with (Z.of_N n) by lia.
    destruct (IH (Fits_app_r (u ++ g) v ltac:(now rewrite <- app_assoc)) fuel (acc ++ u ++ to)) as (a & b & -> & E).
    + rewrite !app_length in Hf. destruct g; [congruence|]. cbn [length] in Hf. lia.
    + exists a, b. split; [reflexivity|]. rewrite <- E, <- !app_assoc. reflexivity.
Qed.

Lemma p_c51_front s from ps to m r : ps <> [] -> Text from ps -> Fits s -> (0 <= m)%Z ->
  CiReplaceFront ps to (Z.to_N m) s r -> ci_replace s from to m = Ok r.
Proof.
  intros Hne Hp HF Hm H. unfold ci_replace. rewrite (proj2 (Z.leb_le _ _)) by exact Hm.
  destruct (ci_front ps from to _ s r Hne Hp H HF (S (length s)) [] ltac:(lia)) as (a & b & E & E2).
  cbn [app] in E2. subst r. rewrite Z2N.id in E by exact Hm. rewrite E. cbn [bind]. destruct b; [now rewrite app_nil_r|reflexivity].
Qed.

Lemma p_c51_front_exists s cs ps to : ps <> [] -> Text s cs -> forall n, exists r, CiReplaceFront ps to n s r.
Proof.
  intros Hne. remember (length s) as k eqn:Ek. revert s cs Ek.
  induction k as [k IH] using lt_wf_ind. intros s cs -> Hs n.
  destruct (N.eq_0_gt_0_cases n) as [->|Hn]; [exists s; constructor|].
  destruct (first_ci_text ps s cs Hne Hs) as [(u & g & v & -> & F)|H]; [|exists s; now constructor].
  pose proof (first_ci_ne _ _ _ _ Hne F) as Hg.
  destruct F as (us & gs & Hu & Hgs & F).
  destruct (Text_app_inv _ _ _ _ Hu Hs) as (ds & -> & Hs'). destruct (Text_app_inv _ _ _ _ Hgs Hs') as (es & -> & Hv).
  destruct (IH (length v)) with (s := v) (cs := es) (n := n - 1) as [r Hr]; auto.
  - rewrite !app_length. destruct g; [congruence|]. cbn [length]. lia.
  - exists (u ++ to ++ r). replace n with (n - 1 + 1) by lia. constructor; [|exact Hr]. exists us, gs. auto.
Qed.

(** *** C51, from the right *)
Lemma ci_back_app s to l1 : forall l2 start acc a b, ci_replace_back_loop s to l1 start acc = Ok (a, b) ->
  ci_replace_back_loop s to (l1 ++ l2) start acc = ci_replace_back_loop s to l2 b a.
Proof.
  induction l1 as [|x l1 IH]; intros l2 start acc a b H; cbn [ci_replace_back_loop app] in *.
  - now injection H as -> ->.
  - destruct (substr s start _) as [t| | |]; cbn [bind] in *; try discriminate. now apply IH.
Qed.

Lemma flast ps p u g v : ps <> [] -> Text p ps -> Fits (u ++ g ++ v) -> last_ci ps u g v ->
  ci_find_last (u ++ g ++ v) p npos = Ok (Sub (size u) (size g)).
Proof.
  intros Hne Hp HF H. destruct (p_c50_last ps p [] npos Hne Hp) as [H1 _]. specialize (H1 u g v H).
  rewrite app_nil_r in H1. apply H1. now apply min_npos.
Qed.
Lemma flnone ps p t : ps <> [] -> Text p ps -> Fits t -> no_ci ps t -> ci_find_last t p npos = Ok (Sub npos 0).
Proof.
  intros Hne Hp HF H. destruct (p_c50_last ps p [] npos Hne Hp) as (_ & H1 & _). specialize (H1 t H).
  rewrite app_nil_r in H1. apply H1. now apply min_npos.
Qed.

Lemma ci_back ps from to n s r : ps <> [] -> Text from ps -> CiReplaceBack ps to n s r ->
  forall post fuel acc, Fits (s ++ post) -> (length s < fuel)%nat -> exists l,
    ci_collect_last fuel s from (- Z.of_N n) acc = Ok (acc ++ l) /\
    exists res w0 w, ci_replace_back_loop (s ++ post) to (rev l) 0 [] = Ok (res, size w0) /\ s = w0 ++ w /\ r = res ++ w.
Proof.
  intros Hne Hp H. induction H as [s|n s Hn|n u g v r F H IH]; intros post fuel acc HF Hf; (destruct fuel as [|fuel]; [lia|]).
  - exists []. rewrite app_nil_r. split; [reflexivity|]. exists [], [], s. auto.
  - exists []. rewrite app_nil_r. split.
    + cbn [ci_collect_last]. destruct (_ <? 0)%Z; [|reflexivity].
      rewrite (flnone ps from s Hne Hp (Fits_app_l _ _ HF) Hn). reflexivity.
    + exists [], [], s. auto.
  - cbn [ci_collect_last]. rewrite (proj2 (Z.ltb_lt _ _)) by lia.
    rewrite (flast ps from u g v Hne Hp (Fits_app_l _ _ HF) F). cbn [bind].
    pose proof (last_ci_ne _ _ _ _ Hne F) as Hg. rewrite sub_bool_ne by exact Hg. cbn [negb sub_start sub_offset].
    rewrite substr_prefix by reflexivity. cbn [bind].
    replace (- Z.of_N (n + 1) + 1)%Z with (- Z.of_N n)%Z by lia.
    assert (HF2 : Fits (u ++ g ++ v ++ post)) by (now rewrite <- !app_assoc in HF).
    destruct (IH (g ++ v ++ post) fuel (acc ++ [Sub (size u) (size g)]) HF2) as (l & -> & res & w0 & w & E & -> & ->).
    + rewrite !app_length in Hf. destruct g; [congruence|]. cbn [length] in Hf. lia.
    + exists (Sub (size (w0 ++ w)) (size g) :: l). rewrite <- app_assoc. split; [reflexivity|].
      exists ((res ++ w) ++ to), ((w0 ++ w) ++ g), v. cbn [rev].
      replace (((w0 ++ w) ++ g ++ v) ++ post) with ((w0 ++ w) ++ g ++ v ++ post) by now rewrite <- !app_assoc.
      rewrite (ci_back_app _ _ _ _ _ _ _ _ E). cbn [ci_replace_back_loop sub_start sub_offset].
      assert (SZ : size (w0 ++ w) = size w0 + size w) by (unfold size; rewrite app_length; lia).
      rewrite sub64_small.
      2:{ rewrite SZ. lia. }
      2:{ unfold Fits, size in *. rewrite !app_length in *. unfold W64. lia. }
      replace (size (w0 ++ w) - size w0) with (size w) by lia.
      rewrite <- (app_assoc w0 w), substr_mid by reflexivity. cbn [bind].
      change (size (w0 ++ w)) with (size (w0 ++ w)). rewrite (sub_end_fits (w0 ++ w) g (v ++ post) HF2).
      rewrite <- !app_assoc. auto.
Qed.

Lemma p_c51_back s from ps to m r : ps <> [] -> Text from ps -> Fits s -> (m < 0)%Z ->
  CiReplaceBack ps to (Z.to_N (- m)) s r -> ci_replace s from to m = Ok r.
Proof.
  intros Hne Hp HF Hm H. unfold ci_replace. rewrite (proj2 (Z.leb_gt _ _)) by exact Hm.
  destruct (ci_back ps from to _ s r Hne Hp H [] (S (length s)) []) as (l & E & res & w0 & w & E2 & -> & ->);
    [now rewrite app_nil_r|lia|].
  rewrite Z2N.id, Z.opp_involutive in E by lia. rewrite E. cbn [bind app].
  rewrite app_nil_r in E2. rewrite E2. cbn [bind].
  destruct w as [|b w].
  - rewrite !app_nil_r, N.eqb_refl. reflexivity.
  - assert (X : (size w0 =? size (w0 ++ b :: w)) = false).
    { apply N.eqb_neq. unfold size. rewrite app_length. cbn [length]. lia. }
    rewrite X. cbn [negb]. rewrite substr_from_app by auto. reflexivity.
Qed.

Lemma p_c51_back_exists s cs ps to : ps <> [] -> Text s cs -> forall n, exists r, CiReplaceBack ps to n s r.
Proof.
  intros Hne. remember (length s) as k eqn:Ek. revert s cs Ek.
  induction k as [k IH] using lt_wf_ind. intros s cs -> Hs n.
  destruct (N.eq_0_gt_0_cases n) as [->|Hn]; [exists s; constructor|].
  destruct (last_match ps cs Hne) as [(x & y & z & -> & E & H)|H]; [|exists s; apply cb_none; exists cs; auto].
  destruct (Text_cut _ _ _ Hs) as (u & s' & -> & H1 & H2). destruct (Text_cut _ _ _ H2) as (g & v & -> & H3 & H4).
  assert (F : last_ci ps u g v) by (exists y, z; repeat split; auto; now apply Text_end_ok with x).
  pose proof (last_ci_ne _ _ _ _ Hne F) as Hg.
  destruct (IH (length u)) with (s := u) (cs := x) (n := n - 1) as [r Hr]; auto.
  - rewrite !app_length. destruct g; [congruence|]. cbn [length]. lia.
  - exists (r ++ to ++ v). replace n with (n - 1 + 1) by lia. constructor; assumption.
Qed.

Lemma p_c51_empty s to m : Fits s -> ci_replace s [] to m = Ok s.
Proof.
  intros HF. unfold ci_replace. destruct (0 <=? m)%Z eqn:E.
  - cbn [ci_replace_front_loop]. destruct (0 <? m)%Z; destruct s; reflexivity.
  - cbn [ci_collect_last]. assert (M : (m <? 0)%Z = true) by lia. rewrite M.
    change (ci_find_last s [] npos) with (@Ok subrange sub_default). cbn [bind sub_default sub_bool negb rev ci_replace_back_loop].
    change (sub_bool sub_default) with false. cbn [negb bind rev ci_replace_back_loop].
    destruct (N.eqb_spec 0 (size s)) as [H|H]; cbn [negb].
    + destruct s; [reflexivity|]. unfold size in H. cbn [length] in H. lia.
    + pose proof (substr_from_app [] s 0 eq_refl HF) as X. cbn [app] in X. now rewrite X.
Qed.
Lemma p_c51_zero s from to : ci_replace s from to 0 = Ok s.
Proof. unfold ci_replace. cbn. destruct s; reflexivity. Qed.

(** *** C52 *)
Section CiSplit.
Variables (ps : list N) (sep : str).
Hypothesis Hne : ps <> [].
Hypothesis Hp : Text sep ps.

Lemma p_c52 s n ign cuts rest : Fits s -> Cuts (first_ci ps) s cuts rest -> stopped (no_ci ps) ign n cuts rest ->
  ci_split_sep s sep n ign = Ok (kept ign (map fst cuts ++ [rest])).
Proof using All.
  intros HF HC HS. unfold ci_split_sep.
  apply (split_stopped (fun t => ci_find_first t sep 0) (first_ci ps) (no_ci ps)); auto.
  - intros u g v. now apply first_ci_ne.
  - intros u g v _ F. now apply ffirst with ps.
  - intros t H. exists npos. now apply fnone with ps.
Qed.

Lemma ci_rest s cuts rest cs : Cuts (first_ci ps) s cuts rest -> Text s cs -> exists ds, Text rest ds.
Proof using All.
  intros H. revert cs. induction H as [s|u g v cuts rest F H IH]; intros cs Hs; [eauto|].
  destruct F as (us & gs & Hu & Hg & _). destruct (Text_app_inv _ _ _ _ Hu Hs) as (ds & -> & Hs').
  destruct (Text_app_inv _ _ _ _ Hg Hs') as (es & -> & Hv). eauto.
Qed.

Lemma p_c52_exists s cs n ign : Text s cs -> 1 <= n ->
  exists cuts rest, Cuts (first_ci ps) s cuts rest /\ stopped (no_ci ps) ign n cuts rest.
Proof using All.
  intros Hs Hn.
  destruct (cuts_limited (first_ci ps) (fun t => no_ci ps t \/ forall ds, ~ Text t ds) ign n s Hn) as (cuts & rest & HC & HS).
  - intros u g v. now apply first_ci_ne.
  - intros t. destruct (Text_dec t) as [[ds Ht]|Hb]; [|auto].
    destruct (first_ci_text ps t ds Hne Ht) as [H|H]; auto.
  - exists cuts, rest. split; [exact HC|]. destruct HS as [[L [S|S]]|H]; [left; auto| |right; exact H].
    destruct (ci_rest _ _ _ _ HC Hs) as [ds Hd]. exfalso. eapply S; eauto.
Qed.

(** The parts that are cut off contain no match. *)
Lemma p_c52_parts u g v : first_ci ps u g v -> no_ci ps u.
Proof using All.
  intros (us & gs & Hu & Hg & E & H & _). exists us. split; [exact Hu|]. intros x y z -> Ey.
  assert (G : z ++ gs = []) by (apply (H x y); [now rewrite <- !app_assoc|exact Ey]).
  apply app_eq_nil in G. destruct G as [_ ->]. apply fold_len in E. destruct ps; [congruence|discriminate].
Qed.

Lemma p_c52_throw s n ign cuts u us r : Fits s -> Cuts (first_ci ps) s cuts (u ++ r) -> Text u us -> Malformed r ->
  (forall x y z, us = x ++ y ++ z -> fold_case y = fold_case ps -> z = []) ->
  N.of_nat (length (kept ign (map fst cuts))) < n ->
  ci_split_sep s sep n ign = Throw YstringException.
Proof using All.
  intros HF HC Hu Hr Hn Hm. unfold ci_split_sep.
  apply (split_throw (fun t => ci_find_first t sep 0) (first_ci ps)) with cuts (u ++ r); auto.
  - intros a g v. now apply first_ci_ne.
  - intros a g v _ F. now apply ffirst with ps.
  - exact (proj2 (proj2 (p_c50_first ps sep [] Hne Hp)) u us r Hu Hr Hn).
Qed.
End CiSplit.

Lemma p_c52_empty s n ign : Fits s -> 1 <= n -> ci_split_sep s [] n ign = Ok (kept ign [s]).
Proof.
  intros HF Hn. unfold ci_split_sep.
  apply (split_stopped (fun t => ci_find_first t [] 0) (fun _ _ _ => False) (fun _ => True) (fun _ _ _ F => match F with end) (fun _ _ _ _ F => match F with end)) with (cuts := []); auto.
  - intros t _. exists npos. reflexivity.
  - constructor.
  - left. split; [|exact I]. destruct ign; cbn; lia.
Qed.

(** Characters, compared without case. *)
Section CiChars.
Variable chars : list N.
Hypothesis HF : Forall (fun d => d < 0x100000000) chars.

Lemma u32_ci_spec c : c < W32 -> u32_ci_contains chars c = true <-> ci_in chars c.
Proof using All.
  intros Hc. unfold u32_ci_contains, ci_in. rewrite existsb_exists. rewrite Forall_forall in HF.
  split; intros (d & Hd & E); exists d; (split; [exact Hd|]); unfold case_insensitive_equal in *;
    (rewrite !to_upper_spec in * by (try exact Hc; now apply HF)); now apply N.eqb_eq.
Qed.
Lemma u32_ci_out c : c < W32 -> u32_ci_contains chars c = false <-> ~ ci_in chars c.
Proof using All.
  intros Hc. rewrite <- (u32_ci_spec c Hc). destruct (u32_ci_contains chars c); split; congruence.
Qed.
Lemma u32_ci_nonep u us : Text u us -> Forall (fun x => ~ ci_in chars x) us <-> nonep (fun c => u32_ci_contains chars c) us.
Proof using All.
  intros HT. unfold nonep. apply Text_bound in HT. rewrite Forall_forall in HT; rewrite !Forall_forall.
  split; intros H x Hx; apply (u32_ci_out x (W32_bound _ (HT x Hx))); auto.
Qed.

Lemma p_ci_first_of pre :
  (forall u us g c v, Text u us -> Forall (fun x => ~ ci_in chars x) us -> uchar g c -> ci_in chars c ->
     ci_find_first_of (pre ++ u ++ g ++ v) chars (size pre) = Ok (Sub (size (pre ++ u)) (size g), c)) /\
  (forall u us, Text u us -> Forall (fun x => ~ ci_in chars x) us ->
     ci_find_first_of (pre ++ u) chars (size pre) = Ok (Sub npos 0, INVALID_CHAR)) /\
  (forall u us r, Text u us -> Forall (fun x => ~ ci_in chars x) us -> Malformed r ->
     ci_find_first_of (pre ++ u ++ r) chars (size pre) = Throw YstringException).
Proof using All.
  unfold ci_find_first_of. repeat split; intros.
  - apply find_first_where_found with us; auto; [now apply (u32_ci_nonep u us)|]. apply u32_ci_spec; eauto using uchar_W32.
  - apply find_first_where_none with us; auto. now apply (u32_ci_nonep u us).
  - apply find_first_where_malformed with us; auto. now apply (u32_ci_nonep u us).
Qed.

Lemma p_ci_last_of post o :
  (forall pre u us g c, N.min o (size (pre ++ g ++ u ++ post)) = size (pre ++ g ++ u) ->
     Text u us -> Forall (fun x => ~ ci_in chars x) us -> uchar g c -> ci_in chars c ->
     ci_find_last_of (pre ++ g ++ u ++ post) chars o = Ok (Sub (size pre) (size g), c)) /\
  (forall u us, N.min o (size (u ++ post)) = size u -> Text u us -> Forall (fun x => ~ ci_in chars x) us ->
     ci_find_last_of (u ++ post) chars o = Ok (Sub npos 0, INVALID_CHAR)) /\
  (forall r u us, N.min o (size (r ++ u ++ post)) = size (r ++ u) ->
     Text u us -> Forall (fun x => ~ ci_in chars x) us -> MalformedEnd r ->
     (~ long_cont_tail r -> ci_find_last_of (r ++ u ++ post) chars o = Throw YstringException) /\
     (long_cont_tail r -> ci_find_last_of (r ++ u ++ post) chars o = UB)).
Proof using All.
  unfold ci_find_last_of. destruct (p_c17 (fun c => u32_ci_contains chars c) post o) as (H1 & H2 & H3).
  split; [|split]; intros.
  - apply H1 with us; auto; [now apply (u32_ci_nonep u us)|]. apply u32_ci_spec; eauto using uchar_W32.
  - apply H2 with us; auto. now apply (u32_ci_nonep u us).
  - apply H3 with us; auto. now apply (u32_ci_nonep u us).
Qed.

Lemma first_ci_char_ne u g v : first_ci_char chars u g v -> g <> [].
Proof using All. intros (us & c & _ & _ & Hg & _) ->. apply uchar_length in Hg. cbn [length] in Hg. lia. Qed.

Lemma p_c52_chars s n ign cuts rest : Fits s -> Cuts (first_ci_char chars) s cuts rest ->
  stopped (no_ci_char chars) ign n cuts rest ->
  ci_split_chars s chars n ign = Ok (kept ign (map fst cuts ++ [rest])).
Proof using All.
  intros HFs HC HS. unfold ci_split_chars. destruct (p_ci_first_of []) as (H1 & H2 & H3).
  apply (split_stopped (fun t => let* p := ci_find_first_of t chars 0 in Ok (fst p)) (first_ci_char chars) (no_ci_char chars)); auto.
  - exact first_ci_char_ne.
  - intros u g v _ (us & c & Hu & Hn & Hg & Hc). pose proof (H1 u us g c v Hu Hn Hg Hc) as H. cbn [app] in H.
    change (size []) with 0 in H. now rewrite H.
  - intros t (us & Ht & Hn). exists npos. pose proof (H2 t us Ht Hn) as H. cbn [app] in H. change (size []) with 0 in H. now rewrite H.
Qed.

Lemma ci_char_text t us : Text t us -> (exists u g v, t = u ++ g ++ v /\ first_ci_char chars u g v) \/ no_ci_char chars t.
Proof using All.
  intros Ht. destruct (first_where_cases (fun c => u32_ci_contains chars c) t)
    as [(u & vs & g & c & v & -> & H1 & H2 & H3 & H4)|[(vs & H1 & H2)|(u & vs & r & -> & H1 & H2 & H3)]].
  - left. exists u, g, v. split; [reflexivity|]. exists vs, c. split; [exact H1|].
    split; [now apply (u32_ci_nonep u vs)|]. split; [exact H3|]. apply u32_ci_spec; eauto using uchar_W32.
  - right. exists vs. split; [exact H1|]. now apply (u32_ci_nonep t vs).
  - exfalso. destruct (Text_app_inv _ _ _ _ H1 Ht) as (ds & _ & H). exact (Malformed_not_Text _ _ H3 H).
Qed.

Lemma p_c52_chars_exists s cs n ign : Text s cs -> 1 <= n ->
  exists cuts rest, Cuts (first_ci_char chars) s cuts rest /\ stopped (no_ci_char chars) ign n cuts rest.
Proof using All.
  intros Hs Hn.
  destruct (cuts_limited (first_ci_char chars) (fun t => no_ci_char chars t \/ forall ds, ~ Text t ds) ign n s Hn) as (cuts & rest & HC & HS).
  - exact first_ci_char_ne.
  - intros t. destruct (Text_dec t) as [[ds Ht]|Hb]; [|auto].
    destruct (ci_char_text t ds Ht) as [H|H]; auto.
  - exists cuts, rest. split; [exact HC|]. destruct HS as [[L [S|S]]|H]; [left; auto| |right; exact H].
    assert (R : exists ds, Text rest ds).
    { clear -HC Hs. revert cs Hs. induction HC as [s|u g v cuts rest F H IH]; intros cs Hs; [eauto|].
      destruct F as (us & c & Hu & _ & Hg & _). destruct (Text_app_inv _ _ _ _ Hu Hs) as (ds & -> & Hs').
      destruct (Text_app_inv _ _ _ _ (Text_one _ _ Hg) Hs') as (es & -> & Hv). eauto. }
    destruct R as [ds Hd]. exfalso. eapply S; eauto.
Qed.
End CiChars.
