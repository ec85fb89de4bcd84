(** C112: the places of the views that are returned. *)
From Verif Require Import Base Model.Decode Model.Subrange Model.Search Model.CharClass Model.Chars Model.Split Model.CaseInsensitive Model.Views.
From Verif Require Import Spec.Utf8Spec Spec.Strings Spec.Newline Spec.Split Spec.Slices Spec.CaseFold Spec.Views.
From Verif Require Import Proofs.Utf8Lemmas Proofs.DecodeLemmas Proofs.EncodeLemmas Proofs.CodepointLemmas Proofs.SearchLemmas Proofs.SplitLemmas
  Proofs.StrayLemmas Proofs.SliceLemmas Proofs.CharLemmas Proofs.CiLemmas Proofs.CiFindLemmas Proofs.CiReplaceLemmas Proofs.ViewLemmas.

Lemma view_lies pre s post : lies (pre ++ s ++ post) (length pre) s.
Proof.
  split; [rewrite !app_length; lia|]. cbn [bytes].
  rewrite skipn_length_app. apply firstn_length_app.
Qed.
Lemma view_within pre s post : within (pre ++ s ++ post) (view_of pre s).
Proof. cbn [within view_of]. rewrite !app_length. lia. Qed.
Lemma view_bytes pre s post : bytes (pre ++ s ++ post) (view_of pre s) = s.
Proof. apply (view_lies pre s post). Qed.

Lemma p_c112_contents m v : within m v ->
  (forall p, omap (bytes m) (v_trim_start_where m v p) = trim_start_where (bytes m v) p) /\
  (forall p, omap (bytes m) (v_trim_end_where m v p) = trim_end_where (bytes m v) p) /\
  (forall p, omap (bytes m) (v_trim_where m v p) = trim_where (bytes m v) p) /\
  (forall i j, omap (bytes m) (v_get_codepoint_substring m v i j) = get_codepoint_substring (bytes m v) i j) /\
  (forall i j, omap (bytes m) (v_get_char_substring m v i j) = get_char_substring (bytes m v) i j) /\
  (forall f n ign, omap (map (bytes m)) (v_split_where m v f n ign) = split_where (bytes m v) f n ign).
Proof.
  intros H. repeat split; intros; symmetry.
  - now apply trim_start_where_sim.
  - now apply trim_end_where_sim.
  - now apply trim_where_sim.
  - now apply cp_substring_sim.
  - now apply char_substring_sim.
  - now apply v_split_sim.
Qed.
Lemma p_c112_inside m v w ws : within m v ->
  (forall p, v_trim_start_where m v p = Ok w -> part_of v w) /\
  (forall p, v_trim_end_where m v p = Ok w -> part_of v w) /\
  (forall p, v_trim_where m v p = Ok w -> part_of v w) /\
  (forall i j, v_get_codepoint_substring m v i j = Ok w -> part_of v w /\ (v <> None -> w <> None)) /\
  (forall i j, v_get_char_substring m v i j = Ok w -> part_of v w /\ (v <> None -> w <> None)) /\
  (forall f n ign, v_split_where m v f n ign = Ok ws -> Forall (part_of v) ws).
Proof.
  intros H. repeat split.
  - intros p E. now apply (trim_start_where_sim m v p H).
  - intros p E. now apply (trim_end_where_sim m v p H).
  - intros p E. now apply (trim_where_sim m v p H).
  - now apply (cp_substring_sim m v i j H).
  - intros Hv ->. now apply (cp_substring_sim m v i j H).
  - now apply (char_substring_sim m v i j H).
  - intros Hv ->. now apply (char_substring_sim m v i j H).
  - intros f n ign E. now apply (v_split_sim m v f n ign H).
Qed.

Lemma p_c112_trim_start pre s post p w : Fits s -> v_trim_start_where (pre ++ s ++ post) (view_of pre s) p = Ok w ->
  (trim_start_where s p = Ok [] /\ w = None) \/
  exists a b, s = a ++ b /\ b <> [] /\ trim_start_where s p = Ok b /\ w = Some ((length pre + length a)%nat, length b).
Proof.
  intros HF E. set (m := pre ++ s ++ post) in *. assert (HW := view_within pre s post). assert (HB := view_bytes pre s post). fold m in HW, HB.
  destruct (trim_start_where_sim m _ p HW) as [ES HP]. rewrite HB, E in ES. cbn [omap bind] in ES. specialize (HP w E).
  assert (HF' : Fits (bytes m (view_of pre s))) by now rewrite HB.
  destruct (trim_start_place m (length pre) (length s) p w HW HF' E) as [[Hb ->]|[Hb Hw]]; [left; split; [rewrite ES; reflexivity|reflexivity]|].
  right. rewrite ES. set (b := bytes m w) in *. exists (firstn (length s - length b) s), b.
  assert (L : (length b <= length s)%nat).
  { rewrite Hw in HP. cbn [part_of view_of] in HP. lia. }
  assert (Eb : b = skipn (length s - length b) s).
  { assert (G : forall k, skipn k s = skipn k (bytes m (view_of pre s))) by (intros k; now rewrite HB). rewrite G. clear G ES.
    unfold b at 1. rewrite Hw at 1. cbn [bytes view_of]. rewrite skipn_firstn_sub. f_equal; [lia|]. f_equal. lia. }
  split; [rewrite Eb at 2; now rewrite firstn_skipn|]. split; [exact Hb|]. split; [reflexivity|].
  rewrite firstn_length. rewrite Hw. f_equal. f_equal. lia.
Qed.
Lemma p_c112_trim_end pre s post p w : Fits s -> v_trim_end_where (pre ++ s ++ post) (view_of pre s) p = Ok w ->
  (trim_end_where s p = Ok [] /\ w = None) \/
  exists b a, s = b ++ a /\ b <> [] /\ trim_end_where s p = Ok b /\ w = Some (length pre, length b).
Proof.
  intros HF E. set (m := pre ++ s ++ post) in *. assert (HW := view_within pre s post). assert (HB := view_bytes pre s post). fold m in HW, HB.
  destruct (trim_end_where_sim m _ p HW) as [ES HP]. rewrite HB, E in ES. cbn [omap bind] in ES. specialize (HP w E).
  assert (HF' : Fits (bytes m (view_of pre s))) by now rewrite HB.
  destruct (trim_end_place m (length pre) (length s) p w HW HF' E) as [[Hb ->]|[Hb Hw]]; [left; split; [rewrite ES; reflexivity|reflexivity]|].
  right. rewrite ES. set (b := bytes m w) in *. exists b, (skipn (length b) s).
  assert (L : (length b <= length s)%nat).
  { rewrite Hw in HP. cbn [part_of view_of] in HP. lia. }
  assert (Eb : b = firstn (length b) s).
  { assert (G : forall k, firstn k s = firstn k (bytes m (view_of pre s))) by (intros k; now rewrite HB). rewrite G. clear G ES.
    unfold b at 1. rewrite Hw at 1. cbn [bytes view_of]. rewrite firstn_firstn. f_equal. lia. }
  split; [rewrite Eb at 1; now rewrite firstn_skipn|]. split; [exact Hb|]. split; [reflexivity|exact Hw].
Qed.
Lemma p_c112_trim pre s post p w : Fits s -> v_trim_where (pre ++ s ++ post) (view_of pre s) p = Ok w ->
  (trim_where s p = Ok [] /\ w = None) \/
  exists a b c, s = a ++ b ++ c /\ b <> [] /\ trim_start_where s p = Ok (b ++ c) /\ trim_where s p = Ok b /\
    w = Some ((length pre + length a)%nat, length b).
Proof.
  intros HF E. unfold v_trim_where in E.
  destruct (v_trim_start_where (pre ++ s ++ post) (view_of pre s) p) as [t| | |] eqn:Et; cbn [bind] in E; try discriminate.
  unfold trim_where. destruct (p_c112_trim_start pre s post p t HF Et) as [[Es ->]|(a & b & -> & Hb & Es & ->)]; rewrite Es; cbn [bind].
  - left. cbn in E. injection E as <-. split; reflexivity.
  - replace (pre ++ (a ++ b) ++ post) with ((pre ++ a) ++ b ++ post) in E by now rewrite <- !app_assoc.
    replace (Some ((length pre + length a)%nat, length b)) with (view_of (pre ++ a) b) in E by (unfold view_of; now rewrite app_length).
    destruct (p_c112_trim_end (pre ++ a) b post p w) as [[Ee ->]|(b' & c & Hbc & Hb' & Ee & ->)]; auto.
    + unfold Fits, size in *. rewrite app_length in HF. lia.
    + right. exists a, b', c. subst b. rewrite Ee. repeat split; auto. now rewrite app_length.
Qed.

Lemma p_c112_cp_substring pre (ps : list str) post i j : CodeUnits ps -> Fits (concat ps) ->
  (- 0x8000000000000000 < i <= 0x7FFFFFFFFFFFFFFF)%Z -> (- 0x8000000000000000 < j <= 0x7FFFFFFFFFFFFFFF)%Z ->
  (0 <= i /\ 0 <= j)%Z \/ (i < j < 0)%Z \/ (j < 0 <= i)%Z ->
  v_get_codepoint_substring (pre ++ concat ps ++ post) (view_of pre (concat ps)) i j =
  Ok (Some ((length pre + N.to_nat (offset_of ps (resolve (length ps) i)))%nat, length (concat (units_between ps i j)))).
Proof.
  intros HC HF Hi Hj HO. assert (HW := view_within pre (concat ps) post). assert (HB := view_bytes pre (concat ps) post).
  destruct (cp_substring_sim _ _ i j HW) as [[E1 _] _]. rewrite HB, cp_substring_ok in E1 by assumption.
  destruct (v_get_codepoint_substring (pre ++ concat ps ++ post) (view_of pre (concat ps)) i j) as [w| | |] eqn:E; cbn [omap bind] in E1; try discriminate.
  injection E1 as E1. f_equal. unfold v_get_codepoint_substring in E. rewrite HB, cp_range_ok in E by assumption. cbn [bind sub_offset sub_length] in E.
  rewrite (vsubstr_place _ _ _ _ _ _ HW E). rewrite <- E1. reflexivity.
Qed.
Lemma p_c112_char_substring pre (ps : list str) post i j : Characters is_mark ps -> Fits (concat ps) ->
  (- 0x8000000000000000 <= i <= 0x7FFFFFFFFFFFFFFF)%Z -> (- 0x8000000000000000 <= j <= 0x7FFFFFFFFFFFFFFF)%Z ->
  (0 <= i /\ 0 <= j)%Z \/ (i < j < 0)%Z \/ (i < 0 <= j)%Z ->
  v_get_char_substring (pre ++ concat ps ++ post) (view_of pre (concat ps)) i j =
  Ok (Some ((length pre + N.to_nat (offset_of ps (resolve (length ps) i)))%nat, length (concat (units_between ps i j)))).
Proof.
  intros HC HF Hi Hj HO. assert (HW := view_within pre (concat ps) post). assert (HB := view_bytes pre (concat ps) post).
  destruct (char_substring_sim _ _ i j HW) as [[E1 _] _]. rewrite HB, char_substring_ok in E1 by assumption.
  destruct (v_get_char_substring (pre ++ concat ps ++ post) (view_of pre (concat ps)) i j) as [w| | |] eqn:E; cbn [omap bind] in E1; try discriminate.
  injection E1 as E1. f_equal. unfold v_get_char_substring in E. rewrite HB, char_range_ok in E by assumption. cbn [bind sub_offset sub_length] in E.
  rewrite (vsubstr_place _ _ _ _ _ _ HW E). rewrite <- E1. reflexivity.
Qed.

(** Every pair of indices. *)
Definition slice_start (ps : list str) (i j : Z) : nat :=
  if ((j <=? i) && (i <? 0))%Z then 0%nat else length (concat (units_before ps i)).
Lemma vsubstr_any pre s post f o n : (exists n', f = Ok (Sub o n') /\ n' = n) -> o <= size s ->
  exists t, bind f (fun r => substr s (sub_offset r) (sub_length r)) = Ok t /\
    bind f (fun r => vsubstr (view_of pre s) (sub_offset r) (sub_length r)) = Ok (Some ((length pre + N.to_nat o)%nat, length t)) /\ bytes (pre ++ s ++ post) (Some ((length pre + N.to_nat o)%nat, length t)) = t.
Proof.
  intros (n' & -> & ->) Ho. cbn [bind sub_offset sub_length]. assert (HW := view_within pre s post). assert (HB := view_bytes pre s post).
  destruct (vsubstr_sim (pre ++ s ++ post) _ o n HW) as [E1 _]. rewrite HB in E1. unfold substr in *. replace (size s <? o) with false in * by lia.
  destruct (vsubstr (view_of pre s) o n) as [w| | |] eqn:E; cbn [omap bind] in E1; try discriminate. injection E1 as E1. symmetry in E1.
  eexists. split; [reflexivity|]. pose proof (vsubstr_place _ _ _ _ _ _ HW E) as P. rewrite E1 in P. rewrite P. split; [reflexivity|]. rewrite <- P. exact E1.
Qed.
Lemma p_c112_cp_any pre (ps : list str) post i j : CodeUnits ps -> Fits (concat ps) ->
  (- 0x8000000000000000 < i <= 0x7FFFFFFFFFFFFFFF)%Z -> (- 0x8000000000000000 < j <= 0x7FFFFFFFFFFFFFFF)%Z ->
  exists t, get_codepoint_substring (concat ps) i j = Ok t /\
  v_get_codepoint_substring (pre ++ concat ps ++ post) (view_of pre (concat ps)) i j = Ok (Some ((length pre + slice_start ps i j)%nat, length t)).
Proof.
  intros HC HF Hi Hj. assert (HB := view_bytes pre (concat ps) post).
  assert (exists n, get_codepoint_substring_range (concat ps) i j = Ok (Sub (N.of_nat (slice_start ps i j)) n)) as [n E].
  { unfold slice_start. destruct (Z.leb_spec j i) as [L|L], (Z.ltb_spec i 0) as [L2|L2]; cbn [andb].
    - eexists. now apply cp_range_reversed.
    - eexists. rewrite cp_range_ok; [reflexivity|assumption..|]. unfold in_order. lia.
    - destruct (Z.ltb_spec j 0).
      + eexists. rewrite cp_range_ok; [reflexivity|assumption..|]. unfold in_order. lia.
      + eexists. now apply cp_range_crossed.
    - eexists. rewrite cp_range_ok; [reflexivity|assumption..|]. unfold in_order. lia. }
  destruct (vsubstr_any pre (concat ps) post (get_codepoint_substring_range (concat ps) i j) _ n ltac:(eauto)) as (t & E1 & E2 & _).
  { unfold slice_start. destruct (_ && _)%bool; [unfold size; lia|]. apply offset_le. }
  exists t. split; [exact E1|]. unfold v_get_codepoint_substring. rewrite HB. rewrite Nat2N.id in E2. exact E2.
Qed.
Lemma p_c112_char_any pre (ps : list str) post i j : Characters is_mark ps -> Fits (concat ps) ->
  (- 0x8000000000000000 <= i <= 0x7FFFFFFFFFFFFFFF)%Z -> (- 0x8000000000000000 <= j <= 0x7FFFFFFFFFFFFFFF)%Z ->
  exists t, get_char_substring (concat ps) i j = Ok t /\
  v_get_char_substring (pre ++ concat ps ++ post) (view_of pre (concat ps)) i j = Ok (Some ((length pre + slice_start ps i j)%nat, length t)).
Proof.
  intros HC HF Hi Hj. assert (HB := view_bytes pre (concat ps) post).
  assert (exists n, get_char_substring_range (concat ps) i j = Ok (Sub (N.of_nat (slice_start ps i j)) n)) as [n E].
  { unfold slice_start. destruct (Z.leb_spec j i) as [L|L], (Z.ltb_spec i 0) as [L2|L2]; cbn [andb].
    - eexists. now apply char_range_reversed.
    - destruct (Z.ltb_spec j 0).
      + eexists. now apply char_range_crossed.
      + eexists. rewrite char_range_ok; [reflexivity|assumption..|]. unfold char_in_order. lia.
    - eexists. rewrite char_range_ok; [reflexivity|assumption..|]. unfold char_in_order. lia.
    - eexists. rewrite char_range_ok; [reflexivity|assumption..|]. unfold char_in_order. lia. }
  destruct (vsubstr_any pre (concat ps) post (get_char_substring_range (concat ps) i j) _ n ltac:(eauto)) as (t & E1 & E2 & _).
  { unfold slice_start. destruct (_ && _)%bool; [unfold size; lia|]. apply offset_le. }
  exists t. split; [exact E1|]. unfold v_get_char_substring. rewrite HB. rewrite Nat2N.id in E2. exact E2.
Qed.

(** Splitting. *)
Definition found (finder : str -> outcome subrange) (u g v : str) : Prop :=
  g <> [] /\ finder (u ++ g ++ v) = Ok (Sub (size u) (size g)).

Section SplitPlaces.
Variable finder : str -> outcome subrange.
Variable first : str -> str -> str -> Prop.
Variable stop : str -> Prop.
Hypothesis first_ne : forall u g v, first u g v -> g <> [].
Hypothesis first_ok : forall u g v, Fits (u ++ g ++ v) -> first u g v -> finder (u ++ g ++ v) = Ok (Sub (size u) (size g)).
Hypothesis stop_ok : forall t, stop t -> exists o, finder t = Ok (Sub o 0).

Lemma v_split_stopped pre s post max ign cuts rest : Fits s -> Cuts first s cuts rest -> stopped stop ign max cuts rest ->
  v_split_where (pre ++ s ++ post) (view_of pre s) finder max ign = Ok (kept_places ign (places (length pre) cuts rest)).
Proof using All.
  intros HF HC [[L S]|(c & u & g & -> & L & E)].
  - destruct (stop_ok _ S) as [o So]. apply (v_split_all _ finder first first_ne first_ok) with (e := o); auto. apply view_lies.
  - apply (v_split_limit _ finder first first_ne first_ok); auto. apply view_lies.
Qed.
End SplitPlaces.

Lemma p_c112_split_any finder pre s post n ign cuts rest : Fits s ->
  Cuts (fun u g v => g <> [] /\ finder (u ++ g ++ v) = Ok (Sub (size u) (size g))) s cuts rest ->
  stopped (fun t => exists o, finder t = Ok (Sub o 0)) ign n cuts rest ->
  v_split_where (pre ++ s ++ post) (view_of pre s) finder n ign = Ok (kept_places ign (places (length pre) cuts rest)).
Proof.
  intros HF HC HS. eapply v_split_stopped; eauto.
  - intros u g v [H _]. exact H.
  - intros u g v _ [_ H]. exact H.
  - auto.
Qed.
Lemma p_c112_split_sep pre s post sep n ign cuts rest : sep <> [] -> Fits s -> Cuts (first_sep sep) s cuts rest ->
  stopped (fun t => forall i, ~ occurs_at sep t i) ign n cuts rest ->
  v_split_sep (pre ++ s ++ post) (view_of pre s) sep n ign = Ok (kept_places ign (places (length pre) cuts rest)).
Proof.
  intros Hs HF HC HS. unfold v_split_sep. eapply v_split_stopped; eauto.
  - intros u g v [-> _]. exact Hs.
  - intros u g v _ F. now apply first_sep_ok.
  - intros t Ht. apply no_sep_ok; assumption.
Qed.
Lemma p_c112_split_chars pre s post chars n ign cuts rest : Fits s -> Cuts (first_char chars) s cuts rest ->
  stopped (no_char chars) ign n cuts rest ->
  v_split_chars (pre ++ s ++ post) (view_of pre s) chars n ign = Ok (kept_places ign (places (length pre) cuts rest)).
Proof.
  intros HF HC HS. unfold v_split_chars. eapply v_split_stopped; eauto.
  - intros u g v F. eapply first_char_ne; eauto.
  - intros u g v _ F. now apply first_char_ok.
  - intros t Ht. exists npos. now apply no_char_ok.
Qed.
Lemma p_c112_split_lines after extra pre s post n ign cuts rest : followed_by after extra -> Fits s ->
  Cuts (first_line_end_of extra) s cuts rest -> stopped (no_line_end_of extra) ign n cuts rest ->
  v_split_lines after (pre ++ s ++ post) (view_of pre s) n ign = Ok (kept_places ign (places (length pre) cuts rest)).
Proof.
  intros (zs & -> & HA) HF HC HS. unfold v_split_lines. eapply v_split_stopped; eauto.
  - intros u g v F. eapply x_first_line_ne; eauto.
  - intros u g v HF' F. now apply x_first_line_ok.
  - intros t Ht. exists npos. now apply x_no_line_ok.
Qed.

Lemma p_c112_ci_split ps sep pre s post n ign cuts rest : ps <> [] -> Text sep ps -> Fits s ->
  Cuts (first_ci ps) s cuts rest -> stopped (no_ci ps) ign n cuts rest ->
  v_ci_split_sep (pre ++ s ++ post) (view_of pre s) sep n ign = Ok (kept_places ign (places (length pre) cuts rest)).
Proof.
  intros Hne Hp HF HC HS. unfold v_ci_split_sep. apply (v_split_stopped _ (first_ci ps) (no_ci ps)); auto.
  - intros u g v. now apply first_ci_ne.
  - intros u g v _ F. now apply ffirst with ps.
  - intros t H. exists npos. now apply fnone with ps.
Qed.
Lemma p_c112_ci_chars chars pre s post n ign cuts rest : Forall (fun d => d < 0x100000000) chars -> Fits s ->
  Cuts (first_ci_char chars) s cuts rest -> stopped (no_ci_char chars) ign n cuts rest ->
  v_ci_split_chars (pre ++ s ++ post) (view_of pre s) chars n ign = Ok (kept_places ign (places (length pre) cuts rest)).
Proof.
  intros HD HF HC HS. unfold v_ci_split_chars. destruct (p_ci_first_of chars HD []) as (H1 & H2 & H3).
  apply (v_split_stopped _ (first_ci_char chars) (no_ci_char chars)); auto.
  - exact (first_ci_char_ne chars HD).
  - intros u g v _ (us & c & Hu & Hn & Hg & Hc). pose proof (H1 u us g c v Hu Hn Hg Hc) as H. cbn [app] in H.
    change (size []) with 0 in H. now rewrite H.
  - intros t (us & Ht & Hn). exists npos. pose proof (H2 t us Ht Hn) as H. cbn [app] in H. change (size []) with 0 in H. now rewrite H.
Qed.

Lemma places_apart o cuts rest e : (e <= o)%nat -> forall a n, (a + n <= e)%nat -> Forall (apart (Some (a, n))) (places o cuts rest).
Proof.
  revert o. induction cuts as [|[u g] cuts IH]; intros o He a n Ha; cbn [places].
  - constructor; [cbn [apart]; lia|constructor].
  - constructor; [cbn [apart]; lia|]. apply IH; lia.
Qed.
Lemma places_ascending o cuts rest : ascending (places o cuts rest).
Proof.
  revert o. induction cuts as [|[u g] cuts IH]; intros o; cbn [places ascending].
  - repeat split; [discriminate|constructor].
  - split; [discriminate|]. split; [|apply IH]. apply places_apart with (o + length u + length g)%nat; lia.
Qed.
Lemma kept_places_ascending ign l : ascending l -> ascending (kept_places ign l).
Proof.
  destruct ign; [|auto]. cbn [kept_places]. induction l as [|a l IH]; [auto|]. cbn [ascending filter]. intros (Ha & HF & HL).
  destruct (match a with Some (_, n) => _ | None => _ end); [|auto]. cbn [ascending]. split; [exact Ha|]. split; [|auto].
  rewrite Forall_forall in *. intros x Hx. apply HF. apply filter_In in Hx. tauto.
Qed.
Lemma p_c112_order finder m v n ign ws : finds_range Sub finder -> within m v -> v <> None -> Fits (bytes m v) ->
  v_split_where m v finder n ign = Ok ws -> ascending ws.
Proof.
  intros Hr HW Hv HF E. destruct v as [[o k]|]; [|congruence]. clear Hv.
  destruct (N.eq_dec n 0) as [->|Hn]; [cbn in E; injection E as <-; exact I|].
  assert (HL : lies m o (bytes m (Some (o, k)))).
  { assert (L := bytes_len _ _ _ HW). split; [rewrite L; exact HW|]. now rewrite L. }
  assert (Ek : k = length (bytes m (Some (o, k)))) by now rewrite (bytes_len _ _ _ HW).
  set (s := bytes m (Some (o, k))) in *. clearbody s. subst k.
  set (first := fun u g v : str => g <> [] /\ finder (u ++ g ++ v) = Ok (Sub (size u) (size g))).
  set (stop := fun t => (exists o, finder t = Ok (Sub o 0)) \/ exists e, finder t = Throw e).
  assert (Hne : forall u g v, first u g v -> g <> []) by (intros u g v [H _]; exact H).
  assert (Hok : forall u g v, Fits (u ++ g ++ v) -> first u g v -> finder (u ++ g ++ v) = Ok (Sub (size u) (size g)))
    by (intros u g v _ [_ H]; exact H).
  destruct (cuts_limited first stop ign n s) as (cuts & rest & HC & HS); [lia|exact Hne| |].
  { intros t. destruct (Hr t) as [H|[H|(u & g & v & -> & H)]]; [right; left; exact H|right; right; exact H|left].
    exists u, g, v. split; [reflexivity|exact H]. }
  assert (EP : v_split_where m (Some (o, length s)) finder n ign = Ok (kept_places ign (places o cuts rest)) \/
          exists e, v_split_where m (Some (o, length s)) finder n ign = Throw e).
  { destruct HS as [[L [[e He]|[e He]]]|(c & u & g & -> & L & EE)].
    - left. now apply (v_split_all m finder first Hne Hok n ign o s cuts rest e).
    - right. exists e. destruct (v_split_sim m _ finder n ign HW) as [ES _]. rewrite (proj2 HL) in ES.
      rewrite (split_throw finder first Hne Hok n ign s cuts rest e HF HC He L) in ES.
      destruct (v_split_where m (Some (o, length s)) finder n ign); cbn [omap bind] in ES; congruence.
    - left. now apply (v_split_limit m finder first Hne Hok). }
  destruct EP as [EP|[e EP]]; rewrite EP in E; [|discriminate]. injection E as <-.
  apply kept_places_ascending, places_ascending.
Qed.

(** TokenIterator. *)
Lemma view_run finder m o s t a v : Fits s -> lies m o s -> ViewRun finder m o s t a v ->
  vready m t a v /\ lies m a v /\ Fits v.
Proof.
  intros HF HL. induction 1 as [|t t' a u g v HR (IH1 & IH2 & IH3) Hf Hg Hn].
  - split; [left; reflexivity|]. auto.
  - rewrite (vnext_ready m finder t a _ IH2 IH1), Hf in Hn. cbn [bind] in Hn. rewrite sub_bool_ne in Hn by exact Hg.
    cbn [negb] in Hn. injection Hn as <-. split; [right; exists u, g, a; auto|]. split.
    + destruct (lies_app _ _ _ _ IH2) as [_ H1]. now destruct (lies_app _ _ _ _ H1) as [_ H2].
    + apply Fits_app_r with (u := u ++ g). now rewrite <- app_assoc.
Qed.
Lemma p_c112_iterator finder pre s post t a v : Fits s -> ViewRun finder (pre ++ s ++ post) (length pre) s t a v ->
  let m := pre ++ s ++ post in
  bytes m (Some (a, length v)) = v /\ vti_remainder t = Ok (Some (a, length v)) /\
  (forall u g w, v = u ++ g ++ w -> g <> [] -> finder v = Ok (Sub (size u) (size g)) ->
     exists t', vti_next m finder t = Ok (true, t') /\ vti_part t' = Ok (Some (a, length u)) /\
       vti_get_token t' = Ok (Some ((a + length u)%nat, Nat.min (length u + length g) (length g + length w))) /\
       vti_remainder t' = Ok (Some ((a + length u + length g)%nat, length w))) /\
  (forall e, finder v = Ok (Sub e 0) ->
     exists t', vti_next m finder t = Ok (true, t') /\ vti_part t' = Ok (Some (a, length v)) /\
       vti_get_token t' = Ok None /\ vti_remainder t' = Ok None).
Proof.
  intros HF HR m. destruct (view_run _ _ _ _ _ _ _ HF (view_lies pre s post) HR) as (H1 & H2 & H3). fold m in H1, H2.
  split; [apply H2|]. split; [|split].
  - destruct H1 as [->|(u & g & o0 & Hg & HFu & -> & ->)].
    + unfold vti_remainder. cbn [vti_token vti_str]. change (sub_bool (Sub 0 0) || (sub_start (Sub 0 0) =? 0)) with true. cbv iota.
      apply (vsubstr_from_app a [] v) in H3. cbn [app length] in H3. rewrite Nat.add_0_r in H3. exact H3.
    + now apply vremainder_found.
  - intros u g w -> Hg Hf. eexists. rewrite (vnext_ready m finder t a _ H2 H1), Hf. cbn [bind]. rewrite sub_bool_ne by exact Hg. cbn [negb].
    split; [reflexivity|]. split; [now apply vpart_found|]. split; [|now apply vremainder_found].
    unfold vti_get_token. cbn [vti_token vti_str]. rewrite sub_bool_ne by exact Hg. cbn [negb].
    rewrite (sub_end_fits u g w H3). unfold vsubstr. cbn [vsize sub_start sub_offset]. unfold size. rewrite !app_length.
    rewrite (proj2 (N.ltb_ge _ _)) by lia. rewrite Nnat.Nat2N.id. do 3 f_equal. lia.
  - intros e Hf. eexists. rewrite (vnext_ready m finder t a _ H2 H1), Hf. cbn [bind]. change (sub_bool (Sub e 0)) with false. cbn [negb sub_length].
    repeat split; reflexivity.
Qed.
Lemma p_c112_trim_null pre s post us p : Fits s -> Text s us -> Forall (fun c => p c = true) us ->
  v_trim_start_where (pre ++ s ++ post) (view_of pre s) p = Ok None /\
  v_trim_end_where (pre ++ s ++ post) (view_of pre s) p = Ok None /\
  v_trim_where (pre ++ s ++ post) (view_of pre s) p = Ok None.
Proof.
  intros HF HT HA. unfold v_trim_where, v_trim_start_where, v_trim_end_where. rewrite (view_bytes pre s post).
  assert (HN : Forall (fun c => negb (p c) = false) us) by (eapply Forall_impl; [|exact HA]; cbn beta; intros c ->; reflexivity).
  assert (E1 := find_first_where_none (fun c => negb (p c)) [] s us HT HN). cbn [app] in E1. change (size []) with 0 in E1.
  assert (E2 := find_last_where_none (fun c => negb (p c)) s us [] npos). rewrite app_nil_r in E2. specialize (E2 (min_npos _ HF) HT HN).
  rewrite E1, E2. repeat split; reflexivity.
Qed.
