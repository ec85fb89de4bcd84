(** The newline functions for every content of the memory after the array
    NEWLINES: the code points up to the next zero count as newlines too. *)
From Verif Require Import Base Spec.Utf8Spec Spec.Strings Spec.Newline Spec.Split Model.Decode Model.Encode Model.Subrange
  Model.Search Model.Split
  Proofs.Utf8Lemmas Proofs.DecodeLemmas Proofs.EncodeLemmas Proofs.CodepointLemmas Proofs.SearchLemmas Proofs.NewlineLemmas
  Proofs.SplitLemmas.
From Coq Require Import ZifyBool ZifyNat ZifyN.
Ltac Zify.zify_post_hook ::= Z.div_mod_to_equations.

Lemma view_extra chars extra rest : Forall (fun c => c <> 0) chars -> Forall (fun c => c <> 0) extra ->
  u32view_of_ptr (chars ++ extra ++ 0 :: rest) = Ok (chars ++ extra).
Proof.
  intros H1 H2. rewrite app_assoc. assert (H : Forall (fun c => c <> 0) (chars ++ extra)) by (apply Forall_app; now split).
  revert H. generalize (chars ++ extra). intros l H. induction H as [|c l Hc Hl IH]; [reflexivity|].
  cbn [app u32view_of_ptr]. rewrite (proj2 (N.eqb_neq c 0) Hc), IH. reflexivity.
Qed.
Lemma view_UB l : Forall (fun c => c <> 0) l -> u32view_of_ptr l = UB.
Proof.
  induction 1 as [|c l Hc Hl IH]; [reflexivity|]. cbn [u32view_of_ptr]. rewrite (proj2 (N.eqb_neq c 0) Hc), IH. reflexivity.
Qed.
Lemma NEWLINES_nz : Forall (fun c => c <> 0) NEWLINES.
Proof. unfold NEWLINES. repeat (apply Forall_cons; [discriminate|]). apply Forall_nil. Qed.
Lemma COMMON_nz : Forall (fun c => c <> 0) COMMON_WHITESPACE.
Proof. unfold COMMON_WHITESPACE. repeat (apply Forall_cons; [discriminate|]). apply Forall_nil. Qed.

Lemma line_end_contains extra c : u32_contains (NEWLINES ++ extra) c = true <-> line_end extra c.
Proof. rewrite u32_contains_spec, in_app_iff. unfold line_end. now rewrite newline_In. Qed.
Lemma no_line_ends_nonep extra us : no_line_ends extra us <-> nonep (fun c => u32_contains (NEWLINES ++ extra) c) us.
Proof.
  unfold no_line_ends, nonep. rewrite !Forall_forall. split; intros H c Hc; specialize (H c Hc).
  - rewrite <- line_end_contains in H. now destruct (u32_contains (NEWLINES ++ extra) c).
  - rewrite <- line_end_contains. now rewrite H.
Qed.

Section Extra.
Variable extra : list N.
Variable after : list N.
Hypothesis Hextra : Forall (fun c => c <> 0) extra.


Lemma xview : u32view_of_ptr (NEWLINES ++ extra ++ 0 :: after) = Ok (NEWLINES ++ extra).
Proof. apply view_extra; [exact NEWLINES_nz|exact Hextra]. Qed.
(** ** first *)
Let ffn s o := find_first_newline (extra ++ 0 :: after) s o.

Lemma x_ffn_none pre u us : Text u us -> (no_line_ends extra) us -> ffn (pre ++ u) (size pre) = Ok (Sub npos 0).
Proof.
  intros HT HN. unfold ffn, find_first_newline. rewrite xview. cbn [bind]. unfold find_first_of.
  rewrite find_first_where_none with (us := us); [reflexivity|exact HT|now apply no_line_ends_nonep].
Qed.

Lemma x_ffn_malformed pre u us r : Text u us -> (no_line_ends extra) us -> Malformed r ->
  ffn (pre ++ u ++ r) (size pre) = Throw YstringException.
Proof.
  intros HT HN Hr. unfold ffn, find_first_newline. rewrite xview. cbn [bind]. unfold find_first_of.
  rewrite find_first_where_malformed with (us := us); [reflexivity|exact HT|now apply no_line_ends_nonep|exact Hr].
Qed.

Lemma x_ffn_enter pre u us g c v :
  Fits (pre ++ u ++ g ++ v) -> Text u us -> (no_line_ends extra) us -> uchar g c -> line_end extra c ->
  ffn (pre ++ u ++ g ++ v) (size pre)
  = if negb (c =? 0x0D) then Ok (Sub (size (pre ++ u)) (size g))
    else
      let* r := safe_decode_next (pre ++ u ++ g ++ v) (length (pre ++ u ++ g)) in
      match r with
      | Some (ch, it') =>
        if ch =? 0x0A
        then Ok (Sub (size (pre ++ u)) (sub64 (N.of_nat it') (size (pre ++ u))))
        else Ok (Sub (size (pre ++ u)) (size g))
      | None => Ok (Sub (size (pre ++ u)) (size g))
      end.
Proof.
  intros HF HT HN Hg Hc. unfold ffn, find_first_newline. rewrite xview. cbn [bind]. unfold find_first_of.
  rewrite find_first_where_found with (us := us) (c := c);
    [|exact HT|now apply no_line_ends_nonep|exact Hg|now apply line_end_contains].
  cbn [bind]. destruct (negb (c =? 0x0D)); [reflexivity|].
  unfold sub_end. cbn [sub_offset sub_length sub_start].
  rewrite add64_small by (unfold Fits, size, W64 in *; rewrite !app_length in *; lia).
  replace (size (pre ++ u) + size g) with (N.of_nat (length (pre ++ u ++ g))) by (unfold size; rewrite !app_length; lia).
  rewrite begin_plus_ok by (rewrite !app_length; lia). reflexivity.
Qed.

Lemma x_ffn_single pre u us g c v :
  Fits (pre ++ u ++ g ++ v) -> Text u us -> (no_line_ends extra) us -> uchar g c -> line_end extra c ->
  (c <> 0x0D \/ v = [] \/ exists d w, d <> 0x0A /\ starts_with_codepoint v d w) ->
  ffn (pre ++ u ++ g ++ v) (size pre) = Ok (Sub (size (pre ++ u)) (size g)).
Proof.
  intros HF HT HN Hg Hc H. rewrite x_ffn_enter with (us := us) (c := c) by assumption.
  destruct (N.eqb_spec c 0x0D) as [E|E]; [|reflexivity]. cbn [negb].
  destruct H as [H|[->|(d & w & Hd & (g2 & -> & H2))]]; [congruence| |].
  - rewrite app_nil_r, safe_decode_next_end. reflexivity.
  - assert (pre ++ u ++ g ++ g2 ++ w = (pre ++ u ++ g) ++ g2 ++ w) as -> by now rewrite <- !app_assoc.
    rewrite safe_decode_next_uchar with (c := d) by exact H2. cbn [bind].
    replace (d =? 0x0A) with false by lia. reflexivity.
Qed.

Lemma x_ffn_crlf pre u us g v w g2 :
  Fits (pre ++ u ++ g ++ v) -> Text u us -> (no_line_ends extra) us -> uchar g 0x0D ->
  v = g2 ++ w -> uchar g2 0x0A ->
  ffn (pre ++ u ++ g ++ v) (size pre) = Ok (Sub (size (pre ++ u)) (size (g ++ g2))).
Proof.
  intros HF HT HN Hg -> H2. rewrite x_ffn_enter with (us := us) (c := 0x0D) by (try assumption; left; unfold newline; lia).
  cbn [N.eqb Pos.eqb negb].
  assert (E : pre ++ u ++ g ++ g2 ++ w = (pre ++ u ++ g) ++ g2 ++ w) by now rewrite <- !app_assoc.
  rewrite E in HF |- *.
  rewrite safe_decode_next_uchar with (c := 0x0A) by exact H2. cbn [bind N.eqb Pos.eqb].
  rewrite sub64_small by (unfold Fits, size, W64 in *; rewrite !app_length in *; lia).
  do 2 f_equal. unfold size. rewrite !app_length. lia.
Qed.

Lemma x_ffn_cr_malformed pre u us g v :
  Fits (pre ++ u ++ g ++ v) -> Text u us -> (no_line_ends extra) us -> uchar g 0x0D -> Malformed v ->
  ffn (pre ++ u ++ g ++ v) (size pre) = Throw YstringException.
Proof.
  intros HF HT HN Hg Hv. rewrite x_ffn_enter with (us := us) (c := 0x0D) by (try assumption; left; unfold newline; lia).
  cbn [N.eqb Pos.eqb negb].
  assert (pre ++ u ++ g ++ v = (pre ++ u ++ g) ++ v) as -> by now rewrite <- !app_assoc.
  now rewrite safe_decode_next_malformed.
Qed.

(** ** last *)
Let fln s o := find_last_newline (extra ++ 0 :: after) s o.

Lemma x_fln_none u us post o : N.min o (size (u ++ post)) = size u -> Text u us -> (no_line_ends extra) us ->
  fln (u ++ post) o = Ok (Sub npos 0).
Proof.
  intros Ho HT HN. unfold fln, find_last_newline. rewrite xview. cbn [bind]. unfold find_last_of.
  rewrite find_last_where_none with (us := us); [reflexivity|exact Ho|exact HT|now apply no_line_ends_nonep].
Qed.

Lemma x_fln_stuck r u us post o :
  N.min o (size (r ++ u ++ post)) = size (r ++ u) -> Text u us -> (no_line_ends extra) us -> MalformedEnd r ->
  (~ long_cont_tail r -> fln (r ++ u ++ post) o = Throw YstringException) /\
  (long_cont_tail r -> fln (r ++ u ++ post) o = UB).
Proof.
  intros Ho HT HN Hr. unfold fln, find_last_newline. rewrite xview. cbn [bind]. unfold find_last_of.
  destruct (find_last_where_stuck _ r u us post o Ho HT (proj1 (no_line_ends_nonep extra us) HN) Hr) as [E1 E2].
  split; intros HL; [now rewrite E1|now rewrite E2].
Qed.

Lemma x_fln_enter v g c u us post o :
  Fits (v ++ g ++ u ++ post) ->
  N.min o (size (v ++ g ++ u ++ post)) = size (v ++ g ++ u) ->
  Text u us -> (no_line_ends extra) us -> uchar g c -> line_end extra c ->
  fln (v ++ g ++ u ++ post) o
  = if negb (c =? 0x0A) then Ok (Sub (size v) (size g))
    else
      let* r := safe_decode_prev (v ++ g ++ u ++ post) (length v) in
      match r with
      | Some (ch, it') =>
        if ch =? 0x0D then Ok (sub_its 0 it' (length (v ++ g))) else Ok (Sub (size v) (size g))
      | None => Ok (Sub (size v) (size g))
      end.
Proof.
  intros HF Ho HT HN Hg Hc. unfold fln, find_last_newline. rewrite xview. cbn [bind]. unfold find_last_of.
  rewrite find_last_where_found with (us := us) (c := c);
    [|exact Ho|exact HT|now apply no_line_ends_nonep|exact Hg|now apply line_end_contains].
  cbn [bind]. destruct (negb (c =? 0x0A)); [reflexivity|].
  cbn [sub_start sub_offset]. unfold size at 1. rewrite begin_plus_ok by (rewrite app_length; lia). cbn [bind].
  destruct (safe_decode_prev (v ++ g ++ u ++ post) (length v)) as [[[ch it']|]| | |]; cbn [bind]; try reflexivity.
  destruct (ch =? 0x0D); [|reflexivity].
  unfold sub_end. cbn [sub_offset sub_length].
  rewrite add64_small by (unfold Fits, size, W64 in *; rewrite !app_length in *; lia).
  replace (size v + size g) with (N.of_nat (length (v ++ g))) by (unfold size; rewrite app_length; lia).
  rewrite begin_plus_ok by (rewrite !app_length; lia). reflexivity.
Qed.

Lemma x_fln_single v g c u us post o :
  Fits (v ++ g ++ u ++ post) ->
  N.min o (size (v ++ g ++ u ++ post)) = size (v ++ g ++ u) ->
  Text u us -> (no_line_ends extra) us -> uchar g c -> line_end extra c ->
  (c <> 0x0A \/ v = [] \/ exists d w, d <> 0x0D /\ ends_with_codepoint v d w) ->
  fln (v ++ g ++ u ++ post) o = Ok (Sub (size v) (size g)).
Proof.
  intros HF Ho HT HN Hg Hc H. rewrite x_fln_enter with (us := us) (c := c) by assumption.
  destruct (N.eqb_spec c 0x0A) as [E|E]; [|reflexivity]. cbn [negb].
  destruct H as [H|[->|(d & w & Hd & (g2 & -> & H2))]]; [congruence| |].
  - reflexivity.
  - rewrite <- app_assoc, (app_length w g2).
    rewrite safe_decode_prev_uchar with (c := d) by exact H2. cbn [bind].
    replace (d =? 0x0D) with false by lia. reflexivity.
Qed.

Lemma x_fln_crlf w g2 g u us post o :
  Fits (w ++ g2 ++ g ++ u ++ post) ->
  N.min o (size (w ++ g2 ++ g ++ u ++ post)) = size (w ++ g2 ++ g ++ u) ->
  Text u us -> (no_line_ends extra) us -> uchar g 0x0A -> uchar g2 0x0D ->
  fln (w ++ g2 ++ g ++ u ++ post) o = Ok (Sub (size w) (size (g2 ++ g))).
Proof.
  intros HF Ho HT HN Hg H2.
  assert (E : w ++ g2 ++ g ++ u ++ post = (w ++ g2) ++ g ++ u ++ post) by now rewrite <- !app_assoc.
  rewrite E in *.
  assert (E' : w ++ g2 ++ g ++ u = (w ++ g2) ++ g ++ u) by now rewrite <- !app_assoc.
  rewrite E' in *.
  rewrite x_fln_enter with (us := us) (c := 0x0A) by (try assumption; left; unfold newline; lia).
  cbn [N.eqb Pos.eqb negb]. rewrite <- (app_assoc w g2), (app_length w g2).
  rewrite safe_decode_prev_uchar with (c := 0x0D) by exact H2. cbn [bind N.eqb Pos.eqb].
  unfold sub_its, size. rewrite !app_length. do 2 f_equal; lia.
Qed.

Lemma x_fln_lf_stuck v g u us post o :
  Fits (v ++ g ++ u ++ post) ->
  N.min o (size (v ++ g ++ u ++ post)) = size (v ++ g ++ u) ->
  Text u us -> (no_line_ends extra) us -> uchar g 0x0A -> MalformedEnd v ->
  (~ long_cont_tail v -> fln (v ++ g ++ u ++ post) o = Throw YstringException) /\
  (long_cont_tail v -> fln (v ++ g ++ u ++ post) o = UB).
Proof.
  intros HF Ho HT HN Hg Hv.
  rewrite x_fln_enter with (us := us) (c := 0x0A) by (try assumption; left; unfold newline; lia).
  cbn [N.eqb Pos.eqb negb]. split; intros HL.
  - now rewrite safe_decode_prev_malformed.
  - now rewrite safe_decode_prev_long.
Qed.

Lemma x_p_c18 pre :
  let ffn' := find_first_newline (extra ++ 0 :: after) in
  (forall u us g c v, Fits (pre ++ u ++ g ++ v) -> Text u us -> (no_line_ends extra) us -> uchar g c -> line_end extra c ->
     (c <> 0x0D \/ v = [] \/ exists d w, d <> 0x0A /\ starts_with_codepoint v d w) ->
     ffn' (pre ++ u ++ g ++ v) (size pre) = Ok (Sub (size (pre ++ u)) (size g))) /\
  (forall u us cr lf w, Fits (pre ++ u ++ cr ++ lf ++ w) -> Text u us -> (no_line_ends extra) us -> uchar cr 0x0D -> uchar lf 0x0A ->
     ffn' (pre ++ u ++ cr ++ lf ++ w) (size pre) = Ok (Sub (size (pre ++ u)) (size (cr ++ lf)))) /\
  (forall u us, Text u us -> (no_line_ends extra) us -> ffn' (pre ++ u) (size pre) = Ok (Sub npos 0)) /\
  (forall u us r, Text u us -> (no_line_ends extra) us -> Malformed r -> ffn' (pre ++ u ++ r) (size pre) = Throw YstringException) /\
  (forall u us cr r, Fits (pre ++ u ++ cr ++ r) -> Text u us -> (no_line_ends extra) us -> uchar cr 0x0D -> Malformed r ->
     ffn' (pre ++ u ++ cr ++ r) (size pre) = Throw YstringException).
Proof.
  intros ffn'. unfold ffn'. repeat split; intros.
  - now apply x_ffn_single with us c.
  - now apply x_ffn_crlf with us w.
  - now apply x_ffn_none with us.
  - now apply x_ffn_malformed with us.
  - now apply x_ffn_cr_malformed with us.
Qed.

Lemma x_p_c19 post o :
  let fln' := find_last_newline (extra ++ 0 :: after) in
  (forall v g c u us, Fits (v ++ g ++ u ++ post) -> N.min o (size (v ++ g ++ u ++ post)) = size (v ++ g ++ u) ->
     Text u us -> (no_line_ends extra) us -> uchar g c -> line_end extra c ->
     (c <> 0x0A \/ v = [] \/ exists d w, d <> 0x0D /\ ends_with_codepoint v d w) ->
     fln' (v ++ g ++ u ++ post) o = Ok (Sub (size v) (size g))) /\
  (forall w cr lf u us, Fits (w ++ cr ++ lf ++ u ++ post) ->
     N.min o (size (w ++ cr ++ lf ++ u ++ post)) = size (w ++ cr ++ lf ++ u) ->
     Text u us -> (no_line_ends extra) us -> uchar lf 0x0A -> uchar cr 0x0D ->
     fln' (w ++ cr ++ lf ++ u ++ post) o = Ok (Sub (size w) (size (cr ++ lf)))) /\
  (forall u us, N.min o (size (u ++ post)) = size u -> Text u us -> (no_line_ends extra) us ->
     fln' (u ++ post) o = Ok (Sub npos 0)) /\
  (forall r u us, N.min o (size (r ++ u ++ post)) = size (r ++ u) -> Text u us -> (no_line_ends extra) us ->
     MalformedEnd r -> ~ long_cont_tail r -> fln' (r ++ u ++ post) o = Throw YstringException) /\
  (forall v lf u us, Fits (v ++ lf ++ u ++ post) -> N.min o (size (v ++ lf ++ u ++ post)) = size (v ++ lf ++ u) ->
     Text u us -> (no_line_ends extra) us -> uchar lf 0x0A -> MalformedEnd v -> ~ long_cont_tail v ->
     fln' (v ++ lf ++ u ++ post) o = Throw YstringException).
Proof.
  intros fln'. unfold fln'. repeat split.
  - intros. now apply x_fln_single with c us.
  - intros. now apply x_fln_crlf with us.
  - intros. now apply x_fln_none with us.
  - intros r u us H1 H2 H3 H4 H5. now apply (x_fln_stuck r u us post o H1 H2 H3 H4).
  - intros v lf u us H1 H2 H3 H4 H5 H6 H7. now apply (x_fln_lf_stuck v lf u us post o H1 H2 H3 H4 H5 H6).
Qed.
(** *** Lines *)


Lemma x_first_line_ne u g v : (first_line_end_of extra) u g v -> g <> [].
Proof.
  intros (us & _ & _ & [(c & Hg & _)|(cr & lf & -> & Hg & _)]) E; [subst; inversion Hg|].
  apply app_eq_nil in E. destruct E as [-> _]. inversion Hg.
Qed.
Lemma x_first_line_ok u g v : Fits (u ++ g ++ v) -> (first_line_end_of extra) u g v -> ffn (u ++ g ++ v) 0 = Ok (Sub (size u) (size g)).
Proof.
  intros HF (us & Hu & Hus & [(c & Hg & Hc & Hv)|(cr & lf & -> & Hcr & Hlf)]); destruct (x_p_c18 []) as (H1 & H2 & _).
  - specialize (H1 u us g c v). cbn [app] in H1. change (size []) with 0 in H1. now apply H1.
  - specialize (H2 u us cr lf v). cbn [app] in H2. change (size []) with 0 in H2. rewrite <- app_assoc in *. now apply H2.
Qed.
Lemma x_no_line_ok t : (no_line_end_of extra) t -> ffn t 0 = Ok (Sub npos 0).
Proof.
  intros (us & Hu & Hus). destruct (x_p_c18 []) as (_ & _ & H & _).
  specialize (H t us Hu Hus). exact H.
Qed.
Definition x_bad_line (t : str) : Prop :=
  exists u us, Text u us /\ (no_line_ends extra) us /\
    ((exists r, t = u ++ r /\ Malformed r) \/ exists cr r, t = u ++ cr ++ r /\ uchar cr 0x0D /\ Malformed r).
Lemma x_bad_line_ok t : Fits t -> x_bad_line t -> ffn t 0 = Throw YstringException.
Proof.
  intros HF (u & us & Hu & Hus & [(r & -> & Hr)|(cr & r & -> & Hcr & Hr)]); destruct (x_p_c18 []) as (_ & _ & _ & H1 & H2).
  - exact (H1 u us r Hu Hus Hr).
  - exact (H2 u us cr r HF Hu Hus Hcr Hr).
Qed.
Lemma x_line_cases t : (exists u g v, t = u ++ g ++ v /\ (first_line_end_of extra) u g v) \/ (no_line_end_of extra) t \/ x_bad_line t.
Proof.
  destruct (first_where_cases (u32_contains (NEWLINES ++ extra)) t) as [(u & us & g & c & v & -> & H1 & H2 & H3 & H4)|[(us & H1 & H2)|(u & us & r & -> & H1 & H2 & H3)]];
    apply no_line_ends_nonep in H2.
  - apply line_end_contains in H4. destruct (N.eq_dec c 0x0D) as [->|Hc].
    + destruct (text_prefix v) as (x & xs & r & -> & HT & Hr).
      inversion HT as [|g' d s' cs' Hg' HT' E1 E2]; subst.
      * cbn [app]. destruct Hr as [->|Hr].
        -- left. exists u, g, []. split; [reflexivity|]. exists us. split; [exact H1|]. split; [exact H2|]. left. exists 0x0D. auto.
        -- right. right. exists u, us. split; [exact H1|]. split; [exact H2|]. right. exists g, r. auto.
      * left. destruct (N.eq_dec d 0x0A) as [->|Hd].
        -- exists u, (g ++ g'), (s' ++ r). split; [now rewrite <- !app_assoc|]. exists us. split; [exact H1|]. split; [exact H2|].
           right. exists g, g'. auto.
        -- exists u, g, ((g' ++ s') ++ r). split; [reflexivity|]. exists us. split; [exact H1|]. split; [exact H2|].
           left. exists 0x0D. split; [exact H3|]. split; [exact H4|]. right. right. exists d, (s' ++ r). split; [exact Hd|].
           exists g'. split; [now rewrite <- app_assoc|exact Hg'].
    + left. exists u, g, v. split; [reflexivity|]. exists us. split; [exact H1|]. split; [exact H2|]. left. exists c. auto.
  - right. left. exists us. auto.
  - right. right. exists u, us. split; [exact H1|]. split; [exact H2|]. left. exists r. auto.
Qed.
Lemma x_first_line_text u g v : (first_line_end_of extra) u g v -> exists us gs, Text u us /\ Text g gs.
Proof.
  intros (us & Hu & _ & [(c & Hg & _)|(cr & lf & -> & Hcr & Hlf)]); exists us.
  - exists [c]. split; [exact Hu|now apply Text_one].
  - exists ([0x0D] ++ [0x0A]). split; [exact Hu|]. apply Text_app; now apply Text_one.
Qed.

Lemma x_p_c38 s n ign cuts rest : Fits s -> Cuts (first_line_end_of extra) s cuts rest ->
  stopped (no_line_end_of extra) ign n cuts rest ->
  split_lines (extra ++ 0 :: after) s n ign = Ok (kept ign (map fst cuts ++ [rest])).
Proof.
  intros HF HC HS. unfold split_lines. eapply split_stopped; eauto.
  - apply x_first_line_ne.
  - intros u g v H F. now apply x_first_line_ok.
  - intros t Ht. exists npos. now apply x_no_line_ok.
Qed.
Lemma x_bad_line_not_text t cs : Text t cs -> ~ x_bad_line t.
Proof.
  intros HT (u & us & Hu & _ & [(r & -> & [Hr Hm])|(cr & r & -> & Hcr & [Hr Hm])]);
    destruct (Text_app_inv u us _ cs Hu HT) as (vs & _ & HT').
  - inversion HT' as [|g c s' cs' Hg _ E]; subst; [congruence|]. exact (Hm _ _ _ Hg eq_refl).
  - destruct (Text_app_inv cr _ r vs (Text_one _ _ Hcr) HT') as (ws & _ & HT'').
    inversion HT'' as [|g c s' cs' Hg _ E]; subst; [congruence|]. exact (Hm _ _ _ Hg eq_refl).
Qed.
Lemma x_p_c38_exists s cs n ign : Text s cs -> 1 <= n ->
  exists cuts rest, Cuts (first_line_end_of extra) s cuts rest /\ stopped (no_line_end_of extra) ign n cuts rest.
Proof.
  intros HT Hn.
  destruct (cuts_limited (first_line_end_of extra) (fun t => (no_line_end_of extra) t \/ x_bad_line t) ign n s Hn x_first_line_ne x_line_cases)
    as (cuts & rest & HC & HS).
  exists cuts, rest. split; [exact HC|].
  destruct HS as [[L [S|S]]|HS]; [left; auto| |right; exact HS].
  exfalso. destruct (Cuts_text _ _ _ _ x_first_line_text HC cs HT) as [rs Hrs].
  exact (x_bad_line_not_text _ _ Hrs S).
Qed.
Lemma x_p_c38_malformed s : (forall cs, ~ Text s cs) -> Fits s -> forall ign, split_lines (extra ++ 0 :: after) s SIZE_MAX ign = Throw YstringException.
Proof.
  intros HT HF ign.
  destruct (cuts_exist (first_line_end_of extra) (fun t => (no_line_end_of extra) t \/ x_bad_line t) x_first_line_ne x_line_cases s)
    as (cuts & rest & HC & [S|S]).
  - exfalso. destruct S as (us & Hus & _).
    assert (exists cs, Text s cs) as [cs Hcs]; [|exact (HT cs Hcs)]. clear -HC Hus.
    induction HC as [|u g v cuts rest F H IH]; [eauto|].
    destruct (IH Hus) as [vs Hvs]. destruct (x_first_line_text _ _ _ F) as (x & y & Hx & Hy).
    exists (x ++ y ++ vs). auto using Text_app.
  - unfold split_lines. eapply split_throw; [exact x_first_line_ne|exact x_first_line_ok|exact HF|exact HC| |].
    + apply x_bad_line_ok; [|exact S]. rewrite (Cuts_concat _ _ _ _ HC) in HF. now apply Fits_app_r in HF.
    + eapply kept_lt_max; eauto using x_first_line_ne.
Qed.

Lemma x_is_newline_cp_spec c : is_newline_cp c || existsb (N.eqb c) extra = true <-> line_end extra c.
Proof.
  rewrite orb_true_iff, is_newline_cp_spec. unfold line_end. rewrite existsb_exists. split; intros [H|H]; auto.
  - destruct H as (d & Hd & E). apply N.eqb_eq in E. subst d. now right.
  - right. exists c. split; [exact H|apply N.eqb_refl].
Qed.
Lemma x_san_out us : (no_line_ends extra) us -> split_at_line_ends extra us = [us].
Proof.
  unfold no_line_ends. induction 1 as [|c us Hc H IH]; [reflexivity|]. cbn [split_at_line_ends].
  rewrite IH. destruct (is_newline_cp c || existsb (N.eqb c) extra) eqn:E; [apply x_is_newline_cp_spec in E; contradiction|reflexivity].
Qed.
Lemma x_san_prefix us ws x r : (no_line_ends extra) us -> split_at_line_ends extra ws = [] :: r -> x = us -> split_at_line_ends extra (us ++ ws) = x :: r.
Proof.
  intros H E ->. unfold no_line_ends in H. induction H as [|c us Hc H IH]; [exact E|]. cbn [app split_at_line_ends].
  rewrite IH. destruct (is_newline_cp c || existsb (N.eqb c) extra) eqn:E'; [apply x_is_newline_cp_spec in E'; contradiction|reflexivity].
Qed.
Lemma x_cuts_split_lines s cuts rest : Cuts (first_line_end_of extra) s cuts rest -> (no_line_end_of extra) rest -> forall cs, Text s cs ->
  Forall2 Text (map fst cuts ++ [rest]) (split_at_line_ends extra cs).
Proof.
  induction 1 as [s|u g v cuts rest (us & Hu & Hus & Hg) H IH]; intros Hn cs HT.
  - destruct Hn as (us & Hus & Hn). assert (cs = us) as -> by (eapply Text_fun; eauto).
    rewrite x_san_out by assumption. cbn. repeat constructor. exact Hus.
  - destruct (Text_app_inv _ _ _ _ Hu HT) as (vs & -> & HT').
    destruct Hg as [(c & Hg & Hc & Hv)|(cr & lf & -> & Hcr & Hlf)].
    + destruct (Text_app_inv _ _ _ _ (Text_one _ _ Hg) HT') as (ws & -> & HT'').
      change ([c] ++ ws) with (c :: ws).
      rewrite (x_san_prefix us (c :: ws) us (split_at_line_ends extra ws) Hus); [|clear IH|reflexivity].
      * cbn [map fst app]. constructor; [exact Hu|]. now apply IH.
      * cbn [split_at_line_ends]. rewrite (proj2 (x_is_newline_cp_spec c) Hc).
        destruct ws as [|d ws]; [reflexivity|].
        assert ((c =? 0x0D) && (d =? 0x0A) = false) as ->; [|reflexivity].
        destruct (N.eqb_spec c 0x0D) as [->|]; [cbn [andb]|reflexivity].
        destruct Hv as [Hv|[Hv|(e & w & He & (g' & Ev & Hg'))]]; [congruence|exfalso; exact (Text_nonempty _ _ _ HT'' Hv)|rewrite Ev in HT''].
        destruct (Text_app_inv _ _ _ _ (Text_one _ _ Hg') HT'') as (zs & E & _).
        apply N.eqb_neq. cbn [app] in E. congruence.
    + destruct (Text_app_inv _ _ _ _ (Text_app _ _ _ _ (Text_one _ _ Hcr) (Text_one _ _ Hlf)) HT') as (ws & -> & HT'').
      rewrite (x_san_prefix us (([0x0D] ++ [0x0A]) ++ ws) us (split_at_line_ends extra ws) Hus); [|reflexivity|reflexivity].
      cbn [map fst app]. constructor; [exact Hu|]. now apply IH.
Qed.
Lemma x_p_c38_codepoints s cs ign : Fits s -> Text s cs ->
  exists parts, Forall2 Text parts (split_at_line_ends extra cs) /\ split_lines (extra ++ 0 :: after) s SIZE_MAX ign = Ok (kept ign parts).
Proof.
  intros HF HT. destruct (x_p_c38_exists s cs SIZE_MAX ign HT) as (cuts & rest & HC & HS); [unfold SIZE_MAX; lia|].
  exists (map fst cuts ++ [rest]). split; [|now apply x_p_c38].
  apply (x_cuts_split_lines s); [exact HC| |exact HT].
  destruct HS as [[_ S]|(c & u & g & _ & _ & E)]; [exact S|].
  exfalso. assert (HL := kept_lt_max _ ign _ _ _ x_first_line_ne HF HC). rewrite E in HL. lia.
Qed.


End Extra.

(** *** The statements *)
Lemma memory_cases after : Forall (fun c => c <> 0) after \/ exists extra, followed_by after extra.
Proof.
  induction after as [|c after [IH|(extra & rest & -> & IH)]]; [left; constructor| |];
    (destruct (N.eq_dec c 0) as [->|Hc]; [right; exists []; eexists; split; [reflexivity|constructor]|]).
  - left. now constructor.
  - right. exists (c :: extra), rest. split; [reflexivity|now constructor].
Qed.
Lemma ffn_UB after s o : Forall (fun c => c <> 0) after -> find_first_newline after s o = UB.
Proof. intros H. unfold find_first_newline. rewrite view_UB; [reflexivity|]. apply Forall_app. split; [exact NEWLINES_nz|exact H]. Qed.
Lemma fln_UB after s o : Forall (fun c => c <> 0) after -> find_last_newline after s o = UB.
Proof. intros H. unfold find_last_newline. rewrite view_UB; [reflexivity|]. apply Forall_app. split; [exact NEWLINES_nz|exact H]. Qed.

Lemma p_c18_all after pre :
  (Forall (fun c => c <> 0) after -> forall s o, find_first_newline after s o = UB) /\
  forall extra, followed_by after extra ->
  let ffn := find_first_newline after in
  (forall u us g c v, Fits (pre ++ u ++ g ++ v) -> Text u us -> no_line_ends extra us -> uchar g c -> line_end extra c ->
     (c <> 0x0D \/ v = [] \/ exists d w, d <> 0x0A /\ starts_with_codepoint v d w) ->
     ffn (pre ++ u ++ g ++ v) (size pre) = Ok (Sub (size (pre ++ u)) (size g))) /\
  (forall u us cr lf w, Fits (pre ++ u ++ cr ++ lf ++ w) -> Text u us -> no_line_ends extra us -> uchar cr 0x0D -> uchar lf 0x0A ->
     ffn (pre ++ u ++ cr ++ lf ++ w) (size pre) = Ok (Sub (size (pre ++ u)) (size (cr ++ lf)))) /\
  (forall u us, Text u us -> no_line_ends extra us -> ffn (pre ++ u) (size pre) = Ok (Sub npos 0)) /\
  (forall u us r, Text u us -> no_line_ends extra us -> Malformed r -> ffn (pre ++ u ++ r) (size pre) = Throw YstringException) /\
  (forall u us cr r, Fits (pre ++ u ++ cr ++ r) -> Text u us -> no_line_ends extra us -> uchar cr 0x0D -> Malformed r ->
     ffn (pre ++ u ++ cr ++ r) (size pre) = Throw YstringException).
Proof.
  split; [intros H s o; now apply ffn_UB|]. intros extra (rest & -> & H). exact (x_p_c18 extra rest H pre).
Qed.

Lemma p_c19_all after post o :
  (Forall (fun c => c <> 0) after -> forall s o, find_last_newline after s o = UB) /\
  forall extra, followed_by after extra ->
  let fln := find_last_newline after in
  (forall v g c u us, Fits (v ++ g ++ u ++ post) -> N.min o (size (v ++ g ++ u ++ post)) = size (v ++ g ++ u) ->
     Text u us -> no_line_ends extra us -> uchar g c -> line_end extra c ->
     (c <> 0x0A \/ v = [] \/ exists d w, d <> 0x0D /\ ends_with_codepoint v d w) ->
     fln (v ++ g ++ u ++ post) o = Ok (Sub (size v) (size g))) /\
  (forall w cr lf u us, Fits (w ++ cr ++ lf ++ u ++ post) ->
     N.min o (size (w ++ cr ++ lf ++ u ++ post)) = size (w ++ cr ++ lf ++ u) ->
     Text u us -> no_line_ends extra us -> uchar lf 0x0A -> uchar cr 0x0D ->
     fln (w ++ cr ++ lf ++ u ++ post) o = Ok (Sub (size w) (size (cr ++ lf)))) /\
  (forall u us, N.min o (size (u ++ post)) = size u -> Text u us -> no_line_ends extra us ->
     fln (u ++ post) o = Ok (Sub npos 0)) /\
  (forall r u us, N.min o (size (r ++ u ++ post)) = size (r ++ u) -> Text u us -> no_line_ends extra us -> MalformedEnd r ->
     (~ long_cont_tail r -> fln (r ++ u ++ post) o = Throw YstringException) /\
     (long_cont_tail r -> fln (r ++ u ++ post) o = UB)) /\
  (forall v lf u us, Fits (v ++ lf ++ u ++ post) -> N.min o (size (v ++ lf ++ u ++ post)) = size (v ++ lf ++ u) ->
     Text u us -> no_line_ends extra us -> uchar lf 0x0A -> MalformedEnd v ->
     (~ long_cont_tail v -> fln (v ++ lf ++ u ++ post) o = Throw YstringException) /\
     (long_cont_tail v -> fln (v ++ lf ++ u ++ post) o = UB)).
Proof.
  split; [intros H s o'; now apply fln_UB|]. intros extra (rest & -> & H).
  destruct (x_p_c19 extra rest H post o) as (H1 & H2 & H3 & _).
  split; [exact H1|]. split; [exact H2|]. split; [exact H3|]. split.
  - intros r u us. apply (x_fln_stuck extra rest H).
  - intros v lf u us. apply (x_fln_lf_stuck extra rest H).
Qed.

Lemma split_UB after s n ign : Forall (fun c => c <> 0) after -> 0 < n -> split_lines after s n ign = UB.
Proof.
  intros H Hn. unfold split_lines, split_where. cbn [split_loop length]. change (N.of_nat 0) with 0.
  rewrite (proj2 (N.ltb_lt 0 n) Hn). unfold ti_next, ti_init. cbn [ti_token ti_str sub_bool sub_length sub_start sub_offset N.eqb negb].
  rewrite (ffn_UB after _ _ H). reflexivity.
Qed.
Lemma p_c20_all after s :
  (Forall (fun c => c <> 0) after -> forall o n ign,
     find_first_newline after s o = UB /\ find_last_newline after s o = UB /\
     trim_default after s = UB /\ trim_start_default after s = UB /\ trim_end_default after s = UB /\
     (0 < n -> split_lines after s n ign = UB)) /\
  (forall extra, followed_by after extra ->
     trim_default after s = trim s ([0x20; 0x09; 0x0A; 0x0D] ++ extra) /\
     trim_start_default after s = trim_start s ([0x20; 0x09; 0x0A; 0x0D] ++ extra) /\
     trim_end_default after s = trim_end s ([0x20; 0x09; 0x0A; 0x0D] ++ extra)).
Proof.
  split.
  - intros H o n ign. split; [now apply ffn_UB|]. split; [now apply fln_UB|].
    assert (E : u32view_of_ptr (COMMON_WHITESPACE ++ after) = UB).
    { apply view_UB, Forall_app. split; [exact COMMON_nz|exact H]. }
    unfold trim_default, trim_start_default, trim_end_default. rewrite E. repeat split.
    intros Hn. now apply split_UB.
  - intros extra (rest & -> & H).
    unfold trim_default, trim_start_default, trim_end_default. rewrite (view_extra _ _ _ COMMON_nz H). repeat split.
Qed.

Lemma p_c38_all after :
  (Forall (fun c => c <> 0) after -> forall s n ign, 0 < n -> split_lines after s n ign = UB) /\
  (forall extra, followed_by after extra ->
     (forall s cs ign, Fits s -> Text s cs -> exists parts,
        Forall2 Text parts (split_at_line_ends extra cs) /\ split_lines after s SIZE_MAX ign = Ok (kept ign parts)) /\
     (forall s n ign cuts rest, Fits s -> Cuts (first_line_end_of extra) s cuts rest ->
        stopped (no_line_end_of extra) ign n cuts rest ->
        split_lines after s n ign = Ok (kept ign (map fst cuts ++ [rest]))) /\
     (forall s ign, (forall cs, ~ Text s cs) -> Fits s -> split_lines after s SIZE_MAX ign = Throw YstringException)).
Proof.
  split; [intros H s n ign Hn; now apply split_UB|]. intros extra (rest & -> & H). split; [|split].
  - intros s cs ign. now apply x_p_c38_codepoints.
  - intros s n ign cuts r. now apply x_p_c38.
  - intros s ign HT HF. now apply x_p_c38_malformed.
Qed.
Lemma p_c39_lines after s : Fits s ->
  split_lines after s SIZE_MAX true = omap (filter non_empty) (split_lines after s SIZE_MAX false).
Proof.
  intros HF. destruct (memory_cases after) as [H|(extra & rest & -> & H)].
  { rewrite !(split_UB after s SIZE_MAX) by (exact H || reflexivity). reflexivity. }
  destruct (Text_dec s) as [[cs HT]|HN].
  - destruct (x_p_c38_exists extra s cs SIZE_MAX false HT) as (cuts & r & HC & HS); [unfold SIZE_MAX; lia|].
    assert (S : no_line_end_of extra r).
    { destruct HS as [[_ S]|(c & u & g & _ & _ & E)]; [exact S|].
      exfalso. assert (HL := kept_lt_max _ false _ _ _ (x_first_line_ne extra) HF HC). rewrite E in HL. lia. }
    rewrite (x_p_c38 extra rest H s SIZE_MAX true cuts r), (x_p_c38 extra rest H s SIZE_MAX false cuts r); auto;
      left; (split; [|exact S]); eapply kept_lt_max; eauto using x_first_line_ne.
  - rewrite !x_p_c38_malformed by assumption. reflexivity.
Qed.
Lemma p_c38_cuts extra s cs n ign : Text s cs -> 1 <= n ->
  exists cuts rest, Cuts (first_line_end_of extra) s cuts rest /\ stopped (no_line_end_of extra) ign n cuts rest.
Proof. apply x_p_c38_exists. Qed.


Lemma p_c20_views after :
  (Forall (fun c => c <> 0) after ->
     u32view_of_ptr (ASCII_WHITESPACE ++ after) = UB /\ u32view_of_ptr (COMMON_WHITESPACE ++ after) = UB /\
     u32view_of_ptr (NEWLINES ++ after) = UB) /\
  (forall extra, followed_by after extra ->
     u32view_of_ptr (ASCII_WHITESPACE ++ after) = Ok ([0x20; 0x09; 0x0A; 0x0D; 0x0C; 0x0B] ++ extra) /\
     u32view_of_ptr (COMMON_WHITESPACE ++ after) = Ok ([0x20; 0x09; 0x0A; 0x0D] ++ extra) /\
     u32view_of_ptr (NEWLINES ++ after) = Ok ([0x0A; 0x0B; 0x0C; 0x0D; 0x85; 0x2028; 0x2029] ++ extra)).
Proof.
  split.
  - intros H. repeat split; apply view_UB; repeat (constructor; [discriminate|]); exact H.
  - intros extra (rest & -> & H).
    repeat split; (rewrite view_extra; [reflexivity|repeat (constructor; [discriminate|]); constructor|exact H]).
Qed.

(** *** Splitting any bytes *)
Lemma p_c37_all s chars n ign : Fits s -> 1 <= n -> exists cuts rest, Cuts (first_char chars) s cuts rest /\
  (stopped (no_char chars) ign n cuts rest /\ split_chars s chars n ign = Ok (kept ign (map fst cuts ++ [rest])) \/
   N.of_nat (length (kept ign (map fst cuts))) < n /\ malformed_first chars rest /\ split_chars s chars n ign = Throw YstringException).
Proof.
  intros HF Hn.
  destruct (cuts_limited (first_char chars) (fun t => no_char chars t \/ bad_char chars t) ign n s Hn (first_char_ne chars) (char_cases chars))
    as (cuts & rest & HC & HS).
  exists cuts, rest. split; [exact HC|].
  assert (stopped (no_char chars) ign n cuts rest \/ N.of_nat (length (kept ign (map fst cuts))) < n /\ bad_char chars rest) as [S|[L S]].
  { destruct HS as [[L [S|S]]|HS]; [left; left; auto|right; auto|left; right; exact HS]. }
  - left. split; [exact S|]. now apply p_c37.
  - right. split; [exact L|]. split; [exact S|]. destruct S as (u & us & r & -> & Hu & Hus & Hr). eapply p_c37_throw; eauto.
Qed.
Lemma p_c38_every after extra s n ign : followed_by after extra -> Fits s -> 1 <= n -> exists cuts rest, Cuts (first_line_end_of extra) s cuts rest /\
  (stopped (no_line_end_of extra) ign n cuts rest /\ split_lines after s n ign = Ok (kept ign (map fst cuts ++ [rest])) \/
   N.of_nat (length (kept ign (map fst cuts))) < n /\ malformed_in_line extra rest /\ split_lines after s n ign = Throw YstringException).
Proof.
  intros (rest0 & -> & HE) HF Hn.
  destruct (cuts_limited (first_line_end_of extra) (fun t => no_line_end_of extra t \/ x_bad_line extra t) ign n s Hn
              (x_first_line_ne extra) (x_line_cases extra))
    as (cuts & rest & HC & HS).
  exists cuts, rest. split; [exact HC|].
  assert (stopped (no_line_end_of extra) ign n cuts rest \/ N.of_nat (length (kept ign (map fst cuts))) < n /\ x_bad_line extra rest) as [S|[L S]].
  { destruct HS as [[L [S|S]]|HS]; [left; left; auto|right; auto|left; right; exact HS]. }
  - left. split; [exact S|]. now apply x_p_c38.
  - right. split; [exact L|]. split; [exact S|].
    unfold split_lines. eapply split_throw; [exact (x_first_line_ne extra)|exact (x_first_line_ok extra rest0 HE)|exact HF|exact HC| |exact L].
    apply x_bad_line_ok; [exact HE| |exact S]. rewrite (Cuts_concat _ _ _ _ HC) in HF. now apply Fits_app_r in HF.
Qed.
