(** find_first_newline, find_last_newline, trims with a character set. *)
From Verif Require Import Base Spec.Utf8Spec Spec.Strings Spec.Newline Model.Decode Model.Encode Model.Subrange Model.Search
  Proofs.Utf8Lemmas Proofs.DecodeLemmas Proofs.EncodeLemmas Proofs.CodepointLemmas Proofs.SearchLemmas.
From Coq Require Import ZifyBool ZifyNat ZifyN.
Ltac Zify.zify_post_hook ::= Z.div_mod_to_equations.

Lemma newline_In c : newline c <-> In c NEWLINES.
Proof.
  unfold newline, NEWLINES, NEXT_LINE, LINE_SEPARATOR, PARAGRAPH_SEPARATOR. cbn [In]. intuition congruence.
Qed.

Lemma newline_contains c : u32_contains NEWLINES c = true <-> newline c.
Proof. rewrite u32_contains_spec. symmetry. apply newline_In. Qed.

Lemma no_newline_nonep us : no_newline us <-> nonep (fun c => u32_contains NEWLINES c) us.
Proof.
  unfold no_newline, nonep. rewrite !Forall_forall. split; intros H c Hc; specialize (H c Hc).
  - rewrite <- newline_contains in H. now destruct (u32_contains NEWLINES c).
  - rewrite <- newline_contains. now rewrite H.
Qed.

Lemma newlines_view after : u32view_of_ptr (NEWLINES ++ 0 :: after) = Ok NEWLINES.
Proof. reflexivity. Qed.
Lemma whitespace_view after : u32view_of_ptr (COMMON_WHITESPACE ++ 0 :: after) = Ok COMMON_WHITESPACE.
Proof. reflexivity. Qed.

(** ** first *)
Section First.
Variable after : list N.
Let ffn s o := find_first_newline (0 :: after) s o.

Lemma ffn_none pre u us : Text u us -> no_newline us -> ffn (pre ++ u) (size pre) = Ok (Sub npos 0).
Proof.
  intros HT HN. unfold ffn, find_first_newline. rewrite newlines_view. cbn [bind]. unfold find_first_of.
  rewrite find_first_where_none with (us := us); [reflexivity|exact HT|now apply no_newline_nonep].
Qed.

Lemma ffn_malformed pre u us r : Text u us -> no_newline us -> Malformed r ->
  ffn (pre ++ u ++ r) (size pre) = Throw YstringException.
Proof.
  intros HT HN Hr. unfold ffn, find_first_newline. rewrite newlines_view. cbn [bind]. unfold find_first_of.
  rewrite find_first_where_malformed with (us := us); [reflexivity|exact HT|now apply no_newline_nonep|exact Hr].
Qed.

Lemma ffn_enter pre u us g c v :
  Fits (pre ++ u ++ g ++ v) -> Text u us -> no_newline us -> uchar g c -> newline c ->
  ffn (pre ++ u ++ g ++ v) (size pre)
  = if negb (c =? 0x0D) then Ok (Sub (size (pre ++ u)) (size g))
    else
      let* r := safe_decode_next (pre ++ u ++ g ++ v) (length (pre ++ u ++ g)) in
      match r with
      | Some (ch, it') =>
        if ch =? 0x0A
        then Ok (Sub (size (pre ++ u)) (sub64 (N.of_nat it') (size (pre ++ u))))
        else Ok (Sub (size (pre ++ u)) (size g))
      | None => Ok (Sub (size (pre ++ u)) (size g))
      end.
Proof.
  intros HF HT HN Hg Hc. unfold ffn, find_first_newline. rewrite newlines_view. cbn [bind]. unfold find_first_of.
  rewrite find_first_where_found with (us := us) (c := c);
    [|exact HT|now apply no_newline_nonep|exact Hg|now apply newline_contains].
  cbn [bind]. destruct (negb (c =? 0x0D)); [reflexivity|].
  unfold sub_end. cbn [sub_offset sub_length sub_start].
  rewrite add64_small by (unfold Fits, size, W64 in *; rewrite !app_length in *; lia).
  replace (size (pre ++ u) + size g) with (N.of_nat (length (pre ++ u ++ g))) by (unfold size; rewrite !app_length; lia).
  rewrite begin_plus_ok by (rewrite !app_length; lia). reflexivity.
Qed.

Lemma ffn_single pre u us g c v :
  Fits (pre ++ u ++ g ++ v) -> Text u us -> no_newline us -> uchar g c -> newline c ->
  (c <> 0x0D \/ v = [] \/ exists d w, d <> 0x0A /\ starts_with_codepoint v d w) ->
  ffn (pre ++ u ++ g ++ v) (size pre) = Ok (Sub (size (pre ++ u)) (size g)).
Proof.
  intros HF HT HN Hg Hc H. rewrite ffn_enter with (us := us) (c := c) by assumption.
  destruct (N.eqb_spec c 0x0D) as [E|E]; [|reflexivity]. cbn [negb].
  destruct H as [H|[->|(d & w & Hd & (g2 & -> & H2))]]; [congruence| |].
  - rewrite app_nil_r, safe_decode_next_end. reflexivity.
  - assert (pre ++ u ++ g ++ g2 ++ w = (pre ++ u ++ g) ++ g2 ++ w) as -> by now rewrite <- !app_assoc.
    rewrite safe_decode_next_uchar with (c := d) by exact H2. cbn [bind].
    replace (d =? 0x0A) with false by lia. reflexivity.
Qed.

Lemma ffn_crlf pre u us g v w g2 :
  Fits (pre ++ u ++ g ++ v) -> Text u us -> no_newline us -> uchar g 0x0D ->
  v = g2 ++ w -> uchar g2 0x0A ->
  ffn (pre ++ u ++ g ++ v) (size pre) = Ok (Sub (size (pre ++ u)) (size (g ++ g2))).
Proof.
  intros HF HT HN Hg -> H2. rewrite ffn_enter with (us := us) (c := 0x0D) by (try assumption; unfold newline; lia).
  cbn [N.eqb Pos.eqb negb].
  assert (E : pre ++ u ++ g ++ g2 ++ w = (pre ++ u ++ g) ++ g2 ++ w) by now rewrite <- !app_assoc.
  rewrite E in HF |- *.
  rewrite safe_decode_next_uchar with (c := 0x0A) by exact H2. cbn [bind N.eqb Pos.eqb].
  rewrite sub64_small by (unfold Fits, size, W64 in *; rewrite !app_length in *; lia).
  do 2 f_equal. unfold size. rewrite !app_length. lia.
Qed.

Lemma ffn_cr_malformed pre u us g v :
  Fits (pre ++ u ++ g ++ v) -> Text u us -> no_newline us -> uchar g 0x0D -> Malformed v ->
  ffn (pre ++ u ++ g ++ v) (size pre) = Throw YstringException.
Proof.
  intros HF HT HN Hg Hv. rewrite ffn_enter with (us := us) (c := 0x0D) by (try assumption; unfold newline; lia).
  cbn [N.eqb Pos.eqb negb].
  assert (pre ++ u ++ g ++ v = (pre ++ u ++ g) ++ v) as -> by now rewrite <- !app_assoc.
  now rewrite safe_decode_next_malformed.
Qed.
End First.

(** ** last *)
Section Last.
Variable after : list N.
Let fln s o := find_last_newline (0 :: after) s o.

Lemma fln_none u us post o : N.min o (size (u ++ post)) = size u -> Text u us -> no_newline us ->
  fln (u ++ post) o = Ok (Sub npos 0).
Proof.
  intros Ho HT HN. unfold fln, find_last_newline. rewrite newlines_view. cbn [bind]. unfold find_last_of.
  rewrite find_last_where_none with (us := us); [reflexivity|exact Ho|exact HT|now apply no_newline_nonep].
Qed.

Lemma fln_stuck r u us post o :
  N.min o (size (r ++ u ++ post)) = size (r ++ u) -> Text u us -> no_newline us -> MalformedEnd r ->
  (~ long_cont_tail r -> fln (r ++ u ++ post) o = Throw YstringException) /\
  (long_cont_tail r -> fln (r ++ u ++ post) o = UB).
Proof.
  intros Ho HT HN Hr. unfold fln, find_last_newline. rewrite newlines_view. cbn [bind]. unfold find_last_of.
  destruct (find_last_where_stuck _ r u us post o Ho HT (proj1 (no_newline_nonep us) HN) Hr) as [E1 E2].
  split; intros HL; [now rewrite E1|now rewrite E2].
Qed.

Lemma fln_enter v g c u us post o :
  Fits (v ++ g ++ u ++ post) ->
  N.min o (size (v ++ g ++ u ++ post)) = size (v ++ g ++ u) ->
  Text u us -> no_newline us -> uchar g c -> newline c ->
  fln (v ++ g ++ u ++ post) o
  = if negb (c =? 0x0A) then Ok (Sub (size v) (size g))
    else
      let* r := safe_decode_prev (v ++ g ++ u ++ post) (length v) in
      match r with
      | Some (ch, it') =>
        if ch =? 0x0D then Ok (sub_its 0 it' (length (v ++ g))) else Ok (Sub (size v) (size g))
      | None => Ok (Sub (size v) (size g))
      end.
Proof.
  intros HF Ho HT HN Hg Hc. unfold fln, find_last_newline. rewrite newlines_view. cbn [bind]. unfold find_last_of.
  rewrite find_last_where_found with (us := us) (c := c);
    [|exact Ho|exact HT|now apply no_newline_nonep|exact Hg|now apply newline_contains].
  cbn [bind]. destruct (negb (c =? 0x0A)); [reflexivity|].
  cbn [sub_start sub_offset]. unfold size at 1. rewrite begin_plus_ok by (rewrite app_length; lia). cbn [bind].
  destruct (safe_decode_prev (v ++ g ++ u ++ post) (length v)) as [[[ch it']|]| | |]; cbn [bind]; try reflexivity.
  destruct (ch =? 0x0D); [|reflexivity].
  unfold sub_end. cbn [sub_offset sub_length].
  rewrite add64_small by (unfold Fits, size, W64 in *; rewrite !app_length in *; lia).
  replace (size v + size g) with (N.of_nat (length (v ++ g))) by (unfold size; rewrite app_length; lia).
  rewrite begin_plus_ok by (rewrite !app_length; lia). reflexivity.
Qed.

Lemma fln_single v g c u us post o :
  Fits (v ++ g ++ u ++ post) ->
  N.min o (size (v ++ g ++ u ++ post)) = size (v ++ g ++ u) ->
  Text u us -> no_newline us -> uchar g c -> newline c ->
  (c <> 0x0A \/ v = [] \/ exists d w, d <> 0x0D /\ ends_with_codepoint v d w) ->
  fln (v ++ g ++ u ++ post) o = Ok (Sub (size v) (size g)).
Proof.
  intros HF Ho HT HN Hg Hc H. rewrite fln_enter with (us := us) (c := c) by assumption.
  destruct (N.eqb_spec c 0x0A) as [E|E]; [|reflexivity]. cbn [negb].
  destruct H as [H|[->|(d & w & Hd & (g2 & -> & H2))]]; [congruence| |].
  - reflexivity.
  - rewrite <- app_assoc, (app_length w g2).
    rewrite safe_decode_prev_uchar with (c := d) by exact H2. cbn [bind].
    replace (d =? 0x0D) with false by lia. reflexivity.
Qed.

Lemma fln_crlf w g2 g u us post o :
  Fits (w ++ g2 ++ g ++ u ++ post) ->
  N.min o (size (w ++ g2 ++ g ++ u ++ post)) = size (w ++ g2 ++ g ++ u) ->
  Text u us -> no_newline us -> uchar g 0x0A -> uchar g2 0x0D ->
  fln (w ++ g2 ++ g ++ u ++ post) o = Ok (Sub (size w) (size (g2 ++ g))).
Proof.
  intros HF Ho HT HN Hg H2.
  assert (E : w ++ g2 ++ g ++ u ++ post = (w ++ g2) ++ g ++ u ++ post) by now rewrite <- !app_assoc.
  rewrite E in *.
  assert (E' : w ++ g2 ++ g ++ u = (w ++ g2) ++ g ++ u) by now rewrite <- !app_assoc.
  rewrite E' in *.
  rewrite fln_enter with (us := us) (c := 0x0A) by (try assumption; unfold newline; lia).
  cbn [N.eqb Pos.eqb negb]. rewrite <- (app_assoc w g2), (app_length w g2).
  rewrite safe_decode_prev_uchar with (c := 0x0D) by exact H2. cbn [bind N.eqb Pos.eqb].
  unfold sub_its, size. rewrite !app_length. do 2 f_equal; lia.
Qed.

Lemma fln_lf_stuck v g u us post o :
  Fits (v ++ g ++ u ++ post) ->
  N.min o (size (v ++ g ++ u ++ post)) = size (v ++ g ++ u) ->
  Text u us -> no_newline us -> uchar g 0x0A -> MalformedEnd v ->
  (~ long_cont_tail v -> fln (v ++ g ++ u ++ post) o = Throw YstringException) /\
  (long_cont_tail v -> fln (v ++ g ++ u ++ post) o = UB).
Proof.
  intros HF Ho HT HN Hg Hv.
  rewrite fln_enter with (us := us) (c := 0x0A) by (try assumption; unfold newline; lia).
  cbn [N.eqb Pos.eqb negb]. split; intros HL.
  - now rewrite safe_decode_prev_malformed.
  - now rewrite safe_decode_prev_long.
Qed.
End Last.

(** ** Trimming a valid string *)

Section TrimSet.
Variable pred : N -> bool.

Lemma allp_dec_prefix cs : exists us ms, cs = us ++ ms /\ allp pred us /\ first_out (fun c => pred c = true) ms.
Proof.
  induction cs as [|c cs (us & ms & -> & H1 & H2)].
  - exists [], []. repeat split; constructor.
  - destruct (pred c) eqn:E.
    + exists (c :: us), ms. repeat split; auto. now constructor.
    + exists [], (c :: us ++ ms). repeat split; [constructor|]. cbn. congruence.
Qed.

Lemma trim_start_valid u us m ms :
  Fits (u ++ m) -> Text u us -> Text m ms -> allp pred us -> first_out (fun c => pred c = true) ms ->
  trim_start_where (u ++ m) pred = Ok m.
Proof.
  intros HF Hu Hm HA HO. destruct ms as [|c ms].
  - apply Text_nil_inv in Hm. subst m. rewrite app_nil_r. now apply trim_start_where_all with us.
  - apply Text_cons_inv in Hm. destruct Hm as (g & t & -> & Hg & Ht).
    apply trim_start_where_cut with us c; auto. cbn in HO. now destruct (pred c).
Qed.

Lemma trim_end_valid m ms v vs :
  Fits (m ++ v) -> Text m ms -> Text v vs -> allp pred vs -> last_out (fun c => pred c = true) ms ->
  trim_end_where (m ++ v) pred = Ok m.
Proof.
  intros HF Hm Hv HA HO. destruct ms as [|c ms _] using rev_ind.
  - apply Text_nil_inv in Hm. subst m. now apply trim_end_where_all with vs.
  - apply Text_split in Hm. destruct Hm as (t & g & -> & Ht & Hg).
    apply Text_cons_inv in Hg. destruct Hg as (g' & e & -> & Hg & He).
    apply Text_nil_inv in He. subst e. rewrite app_nil_r in *. rewrite <- app_assoc in HF |- *.
    apply trim_end_where_cut with c vs; auto.
    specialize (HO ms c eq_refl). cbn beta in HO. now destruct (pred c).
Qed.

Lemma trim_valid u us m ms v vs :
  Fits (u ++ m ++ v) -> Text u us -> Text m ms -> Text v vs -> allp pred us -> allp pred vs ->
  first_out (fun c => pred c = true) ms -> last_out (fun c => pred c = true) ms ->
  trim_where (u ++ m ++ v) pred = Ok m.
Proof.
  intros HF Hu Hm Hv HA1 HA2 HO1 HO2. unfold trim_where. destruct ms as [|c ms].
  - apply Text_nil_inv in Hm. subst m. cbn [app] in *.
    rewrite trim_start_where_all with (us := us ++ vs); [|now apply Text_app|apply Forall_app; now split].
    reflexivity.
  - rewrite trim_start_valid with (us := us) (ms := (c :: ms) ++ vs); auto; [|now apply Text_app].
    cbn [bind]. apply trim_end_valid with (c :: ms) vs; auto. now apply Fits_app_r in HF.
Qed.

(** Every valid string has such a division. *)
Lemma trim_division cs : exists us ms vs, cs = us ++ ms ++ vs /\ allp pred us /\ allp pred vs /\
  first_out (fun c => pred c = true) ms /\ last_out (fun c => pred c = true) ms.
Proof.
  destruct (allp_dec_prefix cs) as (us & ms & -> & HA & HO). exists us.
  assert (exists ks vs, ms = ks ++ vs /\ allp pred vs /\ last_out (fun c => pred c = true) ks) as (ks & vs & -> & H1 & H2).
  { clear. induction ms as [|c ms (ks & vs & E & H1 & H2)] using rev_ind.
    - exists [], []. repeat split; [constructor|]. intros ds c E. now destruct ds.
    - destruct (pred c) eqn:Ec.
      + exists ks, (vs ++ [c]). rewrite E, <- app_assoc. repeat split; auto.
        apply Forall_app. split; [exact H1|]. now constructor.
      + exists (ms ++ [c]), []. rewrite app_nil_r. repeat split; [constructor|].
        intros ds d E'. apply app_inj_tail in E'. destruct E' as [_ <-]. congruence. }
  exists ks, vs. repeat split; auto. destruct ks; [exact I|exact HO].
Qed.
End TrimSet.

(** ** The statements of Properties/Search.v *)

Lemma set_nonep chars us : Forall (fun c => ~ In c chars) us <-> nonep (fun c => u32_contains chars c) us.
Proof.
  unfold nonep. rewrite !Forall_forall. split; intros H c Hc; specialize (H c Hc).
  - rewrite <- u32_contains_spec in H. now destruct (u32_contains chars c).
  - rewrite <- u32_contains_spec. now rewrite H.
Qed.
Lemma set_allp chars us : Forall (fun c => In c chars) us <-> allp (fun c => u32_contains chars c) us.
Proof.
  unfold allp. rewrite !Forall_forall. split; intros H c Hc; specialize (H c Hc); now apply u32_contains_spec.
Qed.

Lemma p_first_of chars pre :
  (forall u us g c v, Text u us -> Forall (fun x => ~ In x chars) us -> uchar g c -> In c chars ->
     find_first_of (pre ++ u ++ g ++ v) chars (size pre) = Ok (Sub (size (pre ++ u)) (size g), c)) /\
  (forall u us, Text u us -> Forall (fun x => ~ In x chars) us ->
     find_first_of (pre ++ u) chars (size pre) = Ok (Sub npos 0, INVALID_CHAR)) /\
  (forall u us r, Text u us -> Forall (fun x => ~ In x chars) us -> Malformed r ->
     find_first_of (pre ++ u ++ r) chars (size pre) = Throw YstringException).
Proof.
  unfold find_first_of. repeat split.
  - intros u us g c v HT HN Hg Hc. apply find_first_where_found with us; auto; [now apply set_nonep|now apply u32_contains_spec].
  - intros u us HT HN. apply find_first_where_none with us; auto. now apply set_nonep.
  - intros u us r HT HN Hr. apply find_first_where_malformed with us; auto. now apply set_nonep.
Qed.

Lemma p_last_of chars post o :
  (forall pre u us g c, N.min o (size (pre ++ g ++ u ++ post)) = size (pre ++ g ++ u) ->
     Text u us -> Forall (fun x => ~ In x chars) us -> uchar g c -> In c chars ->
     find_last_of (pre ++ g ++ u ++ post) chars o = Ok (Sub (size pre) (size g), c)) /\
  (forall u us, N.min o (size (u ++ post)) = size u -> Text u us -> Forall (fun x => ~ In x chars) us ->
     find_last_of (u ++ post) chars o = Ok (Sub npos 0, INVALID_CHAR)) /\
  (forall r u us, N.min o (size (r ++ u ++ post)) = size (r ++ u) ->
     Text u us -> Forall (fun x => ~ In x chars) us -> MalformedEnd r ->
     (~ long_cont_tail r -> find_last_of (r ++ u ++ post) chars o = Throw YstringException) /\
     (long_cont_tail r -> find_last_of (r ++ u ++ post) chars o = UB)).
Proof.
  unfold find_last_of. split; [|split].
  - intros pre u us g c Ho HT HN Hg Hc. apply find_last_where_found with us; auto; [now apply set_nonep|now apply u32_contains_spec].
  - intros u us Ho HT HN. apply find_last_where_none with us; auto. now apply set_nonep.
  - intros r u us Ho HT HN Hr. apply find_last_where_stuck with us; auto. now apply set_nonep.
Qed.

Lemma p_trim_set chars :
  let inside cs := Forall (fun c => In c chars) cs in
  let p c := In c chars in
  (forall u us m ms, Fits (u ++ m) -> Text u us -> Text m ms -> inside us -> first_out p ms ->
     trim_start (u ++ m) chars = Ok m) /\
  (forall m ms v vs, Fits (m ++ v) -> Text m ms -> Text v vs -> inside vs -> last_out p ms ->
     trim_end (m ++ v) chars = Ok m) /\
  (forall u us m ms v vs, Fits (u ++ m ++ v) -> Text u us -> Text m ms -> Text v vs ->
     inside us -> inside vs -> first_out p ms -> last_out p ms ->
     trim (u ++ m ++ v) chars = Ok m).
Proof.
  intros inside p. unfold inside, p.
  assert (HF : forall ms, first_out (fun c => In c chars) ms -> first_out (fun c => u32_contains chars c = true) ms).
  { intros [|c ms]; cbn; [tauto|]. now rewrite u32_contains_spec. }
  assert (HL : forall ms, last_out (fun c => In c chars) ms -> last_out (fun c => u32_contains chars c = true) ms).
  { intros ms H ds c E. rewrite u32_contains_spec. exact (H ds c E). }
  split; [|split].
  - intros. apply trim_start_valid with us ms; auto. now apply set_allp.
  - intros. apply trim_end_valid with ms vs; auto. now apply set_allp.
  - intros. change (trim (u ++ m ++ v) chars) with (trim_where (u ++ m ++ v) (fun c => u32_contains chars c)).
    apply trim_valid with us ms vs; auto; now apply set_allp.
Qed.

Lemma p_trim_where pred :
  (forall u us m ms, Fits (u ++ m) -> Text u us -> Text m ms ->
     Forall (fun c => pred c = true) us -> first_out (fun c => pred c = true) ms ->
     trim_start_where (u ++ m) pred = Ok m) /\
  (forall m ms v vs, Fits (m ++ v) -> Text m ms -> Text v vs ->
     Forall (fun c => pred c = true) vs -> last_out (fun c => pred c = true) ms ->
     trim_end_where (m ++ v) pred = Ok m) /\
  (forall u us m ms v vs, Fits (u ++ m ++ v) -> Text u us -> Text m ms -> Text v vs ->
     Forall (fun c => pred c = true) us -> Forall (fun c => pred c = true) vs ->
     first_out (fun c => pred c = true) ms -> last_out (fun c => pred c = true) ms ->
     trim_where (u ++ m ++ v) pred = Ok m).
Proof.
  split; [|split].
  - intros. now apply trim_start_valid with us ms.
  - intros. now apply trim_end_valid with ms vs.
  - intros. now apply trim_valid with us ms vs.
Qed.

Lemma p_trim_division (pred : N -> bool) s cs : Text s cs ->
  exists u us m ms v vs, s = u ++ m ++ v /\ Text u us /\ Text m ms /\ Text v vs /\
    Forall (fun c => pred c = true) us /\ Forall (fun c => pred c = true) vs /\
    first_out (fun c => pred c = true) ms /\ last_out (fun c => pred c = true) ms.
Proof.
  intros HT. destruct (trim_division pred cs) as (us & ms & vs & -> & H1 & H2 & H3 & H4).
  apply Text_split in HT. destruct HT as (u & w & -> & Hu & Hw).
  apply Text_split in Hw. destruct Hw as (m & v & -> & Hm & Hv).
  exists u, us, m, ms, v, vs. auto 10.
Qed.

Lemma p_trim_default after s :
  trim_default (0 :: after) s = trim s [0x20; 0x09; 0x0A; 0x0D] /\
  trim_start_default (0 :: after) s = trim_start s [0x20; 0x09; 0x0A; 0x0D] /\
  trim_end_default (0 :: after) s = trim_end s [0x20; 0x09; 0x0A; 0x0D].
Proof. repeat split; reflexivity. Qed.

Lemma p_arrays_UB s o :
  find_first_newline [] s o = UB /\ find_last_newline [] s o = UB /\
  trim_default [] s = UB /\ trim_start_default [] s = UB /\ trim_end_default [] s = UB.
Proof. repeat split; reflexivity. Qed.

Lemma p_c16 pred pre :
  (forall u us g c v, Text u us -> Forall (fun x => pred x = false) us -> uchar g c -> pred c = true ->
     find_first_where (pre ++ u ++ g ++ v) pred (size pre) = Ok (Sub (size (pre ++ u)) (size g), c)) /\
  (forall u us, Text u us -> Forall (fun x => pred x = false) us ->
     find_first_where (pre ++ u) pred (size pre) = Ok (Sub npos 0, INVALID_CHAR)) /\
  (forall u us r, Text u us -> Forall (fun x => pred x = false) us -> Malformed r ->
     find_first_where (pre ++ u ++ r) pred (size pre) = Throw YstringException).
Proof.
  repeat split; intros.
  - now apply find_first_where_found with us.
  - now apply find_first_where_none with us.
  - now apply find_first_where_malformed with us.
Qed.

Lemma p_c17 pred post o :
  (forall pre u us g c, N.min o (size (pre ++ g ++ u ++ post)) = size (pre ++ g ++ u) ->
     Text u us -> Forall (fun x => pred x = false) us -> uchar g c -> pred c = true ->
     find_last_where (pre ++ g ++ u ++ post) pred o = Ok (Sub (size pre) (size g), c)) /\
  (forall u us, N.min o (size (u ++ post)) = size u -> Text u us -> Forall (fun x => pred x = false) us ->
     find_last_where (u ++ post) pred o = Ok (Sub npos 0, INVALID_CHAR)) /\
  (forall r u us, N.min o (size (r ++ u ++ post)) = size (r ++ u) ->
     Text u us -> Forall (fun x => pred x = false) us -> MalformedEnd r ->
     (~ long_cont_tail r -> find_last_where (r ++ u ++ post) pred o = Throw YstringException) /\
     (long_cont_tail r -> find_last_where (r ++ u ++ post) pred o = UB)).
Proof.
  split; [|split]; intros.
  - now apply find_last_where_found with us.
  - now apply find_last_where_none with us.
  - now apply find_last_where_stuck with us.
Qed.

Lemma p_c18 after pre :
  let ffn := find_first_newline (0 :: after) in
  (forall u us g c v, Fits (pre ++ u ++ g ++ v) -> Text u us -> no_newline us -> uchar g c -> newline c ->
     (c <> 0x0D \/ v = [] \/ exists d w, d <> 0x0A /\ starts_with_codepoint v d w) ->
     ffn (pre ++ u ++ g ++ v) (size pre) = Ok (Sub (size (pre ++ u)) (size g))) /\
  (forall u us cr lf w, Fits (pre ++ u ++ cr ++ lf ++ w) -> Text u us -> no_newline us -> uchar cr 0x0D -> uchar lf 0x0A ->
     ffn (pre ++ u ++ cr ++ lf ++ w) (size pre) = Ok (Sub (size (pre ++ u)) (size (cr ++ lf)))) /\
  (forall u us, Text u us -> no_newline us -> ffn (pre ++ u) (size pre) = Ok (Sub npos 0)) /\
  (forall u us r, Text u us -> no_newline us -> Malformed r -> ffn (pre ++ u ++ r) (size pre) = Throw YstringException) /\
  (forall u us cr r, Fits (pre ++ u ++ cr ++ r) -> Text u us -> no_newline us -> uchar cr 0x0D -> Malformed r ->
     ffn (pre ++ u ++ cr ++ r) (size pre) = Throw YstringException).
Proof.
  intros ffn. unfold ffn. repeat split; intros.
  - now apply ffn_single with us c.
  - now apply ffn_crlf with us w.
  - now apply ffn_none with us.
  - now apply ffn_malformed with us.
  - now apply ffn_cr_malformed with us.
Qed.

Lemma p_c19 after post o :
  let fln := find_last_newline (0 :: after) in
  (forall v g c u us, Fits (v ++ g ++ u ++ post) -> N.min o (size (v ++ g ++ u ++ post)) = size (v ++ g ++ u) ->
     Text u us -> no_newline us -> uchar g c -> newline c ->
     (c <> 0x0A \/ v = [] \/ exists d w, d <> 0x0D /\ ends_with_codepoint v d w) ->
     fln (v ++ g ++ u ++ post) o = Ok (Sub (size v) (size g))) /\
  (forall w cr lf u us, Fits (w ++ cr ++ lf ++ u ++ post) ->
     N.min o (size (w ++ cr ++ lf ++ u ++ post)) = size (w ++ cr ++ lf ++ u) ->
     Text u us -> no_newline us -> uchar lf 0x0A -> uchar cr 0x0D ->
     fln (w ++ cr ++ lf ++ u ++ post) o = Ok (Sub (size w) (size (cr ++ lf)))) /\
  (forall u us, N.min o (size (u ++ post)) = size u -> Text u us -> no_newline us ->
     fln (u ++ post) o = Ok (Sub npos 0)) /\
  (forall r u us, N.min o (size (r ++ u ++ post)) = size (r ++ u) -> Text u us -> no_newline us ->
     MalformedEnd r -> ~ long_cont_tail r -> fln (r ++ u ++ post) o = Throw YstringException) /\
  (forall v lf u us, Fits (v ++ lf ++ u ++ post) -> N.min o (size (v ++ lf ++ u ++ post)) = size (v ++ lf ++ u) ->
     Text u us -> no_newline us -> uchar lf 0x0A -> MalformedEnd v -> ~ long_cont_tail v ->
     fln (v ++ lf ++ u ++ post) o = Throw YstringException).
Proof.
  intros fln. unfold fln. repeat split.
  - intros. now apply fln_single with c us.
  - intros. now apply fln_crlf with us.
  - intros. now apply fln_none with us.
  - intros r u us H1 H2 H3 H4 H5. now apply (fln_stuck after r u us post o H1 H2 H3 H4).
  - intros v lf u us H1 H2 H3 H4 H5 H6 H7. now apply (fln_lf_stuck after v lf u us post o H1 H2 H3 H4 H5 H6).
Qed.
