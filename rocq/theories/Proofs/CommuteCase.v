(** C114 *)
From Verif Require Import Base Spec.Category Spec.UnicodeData Spec.Utf8Spec Spec.Strings Spec.Newline Spec.Slices Spec.Split Spec.Case Spec.Counts Spec.Commute
  Model.Decode Model.Encode Model.Subrange Model.Search Model.Split Model.CharClass Model.ConvertCase Model.Chars Tables.UnicodeDataTables
  Proofs.Utf8Lemmas Proofs.EncodeLemmas Proofs.CodepointLemmas Proofs.SearchLemmas Proofs.NewlineLemmas Proofs.SplitLemmas Proofs.SliceLemmas Proofs.CharLemmas Proofs.PositionProps
  Proofs.CaseStringLemmas Proofs.CharClassLemmas Proofs.UnicodeProps Proofs.ConcatLemmas Proofs.CountLemmas Proofs.CommuteLemmas Proofs.CommuteChars.
From Coq Require Import ZifyBool ZifyNat ZifyN.
Ltac Zify.zify_post_hook ::= Z.div_mod_to_equations.

Notation uni := (fun c : N => c <= 0x10FFFF).
Lemma lower_flat cs : lower_cps cs = flat_map lower_of cs.
Proof. unfold lower_cps, lower_of. induction cs as [|c cs IH]; [reflexivity|]. cbn [map flat_map app]. now rewrite IH. Qed.
Lemma upper_flat cs : upper_cps cs = flat_map upper_of cs.
Proof. reflexivity. Qed.
Lemma conv_ok F f : case_conversion F f -> forall s cs, Text s cs -> Forall uni cs -> exists r, F s = Ok r /\ Text r (flat_map f cs).
Proof.
  intros [|] s cs HT HR.
  - destruct (to_lower_str_ok s cs HT HR) as (r & E & Hr). exists r. split; [exact E|]. rewrite <- lower_flat. apply Encoded_Text; [exact Hr|now apply lower_cps_range].
  - destruct (to_upper_str_ok s cs HT HR) as (r & E & Hr). exists r. split; [exact E|]. rewrite <- upper_flat. apply Encoded_Text; [exact Hr|now apply upper_cps_range].
Qed.
Lemma conv_app F f : case_conversion F f -> forall s cs t ds a b, Text s cs -> Text t ds -> Forall uni cs -> Forall uni ds ->
  F s = Ok a -> F t = Ok b -> F (s ++ t) = Ok (a ++ b).
Proof.
  intros HC s cs t ds a b HS HT _ _ E1 E2. destruct (p_c86_case s t cs HS) as [L U].
  destruct HC; [rewrite L|rewrite U]; rewrite E1; cbn [bind]; rewrite E2; reflexivity.
Qed.
Lemma conv_ne F f : case_conversion F f -> forall c, f c <> [].
Proof. intros [|] c; unfold lower_of, upper_of; [discriminate|]. destruct (c =? 0xDF); discriminate. Qed.
Lemma flat_ne {A B} (f : A -> list B) cs : (forall c, f c <> []) -> flat_map f cs = [] -> cs = [].
Proof. intros H E. destruct cs as [|c cs]; [reflexivity|]. cbn [flat_map] in E. apply app_eq_nil in E. now destruct (H c). Qed.

(** A conversion that respects a set. *)
Section Respects.
  Variable f : N -> list N.
  Variable dom : N -> Prop.
  Variable chars : list N.
  Hypothesis f_ne : forall c, f c <> [].
  Hypothesis HR : forall c, dom c ->
    (In c chars -> exists d, f c = [d] /\ In d chars) /\ (~ In c chars -> Forall (fun d => ~ In d chars) (f c)).
  Lemma res_out cs : Forall dom cs -> Forall (fun c => ~ In c chars) cs -> Forall (fun c => ~ In c chars) (flat_map f cs).
  Proof using HR.
    intros HD HO. induction HO as [|c cs Hc HO IH]; [constructor|]. inversion HD as [|? ? Dc HD']; subst. cbn [flat_map]. apply Forall_app. split; [now apply (HR c)|auto].
  Qed.
  Lemma res_all cs : Forall dom cs -> Forall (fun c => In c chars) cs -> Forall (fun c => In c chars) (flat_map f cs).
  Proof using HR.
    intros HD HO. induction HO as [|c cs Hc HO IH]; [constructor|]. inversion HD as [|? ? Dc HD']; subst. cbn [flat_map]. apply Forall_app. split; [|auto].
    destruct (proj1 (HR c Dc) Hc) as (d & -> & Hd). now constructor.
  Qed.
  Lemma res_first cs : Forall dom cs -> first_out (fun c => In c chars) cs -> first_out (fun c => In c chars) (flat_map f cs).
  Proof using HR f_ne.
    intros HD HO. destruct cs as [|c cs]; [exact I|]. inversion HD as [|? ? Dc HD']; subst. cbn [first_out flat_map] in *.
    pose proof (proj2 (HR c Dc) HO) as HF. pose proof (f_ne c). destruct (f c); [congruence|]. now inversion HF.
  Qed.
  Lemma res_last cs : Forall dom cs -> last_out (fun c => In c chars) cs -> last_out (fun c => In c chars) (flat_map f cs).
  Proof using HR f_ne.
    intros HD HO ds e E. destruct cs as [|c0 cs0] using rev_ind; [destruct ds; discriminate|]. clear IHcs0. apply Forall_app in HD. destruct HD as [_ HD].
    inversion HD as [|? ? Dc _]; subst. pose proof (proj2 (HR c0 Dc) (HO cs0 c0 eq_refl)) as HF. rewrite flat_map_app in E. cbn [flat_map] in E. rewrite app_nil_r in E.
    destruct (exists_last (f_ne c0)) as (l & x & El). rewrite El in E, HF. rewrite app_assoc in E. apply app_inj_tail in E. destruct E as [_ <-].
    apply Forall_app in HF. destruct HF as [_ HF]. now inversion HF.
  Qed.
End Respects.

Lemma p_c114_split_chars F f s cs chars n ign : case_conversion F f -> respects f chars -> Text s cs -> Forall uni cs -> Fits s ->
  exists s' ps qs, F s = Ok s' /\ (Fits s' -> split_chars s chars n ign = Ok ps /\ split_chars s' chars n ign = Ok qs /\ each F ps qs).
Proof.
  intros HC HR HT HD HF. pose proof (conv_ne F f HC) as NE.
  apply (split_chars_conv F (flat_map f) uni (fun _ _ => True)) with (cs := cs); auto.
  - now apply conv_ok.
  - intros. now apply (conv_app F f HC s0 cs0 t ds).
  - intros ds _. now apply flat_ne.
  - intros c Dc Hc. cbn [flat_map]. rewrite app_nil_r. now apply (HR c).
  - now apply res_out.
Qed.
Lemma p_c114_trim F f s cs chars : case_conversion F f -> respects f chars -> Text s cs -> Forall uni cs -> Fits s ->
  exists s' a b c a' b' c', F s = Ok s' /\ (Fits s' ->
    trim_start s chars = Ok a /\ trim_start s' chars = Ok a' /\ F a = Ok a' /\
    trim_end s chars = Ok b /\ trim_end s' chars = Ok b' /\ F b = Ok b' /\
    trim s chars = Ok c /\ trim s' chars = Ok c' /\ F c = Ok c').
Proof.
  intros HC HR HT HD HF. pose proof (conv_ne F f HC) as NE.
  apply (trim_conv F (flat_map f) uni (fun _ _ => True)) with (cs := cs); auto.
  - now apply conv_ok.
  - intros. now apply (conv_app F f HC s0 cs0 t ds).
  - intros ds _. now apply flat_ne.
  - intros c Dc Hc. cbn [flat_map]. rewrite app_nil_r. now apply (HR c).
  - now apply res_out.
  - now apply res_all.
  - now apply res_first.
  - now apply res_last.
Qed.

(** *** What respects is true of *)
Lemma in_chars_dec (c : N) chars : In c chars \/ ~ In c chars.
Proof. destruct (in_dec N.eq_dec c chars); auto. Qed.
Lemma caseless_respects F f chars : case_conversion F f -> Forall caseless chars -> respects f chars.
Proof.
  intros HC HL c Dc. rewrite Forall_forall in HL. split.
  - intros Hc. exists c. split; [|exact Hc]. destruct (HL c Hc) as (E1 & E2 & _). destruct HC; unfold lower_of, upper_of; [now rewrite E1|].
    destruct (N.eqb_spec c 0xDF) as [->|_]; [|now rewrite E2]. exfalso. destruct (HL 0xDF Hc) as (_ & _ & H). specialize (H 0x1E9E). vm_compute in H. discriminate H. now left.
  - intros Hc. apply Forall_forall. intros d Hd Hi. destruct (HL d Hi) as (_ & E2 & H). destruct HC; unfold lower_of, upper_of in Hd.
    + destruct Hd as [<-|[]]. apply Hc. now rewrite (H c (or_introl eq_refl)).
    + destruct (N.eqb_spec c 0xDF) as [->|_].
      * destruct Hd as [<-|[<-|[]]]; specialize (H 0x73 ltac:(right; vm_compute; reflexivity)); discriminate H.
      * destruct Hd as [<-|[]]. apply Hc. now rewrite (H c (or_intror eq_refl)).
Qed.
Definition cased_category (k : category) : bool := match k with Lu | Ll | Lt | Lm | Lo | Mn | Mc | Me | Nl | So => true | _ => false end.
Lemma cased_spec k : cased_category k = true <-> In k [Lu; Ll; Lt; Lm; Lo; Mn; Mc; Me; Nl; So].
Proof. split; [destruct k; cbn; try discriminate; tauto|]. cbn. intros H. repeat destruct H as [<-|H]; try reflexivity; contradiction. Qed.
Lemma mapped_cased table : forallb (fun p => cased_category (fast_category (fst p)) && cased_category (fast_category (snd p))) table = true ->
  forall c, mapped table c = c \/ cased_category (category_of c) = true /\ cased_category (category_of (mapped table c)) = true.
Proof.
  intros H c. apply (mapped_ind (fun c d => d = c \/ cased_category (category_of c) = true /\ cased_category (category_of d) = true) _ table c H); [|now left].
  intros p Hp. apply andb_true_iff in Hp. rewrite !fast_category_ok in Hp. now right.
Qed.
Lemma lower_cased c : simple_lower c = c \/ cased_category (category_of c) = true /\ cased_category (category_of (simple_lower c)) = true.
Proof. apply mapped_cased. vm_cast_no_check (eq_refl true). Qed.
Lemma upper_cased c : simple_upper c = c \/ cased_category (category_of c) = true /\ cased_category (category_of (simple_upper c)) = true.
Proof. apply mapped_cased. vm_cast_no_check (eq_refl true). Qed.
Lemma p_caseless c : ~ In (category_of c) [Lu; Ll; Lt; Lm; Lo; Mn; Mc; Me; Nl; So] -> caseless c.
Proof.
  rewrite <- cased_spec. intros H. split; [|split].
  - destruct (lower_cased c) as [E|[E _]]; [exact E|contradiction].
  - destruct (upper_cased c) as [E|[E _]]; [exact E|contradiction].
  - intros d [E|E].
    + destruct (lower_cased d) as [E'|[_ E']]; [congruence|]. rewrite E in E'. contradiction.
    + destruct (upper_cased d) as [E'|[_ E']]; [congruence|]. rewrite E in E'. contradiction.
Qed.
Lemma newline_caseless c : newline c -> caseless c.
Proof.
  intros H. apply p_caseless. rewrite <- cased_spec, <- fast_category_ok.
  unfold newline in H. repeat destruct H as [->|H]; try subst c; vm_compute; discriminate.
Qed.
Lemma p_c114_lines F f after s cs n ign : case_conversion F f -> Text s cs -> Forall uni cs -> Fits s ->
  exists s' ps qs, F s = Ok s' /\ (Fits s' -> split_lines (0 :: after) s n ign = Ok ps /\ split_lines (0 :: after) s' n ign = Ok qs /\ each F ps qs).
Proof.
  intros HC HT HD HF. pose proof (conv_ne F f HC) as NE.
  assert (forall c, newline c -> c <= 0x10FFFF) as NU by (intros c Hc; unfold newline in Hc; lia).
  assert (respects f [0x0A; 0x0B; 0x0C; 0x0D; 0x85; 0x2028; 0x2029]) as HR.
  { apply (caseless_respects F); [exact HC|]. repeat (apply Forall_cons; [apply newline_caseless; unfold newline; lia|]). constructor. }
  assert (forall c, newline c <-> In c [0x0A; 0x0B; 0x0C; 0x0D; 0x85; 0x2028; 0x2029]) as NI.
  { intros c. unfold newline. cbn [In]. intuition. }
  assert (forall c, newline c -> f c = [c]) as FI.
  { intros c Hc. destruct (newline_caseless c Hc) as (E1 & E2 & _). destruct HC; unfold lower_of, upper_of; [now rewrite E1|].
    destruct (N.eqb_spec c 0xDF) as [->|_]; [unfold newline in Hc; lia|now rewrite E2]. }
  apply (split_lines_conv F (flat_map f) uni (fun _ _ => True)) with (cs := cs); auto.
  - now apply conv_ok.
  - intros. now apply (conv_app F f HC s0 cs0 t ds).
  - intros ds _. now apply flat_ne.
  - intros c Hc. cbn [flat_map]. rewrite app_nil_r. auto.
  - cbn [flat_map]. rewrite !FI by (unfold newline; lia). reflexivity.
  - intros ds Dd Hn. unfold no_newline in *. assert (Forall (fun c => ~ In c [0x0A; 0x0B; 0x0C; 0x0D; 0x85; 0x2028; 0x2029]) ds) as Hn'.
    { revert Hn. apply Forall_impl. intros c Hc Hi. apply Hc. now apply NI. }
    apply (res_out f uni _ HR) in Hn'; [|exact Dd]. revert Hn'. apply Forall_impl. intros c Hc Hi. apply Hc. now apply NI.
  - intros d ds Dd Hd. inversion Dd as [|? ? D1 D2]; subst. cbn [flat_map]. destruct (f d) as [|e es] eqn:Ed; [now destruct (NE d)|].
    exists e, (es ++ flat_map f ds). split; [reflexivity|]. intros ->.
    assert (~ newline d) as Hnd by (intros Hc; rewrite (FI d Hc) in Ed; injection Ed as Ed _; congruence).
    pose proof (proj2 (HR d D1) (fun Hi => Hnd (proj2 (NI d) Hi))) as HO. rewrite Ed in HO. inversion HO as [|? ? HX _]; subst. apply HX. cbn. auto.
Qed.
Lemma p_c114_join F f l lss d ds : case_conversion F f -> Forall2 Text l lss -> Forall (Forall uni) lss -> Text d ds -> Forall uni ds ->
  exists l' d', each F l l' /\ F d = Ok d' /\ F (join l d) = Ok (join l' d').
Proof.
  intros HC HL HU Hd Ud. destruct (conv_ok F f HC d ds Hd Ud) as (d' & Ed & _).
  assert (exists l', each F l l') as (l' & HE).
  { clear -HC HL HU. induction HL as [|p us l lss Hp HL IH]; [exists []; constructor|]. inversion HU; subst. destruct IH as (l' & Hl); [assumption|].
    destruct (conv_ok F f HC p us) as (q & Eq & _); auto. exists (q :: l'). now constructor. }
  exists l', d'. split; [exact HE|]. split; [exact Ed|]. rewrite !join_spec.
  apply (interleave_conv F (flat_map f) uni (fun _ _ => True)); eauto.
  - now apply conv_ok.
  - intros. now apply (conv_app F f HC s cs t ds0).
  - clear -HL HU. induction HL; [constructor|]. inversion HU; subst. constructor; eauto.
Qed.
Lemma p_c114_lower s cs : Text s cs -> Forall uni cs -> Fits s -> exists s', to_lower_str s = Ok s' /\ (Fits s' ->
  (exists a a', reverse s = Ok a /\ reverse s' = Ok a' /\ to_lower_str a = Ok a') /\
  forall i j, (- 0x8000000000000000 < i <= 0x7FFFFFFFFFFFFFFF)%Z -> (- 0x8000000000000000 < j <= 0x7FFFFFFFFFFFFFFF)%Z ->
    ((0 <= i /\ 0 <= j)%Z \/ (i < j < 0)%Z ->
     (exists a a', get_char_substring s i j = Ok a /\ get_char_substring s' i j = Ok a' /\ to_lower_str a = Ok a') /\
     exists a a', get_codepoint_substring s i j = Ok a /\ get_codepoint_substring s' i j = Ok a' /\ to_lower_str a = Ok a')).
Proof.
  intros HT HD HF.
  destruct (chars_commute to_lower_str lower_of uni (conv_ok _ _ lower_conversion) (conv_app _ _ lower_conversion) s cs HT HD) as (s' & E & H); [|exact HF|].
  { apply Forall_forall. intros c _. exists (simple_lower c), []. split; [reflexivity|]. split; [apply lower_combining|constructor]. }
  destruct (cps_commute to_lower_str lower_of uni (conv_ok _ _ lower_conversion) (conv_app _ _ lower_conversion) s cs HT HD) as (s2 & E2 & H2); [|exact HF|].
  { apply Forall_forall. intros c _. now exists (simple_lower c). }
  rewrite E in E2. injection E2 as <-. exists s'. split; [exact E|]. intros HF'. destruct (H HF') as (_ & HR & HS). split; [exact HR|].
  intros i j Hi Hj HC. split; [apply HS; [lia|lia|lia]|]. apply H2; auto. tauto.
Qed.
Lemma p_c114_upper s cs : Text s cs -> Forall uni cs -> ~ In 0xDF cs -> Fits s -> exists s', to_upper_str s = Ok s' /\ (Fits s' ->
  (~ In 0x345 cs -> exists a a', reverse s = Ok a /\ reverse s' = Ok a' /\ to_upper_str a = Ok a') /\
  forall i j, (- 0x8000000000000000 < i <= 0x7FFFFFFFFFFFFFFF)%Z -> (- 0x8000000000000000 < j <= 0x7FFFFFFFFFFFFFFF)%Z ->
    ((0 <= i /\ 0 <= j)%Z \/ (i < j < 0)%Z ->
     (~ In 0x345 cs -> exists a a', get_char_substring s i j = Ok a /\ get_char_substring s' i j = Ok a' /\ to_upper_str a = Ok a') /\
     exists a a', get_codepoint_substring s i j = Ok a /\ get_codepoint_substring s' i j = Ok a' /\ to_upper_str a = Ok a')).
Proof.
  intros HT HD HX HF.
  assert (forall c, In c cs -> upper_of c = [simple_upper c]) as HU.
  { intros c Hc. unfold upper_of. destruct (N.eqb_spec c 0xDF) as [->|_]; [contradiction|reflexivity]. }
  destruct (cps_commute to_upper_str upper_of uni (conv_ok _ _ upper_conversion) (conv_app _ _ upper_conversion) s cs HT HD) as (s' & E & H2); [|exact HF|].
  { apply Forall_forall. intros c Hc. exists (simple_upper c). now apply HU. }
  exists s'. split; [exact E|]. intros HF'.
  assert (~ In 0x345 cs -> (exists a a', reverse s = Ok a /\ reverse s' = Ok a' /\ to_upper_str a = Ok a') /\
    forall i j, (- 0x8000000000000000 <= i <= 0x7FFFFFFFFFFFFFFF)%Z -> (- 0x8000000000000000 <= j <= 0x7FFFFFFFFFFFFFFF)%Z ->
      (0 <= i /\ 0 <= j)%Z \/ (i < j < 0)%Z \/ (i < 0 <= j)%Z ->
      exists a a', get_char_substring s i j = Ok a /\ get_char_substring s' i j = Ok a' /\ to_upper_str a = Ok a') as HC.
  { intros H345. destruct (chars_commute to_upper_str upper_of uni (conv_ok _ _ upper_conversion) (conv_app _ _ upper_conversion) s cs HT HD) as (s2 & E2 & H); [|exact HF|].
    - apply Forall_forall. intros c Hc. exists (simple_upper c), []. split; [now apply HU|]. split; [|constructor]. apply upper_combining. intros ->. contradiction.
    - rewrite E in E2. injection E2 as <-. destruct (H HF') as (_ & A & B). split; [exact A|exact B]. }
  split; [intros H345; exact (proj1 (HC H345))|]. intros i j Hi Hj HS. split; [intros H345; apply (proj2 (HC H345)); lia|]. apply H2; auto. tauto.
Qed.

(** *** Title case *)
Definition apart (a b : list N) : Prop := (forall us c, a = us ++ [c] -> is_letter c = false) \/ (forall c vs, b = c :: vs -> is_letter c = false).
Lemma title_ok s cs : Text s cs -> Forall uni cs -> exists r, to_title_str s = Ok r /\ Text r (title_cps is_letter false cs).
Proof.
  intros HT HR. destruct (to_title_str_ok s cs HT HR) as (r & E & Hr). exists r. split; [exact E|]. apply Encoded_Text; [exact Hr|now apply title_cps_range].
Qed.
Lemma title_flag_free cs : (forall c vs, cs = c :: vs -> is_letter c = false) -> forall b, title_cps is_letter b cs = title_cps is_letter false cs.
Proof. intros H b. destruct cs as [|c cs]; [reflexivity|]. cbn [title_cps]. now rewrite (H c cs eq_refl). Qed.
Lemma title_app s cs t ds a b : Text s cs -> Text t ds -> Forall uni cs -> Forall uni ds -> apart cs ds ->
  to_title_str s = Ok a -> to_title_str t = Ok b -> to_title_str (s ++ t) = Ok (a ++ b).
Proof.
  intros HS HT H1 H2 HA E1 E2. destruct HA as [HA|HA].
  - rewrite (p_c86_title s t cs HS HA), E1. cbn [bind]. now rewrite E2.
  - destruct (to_title_str_ok s cs HS H1) as (a' & Ea & Ha). destruct (to_title_str_ok t ds HT H2) as (b' & Eb & Hb).
    rewrite E1 in Ea. rewrite E2 in Eb. injection Ea as <-. injection Eb as <-.
    destruct (to_title_str_ok (s ++ t) (cs ++ ds) (Text_app _ _ _ _ HS HT)) as (r & -> & Hr); [now apply Forall_app|]. f_equal.
    rewrite title_cps_app, (title_flag_free ds HA) in Hr. apply (Encoded_fun _ _ _ Hr). now apply ReplaceCpLemmas.Encoded_app.
Qed.
Lemma title_ne cs : forall b, title_cps is_letter b cs = [] -> cs = [].
Proof.
  destruct cs as [|c cs]; [reflexivity|]. intros b. cbn [title_cps]. destruct (is_letter c); [|discriminate]. destruct b; [discriminate|]. destruct (c =? 0xDF); discriminate.
Qed.
Lemma title_all cs : Forall (fun c => is_letter c = false) cs -> forall b, title_cps is_letter b cs = cs.
Proof. induction 1 as [|c cs Hc _ IH]; intros b; [reflexivity|]. cbn [title_cps]. rewrite Hc. now rewrite IH. Qed.
Section Title.
  Variable chars : list N.
  Hypothesis HC : Forall (fun c => is_letter c = false) chars.
  Lemma nonletter c : In c chars -> is_letter c = false.
  Proof using HC. rewrite Forall_forall in HC. apply HC. Qed.
  Lemma title_of_letter c : is_letter c = true -> forall b, Forall (fun d => is_letter d = true) (if (b : bool) then [simple_lower c] else if c =? 0xDF then [0x53; 0x73] else [simple_title c]).
  Proof using.
    intros H b. destruct b.
    - apply Forall_cons; [exact (lower_letter c H)|apply Forall_nil].
    - destruct (c =? 0xDF).
      + apply Forall_cons; [vm_cast_no_check (eq_refl true)|]. apply Forall_cons; [vm_cast_no_check (eq_refl true)|apply Forall_nil].
      + apply Forall_cons; [exact (title_letter c H)|apply Forall_nil].
  Qed.
  Lemma title_out cs : Forall (fun c => ~ In c chars) cs -> forall b, Forall (fun c => ~ In c chars) (title_cps is_letter b cs).
  Proof using HC.
    induction 1 as [|c cs Hc _ IH]; intros b; [constructor|]. cbn [title_cps]. destruct (is_letter c) eqn:L; [|now constructor].
    apply Forall_app. split; [|apply IH]. pose proof (title_of_letter c L b) as HL. revert HL. apply Forall_impl. intros d Hd Hi. rewrite (nonletter d Hi) in Hd. discriminate.
  Qed.
  Lemma title_first cs : first_out (fun c => In c chars) cs -> first_out (fun c => In c chars) (title_cps is_letter false cs).
  Proof using HC.
    destruct cs as [|c cs]; [auto|]. cbn [first_out title_cps]. intros Hc. pose proof (title_out [c] ltac:(constructor; [exact Hc|constructor]) false) as HO.
    cbn [title_cps] in HO. destruct (is_letter c) eqn:L; [|now inversion HO]. rewrite app_nil_r in HO. destruct (c =? 0xDF); now inversion HO.
  Qed.
  Lemma title_last cs : last_out (fun c => In c chars) cs -> last_out (fun c => In c chars) (title_cps is_letter false cs).
  Proof using HC.
    intros HO ds e E. destruct cs as [|c cs _] using rev_ind; [destruct ds; discriminate|]. rewrite title_cps_app in E.
    set (b := last_flag is_letter false cs) in *. clearbody b.
    pose proof (title_out [c] ltac:(constructor; [exact (HO cs c eq_refl)|constructor]) b) as HF.
    assert (title_cps is_letter b [c] <> []) as NE by (intros Hx; apply title_ne in Hx; discriminate).
    destruct (exists_last NE) as (l & x & El). rewrite El in E, HF. rewrite app_assoc in E. apply app_inj_tail in E. destruct E as [_ <-].
    apply Forall_app in HF. destruct HF as [_ HF]. now inversion HF.
  Qed.
  Lemma apart_l us cs : Forall (fun c => In c chars) us -> apart us cs.
  Proof using HC. intros H. left. intros vs c ->. apply Forall_app in H. destruct H as [_ H]. inversion H. now apply nonletter. Qed.
  Lemma apart_r us cs : Forall (fun c => In c chars) us -> apart cs us.
  Proof using HC. intros H. right. intros c vs ->. inversion H. now apply nonletter. Qed.
  Lemma p_title_split s cs n ign : Text s cs -> Forall uni cs -> Fits s -> exists s' ps qs, to_title_str s = Ok s' /\
    (Fits s' -> split_chars s chars n ign = Ok ps /\ split_chars s' chars n ign = Ok qs /\ each to_title_str ps qs).
  Proof using HC.
    intros HT HD HF. apply (split_chars_conv to_title_str (title_cps is_letter false) uni apart) with (cs := cs); auto.
    - exact title_ok.
    - exact title_app.
    - intros ds _. apply title_ne.
    - intros c _ Hc. exists c. split; [|exact Hc]. apply title_all. constructor; [now apply nonletter|constructor].
    - intros ds _ H. now apply title_out.
    - intros c us vs Hc. split; [right; intros d ws E; injection E as -> _; now apply nonletter|].
      left. intros ws d E. destruct ws as [|w ws]; [injection E as ->; now apply nonletter|destruct ws; discriminate].
  Qed.
  Lemma p_title_trim s cs : Text s cs -> Forall uni cs -> Fits s -> exists s' a b c a' b' c', to_title_str s = Ok s' /\ (Fits s' ->
    trim_start s chars = Ok a /\ trim_start s' chars = Ok a' /\ to_title_str a = Ok a' /\
    trim_end s chars = Ok b /\ trim_end s' chars = Ok b' /\ to_title_str b = Ok b' /\
    trim s chars = Ok c /\ trim s' chars = Ok c' /\ to_title_str c = Ok c').
  Proof using HC.
    intros HT HD HF. apply (trim_conv to_title_str (title_cps is_letter false) uni apart) with (cs := cs); auto.
    - exact title_ok.
    - exact title_app.
    - intros ds _. apply title_ne.
    - intros c _ Hc. exists c. split; [|exact Hc]. apply title_all. constructor; [now apply nonletter|constructor].
    - intros ds _ H. now apply title_out.
    - intros c us vs Hc. split; [right; intros d ws E; injection E as -> _; now apply nonletter|].
      left. intros ws d E. destruct ws as [|w ws]; [injection E as ->; now apply nonletter|destruct ws; discriminate].
    - intros ds _ H. rewrite title_all; [exact H|]. revert H. apply Forall_impl. apply nonletter.
    - intros ds _. apply title_first.
    - intros ds _. apply title_last.
    - apply apart_l.
    - apply apart_r.
  Qed.
End Title.
