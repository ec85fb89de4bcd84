(** to_lower, to_title and to_upper on strings. *)
From Verif Require Import Base Spec.Category Spec.UnicodeData Spec.Case Spec.Utf8Spec Spec.Strings
  Model.Decode Model.Encode Model.Search Model.CharClass Model.ConvertCase Tables.UnicodeDataTables
  Proofs.Utf8Lemmas Proofs.DecodeLemmas Proofs.SkipLemmas Proofs.EncodeLemmas Proofs.CodepointLemmas Proofs.ReplaceCpLemmas
  Proofs.TableLemmas Proofs.CharClassLemmas Proofs.CaseLemmas.

(** *** Facts about all mappings, from facts about the tables *)
Lemma mapped_ind (P : N -> N -> Prop) (Q : N * N -> bool) table c :
  forallb Q table = true -> (forall p, Q p = true -> P (fst p) (snd p)) -> P c c -> P c (mapped table c).
Proof.
  intros H HQ Hc. unfold mapped. destruct (find _ table) as [p|] eqn:E; [|exact Hc].
  apply find_some in E. destruct E as [Hin E]. apply N.eqb_eq in E. subst c.
  rewrite forallb_forall in H. apply HQ. now apply H.
Qed.
Lemma simple_lower_bound c : c <= 0x10FFFF -> simple_lower c <= 0x10FFFF.
Proof.
  intros H. unfold simple_lower. apply (mapped_ind (fun c d => d <= 0x10FFFF) (fun p => snd p <=? 0x10FFFF)); [vm_compute; reflexivity| |exact H].
  intros p Hp. now apply N.leb_le.
Qed.
Lemma simple_upper_bound c : c <= 0x10FFFF -> simple_upper c <= 0x10FFFF.
Proof.
  intros H. unfold simple_upper. apply (mapped_ind (fun c d => d <= 0x10FFFF) (fun p => snd p <=? 0x10FFFF)); [vm_compute; reflexivity| |exact H].
  intros p Hp. now apply N.leb_le.
Qed.
Lemma simple_title_bound c : c <= 0x10FFFF -> simple_title c <= 0x10FFFF.
Proof.
  intros H. unfold simple_title. apply (mapped_ind (fun c d => d <= 0x10FFFF) (fun p => snd p <=? 0x10FFFF)); [vm_compute; reflexivity| |exact H].
  intros p Hp. now apply N.leb_le.
Qed.
(** Above U+10FFFF nothing is mapped. *)
Lemma mapped_above table c : forallb (fun p => fst p <=? 0x10FFFF) table = true -> 0x10FFFF < c -> mapped table c = c.
Proof.
  intros H Hc. unfold mapped. destruct (find _ table) as [p|] eqn:E; [|reflexivity].
  apply find_some in E. destruct E as [Hin E]. apply N.eqb_eq in E. rewrite forallb_forall in H.
  specialize (H p Hin). apply N.leb_le in H. lia.
Qed.
Lemma simple_lower_above c : 0x10FFFF < c -> simple_lower c = c.
Proof. apply mapped_above. vm_compute. reflexivity. Qed.
Lemma simple_upper_above c : 0x10FFFF < c -> simple_upper c = c.
Proof. apply mapped_above. vm_compute. reflexivity. Qed.
Lemma simple_title_above c : 0x10FFFF < c -> simple_title c = c.
Proof. apply mapped_above. vm_compute. reflexivity. Qed.

(** Converting twice. *)
Lemma mapped_twice table c : forallb (fun p : N * N => mapped table (snd p) =? snd p) table = true ->
  mapped table (mapped table c) = mapped table c.
Proof.
  intros H. unfold mapped at 2 3. destruct (find _ table) as [p|] eqn:E.
  - apply find_some in E. destruct E as [Hin _]. rewrite forallb_forall in H. now apply N.eqb_eq, H.
  - unfold mapped. now rewrite E.
Qed.
Lemma simple_lower_twice c : simple_lower (simple_lower c) = simple_lower c.
Proof. apply mapped_twice. vm_cast_no_check (eq_refl true). Qed.
Lemma simple_upper_twice c : simple_upper (simple_upper c) = simple_upper c.
Proof. apply mapped_twice. vm_cast_no_check (eq_refl true). Qed.
Lemma simple_title_twice c : simple_title (simple_title c) = simple_title c.
Proof. apply mapped_twice. vm_cast_no_check (eq_refl true). Qed.
Lemma simple_upper_not_DF c : c <> 0xDF -> simple_upper c <> 0xDF.
Proof.
  intros H. unfold simple_upper.
  apply (mapped_ind (fun _ d => d <> 0xDF) (fun p => negb (snd p =? 0xDF))); [vm_compute; reflexivity| |exact H].
  intros p Hp. apply negb_true_iff, N.eqb_neq in Hp. exact Hp.
Qed.

(** *** The loops *)
Notation inrange cs := (Forall (fun c => c <= 0x10FFFF) cs).
Lemma Encoded_one g c : encodes g c -> Encoded g [c].
Proof. intros H. replace g with (g ++ []) by apply app_nil_r. constructor; [exact H|constructor]. Qed.
Lemma W32_bound c : c < 0x200000 -> c < W32.
Proof. unfold W32. lia. Qed.
Lemma Encoded_SS : Encoded [x53; x53] [0x53; 0x53].
Proof. change [x53; x53] with ([x53] ++ [x53] ++ []). repeat constructor. Qed.
Lemma Encoded_Ss : Encoded [x53; x73] [0x53; 0x73].
Proof. change [x53; x73] with ([x53] ++ [x73] ++ []). repeat constructor. Qed.

Lemma lower_loop cs : forall pre t r fuel acc, Text t cs -> inrange cs -> exists o,
  Encoded o (lower_cps cs) /\
  to_lower_loop (length cs + fuel) (pre ++ t ++ r) (length pre) acc
  = to_lower_loop fuel ((pre ++ t) ++ r) (length (pre ++ t)) (acc ++ o).
Proof.
  induction cs as [|c cs IH]; intros pre t r fuel acc HT HR.
  - apply Text_nil_inv in HT. subst t. exists []. rewrite !app_nil_r. split; [constructor|reflexivity].
  - apply Text_cons_inv in HT. destruct HT as (g & t' & -> & Hg & HT).
    inversion HR as [|? ? Hc HR']; subst.
    rewrite <- app_assoc. cbn [length plus to_lower_loop].
    rewrite safe_decode_next_uchar with (c := c) by exact Hg. cbn [bind].
    rewrite to_lower_spec by (apply W32_bound, (uchar_bound g); exact Hg).
    destruct (append_ok acc (simple_lower c)) as (e & He & _ & ->); [now apply simple_lower_bound|]. cbn [bind].
    destruct (IH (pre ++ g) t' r fuel (acc ++ e) HT HR') as (o & Ho & E).
    exists (e ++ o). split; [change (lower_cps (c :: cs)) with ([simple_lower c] ++ lower_cps cs); apply Encoded_app; [now apply Encoded_one|exact Ho]|].
    rewrite <- app_length. replace (pre ++ g ++ t' ++ r) with ((pre ++ g) ++ t' ++ r) by now rewrite <- app_assoc.
    rewrite E. rewrite <- !app_assoc. reflexivity.
Qed.
Lemma upper_loop cs : forall pre t r fuel acc, Text t cs -> inrange cs -> exists o,
  Encoded o (upper_cps cs) /\
  to_upper_loop (length cs + fuel) (pre ++ t ++ r) (length pre) acc
  = to_upper_loop fuel ((pre ++ t) ++ r) (length (pre ++ t)) (acc ++ o).
Proof.
  induction cs as [|c cs IH]; intros pre t r fuel acc HT HR.
  - apply Text_nil_inv in HT. subst t. exists []. rewrite !app_nil_r. split; [constructor|reflexivity].
  - apply Text_cons_inv in HT. destruct HT as (g & t' & -> & Hg & HT).
    inversion HR as [|? ? Hc HR']; subst.
    rewrite <- app_assoc. cbn [length plus to_upper_loop].
    rewrite safe_decode_next_uchar with (c := c) by exact Hg. cbn [bind].
    unfold SHARP_S. unfold upper_cps. cbn [flat_map]. fold (upper_cps cs).
    assert (exists e, Encoded e (if c =? 0xDF then [0x53; 0x53] else [simple_upper c]) /\
      (if negb (c =? 0xDF) then let* result := append acc (to_upper c) in to_upper_loop (length cs + fuel) (pre ++ g ++ t' ++ r) (length pre + length g) result
       else to_upper_loop (length cs + fuel) (pre ++ g ++ t' ++ r) (length pre + length g) (acc ++ [x53; x53]))
      = to_upper_loop (length cs + fuel) (pre ++ g ++ t' ++ r) (length pre + length g) (acc ++ e)) as (e & He & ->).
    { destruct (c =? 0xDF); cbn [negb].
      - exists [x53; x53]. split; [exact Encoded_SS|reflexivity].
      - rewrite to_upper_spec by (apply W32_bound, (uchar_bound g); exact Hg).
        destruct (append_ok acc (simple_upper c)) as (e & He & _ & ->); [now apply simple_upper_bound|]. cbn [bind].
        exists e. split; [now apply Encoded_one|reflexivity]. }
    destruct (IH (pre ++ g) t' r fuel (acc ++ e) HT HR') as (o & Ho & E).
    exists (e ++ o). split; [now apply Encoded_app|].
    rewrite <- app_length. replace (pre ++ g ++ t' ++ r) with ((pre ++ g) ++ t' ++ r) by now rewrite <- app_assoc.
    rewrite E. rewrite <- !app_assoc. reflexivity.
Qed.

(** The flag after a prefix. *)
Fixpoint last_flag (letter : N -> bool) (prev : bool) (cs : list N) : bool :=
  match cs with [] => prev | c :: cs' => last_flag letter (letter c) cs' end.
Lemma title_loop cs : forall pre t r fuel acc b, Text t cs -> inrange cs -> exists o,
  Encoded o (title_cps is_letter b cs) /\
  to_title_loop (length cs + fuel) (pre ++ t ++ r) (length pre) b acc
  = to_title_loop fuel ((pre ++ t) ++ r) (length (pre ++ t)) (last_flag is_letter b cs) (acc ++ o).
Proof.
  induction cs as [|c cs IH]; intros pre t r fuel acc b HT HR.
  - apply Text_nil_inv in HT. subst t. exists []. rewrite !app_nil_r. split; [constructor|reflexivity].
  - apply Text_cons_inv in HT. destruct HT as (g & t' & -> & Hg & HT).
    inversion HR as [|? ? Hc HR']; subst.
    rewrite <- app_assoc. cbn [length plus to_title_loop title_cps last_flag].
    rewrite safe_decode_next_uchar with (c := c) by exact Hg. cbn [bind]. unfold SHARP_S.
    assert (HW : c < W32) by (apply W32_bound, (uchar_bound g); exact Hg).
    assert (STEP : forall e n b', Encoded e n -> exists o, Encoded o (n ++ title_cps is_letter b' cs) /\
      to_title_loop (length cs + fuel) (pre ++ g ++ t' ++ r) (length pre + length g) b' (acc ++ e)
      = to_title_loop fuel ((pre ++ g ++ t') ++ r) (length (pre ++ g ++ t')) (last_flag is_letter b' cs) (acc ++ o)).
    { intros e n b' He. destruct (IH (pre ++ g) t' r fuel (acc ++ e) b' HT HR') as (o & Ho & E).
      exists (e ++ o). split; [now apply Encoded_app|].
      rewrite <- app_length. replace (pre ++ g ++ t' ++ r) with ((pre ++ g) ++ t' ++ r) by now rewrite <- app_assoc.
      rewrite E. rewrite <- !app_assoc. reflexivity. }
    destruct (is_letter c); cbn [negb].
    + destruct b.
      * rewrite to_lower_spec by exact HW.
        destruct (append_ok acc (simple_lower c)) as (e & He & _ & ->); [now apply simple_lower_bound|]. cbn [bind].
        apply STEP. now apply Encoded_one.
      * destruct (c =? 0xDF); cbn [negb].
        -- apply STEP. exact Encoded_Ss.
        -- rewrite to_title_spec by exact HW.
           destruct (append_ok acc (simple_title c)) as (e & He & _ & ->); [now apply simple_title_bound|]. cbn [bind].
           apply STEP. now apply Encoded_one.
    + destruct (append_ok acc c Hc) as (e & He & _ & ->). cbn [bind].
      change (c :: title_cps is_letter false cs) with ([c] ++ title_cps is_letter false cs). apply STEP. now apply Encoded_one.
Qed.

(** *** The functions *)
Lemma fuel_split {A} (cs : list A) n : (length cs <= n)%nat -> S n = (length cs + S (n - length cs))%nat.
Proof. lia. Qed.

Lemma to_lower_str_ok s cs : Text s cs -> inrange cs -> exists r, to_lower_str s = Ok r /\ Encoded r (lower_cps cs).
Proof.
  intros HT HR. unfold to_lower_str. rewrite (fuel_split cs) by now apply Text_length.
  destruct (lower_loop cs [] s [] (S (length s - length cs)) [] HT HR) as (o & Ho & E).
  exists o. split; [|exact Ho]. cbn [app] in E. rewrite app_nil_r in E. change (length (@nil byte)) with 0%nat in E. rewrite E.
  cbn [to_lower_loop]. rewrite safe_decode_next_end. reflexivity.
Qed.
Lemma to_upper_str_ok s cs : Text s cs -> inrange cs -> exists r, to_upper_str s = Ok r /\ Encoded r (upper_cps cs).
Proof.
  intros HT HR. unfold to_upper_str. rewrite (fuel_split cs) by now apply Text_length.
  destruct (upper_loop cs [] s [] (S (length s - length cs)) [] HT HR) as (o & Ho & E).
  exists o. split; [|exact Ho]. cbn [app] in E. rewrite app_nil_r in E. change (length (@nil byte)) with 0%nat in E. rewrite E.
  cbn [to_upper_loop]. rewrite safe_decode_next_end. reflexivity.
Qed.
Lemma to_title_str_ok s cs : Text s cs -> inrange cs -> exists r, to_title_str s = Ok r /\ Encoded r (title_cps is_letter false cs).
Proof.
  intros HT HR. unfold to_title_str. rewrite (fuel_split cs) by now apply Text_length.
  destruct (title_loop cs [] s [] (S (length s - length cs)) [] false HT HR) as (o & Ho & E).
  exists o. split; [|exact Ho]. cbn [app] in E. rewrite app_nil_r in E. change (length (@nil byte)) with 0%nat in E. rewrite E.
  cbn [to_title_loop]. rewrite safe_decode_next_end. reflexivity.
Qed.

(** What a string starts with, if it is not valid text up to U+10FFFF. *)
Definition unencodable (r : str) : Prop := Malformed r \/ exists g c w, r = g ++ w /\ uchar g c /\ 0x10FFFF < c.
Lemma bad_prefix s : (forall cs, Text s cs -> ~ inrange cs) ->
  exists u us r, s = u ++ r /\ Text u us /\ inrange us /\ unencodable r.
Proof.
  intros H. destruct (text_prefix s) as (u & cs & r & -> & HT & Hr).
  assert (D : inrange cs \/ exists a c b, cs = a ++ c :: b /\ inrange a /\ 0x10FFFF < c).
  { clear. induction cs as [|c cs IH]; [left; constructor|]. destruct (N.le_gt_cases c 0x10FFFF) as [L|L].
    - destruct IH as [IH|(a & d & b & -> & Ha & Hd)]; [left; now constructor|].
      right. exists (c :: a), d, b. split; [reflexivity|]. split; [now constructor|exact Hd].
    - right. exists [], c, cs. split; [reflexivity|]. split; [constructor|exact L]. }
  destruct D as [D|(a & c & b & -> & Ha & Hc)].
  - destruct Hr as [->|Hr].
    + exfalso. rewrite app_nil_r in H. exact (H cs HT D).
    + exists u, cs, r. split; [reflexivity|]. split; [exact HT|]. split; [exact D|left; exact Hr].
  - destruct (Text_split u a (c :: b) HT) as (x & y & -> & Hx & Hy).
    apply Text_cons_inv in Hy. destruct Hy as (g & t' & -> & Hg & HT').
    exists x, a, (g ++ t' ++ r). split; [now rewrite <- !app_assoc|]. split; [exact Hx|]. split; [exact Ha|].
    right. exists g, c, (t' ++ r). auto.
Qed.

Lemma to_lower_str_bad u us r : Text u us -> inrange us -> unencodable r -> to_lower_str (u ++ r) = Throw YstringException.
Proof.
  intros HT HR Hr. unfold to_lower_str. rewrite (fuel_split us) by (rewrite app_length; apply Text_length in HT; lia).
  destruct (lower_loop us [] u r (S (length (u ++ r) - length us)) [] HT HR) as (o & Ho & E).
  cbn [app] in E. change (length (@nil byte)) with 0%nat in E. rewrite E.
  cbn [to_lower_loop]. destruct Hr as [Hr|(g & c & w & -> & Hg & Hc)].
  - rewrite safe_decode_next_malformed by exact Hr. reflexivity.
  - rewrite safe_decode_next_uchar with (c := c) by exact Hg. cbn [bind].
    rewrite to_lower_spec, simple_lower_above by (try exact Hc; apply W32_bound, (uchar_bound g); exact Hg).
    destruct (append_bad o c Hc) as [_ ->]. reflexivity.
Qed.
Lemma to_upper_str_bad u us r : Text u us -> inrange us -> unencodable r -> to_upper_str (u ++ r) = Throw YstringException.
Proof.
  intros HT HR Hr. unfold to_upper_str. rewrite (fuel_split us) by (rewrite app_length; apply Text_length in HT; lia).
  destruct (upper_loop us [] u r (S (length (u ++ r) - length us)) [] HT HR) as (o & Ho & E).
  cbn [app] in E. change (length (@nil byte)) with 0%nat in E. rewrite E.
  cbn [to_upper_loop]. destruct Hr as [Hr|(g & c & w & -> & Hg & Hc)].
  - rewrite safe_decode_next_malformed by exact Hr. reflexivity.
  - rewrite safe_decode_next_uchar with (c := c) by exact Hg. cbn [bind].
    unfold SHARP_S. rewrite (proj2 (N.eqb_neq c 0xDF)) by lia. cbn [negb].
    rewrite to_upper_spec, simple_upper_above by (try exact Hc; apply W32_bound, (uchar_bound g); exact Hg).
    destruct (append_bad o c Hc) as [_ ->]. reflexivity.
Qed.
Lemma to_title_str_bad u us r : Text u us -> inrange us -> unencodable r -> to_title_str (u ++ r) = Throw YstringException.
Proof.
  intros HT HR Hr. unfold to_title_str. rewrite (fuel_split us) by (rewrite app_length; apply Text_length in HT; lia).
  destruct (title_loop us [] u r (S (length (u ++ r) - length us)) [] false HT HR) as (o & Ho & E).
  cbn [app] in E. change (length (@nil byte)) with 0%nat in E. rewrite E.
  cbn [to_title_loop]. destruct Hr as [Hr|(g & c & w & -> & Hg & Hc)].
  - rewrite safe_decode_next_malformed by exact Hr. reflexivity.
  - rewrite safe_decode_next_uchar with (c := c) by exact Hg. cbn [bind].
    assert (HW : c < W32) by (apply W32_bound, (uchar_bound g); exact Hg).
    unfold SHARP_S. rewrite (proj2 (N.eqb_neq c 0xDF)) by lia. cbn [negb].
    rewrite to_lower_spec, simple_lower_above, to_title_spec, simple_title_above by (try exact Hc; exact HW).
    destruct (append_bad o c Hc) as [_ ->]. destruct (is_letter c), (last_flag is_letter false us); reflexivity.
Qed.
Lemma case_all_bad s : (forall cs, Text s cs -> ~ inrange cs) ->
  to_lower_str s = Throw YstringException /\ to_upper_str s = Throw YstringException /\ to_title_str s = Throw YstringException.
Proof.
  intros H. destruct (bad_prefix s H) as (u & us & r & -> & HT & HR & Hr).
  split; [eapply to_lower_str_bad; eauto|]. split; [eapply to_upper_str_bad; eauto|eapply to_title_str_bad; eauto].
Qed.

(** *** Twice *)
Lemma inrange_dec cs : inrange cs \/ ~ inrange cs.
Proof.
  destruct (forallb (fun c => c <=? 0x10FFFF) cs) eqn:E.
  - left. apply Forall_forall. intros c Hc. rewrite forallb_forall in E. now apply N.leb_le, E.
  - right. intros H. rewrite <- not_true_iff_false in E. apply E. apply forallb_forall. intros c Hc.
    rewrite Forall_forall in H. now apply N.leb_le, H.
Qed.
Lemma lower_cps_range cs : inrange cs -> inrange (lower_cps cs).
Proof. induction 1; [constructor|]. constructor; [now apply simple_lower_bound|assumption]. Qed.
Lemma upper_cps_range cs : inrange cs -> inrange (upper_cps cs).
Proof.
  induction 1 as [|c cs Hc H IH]; [constructor|]. unfold upper_cps. cbn [flat_map]. fold (upper_cps cs). apply Forall_app. split; [|exact IH].
  destruct (c =? 0xDF); repeat constructor; try lia. now apply simple_upper_bound.
Qed.
Lemma lower_cps_twice cs : lower_cps (lower_cps cs) = lower_cps cs.
Proof. unfold lower_cps. rewrite map_map. apply map_ext. apply simple_lower_twice. Qed.
Lemma upper_cps_app a b : upper_cps (a ++ b) = upper_cps a ++ upper_cps b.
Proof. unfold upper_cps. apply flat_map_app. Qed.
Lemma upper_cps_twice cs : upper_cps (upper_cps cs) = upper_cps cs.
Proof.
  induction cs as [|c cs IH]; [reflexivity|]. unfold upper_cps at 2 3. cbn [flat_map]. fold (upper_cps cs).
  rewrite upper_cps_app, IH. f_equal. destruct (N.eqb_spec c 0xDF) as [->|Hc].
  - vm_compute. reflexivity.
  - unfold upper_cps. cbn [flat_map]. rewrite (proj2 (N.eqb_neq _ 0xDF) (simple_upper_not_DF c Hc)), simple_upper_twice. reflexivity.
Qed.
Lemma to_lower_twice s r : to_lower_str s = Ok r -> to_lower_str r = Ok r.
Proof.
  intros H. destruct (Text_dec s) as [[cs HT]|HN].
  - destruct (inrange_dec cs) as [HR|HE].
    + destruct (to_lower_str_ok s cs HT HR) as (r' & E & He). rewrite E in H. injection H as ->.
      assert (HR' := lower_cps_range cs HR).
      destruct (to_lower_str_ok r (lower_cps cs) (Encoded_Text _ _ He HR') HR') as (r2 & E2 & He2).
      rewrite lower_cps_twice in He2. rewrite E2. f_equal. eapply Encoded_fun; eauto.
    + exfalso. destruct (case_all_bad s) as [E _]; [|congruence]. intros cs' HT'. rewrite (Text_fun _ _ _ HT' HT). exact HE.
  - exfalso. destruct (case_all_bad s) as [E _]; [|congruence]. intros cs HT. destruct (HN cs HT).
Qed.
Lemma to_upper_twice s r : to_upper_str s = Ok r -> to_upper_str r = Ok r.
Proof.
  intros H. destruct (Text_dec s) as [[cs HT]|HN].
  - destruct (inrange_dec cs) as [HR|HE].
    + destruct (to_upper_str_ok s cs HT HR) as (r' & E & He). rewrite E in H. injection H as ->.
      assert (HR' := upper_cps_range cs HR).
      destruct (to_upper_str_ok r (upper_cps cs) (Encoded_Text _ _ He HR') HR') as (r2 & E2 & He2).
      rewrite upper_cps_twice in He2. rewrite E2. f_equal. eapply Encoded_fun; eauto.
    + exfalso. destruct (case_all_bad s) as (_ & E & _); [|congruence]. intros cs' HT'. rewrite (Text_fun _ _ _ HT' HT). exact HE.
  - exfalso. destruct (case_all_bad s) as (_ & E & _); [|congruence]. intros cs HT. destruct (HN cs HT).
Qed.
