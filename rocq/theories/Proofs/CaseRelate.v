(** C87: converting the case of a text and comparing it while ignoring case. *)
From Verif Require Import Base Spec.Category Spec.UnicodeData Spec.Case Spec.CaseFold Spec.Utf8Spec Spec.Strings Tables.UnicodeDataTables
  Model.Decode Model.Encode Model.Search Model.CharClass Model.ConvertCase Model.CaseInsensitive
  Proofs.Utf8Lemmas Proofs.EncodeLemmas Proofs.CodepointLemmas Proofs.ReplaceCpLemmas Proofs.CaseLemmas Proofs.CaseStringLemmas Proofs.CiLemmas.

Notation exceptions := [0x130; 0x3F4; 0x1E9E; 0x2126; 0x212A; 0x212B] (only parsing).
Lemma upper_lower c : (simple_upper (simple_lower c) = simple_upper c) <-> ~ In c exceptions.
Proof.
  destruct (in_dec N.eq_dec c exceptions) as [Hin|Hin].
  - split; [|contradiction]. intros E. exfalso. revert E. cbn [In] in Hin.
    repeat destruct Hin as [<-|Hin]; try contradiction; vm_compute; discriminate.
  - split; [intros _; exact Hin|intros _]. unfold simple_lower. revert Hin.
    apply (mapped_ind (fun c d => ~ In c exceptions -> simple_upper d = simple_upper c)
      (fun p => (simple_upper (snd p) =? simple_upper (fst p)) || existsb (N.eqb (fst p)) exceptions)).
    + vm_cast_no_check (eq_refl true).
    + intros p Hp Hn. apply Bool.orb_prop in Hp. destruct Hp as [Hp|Hp]; [now apply N.eqb_eq|].
      apply existsb_exists in Hp. destruct Hp as (x & Hx & Hq). apply N.eqb_eq in Hq. now subst x.
    + reflexivity.
Qed.
Lemma upper_title c : simple_upper (simple_title c) = simple_upper c.
Proof.
  unfold simple_title. apply (mapped_ind (fun c d => simple_upper d = simple_upper c) (fun p => simple_upper (snd p) =? simple_upper (fst p))).
  - vm_cast_no_check (eq_refl true).
  - intros p Hp. now apply N.eqb_eq.
  - reflexivity.
Qed.
Lemma lower_cps_bound cs : inrange cs -> inrange (lower_cps cs).
Proof. intros H. apply Forall_map. revert H. apply Forall_impl. exact simple_lower_bound. Qed.
Lemma upper_cps_bound cs : inrange cs -> inrange (upper_cps cs).
Proof.
  intros H. unfold upper_cps. apply Forall_flat_map. revert H. apply Forall_impl. intros c Hc. destruct (c =? 0xDF); repeat apply Forall_cons; try apply Forall_nil; try lia. now apply simple_upper_bound.
Qed.
Lemma title_cps_bound letter cs : forall prev, inrange cs -> inrange (title_cps letter prev cs).
Proof.
  induction cs as [|c cs IH]; intros prev H; [constructor|]. inversion H; subst. cbn [title_cps]. destruct (letter c); [|constructor; auto; now apply IH].
  apply Forall_app. split; [|now apply IH]. destruct prev; [|destruct (c =? 0xDF)]; repeat apply Forall_cons; try apply Forall_nil; try lia; [now apply simple_lower_bound|now apply simple_title_bound].
Qed.
Lemma p_c87_lower : forall s cs, Text s cs -> Forall (fun c => c <= 0x10FFFF) cs ->
  exists r e, to_lower_str s = Ok r /\ ci_equal s r = Ok e /\
    (e = true <-> Forall (fun c => ~ In c exceptions) cs).
Proof.
  intros s cs HT HR. destruct (to_lower_str_ok s cs HT HR) as (r & E & Hr). exists r.
  destruct (p_c47_text s cs r (lower_cps cs) HT (Encoded_Text _ _ Hr (lower_cps_bound _ HR))) as (e & He & HI). exists e. split; [exact E|]. split; [exact He|].
  rewrite HI. unfold fold_case, lower_cps. rewrite map_map. clear. induction cs as [|c cs IH]; [split; [constructor|reflexivity]|].
  rewrite Forall_cons_iff, <- IH, <- upper_lower. cbn [map]. split.
  - intros H. apply cons_eq in H. destruct H as [H1 H2]. split; [symmetry; exact H1|exact H2].
  - intros [-> ->]. reflexivity.
Qed.
Lemma upper_cps_length cs : (length cs <= length (upper_cps cs))%nat /\ (In 0xDF cs -> (length cs < length (upper_cps cs))%nat).
Proof.
  induction cs as [|c cs [IH1 IH2]]; [split; [cbn; lia|intros []]|]. unfold upper_cps in *. cbn [flat_map]. rewrite app_length.
  destruct (N.eqb_spec c 0xDF) as [->|Hc]; cbn [length]; (split; [lia|]); [lia|]. intros [->|H]; [congruence|]. specialize (IH2 H). lia.
Qed.
Lemma p_c87_upper : forall s cs, Text s cs -> Forall (fun c => c <= 0x10FFFF) cs ->
  exists r e, to_upper_str s = Ok r /\ ci_equal s r = Ok e /\ (e = true <-> ~ In 0xDF cs).
Proof.
  intros s cs HT HR. destruct (to_upper_str_ok s cs HT HR) as (r & E & Hr). exists r.
  destruct (p_c47_text s cs r (upper_cps cs) HT (Encoded_Text _ _ Hr (upper_cps_bound _ HR))) as (e & He & HI). exists e. split; [exact E|]. split; [exact He|].
  rewrite HI. unfold fold_case. split.
  - intros H Hin. apply (f_equal (@length N)) in H. rewrite !map_length in H. pose proof (proj2 (upper_cps_length cs) Hin). lia.
  - clear. induction cs as [|c cs IH]; [reflexivity|]. intros Hn. cbn [In] in Hn. unfold upper_cps in *. cbn [flat_map map].
    destruct (N.eqb_spec c 0xDF) as [->|Hc]; [tauto|]. cbn [app map]. rewrite simple_upper_twice. f_equal. apply IH. tauto.
Qed.
Fixpoint title_safe (prev : bool) (cs : list N) : Prop :=
  match cs with
  | [] => True
  | c :: cs' => (c = 0xDF -> prev = true) /\ (In c exceptions -> prev = false) /\ title_safe (is_letter c) cs'
  end.
Lemma is_letter_DF : is_letter 0xDF = true.
Proof. vm_cast_no_check (eq_refl true). Qed.
Lemma is_letter_exc c : In c exceptions -> is_letter c = true.
Proof. assert (forallb is_letter exceptions = true) as H by (vm_cast_no_check (eq_refl true)). rewrite forallb_forall in H. apply H. Qed.
Lemma upper_DF : simple_upper 0xDF = 0xDF.
Proof. vm_cast_no_check (eq_refl 0xDF). Qed.
Lemma upper_S : simple_upper 0x53 = 0x53.
Proof. vm_cast_no_check (eq_refl 0x53). Qed.
Lemma title_safe_spec cs : forall prev, fold_case cs = fold_case (title_cps is_letter prev cs) <-> title_safe prev cs.
Proof.
  unfold fold_case. induction cs as [|c cs IH]; intros prev; [split; [intros _; exact I|reflexivity]|]. cbn [title_cps title_safe].
  assert (K : forall d r, map simple_upper (c :: cs) = map simple_upper ((d :: []) ++ r) <-> simple_upper c = simple_upper d /\ map simple_upper cs = map simple_upper r).
  { intros d r. cbn [app map]. split; [intros H; now apply cons_eq|intros [-> ->]; reflexivity]. }
  destruct (is_letter c) eqn:El.
  - destruct prev.
    + rewrite K, IH. split.
      * intros [H1 H2]. split; [reflexivity|]. split; [|exact H2]. intros Hin. exfalso. now apply (proj1 (upper_lower c) (eq_sym H1)).
      * intros (_ & H1 & H2). split; [|exact H2]. symmetry. apply upper_lower. intros Hin. now specialize (H1 Hin).
    + destruct (N.eqb_spec c 0xDF) as [->|Hc].
      * split; [|intros [H _]; now specialize (H eq_refl)]. intros H. exfalso. cbn [app map] in H. apply cons_eq in H. destruct H as [H _].
        rewrite upper_DF, upper_S in H. discriminate.
      * rewrite K, IH, upper_title. split; [intros [_ H]|intros (_ & _ & H)]; [split; [intros ->; congruence|split; [reflexivity|exact H]]|split; [reflexivity|exact H]].
  - rewrite (K c (title_cps is_letter false cs)), IH. split; [intros [_ H]|intros (_ & _ & H); split; [reflexivity|exact H]].
    split; [intros ->; now rewrite is_letter_DF in El|]. split; [|exact H]. intros Hin. now rewrite (is_letter_exc c Hin) in El.
Qed.
Lemma title_safe_positions cs : forall prev, title_safe prev cs <->
  forall u c v, cs = u ++ c :: v ->
    (c = 0xDF -> ends_with_letter is_letter u \/ (u = [] /\ prev = true)) /\
    (In c exceptions -> ~ (ends_with_letter is_letter u \/ (u = [] /\ prev = true))).
Proof.
  induction cs as [|c cs IH]; intros prev.
  - split; [|intros _; exact I]. intros _ u c v E. now destruct u.
  - cbn [title_safe]. rewrite IH. split.
    + intros (H1 & H2 & H3) u d v E. destruct u as [|x u].
      * cbn [app] in E. apply cons_eq in E. destruct E as [<- _]. split; [intros H; right; split; [reflexivity|now apply H1]|].
        intros Hin [(w & l & E & _)|[_ E]]; [now destruct w|]. rewrite (H2 Hin) in E. discriminate.
      * cbn [app] in E. apply cons_eq in E. destruct E as [-> E]. destruct (H3 u d v E) as [G1 G2].
        assert (F : ends_with_letter is_letter u \/ u = [] /\ is_letter x = true <-> ends_with_letter is_letter (x :: u) \/ x :: u = [] /\ prev = true).
        { split.
          - intros [(w & l & -> & Hl)|[-> Hl]]; left; [exists (x :: w), l|exists [], x]; auto.
          - intros [(w & l & Ew & Hl)|[Ew _]]; [|discriminate]. destruct w as [|y w]; cbn [app] in Ew; apply cons_eq in Ew; destruct Ew as [-> ->]; [right; auto|left; exists w, l; auto]. }
        rewrite <- F. auto.
    + intros H. destruct (H [] c cs eq_refl) as [H1 H2]. assert (N0 : ~ ends_with_letter is_letter []) by (intros (w & l & E & _); now destruct w). split; [|split].
      * intros E. destruct (H1 E) as [G|[_ G]]; [contradiction|exact G].
      * intros Hin. specialize (H2 Hin). destruct prev; [exfalso; apply H2; auto|reflexivity].
      * intros u d v E. destruct (H (c :: u) d v) as [G1 G2]; [now rewrite E|].
        assert (F : ends_with_letter is_letter u \/ u = [] /\ is_letter c = true <-> ends_with_letter is_letter (c :: u) \/ c :: u = [] /\ prev = true).
        { split.
          - intros [(w & l & -> & Hl)|[-> Hl]]; left; [exists (c :: w), l|exists [], c]; auto.
          - intros [(w & l & Ew & Hl)|[Ew _]]; [|discriminate]. destruct w as [|y w]; cbn [app] in Ew; apply cons_eq in Ew; destruct Ew as [-> ->]; [right; auto|left; exists w, l; auto]. }
        rewrite F. auto.
Qed.
Lemma p_c87_title : forall s cs, Text s cs -> Forall (fun c => c <= 0x10FFFF) cs ->
  exists r e, to_title_str s = Ok r /\ ci_equal s r = Ok e /\
    (e = true <-> forall u c v, cs = u ++ c :: v ->
       (c = 0xDF -> ends_with_letter is_letter u) /\ (In c exceptions -> ~ ends_with_letter is_letter u)).
Proof.
  intros s cs HT HR. destruct (to_title_str_ok s cs HT HR) as (r & E & Hr). exists r.
  destruct (p_c47_text s cs r _ HT (Encoded_Text _ _ Hr (title_cps_bound _ _ _ HR))) as (e & He & HI). exists e. split; [exact E|]. split; [exact He|].
  rewrite HI, title_safe_spec, title_safe_positions.
  assert (F : forall u, ends_with_letter is_letter u \/ u = [] /\ false = true <-> ends_with_letter is_letter u) by (intros u; split; [intros [H|[_ H]]; [exact H|discriminate]|auto]).
  split; intros H u c v Ec; specialize (H u c v Ec); [rewrite F in H|rewrite F]; exact H.
Qed.
(** Texts that are equal when case is ignored have the same upper case form. *)
Lemma p_c87_same : forall a cs b ds, Text a cs -> Text b ds -> Forall (fun c => c <= 0x10FFFF) cs -> Forall (fun c => c <= 0x10FFFF) ds ->
  (ci_equal a b = Ok true -> to_upper_str a = to_upper_str b) /\
  (~ In 0xDF cs -> ~ In 0xDF ds -> to_upper_str a = to_upper_str b -> ci_equal a b = Ok true).
Proof.
  intros a cs b ds Ha Hb HRa HRb. destruct (p_c47_text a cs b ds Ha Hb) as (e & He & HI). rewrite He.
  destruct (to_upper_str_ok a cs Ha HRa) as (p & Ep & Hp), (to_upper_str_ok b ds Hb HRb) as (q & Eq & Hq). split.
  - intros [= ->]. rewrite Ep, Eq. f_equal. apply (Encoded_fun p (upper_cps cs)); [exact Hp|]. replace (upper_cps cs) with (upper_cps ds); [exact Hq|].
    symmetry. assert (fold_case cs = fold_case ds) as F by now apply HI. clear -F. revert ds F. induction cs as [|c cs IH]; intros [|d ds] F; try discriminate; [reflexivity|].
    unfold fold_case in *. cbn [map] in F. apply cons_eq in F. destruct F as [F1 F2]. unfold upper_cps in *. cbn [flat_map]. f_equal; [|now apply IH].
    destruct (N.eqb_spec c 0xDF) as [->|Hc], (N.eqb_spec d 0xDF) as [->|Hd]; [reflexivity|..].
    + exfalso. apply (simple_upper_not_DF d Hd). now rewrite <- F1.
    + exfalso. apply (simple_upper_not_DF c Hc). now rewrite F1.
    + now rewrite F1.
  - intros Hc Hd E. f_equal. apply HI. rewrite Ep, Eq in E. assert (p = q) as <- by congruence.
    assert (upper_cps cs = upper_cps ds) as F.
    { apply (Text_fun p); [apply Encoded_Text|apply Encoded_Text]; auto using upper_cps_bound. }
    assert (K : forall l, ~ In 0xDF l -> upper_cps l = fold_case l).
    { clear. induction l as [|c l IH]; [reflexivity|]. intros H. cbn [In] in H. unfold upper_cps, fold_case in *. cbn [flat_map map]. rewrite (proj2 (N.eqb_neq c 0xDF)) by tauto. cbn [app]. f_equal. apply IH. tauto. }
    rewrite <- !K; auto.
Qed.
