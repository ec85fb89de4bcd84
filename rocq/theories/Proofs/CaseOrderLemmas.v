(** C140: of two case conversions the last one counts. *)
From Verif Require Import Base Spec.Category Spec.UnicodeData Spec.Case Spec.Utf8Spec Spec.CaseClasses Spec.CaseOrder
  Model.Decode Model.Encode Model.CharClass Model.ConvertCase
  Proofs.Utf8Lemmas Proofs.DecodeLemmas Proofs.SkipLemmas Proofs.EncodeLemmas Proofs.CodepointLemmas Proofs.CharClassLemmas Proofs.CaseLemmas Proofs.CaseStringLemmas Proofs.CaseRelate Proofs.UnicodeProps Proofs.ReplaceCpLemmas Proofs.CaseClassLemmas Tables.UnicodeDataTables.
From Coq Require Import ZifyBool ZifyNat ZifyN.

Definition memb (l : list N) (c : N) : bool := existsb (N.eqb c) l.
Lemma memb_spec l c : memb l c = true <-> In c l.
Proof.
  unfold memb. rewrite existsb_exists. split; [intros (x & H & E); apply N.eqb_eq in E; now subst|]. intros H. exists c. split; [exact H|apply N.eqb_refl].
Qed.
(** A conversion after another, and which code points it treats differently. *)
Lemma after_ind table (f : N -> N) l c :
  forallb (fun p => memb l (fst p) || (f (snd p) =? f (fst p))) table = true ->
  forallb (fun c => negb (f (mapped table c) =? f c)) l = true ->
  (f (mapped table c) = f c <-> ~ In c l).
Proof.
  intros H1 H2. split.
  - intros E HI. rewrite forallb_forall in H2. specialize (H2 c HI). rewrite E, N.eqb_refl in H2. discriminate.
  - intros HN. apply (mapped_ind (fun c d => ~ In c l -> f d = f c) (fun p => memb l (fst p) || (f (snd p) =? f (fst p))) table c H1); [|reflexivity|exact HN].
    intros p Hp HN'. apply Bool.orb_prop in Hp as [Hp|Hp]; [apply memb_spec in Hp; contradiction|now apply N.eqb_eq].
Qed.
Lemma up_lo c : simple_upper (simple_lower c) = simple_upper c <-> ~ In c lone_capitals.
Proof. unfold simple_lower. apply after_ind; [vm_cast_no_check (eq_refl true)|vm_cast_no_check (eq_refl true)]. Qed.
Lemma lo_up c : simple_lower (simple_upper c) = simple_lower c <-> ~ In c lone_smalls.
Proof. unfold simple_upper. apply after_ind; [vm_cast_no_check (eq_refl true)|vm_cast_no_check (eq_refl true)]. Qed.
Lemma up_ti c : simple_upper (simple_title c) = simple_upper c.
Proof. unfold simple_title. apply (after_ind UD_TITLE simple_upper []); [vm_cast_no_check (eq_refl true)|reflexivity|intros []]. Qed.
Lemma lo_ti c : simple_lower (simple_title c) = simple_lower c <-> ~ In c lone_smalls.
Proof. unfold simple_title. apply after_ind; [vm_cast_no_check (eq_refl true)|vm_cast_no_check (eq_refl true)]. Qed.
Lemma ti_lo c : simple_title (simple_lower c) = simple_title c <-> ~ In c (lone_capitals ++ georgian_capitals).
Proof. unfold simple_lower. apply after_ind; [vm_cast_no_check (eq_refl true)|vm_cast_no_check (eq_refl true)]. Qed.
Lemma ti_up c : simple_title (simple_upper c) = simple_title c <-> ~ In c georgian_smalls.
Proof. unfold simple_upper. apply after_ind; [vm_cast_no_check (eq_refl true)|vm_cast_no_check (eq_refl true)]. Qed.

Lemma lower_w c : c < 0x100000000 -> simple_lower c < 0x100000000.
Proof. intros H. destruct (N.le_gt_cases c 0x10FFFF) as [L|G]; [pose proof (simple_lower_bound c L); lia|now rewrite simple_lower_above]. Qed.
Lemma upper_w c : c < 0x100000000 -> simple_upper c < 0x100000000.
Proof. intros H. destruct (N.le_gt_cases c 0x10FFFF) as [L|G]; [pose proof (simple_upper_bound c L); lia|now rewrite simple_upper_above]. Qed.
Lemma title_w c : c < 0x100000000 -> simple_title c < 0x100000000.
Proof. intros H. destruct (N.le_gt_cases c 0x10FFFF) as [L|G]; [pose proof (simple_title_bound c L); lia|now rewrite simple_title_above]. Qed.

Lemma p_c140_codepoints c : c < 0x100000000 ->
  (to_upper (to_lower c) = to_upper c <-> ~ In c lone_capitals) /\
  (to_lower (to_upper c) = to_lower c <-> ~ In c lone_smalls) /\
  to_upper (to_title c) = to_upper c /\
  (to_lower (to_title c) = to_lower c <-> ~ In c lone_smalls) /\
  (to_title (to_lower c) = to_title c <-> ~ In c (lone_capitals ++ georgian_capitals)) /\
  (to_title (to_upper c) = to_title c <-> ~ In c georgian_smalls).
Proof.
  intros H. pose proof (lower_w c H) as HL. pose proof (upper_w c H) as HU. pose proof (title_w c H) as HT.
  rewrite (to_lower_spec c H), (to_upper_spec c H), (to_title_spec c H).
  rewrite (to_upper_spec _ HL), (to_upper_spec _ HT), (to_lower_spec _ HU), (to_lower_spec _ HT), (to_title_spec _ HL), (to_title_spec _ HU).
  split; [apply up_lo|]. split; [apply lo_up|]. split; [apply up_ti|]. split; [apply lo_ti|]. split; [apply ti_lo|apply ti_up].
Qed.

(** *** Lists of code points *)
Lemma app_long {A} (a b c d : list A) : a ++ b = c ++ d -> (length c <= length a)%nat -> (length d <= length b)%nat -> a = c /\ b = d.
Proof.
  intros E H1 H2. assert (L := f_equal (@length A) E). rewrite !app_length in L. assert (length a = length c) by lia.
  revert c E H H1 L. induction a as [|x a IH]; intros [|y c] E H H1 L; cbn [length] in *; try lia; [now split|].
  cbn [app] in E. injection E as -> E. destruct (IH c E) as [-> ->]; try lia. now split.
Qed.
(** One code point in upper case. *)
Definition up1 (c : N) : list N := if c =? 0xDF then [0x53; 0x53] else [simple_upper c].
Lemma upper_cps_cons c cs : upper_cps (c :: cs) = up1 c ++ upper_cps cs.
Proof. reflexivity. Qed.
Lemma up1_lower c : (length (up1 c) <= length (up1 (simple_lower c)))%nat /\ (up1 (simple_lower c) = up1 c <-> ~ In c lone_capitals).
Proof.
  unfold up1. destruct (N.eqb_spec c 0xDF) as [->|Hc].
  - split; [vm_compute; lia|]. split; [|reflexivity]. intros _ HI. cbn in HI. lia.
  - split; [destruct (_ =? _); cbn; lia|]. destruct (N.eqb_spec (simple_lower c) 0xDF) as [E|E].
    + rewrite <- up_lo, E. split; [discriminate|]. intros HE. exfalso. revert HE. change (simple_upper 0xDF) with 0xDF.
      intros HE. symmetry in HE. now apply simple_upper_not_DF in HE.
    + rewrite <- up_lo. split; [now intros [= ->]|now intros ->].
Qed.
Lemma up_lo_cps cs : (length (upper_cps cs) <= length (upper_cps (lower_cps cs)))%nat /\
  (upper_cps (lower_cps cs) = upper_cps cs <-> Forall (fun c => ~ In c lone_capitals) cs).
Proof.
  induction cs as [|c cs [IL IH]]; [split; [auto|split; [constructor|reflexivity]]|]. unfold lower_cps. cbn [map]. fold (lower_cps cs).
  rewrite !upper_cps_cons. destruct (up1_lower c) as [HL HE]. split; [rewrite !app_length; lia|]. split.
  - intros E. apply app_long in E as [E1 E2]; [|exact HL|exact IL]. constructor; [now apply HE|now apply IH].
  - intros HF. inversion HF; subst. f_equal; [now apply HE|now apply IH].
Qed.
Lemma low1_upper c : (1 <= length (lower_cps (up1 c)))%nat /\ (lower_cps (up1 c) = [simple_lower c] <-> c <> 0xDF /\ ~ In c lone_smalls).
Proof.
  unfold up1. destruct (N.eqb_spec c 0xDF) as [->|Hc]; cbn [lower_cps map length].
  - split; [lia|]. split; [discriminate|]. intros [[] _]. reflexivity.
  - split; [lia|]. rewrite <- lo_up. split; [now intros [= ->]|intros [_ ->]; reflexivity].
Qed.
Lemma lower_cps_app a b : lower_cps (a ++ b) = lower_cps a ++ lower_cps b.
Proof. apply map_app. Qed.
Lemma lo_up_cps cs : (length cs <= length (lower_cps (upper_cps cs)))%nat /\
  (lower_cps (upper_cps cs) = lower_cps cs <-> Forall (fun c => c <> 0xDF /\ ~ In c lone_smalls) cs).
Proof.
  induction cs as [|c cs [IL IH]]; [split; [auto|split; [constructor|reflexivity]]|]. rewrite upper_cps_cons, lower_cps_app.
  change (lower_cps (c :: cs)) with ([simple_lower c] ++ lower_cps cs). destruct (low1_upper c) as [HL HE]. split; [rewrite app_length; cbn [length]; lia|]. split.
  - intros E. apply app_long in E as [E1 E2]; [|exact HL|unfold lower_cps at 1; rewrite map_length; exact IL]. constructor; [now apply HE|now apply IH].
  - intros HF. inversion HF; subst. f_equal; [now apply HE|now apply IH].
Qed.

(** *** Title case *)
(** What becomes of one code point; [prev]: after a letter. *)
Definition ti1 (prev : bool) (c : N) : list N :=
  if is_letter c then (if prev then [simple_lower c] else if c =? 0xDF then [0x53; 0x73] else [simple_title c]) else [c].
Lemma title_cons prev c cs : title_cps is_letter prev (c :: cs) = ti1 prev c ++ title_cps is_letter (is_letter c) cs.
Proof. unfold ti1. cbn [title_cps]. destruct (is_letter c); reflexivity. Qed.
Lemma ends_nil : ~ ends_with_letter is_letter [].
Proof. intros (w & l & E & _). destruct w; discriminate. Qed.
Lemma ends_snoc u c : ends_with_letter is_letter (u ++ [c]) <-> is_letter c = true.
Proof.
  split; [|intros H; now exists u, c]. intros (w & l & E & H). apply app_inj_tail in E as [_ ->]. exact H.
Qed.
(** Conditions on all places of a text. *)
Definition places (Q : bool -> N -> Prop) (u cs : list N) : Prop :=
  forall a c b, cs = a ++ c :: b -> forall f, (f = true <-> ends_with_letter is_letter (u ++ a)) -> Q f c.
Lemma places_nil Q u : places Q u [].
Proof. intros a c b E. destruct a; discriminate. Qed.
Lemma places_cons Q u f c cs : (f = true <-> ends_with_letter is_letter u) -> (places Q u (c :: cs) <-> Q f c /\ places Q (u ++ [c]) cs).
Proof.
  intros Hf. split.
  - intros H. split; [apply (H [] c cs eq_refl); now rewrite app_nil_r|]. intros a d b E f' Hf'. apply (H (c :: a) d b); [now rewrite E|].
    now rewrite <- app_assoc in Hf'.
  - intros [H1 H2] a d b E f' Hf'. destruct a as [|x a]; cbn [app] in E; injection E as -> E.
    + rewrite app_nil_r in Hf'. replace f' with f; [exact H1|]. destruct f, f'; tauto || (exfalso; assert (true = true) by reflexivity; intuition discriminate).
    + apply (H2 a d b E). now rewrite <- app_assoc.
Qed.
Lemma flag_after u c : is_letter c = true <-> ends_with_letter is_letter (u ++ [c]).
Proof. symmetry. apply ends_snoc. Qed.

(** A text function that works code point by code point, compared with another. *)
Section Compare.
  Context (F G : bool -> N -> list N) (Q : bool -> N -> Prop).
  Context (HL : forall f c, (length (G f c) <= length (F f c))%nat) (HE : forall f c, F f c = G f c <-> Q f c).
  Fixpoint run (H : bool -> N -> list N) (f : bool) (cs : list N) : list N :=
    match cs with [] => [] | c :: cs' => H f c ++ run H (is_letter c) cs' end.
  Lemma run_compare cs : forall u f, (f = true <-> ends_with_letter is_letter u) ->
    (length (run G f cs) <= length (run F f cs))%nat /\ (run F f cs = run G f cs <-> places Q u cs).
  Proof.
    induction cs as [|c cs IH]; intros u f Hf; cbn [run]; [split; [auto|]; split; [intros _; apply places_nil|reflexivity]|].
    destruct (IH (u ++ [c]) (is_letter c) (flag_after u c)) as [IL IE]. rewrite (places_cons _ _ _ _ _ Hf). split; [rewrite !app_length; specialize (HL f c); lia|]. split.
    - intros E. apply app_long in E as [E1 E2]; [|apply HL|exact IL]. split; [now apply HE|now apply IE].
    - intros [H1 H2]. f_equal; [now apply HE|now apply IE].
  Qed.
End Compare.
Lemma title_run f cs : title_cps is_letter f cs = run ti1 f cs.
Proof. revert f. induction cs as [|c cs IH]; intros f; [reflexivity|]. rewrite title_cons, IH. reflexivity. Qed.
Lemma run_upper f cs : upper_cps cs = run (fun _ => up1) f cs.
Proof. revert f. induction cs as [|c cs IH]; intros f; [reflexivity|]. rewrite upper_cps_cons, (IH (is_letter c)). reflexivity. Qed.
Lemma run_lower f cs : lower_cps cs = run (fun _ c => [simple_lower c]) f cs.
Proof. revert f. induction cs as [|c cs IH]; intros f; [reflexivity|]. change (lower_cps (c :: cs)) with ([simple_lower c] ++ lower_cps cs). rewrite (IH (is_letter c)). reflexivity. Qed.
Lemma run_map (g : list N -> list N) H f cs : g [] = [] -> (forall a b, g (a ++ b) = g a ++ g b) -> g (run H f cs) = run (fun f c => g (H f c)) f cs.
Proof. intros H0 HA. revert f. induction cs as [|c cs IH]; intros f; [exact H0|]. cbn [run]. now rewrite HA, IH. Qed.

Lemma title_not_DF c : c <> 0xDF -> simple_title c <> 0xDF.
Proof.
  unfold simple_title. apply (mapped_ind (fun c d => c <> 0xDF -> d <> 0xDF) (fun p => negb (snd p =? 0xDF))); [vm_cast_no_check (eq_refl true)| |auto].
  intros p Hp _. apply Bool.negb_true_iff in Hp. now apply N.eqb_neq.
Qed.
Lemma letter_capital c : In c lone_capitals -> is_letter c = true.
Proof. intros H. assert (HF : forallb is_letter lone_capitals = true) by (vm_cast_no_check (eq_refl true)). rewrite forallb_forall in HF. now apply HF. Qed.

(** Upper case of the title case. *)
Lemma up_ti1 f c : (length (up1 c) <= length (upper_cps (ti1 f c)))%nat /\ (upper_cps (ti1 f c) = up1 c <-> (In c lone_capitals -> f = false)).
Proof.
  assert (K : forall d, upper_cps [d] = up1 d) by (intros d; unfold upper_cps; cbn [flat_map]; now rewrite app_nil_r).
  unfold ti1. destruct (is_letter c) eqn:L.
  - destruct f.
    + rewrite K. destruct (up1_lower c) as [H1 H2]. split; [exact H1|]. rewrite H2. split; [tauto|]. intros H HI. specialize (H HI). discriminate.
    + destruct (N.eqb_spec c 0xDF) as [->|Hc]; [split; [vm_compute; lia|]; split; [auto|reflexivity]|].
      rewrite K. unfold up1. rewrite (proj2 (N.eqb_neq _ _) Hc), (proj2 (N.eqb_neq _ _) (title_not_DF c Hc)), up_ti. split; [auto|]. split; [auto|reflexivity].
  - rewrite K. split; [auto|]. split; [|reflexivity]. intros _ HI. apply letter_capital in HI. congruence.
Qed.
Lemma up_ti_cps cs : upper_cps (title_cps is_letter false cs) = upper_cps cs <-> places (fun f c => In c lone_capitals -> f = false) [] cs.
Proof.
  rewrite title_run, (run_map upper_cps) by (reflexivity || apply upper_cps_app). rewrite (run_upper false cs).
  apply (run_compare (fun f c => upper_cps (ti1 f c)) (fun _ => up1) _ (fun f c => proj1 (up_ti1 f c)) (fun f c => proj2 (up_ti1 f c))).
  split; [discriminate|]. intros H. destruct (ends_nil H).
Qed.
(** Lower case of the title case. *)
Lemma lo_ti1 f c : (length [simple_lower c] <= length (lower_cps (ti1 f c)))%nat /\
  (lower_cps (ti1 f c) = [simple_lower c] <-> (is_letter c = true -> f = false -> c <> 0xDF /\ ~ In c lone_smalls)).
Proof.
  unfold ti1. destruct (is_letter c) eqn:L.
  - destruct f; cbn [lower_cps map length].
    + split; [auto|]. rewrite simple_lower_twice. split; [discriminate|reflexivity].
    + destruct (N.eqb_spec c 0xDF) as [->|Hc]; [split; [unfold lower_cps; rewrite map_length; cbn [length]; lia|]; split; [intros E; apply (f_equal (@length N)) in E; unfold lower_cps in E; rewrite map_length in E; discriminate E|]; intros H; destruct (H eq_refl eq_refl) as [[] _]; reflexivity|].
      change (lower_cps [simple_title c]) with [simple_lower (simple_title c)]. split; [auto|]. rewrite <- lo_ti. split; [intros E _ _; injection E as E; auto|].
      intros H. destruct (H eq_refl eq_refl) as [_ E]. f_equal. exact E.
  - split; [auto|]. split; [discriminate|reflexivity].
Qed.
Lemma lo_ti_cps cs : lower_cps (title_cps is_letter false cs) = lower_cps cs <->
  places (fun f c => is_letter c = true -> f = false -> c <> 0xDF /\ ~ In c lone_smalls) [] cs.
Proof.
  rewrite title_run, (run_map lower_cps) by (reflexivity || apply lower_cps_app). rewrite (run_lower false cs).
  apply (run_compare (fun f c => lower_cps (ti1 f c)) (fun _ c => [simple_lower c]) _ (fun f c => proj1 (lo_ti1 f c)) (fun f c => proj2 (lo_ti1 f c))).
  split; [discriminate|]. intros H. destruct (ends_nil H).
Qed.
(** Title case of the lower case. *)
Lemma letter_lower c : is_letter (simple_lower c) = is_letter c.
Proof. pose proof (lower_answers c) as H. unfold caseless_predicates in H. inversion H. congruence. Qed.
Lemma ti_lo_run f cs : title_cps is_letter f (lower_cps cs) = run (fun f c => ti1 f (simple_lower c)) f cs.
Proof.
  revert f. induction cs as [|c cs IH]; intros f; [reflexivity|]. change (lower_cps (c :: cs)) with (simple_lower c :: lower_cps cs).
  rewrite title_cons, letter_lower, IH. reflexivity.
Qed.
Lemma ti_lo1 f c : (length (ti1 f c) <= length (ti1 f (simple_lower c)))%nat /\
  (ti1 f (simple_lower c) = ti1 f c <->
   (is_letter c = false -> simple_lower c = c) /\ (is_letter c = true -> f = false -> ~ In c (lone_capitals ++ georgian_capitals))).
Proof.
  unfold ti1. rewrite letter_lower. destruct (is_letter c) eqn:L.
  - destruct f; [split; [auto|]; rewrite simple_lower_twice; split; [intros _; split; discriminate|reflexivity]|].
    destruct (N.eqb_spec c 0xDF) as [->|Hc].
    + change (simple_lower 0xDF) with 0xDF. cbn [N.eqb Pos.eqb]. split; [auto|]. split; [|reflexivity]. intros _. split; [discriminate|]. intros _ _.
      assert (HF : negb (memb (lone_capitals ++ georgian_capitals) 0xDF) = true) by (vm_cast_no_check (eq_refl true)).
      apply Bool.negb_true_iff in HF. rewrite <- memb_spec. congruence.
    + split; [destruct (_ =? _); cbn; lia|]. destruct (N.eqb_spec (simple_lower c) 0xDF) as [E|E].
      * split; [discriminate|]. intros [_ H]. specialize (H eq_refl eq_refl). apply ti_lo in H. rewrite E in H. change (simple_title 0xDF) with 0xDF in H.
        symmetry in H. now apply title_not_DF in H.
      * rewrite <- ti_lo. split; [intros [= ->]; split; [discriminate|auto]|]. intros [_ H]. now rewrite H.
  - split; [auto|]. split; [intros [= E]; split; [auto|discriminate]|]. intros [H _]. now rewrite H.
Qed.
Lemma ti_lo_cps cs : title_cps is_letter false (lower_cps cs) = title_cps is_letter false cs <->
  places (fun f c => (is_letter c = false -> simple_lower c = c) /\ (is_letter c = true -> f = false -> ~ In c (lone_capitals ++ georgian_capitals))) [] cs.
Proof.
  rewrite ti_lo_run, title_run. apply (run_compare (fun f c => ti1 f (simple_lower c)) ti1 _ (fun f c => proj1 (ti_lo1 f c)) (fun f c => proj2 (ti_lo1 f c))).
  split; [discriminate|]. intros H. destruct (ends_nil H).
Qed.
(** Title case of the upper case: here the flags can differ after U+0345. *)
Lemma title_cps_length_from f cs : (length cs <= length (title_cps is_letter f cs))%nat.
Proof.
  revert f. induction cs as [|c cs IH]; intros f; [auto|]. rewrite title_cons, app_length. specialize (IH (is_letter c)). unfold ti1.
  destruct (is_letter c), f; try destruct (c =? 0xDF); cbn [length]; lia.
Qed.
Lemma letter_upper c : c <> 0x345 -> is_letter (simple_upper c) = is_letter c.
Proof. intros Hc. pose proof (upper_answers c Hc) as H. unfold caseless_predicates in H. inversion H. congruence. Qed.
Lemma ti_up_cons f c cs : title_cps is_letter f (upper_cps (c :: cs)) = title_cps is_letter f (up1 c) ++ title_cps is_letter (is_letter (if c =? 0xDF then 0x53 else simple_upper c)) (upper_cps cs).
Proof.
  rewrite upper_cps_cons. unfold up1. destruct (c =? 0xDF); cbn [app]; rewrite !title_cons, <- ?app_assoc; cbn [title_cps]; rewrite ?app_nil_r; reflexivity.
Qed.
Lemma ti_up_length cs : forall f f', (length (title_cps is_letter f cs) <= length (title_cps is_letter f' (upper_cps cs)))%nat.
Proof.
  induction cs as [|c cs IH]; intros f f'; [auto|]. rewrite ti_up_cons, title_cons, !app_length. specialize (IH (is_letter c) (is_letter (if c =? 0xDF then 0x53 else simple_upper c))).
  assert (length (ti1 f c) <= length (title_cps is_letter f' (up1 c)))%nat; [|lia].
  pose proof (title_cps_length_from f' (up1 c)) as H. unfold ti1. unfold up1 in *. destruct (is_letter c), f; destruct (c =? 0xDF); cbn [length] in *; lia.
Qed.
Definition title_of_upper (f : bool) (c : N) : Prop :=
  (is_letter c = false -> simple_upper c = c) /\
  (is_letter c = true -> (f = true -> c <> 0xDF /\ ~ In c lone_smalls) /\ (f = false -> ~ In c georgian_smalls)).
Lemma ti_up1 f c : title_cps is_letter f (up1 c) = ti1 f c <-> title_of_upper f c.
Proof.
  assert (K : forall d, title_cps is_letter f [d] = ti1 f d) by (intros d; rewrite title_cons; cbn [title_cps]; now rewrite app_nil_r).
  unfold up1, title_of_upper. destruct (N.eqb_spec c 0xDF) as [->|Hc].
  - assert (L : is_letter 0xDF = true) by (vm_compute; reflexivity). rewrite L. destruct f.
    + split; [intros E; vm_compute in E; discriminate|]. intros [_ H]. destruct (H eq_refl) as [[[] _] _]; reflexivity.
    + split; [|intros _; vm_compute; reflexivity]. intros _. split; [discriminate|]. intros _. split; [discriminate|]. intros _.
      assert (HF : negb (memb georgian_smalls 0xDF) = true) by (vm_cast_no_check (eq_refl true)). apply Bool.negb_true_iff in HF. rewrite <- memb_spec. congruence.
  - rewrite K. destruct (N.eqb_spec c 0x345) as [->|H5].
    { assert (L : is_letter 0x345 = false) by (vm_compute; reflexivity). rewrite L. split; [intros E; destruct f; vm_compute in E; discriminate|].
      intros [H _]. specialize (H eq_refl). vm_compute in H. discriminate. }
    unfold ti1. rewrite (letter_upper c H5). destruct (is_letter c).
    + destruct f.
      * rewrite <- lo_up. split; [intros [= E]; split; [discriminate|]; intros _; split; [auto|discriminate]|]. intros [_ H]. destruct (H eq_refl) as [H' _]. destruct (H' eq_refl) as [_ ->]. reflexivity.
      * rewrite (proj2 (N.eqb_neq _ _) Hc), (proj2 (N.eqb_neq _ _) (simple_upper_not_DF c Hc)). rewrite <- ti_up.
        split; [intros [= E]; split; [discriminate|]; intros _; split; [discriminate|auto]|]. intros [_ H]. destruct (H eq_refl) as [_ H']. now rewrite (H' eq_refl).
    + split; [intros [= E]; split; [auto|discriminate]|]. intros [H _]. now rewrite H.
Qed.
Lemma ti_up_cps cs : forall u f, (f = true <-> ends_with_letter is_letter u) ->
  (title_cps is_letter f (upper_cps cs) = title_cps is_letter f cs <-> places title_of_upper u cs).
Proof.
  induction cs as [|c cs IH]; intros u f Hf; [split; [intros _; apply places_nil|reflexivity]|].
  rewrite ti_up_cons, title_cons, (places_cons _ _ _ _ _ Hf).
  assert (HFL : title_of_upper f c -> is_letter (if c =? 0xDF then 0x53 else simple_upper c) = is_letter c).
  { intros [H _]. destruct (N.eqb_spec c 0xDF) as [->|Hc]; [vm_compute; reflexivity|]. destruct (N.eqb_spec c 0x345) as [->|H5]; [|now apply letter_upper].
    assert (L : is_letter 0x345 = false) by (vm_compute; reflexivity). now rewrite (H L). }
  rewrite <- (ti_up1 f c) in *. split.
  - intros E. apply app_long in E as [E1 E2].
    + split; [exact E1|]. rewrite (HFL E1) in E2. apply (IH (u ++ [c]) (is_letter c) (flag_after u c)). exact E2.
    + pose proof (title_cps_length_from f (up1 c)) as H. unfold ti1. unfold up1 in *. destruct (is_letter c), f; destruct (c =? 0xDF); cbn [length] in *; lia.
    + apply ti_up_length.
  - intros [H1 H2]. rewrite H1, (HFL H1). f_equal. now apply (IH (u ++ [c]) (is_letter c) (flag_after u c)).
Qed.

(** *** Strings *)
Lemma Encoded_eq r r' cs cs' : Encoded r cs -> Encoded r' cs' -> inrange cs -> inrange cs' -> (r = r' <-> cs = cs').
Proof.
  intros H H' R R'. split.
  - intros ->. apply (Text_fun r'); now apply Encoded_Text.
  - intros ->. eapply Encoded_fun; eauto.
Qed.
Lemma ok_eq {A} (a b : A) : @Ok A a = Ok b <-> a = b.
Proof. split; [now intros [= ->]|now intros ->]. Qed.
(** A conversion after another. *)
Lemma two (F G : str -> outcome str) (f g : list N -> list N) s cs :
  (forall s cs, Text s cs -> inrange cs -> exists r, F s = Ok r /\ Encoded r (f cs)) -> (forall cs, inrange cs -> inrange (f cs)) ->
  (forall s cs, Text s cs -> inrange cs -> exists r, G s = Ok r /\ Encoded r (g cs)) -> (forall cs, inrange cs -> inrange (g cs)) ->
  Text s cs -> inrange cs -> ((let* r := F s in G r) = G s <-> g (f cs) = g cs).
Proof.
  intros HF RF HG RG HT HR. destruct (HF s cs HT HR) as (r & E & He). rewrite E. cbn [bind].
  destruct (HG r (f cs) (Encoded_Text _ _ He (RF cs HR)) (RF cs HR)) as (r1 & E1 & He1). destruct (HG s cs HT HR) as (r2 & E2 & He2).
  rewrite E1, E2, ok_eq. apply Encoded_eq; auto.
Qed.
Lemma Forall_same {A} (P Q : A -> Prop) l : (forall x, P x <-> Q x) -> Forall P l <-> Forall Q l.
Proof. intros H. split; apply Forall_impl; intros x; apply H. Qed.
Lemma p_c140_upper_lower s cs : Text s cs -> Forall (fun c => c <= 0x10FFFF) cs ->
  ((let* l := to_lower_str s in to_upper_str l) = to_upper_str s <-> Forall (fun c => ~ In c lone_capitals) cs).
Proof. intros HT HR. rewrite (two to_lower_str to_upper_str lower_cps upper_cps s cs to_lower_str_ok lower_cps_range to_upper_str_ok upper_cps_range HT HR). apply up_lo_cps. Qed.
Lemma p_c140_lower_upper s cs : Text s cs -> Forall (fun c => c <= 0x10FFFF) cs ->
  ((let* u := to_upper_str s in to_lower_str u) = to_lower_str s <-> Forall (fun c => c <> 0xDF /\ ~ In c lone_smalls) cs).
Proof. intros HT HR. rewrite (two to_upper_str to_lower_str upper_cps lower_cps s cs to_upper_str_ok upper_cps_range to_lower_str_ok lower_cps_range HT HR). apply lo_up_cps. Qed.

Lemma places_spec Q cs : places Q [] cs <->
  (forall a c b, cs = a ++ c :: b -> (ends_with_letter is_letter a -> Q true c) /\ (~ ends_with_letter is_letter a -> Q false c)).
Proof.
  split.
  - intros H a c b E. split; intros Ha; apply (H a c b E); cbn [app]; (split; [intros D|intros D]); auto; try discriminate D; contradiction.
  - intros H a c b E f Hf. cbn [app] in Hf. destruct (H a c b E) as [H1 H2]. destruct f; [apply H1; now apply Hf|]. apply H2. intros HE. apply Hf in HE. discriminate.
Qed.
Lemma ti_range cs : inrange cs -> inrange (title_cps is_letter false cs).
Proof. apply title_cps_bound. Qed.
Lemma p_c140_upper_title s cs : Text s cs -> Forall (fun c => c <= 0x10FFFF) cs ->
  ((let* t := to_title_str s in to_upper_str t) = to_upper_str s <->
   forall a c b, cs = a ++ c :: b -> In c lone_capitals -> ~ ends_with_letter is_letter a).
Proof.
  intros HT HR. rewrite (two to_title_str to_upper_str (title_cps is_letter false) upper_cps s cs to_title_str_ok ti_range to_upper_str_ok upper_cps_range HT HR), up_ti_cps, places_spec.
  split.
  - intros H a c b E HI HE. destruct (H a c b E) as [H1 _]. specialize (H1 HE HI). discriminate.
  - intros H a c b E. split; [intros HE HI; destruct (H a c b E HI HE)|auto].
Qed.
Lemma p_c140_lower_title s cs : Text s cs -> Forall (fun c => c <= 0x10FFFF) cs ->
  ((let* t := to_title_str s in to_lower_str t) = to_lower_str s <->
   forall a c b, cs = a ++ c :: b -> is_letter c = true -> ~ ends_with_letter is_letter a -> c <> 0xDF /\ ~ In c lone_smalls).
Proof.
  intros HT HR. rewrite (two to_title_str to_lower_str (title_cps is_letter false) lower_cps s cs to_title_str_ok ti_range to_lower_str_ok lower_cps_range HT HR), lo_ti_cps, places_spec.
  split.
  - intros H a c b E HI HE. destruct (H a c b E) as [_ H1]. now apply H1.
  - intros H a c b E. split; [discriminate|]. intros HE HI _. now apply (H a c b E).
Qed.
Lemma in_text (cs : list N) (P : N -> Prop) a c b : Forall P cs -> cs = a ++ c :: b -> P c.
Proof. intros H ->. apply Forall_app in H as [_ H]. now inversion H. Qed.
Lemma p_c140_title_lower s cs : Text s cs -> Forall (fun c => c <= 0x10FFFF) cs ->
  ((let* l := to_lower_str s in to_title_str l) = to_title_str s <->
   forall a c b, cs = a ++ c :: b -> (is_letter c = false -> to_lower c = c) /\
     (is_letter c = true -> ~ ends_with_letter is_letter a -> ~ In c (lone_capitals ++ georgian_capitals))).
Proof.
  intros HT HR. rewrite (two to_lower_str to_title_str lower_cps (title_cps is_letter false) s cs to_lower_str_ok lower_cps_range to_title_str_ok ti_range HT HR), ti_lo_cps, places_spec.
  split; intros H a c b E; pose proof (in_text _ _ _ _ _ HR E) as Hc; cbv beta in Hc; specialize (H a c b E); rewrite lower_ok in * by lia.
  - destruct H as [H1 H2]. split.
    + intros L. destruct (is_letter c) eqn:L'; [discriminate|]. clear L.
      (* either flag gives the same condition *)
      destruct (N.eq_dec (simple_lower c) c) as [D|D]; [exact D|]. exfalso. assert (~ ~ ends_with_letter is_letter a) by (intros HN; now apply D, (H2 HN)).
      apply H. intros HE. now apply D, (H1 HE).
    + intros L HE. now apply (H2 HE).
  - destruct H as [H1 H2]. split; intros HE; (split; [exact H1|]); [discriminate|]. intros L _. now apply H2.
Qed.
Lemma p_c140_title_upper s cs : Text s cs -> Forall (fun c => c <= 0x10FFFF) cs ->
  ((let* u := to_upper_str s in to_title_str u) = to_title_str s <->
   forall a c b, cs = a ++ c :: b -> (is_letter c = false -> to_upper c = c) /\
     (is_letter c = true -> (ends_with_letter is_letter a -> c <> 0xDF /\ ~ In c lone_smalls) /\ (~ ends_with_letter is_letter a -> ~ In c georgian_smalls))).
Proof.
  intros HT HR. rewrite (two to_upper_str to_title_str upper_cps (title_cps is_letter false) s cs to_upper_str_ok upper_cps_range to_title_str_ok ti_range HT HR).
  rewrite (ti_up_cps cs [] false) by (split; [discriminate|intros H; destruct (ends_nil H)]). rewrite places_spec.
  split; intros H a c b E; pose proof (in_text _ _ _ _ _ HR E) as Hc; cbv beta in Hc; specialize (H a c b E); rewrite upper_ok in * by lia; unfold title_of_upper in *.
  - destruct H as [H1 H2]. split.
    + intros L. destruct (N.eq_dec (simple_upper c) c) as [D|D]; [exact D|]. exfalso. assert (~ ~ ends_with_letter is_letter a) by (intros HN; now apply D, (H2 HN)).
      apply H. intros HE. now apply D, (H1 HE).
    + intros L. split; intros HE; [now apply (H1 HE)|now apply (H2 HE)].
  - destruct H as [H1 H2]. split; intros HE; (split; [exact H1|]); intros L; destruct (H2 L) as [H3 H4]; (split; [|]); intros; try discriminate; auto.
Qed.
Lemma p_c140_malformed s : (~ exists cs, Text s cs /\ Forall (fun c => c <= 0x10FFFF) cs) ->
  to_lower_str s = Throw YstringException /\ to_upper_str s = Throw YstringException /\ to_title_str s = Throw YstringException.
Proof. intros H. apply case_all_bad. intros cs HT HR. apply H. eauto. Qed.
