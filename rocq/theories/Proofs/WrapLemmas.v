(** C123, C124 *)
From Coq Require Import String.
From Verif Require Import Base Model.PyText Model.LineBuilder Spec.Wrap Proofs.CodegenLemmas Proofs.DataFileLemmas.
From Coq Require Import ZifyBool ZifyNat ZifyN.
Local Notation "'#' s" := (list_byte_of_string s%string) (at level 5, only parsing).

Lemma joined_snoc sep g w : g <> [] -> joined sep (g ++ [w]) = joined sep g ++ sep ++ w.
Proof.
  induction g as [|x g IH]; intros H; [congruence|]. destruct g as [|y g]; [reflexivity|].
  change (joined sep ((x :: y :: g) ++ [w])) with (x ++ sep ++ joined sep ((y :: g) ++ [w])).
  rewrite IH by discriminate. change (joined sep (x :: y :: g)) with (x ++ sep ++ joined sep (y :: g)). now rewrite <- !app_assoc.
Qed.
Lemma joined_len sep g w : g <> [] -> length (joined sep (g ++ [w])) = (length (joined sep g) + length w + length sep)%nat.
Proof. intros H. rewrite joined_snoc by exact H. rewrite !app_length. lia. Qed.
Lemma group_lines_snoc sep nl gs g : group_lines sep nl (gs ++ [g]) = map (fun x => joined sep x ++ nl) gs ++ [joined sep g].
Proof.
  induction gs as [|x gs IH]; [reflexivity|]. cbn [app map]. destruct gs as [|y gs]; [reflexivity|].
  change (group_lines sep nl (x :: (y :: gs) ++ [g])) with ((joined sep x ++ nl) :: group_lines sep nl ((y :: gs) ++ [g])). now rewrite IH.
Qed.
(** The parts of the current line. *)
Fixpoint inter (sep : str) (g : list str) : list str := match g with [] => [] | [w] => [w] | w :: g' => w :: sep :: inter sep g' end.
Lemma inter_snoc sep g w : g <> [] -> inter sep (g ++ [w]) = inter sep g ++ [sep; w].
Proof.
  induction g as [|x g IH]; intros H; [congruence|]. destruct g as [|y g]; [reflexivity|].
  change (inter sep ((x :: y :: g) ++ [w])) with (x :: sep :: inter sep ((y :: g) ++ [w])). rewrite IH by discriminate. reflexivity.
Qed.
Lemma inter_concat sep g : concat (inter sep g) = joined sep g.
Proof. induction g as [|x g IH]; [reflexivity|]. destruct g as [|y g]; [cbn; now rewrite app_nil_r|]. cbn [inter concat joined]. cbn [inter joined] in IH. now rewrite IH. Qed.

(** [full] with more to come if [m] is true. *)
Fixpoint fullm (m : bool) (width : nat) (sep nl : str) (gs : list (list str)) : Prop :=
  match gs with
  | g :: (((w :: g') :: rest) as gs') =>
    ((width < length (joined sep (g ++ [w])))%nat \/
     ((m = true \/ concat (g' :: rest) <> []) /\ (width < length (joined sep (g ++ [w]) ++ nl))%nat)) /\
    fullm m width sep nl gs'
  | _ => True
  end.
Section Full.
Variables (W : nat) (sep nl : str).
Lemma fullm_false gs : fullm false W sep nl gs -> full W sep nl gs.
Proof.
  induction gs as [|g gs IH]; [auto|]. destruct gs as [|[|w g'] rest]; [auto..|]. cbn [fullm full] in *. intros [H K]. split; [|exact (IH K)].
  destruct H as [H|[[H|H] H2]]; [now left|discriminate|right; auto].
Qed.
Lemma fullm_true gs m : fullm m W sep nl gs -> fullm true W sep nl gs.
Proof.
  induction gs as [|g gs IH]; [auto|]. destruct gs as [|[|w g'] rest]; [auto..|]. cbn [fullm] in *. intros [H K]. split; [|exact (IH K)].
  destruct H as [H|[H H2]]; [now left|right; auto].
Qed.
Lemma concat_ne {A} (a : list (list A)) x b : x <> [] -> concat (a ++ x :: b) <> [].
Proof. intros H E. rewrite concat_app in E. apply app_eq_nil in E as [_ E]. cbn in E. apply app_eq_nil in E as [E _]. congruence. Qed.
(** A text behind the last line. *)
Lemma fullm_extend gs g x : g <> [] -> fullm true W sep nl (gs ++ [g]) -> fullm false W sep nl (gs ++ [g ++ [x]]).
Proof.
  intros Hg. induction gs as [|a gs IH]; [auto|]. destruct gs as [|b gs].
  - destruct g as [|w g']; [congruence|]. cbn [app fullm]. intros [H _]. split; [|exact I]. destruct H as [H|[H H2]]; [now left|]. right. split; [|exact H2].
    right. cbn [concat]. rewrite app_nil_r. destruct g'; discriminate.
  - destruct b as [|w g']; [intros _; exact I|]. cbn [app fullm] in *. intros [H K]. split; [|exact (IH K)].
    destruct H as [H|[H H2]]; [now left|]. right. split; [|exact H2]. right. change (g' :: gs ++ [g ++ [x]]) with ((g' :: gs) ++ [g ++ [x]]). apply concat_ne. destruct g; discriminate.
Qed.
(** A new line. *)
Lemma fullm_new m gs g x (m2 : bool) : g <> [] -> fullm m W sep nl (gs ++ [g]) ->
  (W < length (joined sep (g ++ [x])) \/ (m2 = true /\ W < length (joined sep (g ++ [x]) ++ nl)))%nat ->
  fullm m2 W sep nl ((gs ++ [g]) ++ [[x]]).
Proof.
  intros Hg HF Hx. induction gs as [|a gs IH].
  - cbn [app fullm]. split; [|exact I]. destruct Hx as [Hx|[Hx Hx2]]; [now left|right; auto].
  - destruct gs as [|b gs].
    + destruct g as [|w g']; [congruence|]. cbn [app fullm] in *. destruct HF as [H K]. split; [|exact (IH I)].
      destruct H as [H|[H H2]]; [now left|]. right. split; [|exact H2]. right. change [g'; [x]] with ([g'] ++ [[x]]). apply concat_ne. discriminate.
    + destruct b as [|w g']; [exact I|]. cbn [app fullm] in *. destruct HF as [H K]. split; [|exact (IH K)].
      destruct H as [H|[H H2]]; [now left|]. right. split; [|exact H2]. right. change (g' :: (gs ++ [g]) ++ [[x]]) with ((g' :: gs ++ [g]) ++ [[x]]). apply concat_ne. discriminate.
Qed.
(** The last text of the last line removed. *)
Lemma fullm_shrink m gs g x : g <> [] -> fullm m W sep nl (gs ++ [g ++ [x]]) -> fullm true W sep nl (gs ++ [g]).
Proof.
  intros Hg. induction gs as [|a gs IH]; [auto|]. destruct gs as [|b gs].
  - destruct g as [|w g']; [congruence|]. cbn [app fullm]. intros [H _]. split; [|exact I]. destruct H as [H|[H H2]]; [now left|]. right. auto.
  - destruct b as [|w g']; [intros _; exact I|]. cbn [app fullm] in *. intros [H K]. split; [|exact (IH K)].
    destruct H as [H|[H H2]]; [now left|]. right. auto.
Qed.

(** What the builder has after some of the texts. *)
Definition closed (g : list str) : Prop := (2 <= length g)%nat -> (length (joined sep g) + Nat.min (length nl) (length sep + 1) <= W)%nat.
Record Inv (m : bool) (b : builder) (gs : list (list str)) (g : list str) : Prop := {
  inv_width : b_width b = W;
  inv_lines : b_lines b = map (fun x => joined sep x ++ nl) gs;
  inv_text : concat (b_cur b) = joined sep g;
  inv_cur : sep <> [] -> b_cur b = inter sep g;
  inv_one : length g = 1%nat -> length (b_cur b) = 1%nat;
  inv_len : b_cur_width b = length (joined sep g);
  inv_ne : Forall (fun x => x <> []) (gs ++ [g]);
  inv_words : Forall (fun w => w <> []) g;
  inv_closed : Forall closed gs;
  inv_fit : (2 <= length g)%nat -> (length (joined sep g) <= W)%nat;
  inv_full : fullm m W sep nl (gs ++ [g]) }.
Lemma joined_ne g : g <> [] -> Forall (fun w => w <> []) g -> (0 < length (joined sep g))%nat.
Proof.
  intros H HF. destruct g as [|w g]; [congruence|]. apply Forall_cons_iff in HF as [Hw _]. destruct w; [congruence|]. destruct g; cbn; lia.
Qed.
Lemma inv_add_same m b gs g x : Inv m b gs g -> x <> [] -> (b_cur_width b + length x + length sep <= W)%nat -> Inv false (add_texts b [sep; x]) gs (g ++ [x]).
Proof.
  intros [I1 I2 I3 I4 I5 I6 I7 I8 I9 I10 I11] Hx HW. assert (g <> []) as Hg by (apply Forall_app in I7 as [_ I7]; now apply Forall_cons_iff in I7 as [? _]).
  destruct x as [|c x]; [congruence|].
  constructor; cbn [add_texts b_width b_lines b_cur b_cur_width].
  - exact I1.
  - exact I2.
  - rewrite concat_app, I3, joined_snoc by exact Hg. destruct sep; cbn; now rewrite ?app_nil_r.
  - intros Hs. rewrite I4, inter_snoc by assumption. destruct sep; [congruence|]. reflexivity.
  - intros H. rewrite app_length in H. cbn in H. destruct g; [congruence|cbn in H; lia].
  - rewrite I6, joined_len by exact Hg. cbn [fold_right]. lia.
  - apply Forall_app in I7 as [I7 _]. apply Forall_app. split; [exact I7|]. constructor; [destruct g; discriminate|constructor].
  - apply Forall_app. split; [exact I8|]. constructor; [discriminate|constructor].
  - exact I9.
  - intros _. rewrite joined_len by exact Hg. rewrite I6 in HW. lia.
  - apply fullm_extend; [exact Hg|]. now apply fullm_true with m.
Qed.
Lemma inv_add_new m b gs g x cur : Inv m b gs g -> concat cur = joined sep g -> x <> [] ->
  closed g ->
  forall m2, (W < length (joined sep (g ++ [x])) \/ (m2 = true /\ W < length (joined sep (g ++ [x]) ++ nl)))%nat ->
  Inv m2 (add_texts (end_line b cur nl) [x]) (gs ++ [g]) [x].
Proof.
  intros [I1 I2 I3 I4 I5 I6 I7 I8 I9 I10 I11] HC Hx HG m2 Hm. assert (g <> []) as Hg by (apply Forall_app in I7 as [_ I7]; now apply Forall_cons_iff in I7 as [? _]).
  destruct x as [|c x]; [congruence|].
  constructor; cbn [add_texts end_line newline b_width b_lines b_cur b_cur_width app filter fold_right length Nat.add].
  - exact I1.
  - rewrite I2, map_app. cbn [map]. rewrite concat_app, HC. cbn [concat]. now rewrite app_nil_r.
  - cbn. now rewrite app_nil_r.
  - reflexivity.
  - reflexivity.
  - cbn. lia.
  - apply Forall_app. split; [exact I7|]. constructor; [discriminate|constructor].
  - constructor; [discriminate|constructor].
  - apply Forall_app. split; [exact I9|]. constructor; [exact HG|constructor].
  - cbn. lia.
  - now apply fullm_new with m.
Qed.
Lemma append_inv fuel b gs g x : (2 <= fuel)%nat -> sep <> [] \/ nl = [] -> Inv false b gs g -> x <> [] ->
  exists b' gs' g', append fuel b x sep nl [] = Some b' /\ Inv false b' gs' g' /\ concat (gs' ++ [g']) = concat (gs ++ [g]) ++ [x].
Proof.
  intros Hf Hs HI Hx. destruct fuel as [|fuel]; [lia|]. pose proof HI as HI0. destruct HI0 as [I1 I2 I3 I4 I5 I6 I7 I8 I9 I10 I11].
  assert (g <> []) as Hg by (apply Forall_app in I7 as [_ I7]; now apply Forall_cons_iff in I7 as [? _]).
  pose proof (joined_ne g Hg I8) as Hpos.
  assert (HC : forall y : list str, concat (gs ++ [y]) = concat gs ++ y) by (intros y; rewrite concat_app; cbn; now rewrite app_nil_r).
  cbn [append]. destruct (Nat.eqb_spec (b_cur_width b) 0) as [E|_]; [lia|].
  destruct (Nat.leb_spec (b_cur_width b + length x + length sep) (b_width b)) as [E1|E1].
  { exists (add_texts b [sep; x]), gs, (g ++ [x]). split; [reflexivity|]. split; [apply inv_add_same with false; auto; lia|]. rewrite !HC. now rewrite app_assoc. }
  assert (W < length (joined sep (g ++ [x])))%nat as HW by (rewrite joined_len by exact Hg; lia).
  assert (NEW : closed g -> exists b' gs' g', Some (add_texts (end_line b (b_cur b) nl) [x]) = Some b' /\ Inv false b' gs' g' /\ concat (gs' ++ [g']) = concat (gs ++ [g]) ++ [x]).
  { intros HG. exists (add_texts (end_line b (b_cur b) nl) [x]), (gs ++ [g]), [x]. split; [reflexivity|]. split; [apply inv_add_new with false; auto|].
    rewrite concat_app. reflexivity. }
  destruct (Nat.leb_spec (b_cur_width b + length nl) (b_width b)) as [E2|E2].
  { apply NEW. unfold closed. intros _. lia. }
  destruct (Nat.eqb_spec (length (b_cur b)) 1) as [E3|E3].
  { apply NEW. unfold closed. intros H2. exfalso. destruct Hs as [Hs|Hs].
    - rewrite (I4 Hs) in E3. destruct g as [|w1 [|w2 g]]; cbn [length inter] in *; lia.
    - specialize (I10 H2). rewrite Hs in E2. cbn [length] in E2. lia. }
  destruct Hs as [Hs|Hs].
  2:{ exfalso. destruct g as [|w1 [|w2 g]]; [congruence|exact (E3 (I5 eq_refl))|]. specialize (I10 ltac:(cbn; lia)). rewrite Hs in E2. cbn [length] in E2. lia. }
  destruct (exists_last Hg) as (i & l & ->). destruct i as [|w i].
  { exfalso. rewrite (I4 Hs) in E3. cbn in E3. congruence. }
  set (ii := w :: i) in *. assert (ii <> []) as Hi by discriminate. clearbody ii. clear w i.
  pose proof (I4 Hs) as EC. rewrite inter_snoc in EC by exact Hi. rewrite EC. rewrite rev_app_distr. cbn [rev app].
  assert (removelast (removelast (inter sep ii ++ [sep; l])) = inter sep ii) as ->.
  { change [sep; l] with ([sep] ++ [l]). rewrite app_assoc, removelast_last. now rewrite removelast_last. }
  apply Forall_app in I8 as [I8 Il]. apply Forall_cons_iff in Il as [Hl _].
  rewrite joined_len in I6 by exact Hi.
  specialize (I10 ltac:(rewrite app_length; destruct ii; [congruence|cbn; lia])). rewrite joined_len in I10 by exact Hi.
  (* the state without the last text *)
  assert (HB : Inv true (Builder W (b_lines b) (inter sep ii) (length (joined sep ii))) gs ii).
  { constructor; cbn [b_width b_lines b_cur b_cur_width]; auto.
    - apply inter_concat.
    - intros H. destruct ii as [|w1 [|w2 ii]]; [discriminate|reflexivity|discriminate].
    - apply Forall_app in I7 as [I7 _]. apply Forall_app. split; [exact I7|]. constructor; [exact Hi|constructor].
    - lia.
    - now apply fullm_shrink with false l. }
  pose proof (inv_add_new true _ gs ii l (inter sep ii) HB (inter_concat sep ii) Hl) as HN.
  assert (0 < length l)%nat as Hl0 by (destruct l; [congruence|cbn; lia]).
  specialize (HN ltac:(unfold closed; intros _; lia) true ltac:(right; split; [reflexivity|]; rewrite app_length, joined_len by exact Hi; lia)).
  assert (end_line (Builder W (b_lines b) (inter sep ii) (length (joined sep ii))) (inter sep ii) nl = end_line b (inter sep ii) nl) as EE by (unfold end_line, newline; cbn; now rewrite I1).
  rewrite EE in HN. clear EE.
  match type of HN with Inv _ ?B _ _ => set (b2 := B) in HN; match goal with |- context [append fuel ?C] => change C with b2 end end. clearbody b2.
  destruct fuel as [|fuel]; [lia|]. cbn [append].
  assert (HCC : concat ((gs ++ [ii]) ++ [[l]]) = concat (gs ++ [ii ++ [l]])) by (rewrite concat_app, !HC; cbn; now rewrite app_assoc).
  pose proof (inv_len _ _ _ _ HN) as L. pose proof (inv_width _ _ _ _ HN) as LW. cbn [joined] in L.
  destruct (Nat.eqb_spec (b_cur_width b2) 0) as [E|_]; [lia|].
  destruct (Nat.leb_spec (b_cur_width b2 + length x + length sep) (b_width b2)) as [F1|F1].
  { exists (add_texts b2 [sep; x]), (gs ++ [ii]), ([l] ++ [x]). split; [reflexivity|]. split; [apply inv_add_same with true; auto; lia|].
    rewrite <- HCC. rewrite !concat_app. cbn [concat]. rewrite !app_nil_r. now rewrite <- !app_assoc. }
  assert (NEW2 : exists b' gs' g', Some (add_texts (end_line b2 (b_cur b2) nl) [x]) = Some b' /\ Inv false b' gs' g' /\ concat (gs' ++ [g']) = concat (gs ++ [ii ++ [l]]) ++ [x]).
  { exists (add_texts (end_line b2 (b_cur b2) nl) [x]), ((gs ++ [ii]) ++ [[l]]), [x]. split; [reflexivity|]. split.
    - apply inv_add_new with true; auto; [now apply (inv_text _ _ _ _ HN)|intros K; cbn in K; lia|]. left. rewrite joined_len by discriminate. cbn [joined]. lia.
    - rewrite <- HCC. rewrite (concat_app ((gs ++ [ii]) ++ [[l]])). reflexivity. }
  destruct (Nat.leb_spec (b_cur_width b2 + length nl) (b_width b2)) as [F2|F2]; [exact NEW2|].
  rewrite (inv_one _ _ _ _ HN) by reflexivity. exact NEW2.
Qed.
Lemma append_all_inv fuel l : (2 <= fuel)%nat -> sep <> [] \/ nl = [] -> Forall (fun w => w <> []) l -> forall b gs g, Inv false b gs g ->
  exists b' gs' g', append_all fuel b l sep nl = Some b' /\ Inv false b' gs' g' /\ concat (gs' ++ [g']) = concat (gs ++ [g]) ++ l.
Proof.
  intros Hf Hs HF. induction HF as [|x l Hx HF IH]; intros b gs g HI; cbn [append_all].
  - exists b, gs, g. rewrite app_nil_r. auto.
  - destruct (append_inv fuel b gs g x Hf Hs HI Hx) as (b1 & gs1 & g1 & -> & HI1 & E1).
    destruct (IH b1 gs1 g1 HI1) as (b2 & gs2 & g2 & E2 & HI2 & E3). exists b2, gs2, g2. split; [exact E2|]. split; [exact HI2|].
    rewrite E3, E1, <- app_assoc. reflexivity.
Qed.
Lemma join_inv fuel words fs fn : (2 <= fuel)%nat -> sep <> [] \/ nl = [] -> Forall (fun w => w <> []) words -> words <> [] ->
  exists b gs g, join fuel words W sep nl fs fn = Some (build b) /\ build b = group_lines sep nl (gs ++ [g]) /\ Inv false b gs g /\ concat (gs ++ [g]) = words.
Proof.
  intros Hf Hs HF HN. destruct words as [|x l]; [congruence|]. apply Forall_cons_iff in HF as [Hx HF]. destruct fuel as [|fuel]; [lia|].
  unfold join, builder_join. change (append (S fuel) (new_builder W) x fs fn []) with (Some (add_texts (new_builder W) [[]; x])). cbv iota beta.
  assert (Inv false (add_texts (new_builder W) [[]; x]) [] [x]) as HI.
  { destruct x as [|c x]; [congruence|]. constructor; cbn; auto; try lia; try (now rewrite app_nil_r); try (constructor; [discriminate|constructor]). }
  destruct (append_all_inv (S fuel) l Hf Hs HF _ _ _ HI) as (b & gs & g & -> & HI2 & E). exists b, gs, g. split; [reflexivity|]. split; [|auto].
  destruct HI2 as [I1 I2 I3 I4 I5 I6 I7 I8 I9 I10 I11].
  assert (g <> []) as Hg by (apply Forall_app in I7 as [_ I7]; now apply Forall_cons_iff in I7 as [? _]).
  pose proof (joined_ne g Hg I8) as Hpos. unfold build. destruct (b_cur b) as [|y r] eqn:EC; [rewrite <- I3 in Hpos; cbn in Hpos; lia|].
  cbn [newline b_lines]. rewrite I2, EC, I3. now rewrite group_lines_snoc.
Qed.
End Full.

Lemma p_c123_wrap fuel words W sep nl fs fn : (2 <= fuel)%nat -> sep <> [] \/ nl = [] -> Forall (fun w => w <> []) words ->
  exists gs, wrapped W sep nl words gs /\ join fuel words W sep nl fs fn = Some (group_lines sep nl gs).
Proof.
  intros Hf Hs HF. destruct words as [|w words].
  { exists []. repeat split; constructor. }
  destruct (join_inv W sep nl fuel (w :: words) fs fn Hf Hs HF ltac:(discriminate)) as (b & gs & g & E & EB & HI & EC).
  exists (gs ++ [g]). split; [|now rewrite <- EB]. destruct HI as [I1 I2 I3 I4 I5 I6 I7 I8 I9 I10 I11]. repeat split.
  - exact EC.
  - exact I7.
  - apply Forall_app. split; [|constructor; [exact I10|constructor]]. eapply Forall_impl; [|exact I9]. cbn. intros x Hx H2. specialize (Hx H2). lia.
  - now apply fullm_false.
Qed.
Lemma p_c123_width fuel words W sep nl fs fn : (2 <= fuel)%nat -> sep <> [] \/ nl = [] -> (length nl <= length sep + 1)%nat -> Forall (fun w => w <> []) words ->
  exists out, join fuel words W sep nl fs fn = Some out /\
    forall l, In l out -> (length l <= W)%nat \/ (exists w, In w words /\ (l = w \/ l = w ++ nl)).
Proof.
  intros Hf Hs HL HF. destruct words as [|w words].
  { exists []. split; [reflexivity|intros l []]. }
  destruct (join_inv W sep nl fuel (w :: words) fs fn Hf Hs HF ltac:(discriminate)) as (b & gs & g & E & EB & HI & EC).
  exists (build b). split; [exact E|]. rewrite EB, group_lines_snoc. destruct HI as [I1 I2 I3 I4 I5 I6 I7 I8 I9 I10 I11].
  assert (ONE : forall x, In x (gs ++ [g]) -> (2 <= length x)%nat \/ exists y, x = [y] /\ In y (w :: words)).
  { intros x Hx. rewrite Forall_forall in I7. specialize (I7 x Hx). destruct x as [|y [|z x]]; [congruence| |left; cbn; lia].
    right. exists y. split; [reflexivity|]. rewrite <- EC. apply in_concat. exists [y]. split; [exact Hx|now left]. }
  intros l Hl. apply in_app_or in Hl as [Hl|[<-|[]]].
  - apply in_map_iff in Hl as (x & <- & Hx). rewrite Forall_forall in I9. destruct (ONE x ltac:(apply in_or_app; now left)) as [H2|(y & -> & Hy)].
    + left. specialize (I9 x Hx H2). rewrite app_length. lia.
    + right. exists y. split; [exact Hy|]. right. reflexivity.
  - destruct (ONE g ltac:(apply in_or_app; right; now left)) as [H2|(y & -> & Hy)]; [left; auto|]. right. exists y. split; [exact Hy|]. now left.
Qed.

(** ** Names *)
Lemma py_join_joined sep l : py_join sep l = joined sep l.
Proof. induction l as [|x l IH]; [reflexivity|]. destruct l as [|y l]; [reflexivity|]. cbn [py_join joined] in *. now rewrite IH. Qed.
Lemma py_space_spec c : py_space c = true <-> white c.
Proof. exact (py_space_white c). Qed.
Definition badb (c : byte) : bool := py_space c || existsb (byte_eqb c) BadCppChars.
Lemma badb_spec c : badb c = true <-> bad c.
Proof.
  unfold badb, bad. rewrite orb_true_iff, py_space_spec, existsb_exists. split; intros [H|H]; auto; right.
  - destruct H as (x & Hx & E). apply byte_eqb_true in E. now subst.
  - exists c. split; [exact H|now apply byte_eqb_true].
Qed.
Definition tr (c : byte) : byte := if existsb (byte_eqb c) BadCppChars then x20 else c.
Lemma tr_space c : py_space (tr c) = badb c.
Proof. unfold tr, badb. destruct (existsb _ _); [now rewrite orb_true_r|now rewrite orb_false_r]. Qed.
Lemma tr_good c : badb c = false -> tr c = c.
Proof. unfold tr, badb. rewrite orb_false_iff. intros [_ ->]. reflexivity. Qed.
Definition good_chars (p : str) : Prop := Forall (fun c => ~ bad c) p.
Lemma words_parts s : (exists ps, parts s ps /\ py_words_loop (map tr s) [] = ps) /\
  (forall w, w <> [] -> good_chars w -> exists ps, parts (rev w ++ s) ps /\ py_words_loop (map tr s) w = ps).
Proof.
  induction s as [|c s [IH1 IH2]]; split.
  - exists []. split; [constructor|reflexivity].
  - intros w Hw HG. exists [rev w]. rewrite app_nil_r. cbn. split; [|now destruct w]. apply parts_last.
    + intros E. apply Hw. rewrite <- (rev_involutive w), E. reflexivity.
    + now apply Forall_rev.
  - cbn [map py_words_loop]. rewrite tr_space. destruct (badb c) eqn:E.
    + destruct IH1 as (ps & H1 & H2). exists ps. split; [|exact H2]. constructor; [now apply badb_spec|exact H1].
    + rewrite tr_good by exact E. apply (IH2 [c]); [discriminate|]. constructor; [|constructor]. rewrite <- badb_spec. congruence.
  - intros w Hw HG. cbn [map py_words_loop]. rewrite tr_space. destruct (badb c) eqn:E.
    + destruct IH1 as (ps & H1 & H2). exists (rev w :: ps). split.
      * apply parts_next; [|now apply Forall_rev|now apply badb_spec|exact H1]. intros K. apply Hw. rewrite <- (rev_involutive w), K. reflexivity.
      * destruct w; [congruence|]. now rewrite H2.
    + rewrite tr_good by exact E. destruct (IH2 (c :: w)) as (ps & H1 & H2); [discriminate| |].
      * constructor; [|exact HG]. rewrite <- badb_spec. congruence.
      * exists ps. split; [|exact H2]. cbn [rev] in H1. now rewrite <- app_assoc in H1.
Qed.
Lemma p_c124_variable s : exists ps, parts s ps /\ variable_name s = joined [x5f] ps.
Proof. destruct (words_parts s) as [(ps & H1 & H2) _]. exists ps. split; [exact H1|]. unfold variable_name, py_words. rewrite py_join_joined. f_equal. exact H2. Qed.
Lemma upper_all s : Forall2 ascii_upper s (py_upper s).
Proof.
  induction s as [|c s IH]; cbn [py_upper map]; constructor; [|exact IH]. unfold ascii_upper.
  destruct ((0x61 <=? u8 c) && (u8 c <=? 0x7A)) eqn:E; [left|right; split; [lia|reflexivity]]. split; [lia|].
  clear - E. destruct c; cbv in E; try discriminate; reflexivity.
Qed.
Lemma p_c124_macro s : exists s' ps, Forall2 ascii_upper s s' /\ parts s' ps /\ make_macro_name s = joined [x5f] ps.
Proof. exists (py_upper s). destruct (p_c124_variable (py_upper s)) as (ps & H1 & H2). exists ps. split; [apply upper_all|]. split; [exact H1|exact H2]. Qed.
Lemma parts_good s ps : parts s ps -> Forall (fun p => p <> [] /\ good_chars p /\ forall c, In c p -> In c s) ps.
Proof.
  induction 1 as [|c s ps Hc HP IH|p Hp HG|p c s ps Hp HG Hc HP IH].
  - constructor.
  - eapply Forall_impl; [|exact IH]. cbn. intuition.
  - constructor; [auto|constructor].
  - constructor.
    + split; [exact Hp|]. split; [exact HG|]. intros x Hx. apply in_or_app. now left.
    + eapply Forall_impl; [|exact IH]. cbn. intros q (A & B & C). split; [exact A|]. split; [exact B|]. intros x Hx. apply in_or_app. right. right. auto.
Qed.
Lemma parts_fun s ps : parts s ps -> py_words_loop (map tr s) [] = ps.
Proof.
  assert (G : forall p, good_chars p -> Forall (fun c => py_space c = false) (map tr p) /\ map tr p = p).
  { intros p HG. assert (forall c, In c p -> badb c = false) as K.
    { intros c Hc. apply not_true_iff_false. rewrite badb_spec. unfold good_chars in HG. rewrite Forall_forall in HG. auto. }
    split; [apply Forall_forall; intros c Hc; apply in_map_iff in Hc as (x & <- & Hx); rewrite tr_space; auto|].
    rewrite <- (map_id p) at 2. apply map_ext_in. intros c Hc. apply tr_good. auto. }
  induction 1 as [|c s ps Hc HP IH|p Hp HG|p c s ps Hp HG Hc HP IH].
  - reflexivity.
  - cbn [map py_words_loop]. rewrite tr_space. apply badb_spec in Hc. now rewrite Hc.
  - destruct (G p HG) as [G1 G2]. rewrite G2 in *. pose proof (words_word p [] [] G1) as E. rewrite !app_nil_r in E. rewrite E. cbn [py_words_loop].
    destruct (rev p) as [|a r] eqn:ER; [apply (f_equal (@rev byte)) in ER; rewrite rev_involutive in ER; contradiction|]. now rewrite <- ER, rev_involutive.
  - destruct (G p HG) as [G1 G2]. rewrite map_app. rewrite G2 in *. rewrite words_word by exact G1. rewrite app_nil_r. cbn [map py_words_loop]. rewrite tr_space.
    apply badb_spec in Hc. rewrite Hc. destruct (rev p) as [|a r] eqn:ER; [apply (f_equal (@rev byte)) in ER; rewrite rev_involutive in ER; contradiction|].
    rewrite <- ER, rev_involutive. now rewrite IH.
Qed.
Lemma p_c124_unique s ps ps' : parts s ps -> parts s ps' -> ps = ps'.
Proof. intros H1 H2. apply parts_fun in H1, H2. congruence. Qed.
Lemma parts_joined ps : Forall (fun p => p <> [] /\ good_chars p) ps -> parts (joined [x5f] ps) ps.
Proof.
  induction 1 as [|p ps [Hp HG] HF IH]; [constructor|]. destruct ps as [|q ps]; [now apply parts_last|].
  change (joined [x5f] (p :: q :: ps)) with (p ++ x5f :: joined [x5f] (q :: ps)). apply parts_next; auto. right. cbn. tauto.
Qed.
Lemma variable_parts s ps : parts s ps -> variable_name s = joined [x5f] ps.
Proof. intros H. unfold variable_name, py_words. rewrite py_join_joined. f_equal. exact (parts_fun s ps H). Qed.
Lemma p_c124_idem s : variable_name (variable_name s) = variable_name s.
Proof.
  destruct (p_c124_variable s) as (ps & H1 & H2). rewrite H2. apply variable_parts. apply parts_joined. apply parts_good in H1.
  eapply Forall_impl; [|exact H1]. cbn. tauto.
Qed.
Lemma joined_in sep ps c : In c (joined sep ps) -> In c sep \/ exists p, In p ps /\ In c p.
Proof.
  induction ps as [|p ps IH]; [intros []|]. destruct ps as [|q ps].
  - cbn. intros H. right. exists p. auto.
  - change (joined sep (p :: q :: ps)) with (p ++ sep ++ joined sep (q :: ps)). rewrite !in_app_iff. intros [H|[H|H]]; [right; exists p; split; [now left|exact H]|now left|].
    destruct (IH H) as [K|(x & K1 & K2)]; [now left|]. right. exists x. split; [now right|exact K2].
Qed.
Lemma upper_id s : (forall c, In c s -> ~ 0x61 <= u8 c <= 0x7A) -> py_upper s = s.
Proof.
  intros H. unfold py_upper. rewrite <- (map_id s) at 2. apply map_ext_in. intros c Hc. specialize (H c Hc).
  destruct ((0x61 <=? u8 c) && (u8 c <=? 0x7A)) eqn:E; [lia|reflexivity].
Qed.
Lemma p_c124_macro_idem s : make_macro_name (make_macro_name s) = make_macro_name s.
Proof.
  unfold make_macro_name at 1 2. fold (variable_name (py_upper s)). fold (variable_name (py_upper (variable_name (py_upper s)))).
  assert (py_upper (variable_name (py_upper s)) = variable_name (py_upper s)) as ->.
  { apply upper_id. intros c Hc. destruct (p_c124_variable (py_upper s)) as (ps & H1 & H2). rewrite H2 in Hc. apply joined_in in Hc as [[<-|[]]|(p & Hp & Hcp)].
    - cbv. intuition discriminate.
    - apply parts_good in H1. rewrite Forall_forall in H1. destruct (H1 p Hp) as (_ & _ & K). apply K in Hcp.
      pose proof (upper_all s) as HU. clear - HU Hcp. induction HU as [|x y l l' Hxy HU IH]; [destruct Hcp|]. destruct Hcp as [-> |Hcp]; [|auto].
      destruct Hxy as [[A B]|[A ->]]; [lia|exact A]. }
  apply p_c124_idem.
Qed.
Lemma p_c123_first fuel words W sep nl fs fn fs' fn' : join fuel words W sep nl fs fn = join fuel words W sep nl fs' fn'.
Proof. unfold join, builder_join. destruct words as [|w l]; [reflexivity|]. destruct fuel; reflexivity. Qed.
