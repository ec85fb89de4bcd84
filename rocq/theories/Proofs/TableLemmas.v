(** Searching sorted tables: a search tree with the same result as the linear
    [lower_bound] of the model, and exhaustive checks of all values below 2^n. *)
From Verif Require Import Base.

Lemma nat_half_lt n : (n / 2 <= n)%nat.
Proof. apply Nat.div_le_upper_bound; lia. Qed.

Section Trees.
Context {A : Type}.
Inductive tree : Type := Leaf | Node (l : tree) (x : A) (r : tree).
Fixpoint flatten (t : tree) : list A :=
  match t with Leaf => [] | Node l x r => flatten l ++ x :: flatten r end.

(** Takes [n] elements from the front of [l]. *)
Fixpoint build (depth : nat) (n : nat) (l : list A) : tree * list A :=
  match depth with
  | O => (Leaf, l)
  | S d =>
    match n with
    | O => (Leaf, l)
    | S n' =>
      let h := Nat.div2 n' in
      let (left, l1) := build d h l in
      match l1 with
      | [] => (left, [])
      | x :: l2 => let (right, l3) := build d (n' - h) l2 in (Node left x right, l3)
      end
    end
  end.
Definition tree_of (l : list A) : tree := fst (build 20 (length l) l).

Fixpoint tree_lower_bound (less : A -> bool) (t : tree) : option A :=
  match t with
  | Leaf => None
  | Node l x r =>
    if less x then tree_lower_bound less r
    else match tree_lower_bound less l with Some y => Some y | None => Some x end
  end.

(** [less] holds for a prefix of [l] only. *)
Definition partitioned (less : A -> bool) (l : list A) : Prop :=
  forall u x v y w, l = u ++ x :: v ++ y :: w -> less y = true -> less x = true.

Lemma partitioned_app_l less u v : partitioned less (u ++ v) -> partitioned less u.
Proof. intros H a x b y c E. apply (H a x b y (c ++ v)). rewrite E, <- !app_assoc. cbn [app]. rewrite <- app_assoc. reflexivity. Qed.
Lemma partitioned_app_r less u v : partitioned less (u ++ v) -> partitioned less v.
Proof. intros H a x b y c E. apply (H (u ++ a) x b y c). rewrite E, <- !app_assoc. reflexivity. Qed.

Lemma lower_bound_app (less : A -> bool) (u v : list A) :
  lower_bound less (u ++ v) = match lower_bound less u with Some y => Some y | None => lower_bound less v end.
Proof. induction u as [|x u IH]; [reflexivity|]. cbn [app lower_bound]. destruct (less x); [exact IH|reflexivity]. Qed.
Lemma lower_bound_all (less : A -> bool) (u : list A) : Forall (fun x => less x = true) u -> lower_bound less u = None.
Proof. induction 1 as [|x u H _ IH]; [reflexivity|]. cbn [lower_bound]. now rewrite H. Qed.
Lemma lower_bound_some (less : A -> bool) l x : lower_bound less l = Some x ->
  exists u v, l = u ++ x :: v /\ Forall (fun y => less y = true) u /\ less x = false.
Proof.
  induction l as [|y l IH]; cbn [lower_bound]; [discriminate|]. destruct (less y) eqn:E; intros H.
  - destruct (IH H) as (u & v & -> & Hu & Hx). exists (y :: u), v. split; [reflexivity|]. split; [now constructor|exact Hx].
  - injection H as ->. exists [], l. auto.
Qed.
Lemma lower_bound_none (less : A -> bool) l : lower_bound less l = None -> Forall (fun x => less x = true) l.
Proof. induction l as [|y l IH]; cbn [lower_bound]; [constructor|]. destruct (less y) eqn:E; [|discriminate]. intros H. constructor; auto. Qed.

Lemma tree_lower_bound_ok less t : partitioned less (flatten t) -> tree_lower_bound less t = lower_bound less (flatten t).
Proof.
  induction t as [|l IHl x r IHr]; [reflexivity|]. cbn [flatten tree_lower_bound]. intros HP.
  rewrite lower_bound_app. cbn [lower_bound]. destruct (less x) eqn:E.
  - rewrite lower_bound_all.
    + apply IHr. apply partitioned_app_r with (u := flatten l ++ [x]). rewrite <- app_assoc. exact HP.
    + apply Forall_forall. intros y Hy. apply in_split in Hy. destruct Hy as (a & b & Ey).
      apply (HP a y b x (flatten r)); [rewrite Ey, <- app_assoc; reflexivity|exact E].
  - rewrite IHl; [reflexivity|]. eapply partitioned_app_l; exact HP.
Qed.

Variable key : A -> N.
Fixpoint increasing (l : list A) : bool :=
  match l with
  | [] => true
  | x :: l' => match l' with [] => true | y :: _ => (key x <? key y) && increasing l' end
  end.
Lemma increasing_lt l : increasing l = true -> forall u x v y w, l = u ++ x :: v ++ y :: w -> key x < key y.
Proof.
  induction l as [|a l IH]; intros H u x v y w E; [destruct u; discriminate|].
  assert (HT : increasing l = true /\ match l with [] => True | b :: _ => key a < key b end).
  { cbn [increasing] in H. destruct l as [|b l]; [split; [reflexivity|exact I]|]. apply andb_true_iff in H. destruct H as [H1 H2].
    apply N.ltb_lt in H1. split; assumption. }
  destruct HT as [HT Ha]. destruct u as [|a' u].
  - cbn [app] in E. injection E as -> E. destruct v as [|b v].
    + cbn [app] in E. rewrite E in Ha. exact Ha.
    + cbn [app] in E. assert (key b < key y) by (apply (IH HT [] b v y w); exact E). rewrite E in Ha. lia.
  - cbn [app] in E. injection E as -> E. exact (IH HT u x v y w E).
Qed.
Lemma increasing_partitioned l k : increasing l = true -> partitioned (fun e => key e <? k) l.
Proof.
  intros H u x v y w E Hy. apply N.ltb_lt in Hy. apply N.ltb_lt.
  assert (key x < key y) by (eapply increasing_lt; eauto). lia.
Qed.

(** Looking for an element with a given key. *)
Lemma find_lower_bound l k : increasing l = true ->
  find (fun e => key e =? k) l =
  match lower_bound (fun e => key e <? k) l with
  | Some e => if key e =? k then Some e else None
  | None => None
  end.
Proof.
  intros H. destruct (lower_bound _ l) as [x|] eqn:E.
  - apply lower_bound_some in E. destruct E as (u & v & -> & Hu & Hx). apply N.ltb_ge in Hx.
    assert (F : find (fun e => key e =? k) u = None).
    { clear -Hu. induction Hu as [|y u Hy _ IH]; [reflexivity|]. cbn [find]. apply N.ltb_lt in Hy.
      rewrite (proj2 (N.eqb_neq _ _)) by lia. exact IH. }
    assert (FA : forall p (a b : list A), find p a = None -> find p (a ++ b) = find p b).
    { intros p a b. induction a as [|y a IH]; [reflexivity|]. cbn [find app]. destruct (p y); [discriminate|]. exact IH. }
    rewrite (FA _ _ _ F). cbn [find]. destruct (N.eqb_spec (key x) k) as [Ek|Ek]; [reflexivity|].
    assert (FG : Forall (fun y => key x < key y) v).
    { apply Forall_forall. intros y Hy. apply in_split in Hy. destruct Hy as (a & b & ->).
      eapply increasing_lt; [exact H|reflexivity]. }
    clear -FG Ek Hx. induction FG as [|y v Hy _ IH]; [reflexivity|]. cbn [find]. rewrite (proj2 (N.eqb_neq _ _)) by lia. exact IH.
  - apply lower_bound_none in E. clear H. induction E as [|y l Hy _ IH]; [reflexivity|]. cbn [find]. apply N.ltb_lt in Hy.
    rewrite (proj2 (N.eqb_neq _ _)) by lia. exact IH.
Qed.
Lemma lower_bound_above l k : Forall (fun e => key e < k) l -> lower_bound (fun e => key e <? k) l = None.
Proof. intros H. apply lower_bound_all. eapply Forall_impl; [|exact H]. intros e He. now apply N.ltb_lt. Qed.
End Trees.
Arguments tree : clear implicits.

(** Exhaustive check of [base, base + 2^depth). *)
Fixpoint all_from (P : N -> bool) (depth : nat) (base : N) : bool :=
  match depth with
  | O => P base
  | S d => all_from P d base && all_from P d (base + 2 ^ N.of_nat d)
  end.
Lemma all_from_spec P depth : forall base, all_from P depth base = true ->
  forall c, base <= c < base + 2 ^ N.of_nat depth -> P c = true.
Proof.
  induction depth as [|d IH]; intros base H c Hc.
  - cbn [all_from] in H. replace c with base by (change (2 ^ N.of_nat 0) with 1 in Hc; lia). exact H.
  - cbn [all_from] in H. apply andb_true_iff in H. destruct H as [H1 H2].
    replace (N.of_nat (S d)) with (N.succ (N.of_nat d)) in Hc by lia. rewrite N.pow_succ_r' in Hc.
    destruct (N.lt_ge_cases c (base + 2 ^ N.of_nat d)) as [L|L].
    + apply (IH base H1). lia.
    + apply (IH _ H2). lia.
Qed.
