(** C100: composing twice. *)
From Verif Require Import Base Spec.Utf8Spec Spec.Strings Spec.Normalization Tables.UnicodeDataTables
  Model.Decode Model.Encode Model.Normalize
  Proofs.Utf8Lemmas Proofs.DecodeLemmas Proofs.EncodeLemmas Proofs.CodepointLemmas Proofs.SearchLemmas Proofs.ReplaceLemmas Proofs.TableLemmas
  Proofs.NormLemmas Proofs.ComposeLemmas Proofs.ComposeLoop Proofs.NormProps.
From Coq Require Import ZifyBool ZifyNat ZifyN.

Lemma made_sizes_ok : forallb (fun p => if fst (snd p) <? 0x1000 then fst p <? 0x1D1BC else true) UD_PAIRS = true.
Proof. vm_compute. reflexivity. Qed.
Lemma made_small d a m : has_pair d a m -> a < 0x1000 -> d < 0x1D1BC.
Proof.
  intros H L. pose proof (proj1 (forallb_forall _ _) made_sizes_ok _ H) as K. cbn [fst snd] in K.
  rewrite (proj2 (N.ltb_lt _ _) L) in K. now apply N.ltb_lt.
Qed.
Lemma Composing_text adj s segs c : Composing adj s segs c -> exists cs, Text s cs.
Proof.
  induction 1 as [g c Hg|s segs x c g m d b H [cs IH] Hg HC HB|s segs c g m H [cs IH] Hg HC HO];
    [exists [c]; now apply Text1| |]; exists (cs ++ [m]); (apply Text_app; [exact IH|now apply Text1]).
Qed.

Section Adj.
Variable adj : bool.

Definition R (a m : N) : Prop := forall d, ~ composes adj a m d.
Definition val (z : segment * N) : Prop :=
  match fst z with Copied g => uchar g (snd z) | Made b => uchar b (snd z) /\ exists x y, has_pair (snd z) x y end.
Fixpoint apart (l : list N) : Prop :=
  match l with x :: r => (match r with y :: _ => R x y | [] => True end) /\ apart r | [] => True end.

Lemma R_made a d x y : has_pair d x y -> R a d.
Proof.
  intros H e HC. pose proof (has_pair_bounds _ _ _ H) as B. apply composes_small in HC; [|change 0x100000 with (2 ^ 20); lia].
  destruct HC as (HC & _). exact (second_atom _ _ _ HC _ _ H).
Qed.
Lemma apart_app l a m : apart (l ++ [a]) -> R a m -> apart (l ++ [a; m]).
Proof. induction l as [|x [|y l] IH]; cbn [app apart]; [tauto| |]; intros [H1 H2] HR; (split; [exact H1|]); apply IH; assumption. Qed.
Lemma apart_last l a d : apart (l ++ [a]) -> (forall x, R x d) -> apart (l ++ [d]).
Proof. induction l as [|x [|y l] IH]; cbn [app apart]; [tauto| |]; intros [H1 H2] HR; (split; [auto|]); apply IH; assumption. Qed.
Lemma apart_nth u a m v : apart (u ++ a :: m :: v) -> R a m.
Proof. induction u as [|x u IH]; cbn [app apart]; [tauto|]. intros [_ H]. auto. Qed.
Lemma apart_mid u v : apart (u ++ v) -> apart v.
Proof. induction u as [|x u IH]; cbn [app apart]; [tauto|]. intros [_ H]. auto. Qed.

Lemma composing_values s segs c : Composing adj s segs c ->
  exists zs, map fst (zs ++ [(last segs (Made []), c)]) = segs /\ Forall val (zs ++ [(last segs (Made []), c)]) /\ apart (map snd zs ++ [c]).
Proof.
  induction 1 as [g c Hg|s segs x c g m d b H IH Hg HC HB|s segs c g m H IH Hg HC HO].
  - exists []. cbn. repeat split; auto.
  - destruct IH as (zs & E & HV & HA). exists zs. rewrite last_last in *. rewrite map_app in *. cbn [map fst] in *. apply app_inj_tail in E as [-> _].
    destruct HC as (_ & HP & _). apply Forall_app in HV as [HV _]. split; [reflexivity|]. split.
    + apply Forall_app. split; [exact HV|]. apply Forall_cons; [|constructor]. cbn [val fst snd]. split; [|eauto].
      apply has_pair_bounds in HP. apply encodes_uchar; [lia|exact HB].
    + apply apart_last with c; [exact HA|]. intros y. now apply (R_made y d _ _ HP).
  - destruct IH as (zs & E & HV & HA). exists (zs ++ [(last segs (Made []), c)]). rewrite last_last. rewrite map_app. rewrite E. split; [reflexivity|]. split.
    + apply Forall_app. split; [exact HV|]. apply Forall_cons; [|constructor]. exact Hg.
    + rewrite map_app. cbn [map snd]. rewrite <- app_assoc. apply apart_app; [exact HA|exact HC].
Qed.

(** The values of what is kept. *)
Fixpoint keptv (am : bool) (zs : list (segment * N)) : list N :=
  match zs with
  | [] => []
  | (Made b, c) :: r => c :: keptv true r
  | (Copied g, c) :: r =>
    (match r with
     | [] => if am then [] else [c]
     | (Made _, _) :: _ => if am then [] else [c]
     | (Copied _, _) :: _ => [c]
     end) ++ keptv false r
  end.
Lemma kept_text zs : Forall val zs -> forall am, Text (kept am (map fst zs)) (keptv am zs).
Proof.
  induction 1 as [|[x c] r Hx Hr IH]; intros am; [constructor|]. destruct x as [g|b]; cbn [map fst kept keptv val snd] in *.
  - assert (HT : Text g [c]) by (now apply Text1).
    assert (HK : forall k : bool, Text (if k then [] else g) (if k then [] else [c])) by (intros []; [constructor|exact HT]).
    destruct r as [|[[g'|b'] c'] r]; cbn [map fst]; apply Text_app; auto.
  - constructor; [apply Hx|apply IH].
Qed.
Lemma kept_apart zs : forall x, Forall val (x :: zs) -> apart (map snd (x :: zs)) -> apart (snd x :: keptv (made (fst x)) zs).
Proof.
  induction zs as [|[y c] r IH]; intros x HV HA; [split; exact I|].
  apply Forall_inv_tail in HV as HV'. destruct HA as [HR HA]. specialize (IH (y, c) HV' HA).
  assert (KEEP : apart (snd x :: c :: keptv (made y) r)) by (split; [exact HR|exact IH]).
  destruct y as [g|b]; cbn [fst snd made keptv] in *; [|exact KEEP].
  destruct r as [|[[g'|b'] c'] r].
  - destruct (made (fst x)); [split; exact I|exact KEEP].
  - exact KEEP.
  - destruct (made (fst x)); [|exact KEEP]. cbn [app keptv] in *. destruct IH as [_ IH]. split; [|exact IH].
    apply Forall_inv_tail, Forall_inv in HV'. destruct HV' as (_ & u & v & HP). now apply (R_made _ c' u v).
Qed.

Lemma result_apart s r : to_composed adj s = Ok r -> exists cs, Text r cs /\ apart cs.
Proof.
  intros E. destruct (p_c70_cases adj s) as [-> |[H|[(segs & c & H)|[(t & segs & c & r' & -> & H & HM)|(t & segs & c & g & m & r' & -> & H & Hg & HO)]]]].
  - apply Ok_inj in E. subst r. exists []. split; [constructor|exact I].
  - rewrite p_c68_throw0 in E by exact H. discriminate E.
  - rewrite (p_c68_result adj _ _ _ H) in E. apply Ok_inj in E. subst r.
    destruct (composing_values _ _ _ H) as (zs & ES & HV & HA).
    remember (zs ++ [(last segs (Made []), c)]) as ws eqn:EW.
    assert (HA' : apart (map snd ws)) by (rewrite EW, map_app; exact HA).
    exists (keptv false ws). rewrite <- ES. split; [now apply kept_text|].
    destruct ws as [|[x d] ws]; [destruct zs; discriminate EW|].
    pose proof (kept_apart ws (x, d) HV HA') as K. destruct x as [g|b]; cbn [fst snd made keptv] in *; [|exact K].
    destruct ws as [|[[g'|b'] c'] ws]; exact K.
  - rewrite (p_c68_throw adj _ _ _ _ H HM) in E. discriminate E.
  - rewrite (p_c70_ub adj _ _ _ _ _ _ H Hg HO) in E. discriminate E.
Qed.

(** No pair composes: unchanged, or the table is overrun. *)
Lemma off_table_dec c m : c < 2 ^ 21 -> m < 2 ^ 21 -> off_table c m \/ ~ off_table c m.
Proof.
  intros Bc Bm. destruct (N.le_gt_cases 0x300 m) as [L|L]; [|right; intros [HO _]; lia].
  pose proof (off_table_key c m Bc Bm L) as O. destruct (N.lt_ge_cases (0x1D1BC * 2 ^ 20 + 0x1D16F) (key_of c m)) as [Q|Q].
  - left. now apply O.
  - right. intros HO. apply O in HO. lia.
Qed.
Lemma apart_unchanged s cs : Text s cs -> apart cs ->
  to_composed adj s = Ok s \/ (to_composed adj s = UB /\ exists u a m v, cs = u ++ a :: m :: v /\ off_table a m).
Proof.
  intros HT HA. destruct HT as [|g c s cs Hg HT]; [now left|].
  assert (K : forall s cs, Text s cs -> forall t segs c ts, Composing adj t (map Copied segs) c -> t = concat segs -> apart (c :: cs) ->
    (exists segs' c', Composing adj (t ++ s) (map Copied segs') c' /\ t ++ s = concat segs') \/
    (to_composed adj (t ++ s) = UB /\ exists u a m v, ts ++ c :: cs = u ++ a :: m :: v /\ off_table a m)).
  { clear. induction 1 as [|g m s cs Hg HT IH]; intros t segs c ts HC HE HA; [left; rewrite app_nil_r; eauto|].
    pose proof (Composing_bound _ _ _ _ HC) as Bc. pose proof (uchar_bound _ _ Hg) as Bm. change 0x200000 with (2 ^ 21) in Bm.
    destruct HA as [HR HA]. destruct (off_table_dec c m Bc ltac:(lia)) as [O|O].
    - right. split; [now apply (p_c70_ub adj t (map Copied segs) c g m s)|]. exists ts, c, m, cs. auto.
    - rewrite app_assoc. destruct (IH (t ++ g) (segs ++ [g]) m (ts ++ [c])) as [K|(K & u & a & m' & v & E & O')].
      + rewrite map_app. cbn [map]. now apply (comp_next adj t (map Copied segs) c).
      + rewrite concat_app, HE. cbn [concat]. now rewrite app_nil_r.
      + exact HA.
      + now left.
      + right. split; [exact K|]. exists u, a, m', v. rewrite <- E, <- app_assoc. auto. }
  destruct (K s cs HT g [g] c [] (comp_first adj g c Hg)) as [(segs & c' & HC & E)|KU].
  - cbn. now rewrite app_nil_r.
  - exact HA.
  - left. rewrite (p_c68_result adj _ _ _ HC). rewrite p_c68_lossless.
    + f_equal. rewrite E. clear. unfold whole. rewrite flat_map_concat_map, map_map, map_id. reflexivity.
    + clear. intros u b g v E. exfalso. assert (HI : In (Made b) (map Copied segs)) by (rewrite E; apply in_elt).
      apply in_map_iff in HI as (x & HI & _). discriminate HI.
  - now right.
Qed.

Lemma p_c100_twice s r : to_composed adj s = Ok r -> to_composed adj r = Ok r \/
  (to_composed adj r = UB /\ exists cs u a m v, Text r cs /\ cs = u ++ a :: m :: v /\ off_table a m).
Proof.
  intros H. destruct (result_apart s r H) as (cs & HT & HA). destruct (apart_unchanged r cs HT HA) as [K|(K & u & a & m & v & E & O)]; [now left|].
  right. split; [exact K|]. exists cs, u, a, m, v. auto.
Qed.
(** Below U+1D1BC the table is never overrun. *)
Lemma in_range a m : a < 0x1D1BC -> m < 0x100000 -> ~ off_table a m.
Proof. intros A M [_ H]. rewrite looked_up_small in H by exact M. cbn [fst snd] in H. lia. Qed.
Lemma composing_small s segs c : Composing adj s segs c -> forall cs, Text s cs -> Forall (fun c => c < 0x1D1BC) cs ->
  exists zs, map fst zs = segs /\ Forall val zs /\ Forall (fun z => snd z < 0x1D1BC) zs.
Proof.
  induction 1 as [g c Hg|s segs x c g m d b H IH Hg HC HB|s segs c g m H IH Hg HC HO]; intros cs HT HS.
  - assert (cs = [c]) as -> by (apply (Text_fun _ _ _ HT), Text1, Hg). exists [(Copied g, c)]. repeat split; [|now inversion HS; repeat constructor].
    apply Forall_cons; [exact Hg|constructor].
  - destruct (Composing_text _ _ _ _ H) as (ds & HD).
    assert (cs = ds ++ [m]) as -> by (apply (Text_fun _ _ _ HT), Text_app; [exact HD|now apply Text1]).
    apply Forall_app in HS as [HS HM]. apply Forall_inv in HM. cbn beta in HM. destruct (IH ds HD HS) as (zs & E & HV & HZ).
    destruct (exists_last (l := zs)) as (zs' & z & ->); [intros ->; destruct segs; discriminate E|].
    rewrite map_app in E. cbn [map] in E. apply app_inj_tail in E as [<- _]. apply Forall_app in HV as [HV _]. apply Forall_app in HZ as [HZ _].
    apply composes_small in HC; [|lia]. destruct HC as (HP & LA & _).
    exists (zs' ++ [(Made b, d)]). split; [now rewrite map_app|]. split; apply Forall_app; (split; [assumption|]); (apply Forall_cons; [|constructor]).
    + split; [|eauto]. apply has_pair_bounds in HP. cbn [snd]. apply encodes_uchar; [lia|exact HB].
    + cbn [snd]. now apply (made_small d c m).
  - destruct (Composing_text _ _ _ _ H) as (ds & HD).
    assert (cs = ds ++ [m]) as -> by (apply (Text_fun _ _ _ HT), Text_app; [exact HD|now apply Text1]).
    apply Forall_app in HS as [HS HM]. apply Forall_inv in HM. cbn beta in HM. destruct (IH ds HD HS) as (zs & E & HV & HZ).
    exists (zs ++ [(Copied g, m)]). split; [rewrite map_app, E; reflexivity|]. split; apply Forall_app; (split; [assumption|]); (apply Forall_cons; [|constructor]); assumption.
Qed.
Lemma keptv_small zs : Forall (fun z => snd z < 0x1D1BC) zs -> forall am, Forall (fun c => c < 0x1D1BC) (keptv am zs).
Proof.
  induction 1 as [|[x c] r Hx Hr IH]; intros am; [constructor|]. cbn [snd] in Hx. destruct x as [g|b]; cbn [keptv].
  - apply Forall_app. split; [|apply IH]. destruct r as [|[[g'|b'] c'] r]; try destruct am; repeat (first [apply Forall_nil | apply Forall_cons; [exact Hx|]]).
  - apply Forall_cons; [exact Hx|apply IH].
Qed.
Lemma p_c100_small s cs r : Text s cs -> Forall (fun c => c < 0x1D1BC) cs -> to_composed adj s = Ok r -> to_composed adj r = Ok r.
Proof.
  intros HT HS E. destruct (p_c100_twice s r E) as [K|(K & ds & u & a & m & v & HD & -> & O)]; [exact K|]. exfalso.
  assert (HB : Forall (fun c => c < 0x1D1BC) (u ++ a :: m :: v)).
  { destruct (p_c70_cases adj s) as [-> |[H|[(segs & c & H)|[(t & segs & c & r' & -> & H & HM)|(t & segs & c & g & m' & r' & -> & H & Hg & HO)]]]].
    - apply Ok_inj in E. subst r. rewrite (Text_fun _ _ _ HD Text_nil). constructor.
    - rewrite p_c68_throw0 in E by exact H. discriminate E.
    - rewrite (p_c68_result adj _ _ _ H) in E. apply Ok_inj in E. subst r.
      destruct (composing_small s segs c H cs HT HS) as (zs & <- & HV & HZ).
      rewrite (Text_fun _ _ _ HD (kept_text zs HV false)). now apply keptv_small.
    - rewrite (p_c68_throw adj _ _ _ _ H HM) in E. discriminate E.
    - rewrite (p_c70_ub adj _ _ _ _ _ _ H Hg HO) in E. discriminate E. }
  apply Forall_app in HB as [_ HB]. pose proof (Forall_inv HB) as A. apply Forall_inv_tail, Forall_inv in HB. cbn beta in *. apply (in_range a m A); [lia|exact O].
Qed.
End Adj.
