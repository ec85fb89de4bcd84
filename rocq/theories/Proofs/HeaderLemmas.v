(** C119: writing the headers *)
From Coq Require Import String.
From Verif Require Import Base Spec.Category Spec.Escape Spec.Template Spec.CppText Model.PyText Model.Codegen Model.GenFiles Model.GenClass Model.GenCase Model.GenNorm
  Proofs.NumeralLemmas Proofs.GenClassLemmas Proofs.CodegenLemmas Proofs.DataFileLemmas.
From Coq Require Import ZifyBool ZifyNat ZifyN.
Local Notation "'#' s" := (list_byte_of_string s%string) (at level 5, only parsing).

(** ** Numbers *)
Lemma hex_char_digit d : d < 16 -> hex_digit (py_hex_char d) d.
Proof.
  intros H. assert (forallb (fun n => let d := N.of_nat n in u8 (py_hex_char d) =? (if d <? 10 then 0x30 + d else 0x41 + (d - 10))) (seq 0 16) = true) as K by (vm_compute; reflexivity).
  rewrite forallb_forall in K. specialize (K (N.to_nat d)). cbv zeta in K. rewrite N2Nat.id in K. assert (In (N.to_nat d) (seq 0 16)) as HI by (apply in_seq; lia).
  specialize (K HI). apply N.eqb_eq in K. unfold hex_digit. rewrite K. destruct (d <? 10) eqn:E; lia.
Qed.
Lemma hex_digits_spec fuel : forall v acc, v < 16 ^ N.of_nat fuel -> (fuel <> O)%nat -> exists ds, py_hex_digits fuel v acc = ds ++ acc /\ ds <> [] /\ Hex ds v.
Proof.
  induction fuel as [|fuel IH]; intros v acc Hv Hf; [congruence|]. cbn [py_hex_digits].
  pose proof (N.div_mod v 16 ltac:(lia)) as Ev. pose proof (N.mod_lt v 16 ltac:(lia)) as Hm.
  destruct (v / 16 =? 0) eqn:E.
  - apply N.eqb_eq in E. exists [py_hex_char (v mod 16)]. split; [reflexivity|]. split; [discriminate|].
    replace v with (0 * 16 + v mod 16) at 2 by lia. apply (num_snoc _ _ []); [constructor|]. now apply hex_char_digit.
  - apply N.eqb_neq in E. destruct (IH (v / 16) (py_hex_char (v mod 16) :: acc)) as (ds & E1 & E2 & E3).
    + apply N.div_lt_upper_bound; [lia|]. rewrite Nat2N.inj_succ, N.pow_succ_r' in Hv. lia.
    + intros ->. change (16 ^ N.of_nat 1) with 16 in Hv. apply E. now apply N.div_small.
    + exists (ds ++ [py_hex_char (v mod 16)]). rewrite E1, <- app_assoc. split; [reflexivity|]. split; [now destruct ds|].
      replace v with (v / 16 * 16 + v mod 16) at 2 by lia. apply num_snoc; [exact E3|]. now apply hex_char_digit.
Qed.
Lemma hex_zero ds v : Hex ds v -> Hex (x30 :: ds) v.
Proof.
  induction 1 as [|ds v c d H IH Hc].
  - change 0 with (0 * 16 + 0). apply (num_snoc _ _ [] 0 x30 0); [constructor|]. left. split; [lia|reflexivity].
  - change (x30 :: ds ++ [c]) with ((x30 :: ds) ++ [c]). now apply num_snoc.
Qed.
Lemma format_literal w v : exists ds, py_format_hex w v = #"0x" ++ ds /\ ds <> [] /\ Hex ds v.
Proof.
  unfold py_format_hex. destruct (hex_digits_spec (S (N.to_nat (N.size v))) v []) as (ds & E1 & E2 & E3); [|discriminate|].
  - pose proof (N.size_gt v) as HG. apply (N.lt_le_trans _ _ _ HG). rewrite Nat2N.inj_succ, N2Nat.id. change 16 with (2 ^ 4). rewrite <- N.pow_mul_r. apply N.pow_le_mono_r; lia.
  - rewrite app_nil_r in E1. rewrite E1. eexists. split; [reflexivity|]. split.
    + intros E. apply app_eq_nil in E as [_ E]. congruence.
    + generalize (w - length ds)%nat as n. induction n as [|n IH]; [exact E3|]. cbn [repeat app]. now apply hex_zero.
Qed.
Lemma format_is w v : literal (py_format_hex w v) v.
Proof. exact (format_literal w v). Qed.

(** ** Rows *)
Definition Good (r : str) : Prop := row_start r /\ ~ In x0a r /\ exists u c, r = u ++ [c] /\ py_space c = false.
Lemma good_app a m b : Good a -> ~ In x0a m -> Good b -> Good (a ++ m ++ b).
Proof.
  intros ((c & a' & -> & H1 & H2) & HA & _) HM (_ & HB & (u & z & -> & HZ)). split; [|split].
  - exists c, (a' ++ m ++ u ++ [z]). auto.
  - rewrite !in_app_iff. rewrite in_app_iff in HB. tauto.
  - exists ((c :: a') ++ m ++ u), z. split; [now rewrite <- !app_assoc|exact HZ].
Qed.
Lemma good_end a m c : Good a -> ~ In x0a (m ++ [c]) -> py_space c = false -> Good (a ++ m ++ [c]).
Proof.
  intros ((b & a' & -> & H1 & H2) & HA & _) HM HC. split; [|split].
  - exists b, (a' ++ m ++ [c]). auto.
  - rewrite in_app_iff. tauto.
  - exists ((b :: a') ++ m), c. split; [now rewrite <- app_assoc|exact HC].
Qed.
Lemma format_good w v : Good (py_format_hex w v).
Proof.
  destruct (format_literal w v) as (ds & -> & HN & HH). apply hex_digits_all in HH. split; [|split].
  - exists x30, (x78 :: ds). split; [reflexivity|]. split; discriminate.
  - intros Hi. apply in_app_or in Hi as [Hi|Hi]; [cbn in Hi; intuition discriminate|]. rewrite Forall_forall in HH. destruct (HH _ Hi) as [d Hd]. revert Hd. unfold hex_digit. change (u8 x0a) with 10. lia.
  - destruct ds as [|c ds _] using rev_ind; [congruence|]. apply Forall_app in HH as [_ HH]. apply Forall_inv in HH as [d Hd].
    exists (#"0x" ++ ds), c. split; [now rewrite <- app_assoc|]. exact (hex_not_space c d Hd).
Qed.
Lemma comma_line : ~ In x0a #", ".
Proof. cbn. intuition discriminate. Qed.
Lemma row_good w l : l <> [] -> Good (number_row w l).
Proof.
  unfold number_row. induction l as [|v l IH]; [congruence|]. intros _. destruct l as [|v' l]; [apply format_good|].
  change (py_join #", " (map (py_format_hex w) (v :: v' :: l))) with (py_format_hex w v ++ #", " ++ py_join #", " (map (py_format_hex w) (v' :: l))).
  apply good_app; [apply format_good|exact comma_line|]. apply IH. discriminate.
Qed.
Lemma good_comma r : Good r -> Good (r ++ #",").
Proof. intros H. apply (good_end r [] x2c H); [cbn; intuition discriminate|reflexivity]. Qed.
Lemma good_strip ind r : Good r -> stripped (ind ++ r) (ind ++ r).
Proof.
  intros (_ & _ & (u & c & -> & Hc)). exists []. split; [now rewrite app_nil_r|]. split; [constructor|]. intros v d E. rewrite app_assoc in E. apply app_inj_tail in E as [_ <-].
  rewrite <- py_space_white. congruence.
Qed.
Definition rows_block (ind : str) (l : list str) : list str := match l with [[]] => [[]] | _ => map (app ind) l end.
Lemma block_good ind l : Forall Good l -> rows_block ind l = map (app ind) l.
Proof. destruct l as [|[|c r] [|r' l]]; try reflexivity. intros H. apply Forall_inv in H as ((c & r' & E & _) & _). discriminate. Qed.
Lemma expanded_list d ind k l lines out : indent ind -> bound d k (VList l) -> (l = [[]] \/ Forall Good l) ->
  (forall sp, Expanded d sp lines out) -> Expanded d 0 (([(ind, k)], []) :: lines) (rows_block ind l ++ out).
Proof.
  intros HI HB HL HE. destruct HL as [-> |HL].
  - apply (exp_row d 0 ind k [] []); [exact HI|exact HB| |apply HE]. rewrite app_nil_r. exists ind. split; [reflexivity|]. split; [|now intros []].
    revert HI. apply Forall_impl. intros c [-> | ->]; [now left|right; left; change (u8 x09) with 9; lia].
  - rewrite block_good by exact HL. destruct l as [|r l].
    { apply exp_nothing; [exact HI|now right; right|]. apply HE. }
    apply Forall_cons_iff in HL as [Hr HL]. destruct l as [|z l _] using rev_ind.
    { cbn [map app]. apply (exp_row d 0 ind k r); [exact HI|exact HB|now apply good_strip|apply HE]. }
    apply Forall_app in HL as [HL Hz]. apply Forall_inv in Hz. cbn [map]. rewrite map_app, <- app_comm_cons, <- app_assoc. cbn [map app].
    apply (exp_rows d 0 ind k r l z (ind ++ z)); [exact HI|exact HB|apply Hr| |apply Hz|now apply good_strip|apply HE].
    revert HL. apply Forall_impl. intros x ((c & x' & -> & _) & _). discriminate.
Qed.

(** ** Lists of items *)
Section items.
Context {A : Type} (item : str -> A -> Prop).
Lemma items_blank w s l : blank_text w -> Items item s l -> Items item (w ++ s) l.
Proof.
  intros HW HI. assert (forall w', blank_text w' -> blank_text (w ++ w')) as K by (intros w' H; apply Forall_app; auto).
  destruct HI as [w'|w' t x w2|w' t x w2 r l]; [constructor; auto|rewrite app_assoc; constructor; auto|rewrite app_assoc; constructor; auto].
Qed.
Definition Pre (s : str) (l : list A) : Prop := forall t m, Items item t m -> Items item (s ++ t) (l ++ m).
Lemma pre_app s l s' l' : Pre s l -> Pre s' l' -> Pre (s ++ s') (l ++ l').
Proof. intros H1 H2 t m H. rewrite <- !app_assoc. apply H1, H2, H. Qed.
Lemma pre_blank w : blank_text w -> Pre w [].
Proof. intros H t m. now apply items_blank. Qed.
Lemma pre_item s x : item s x -> Pre (s ++ #",") [x].
Proof. intros H t m HI. rewrite <- app_assoc. apply (items_more item [] s x [] t m); [constructor|exact H|constructor|exact HI]. Qed.
Lemma pre_blank_item w s x w' : blank_text w -> item s x -> blank_text w' -> Pre (w ++ (s ++ #",") ++ w') [x].
Proof.
  intros H1 H2 H3. change [x] with ([] ++ [x] ++ [] : list A). apply pre_app; [now apply pre_blank|]. apply pre_app; [now apply pre_item|now apply pre_blank].
Qed.
End items.
Lemma space_blank n : blank_text (repeat x20 n).
Proof. apply Forall_forall. intros c H. apply repeat_spec in H. now left. Qed.
Lemma lf_blank : blank_text [x0a].
Proof. constructor; [now right|constructor]. Qed.
Lemma row_pre w l : l <> [] -> Pre literal (number_row w l ++ #",") l.
Proof.
  unfold number_row. induction l as [|v l IH]; [congruence|]. intros _. destruct l as [|v' l]; [apply pre_item, format_is|].
  change (py_join #", " (map (py_format_hex w) (v :: v' :: l))) with (py_format_hex w v ++ #", " ++ py_join #", " (map (py_format_hex w) (v' :: l))).
  change #", " with (#"," ++ [x20]) at 1. rewrite <- !app_assoc. rewrite app_assoc. change (v :: v' :: l) with ([v] ++ [] ++ v' :: l).
  apply pre_app; [apply pre_item, format_is|]. apply pre_app; [apply pre_blank, (space_blank 1)|]. apply IH. discriminate.
Qed.
Lemma row_items w l : l <> [] -> Items literal (number_row w l) l.
Proof.
  unfold number_row. induction l as [|v l IH]; [congruence|]. intros _. destruct l as [|v' l].
  - rewrite <- (app_nil_r (py_join _ _)). apply (items_last literal [] _ v []); [constructor|apply format_is|constructor].
  - change (py_join #", " (map (py_format_hex w) (v :: v' :: l))) with (py_format_hex w v ++ #", " ++ py_join #", " (map (py_format_hex w) (v' :: l))).
    change #", " with (#"," ++ [x20]) at 1. rewrite <- app_assoc. rewrite app_assoc.
    apply (pre_item literal _ v (format_is w v)). apply items_blank; [apply (space_blank 1)|]. apply IH. discriminate.
Qed.
Lemma items_end {A} (item : str -> A -> Prop) s l w : Items item s l -> blank_text w -> Items item (s ++ w) l.
Proof.
  intros HI HW. induction HI as [w'|w' t x w2 H1 H2 H3|w' t x w2 r l H1 H2 H3 H4 IH].
  - constructor. apply Forall_app; auto.
  - rewrite <- !app_assoc. constructor; auto. apply Forall_app; auto.
  - rewrite <- !app_assoc. constructor; auto.
Qed.
Lemma file_text_app a b : file_text (a ++ b) = file_text a ++ file_text b.
Proof. unfold file_text. now rewrite map_app, concat_app. Qed.
Lemma rows_items w n full z : Forall (fun l => l <> []) full -> z <> [] ->
  Items literal (file_text (map (app (repeat x20 n)) (map (fun l => number_row w l ++ #",") full ++ [number_row w z]))) (concat full ++ z).
Proof.
  intros HF Hz. rewrite map_app, file_text_app. revert full HF.
  assert (forall full, Forall (fun l => l <> []) full -> Pre literal (file_text (map (app (repeat x20 n)) (map (fun l => number_row w l ++ #",") full))) (concat full)) as K.
  { induction 1 as [|l full Hl HF IH]; [intros t m H; exact H|]. cbn [map concat]. change (file_text (?a :: ?b)) with ((a ++ [x0a]) ++ file_text b).
    apply pre_app; [|exact IH]. rewrite <- (app_nil_r l) at 2. apply pre_app; [|apply pre_blank, lf_blank]. change l with ([] ++ l) at 2. apply pre_app; [apply pre_blank, space_blank|]. now apply row_pre. }
  intros full HF. apply K; [exact HF|]. cbn [map]. change (file_text [?a]) with ((a ++ [x0a]) ++ []). rewrite app_nil_r.
  apply items_end; [|exact lf_blank]. apply items_blank; [apply space_blank|]. now apply row_items.
Qed.

Lemma make_rows_shape {A} n (l : list A) : n <> O -> exists full z, make_rows n l = full ++ [z] /\ Forall (fun r => r <> []) full /\ (l <> [] -> z <> []) /\ concat full ++ z = l.
Proof.
  intros Hn. pose proof (concat_rows n l Hn) as HC. unfold make_rows in *. set (r := match Nat.modulo (length l) n with O => n | S _ as r => r end) in *.
  eexists. eexists. split; [reflexivity|]. split; [|split].
  - apply Forall_map, Forall_forall. intros k Hk. apply in_seq in Hk. unfold slice_of. intros E. apply (f_equal (@length A)) in E. rewrite firstn_length, skipn_length in E. cbn [length] in E.
    assert (((length l - r) / n) * n <= length l - r)%nat by (rewrite Nat.mul_comm; apply Nat.mul_div_le; exact Hn). nia.
  - intros Hl E. apply (f_equal (@length A)) in E. rewrite skipn_length in E. cbn in E. assert (r <> 0)%nat by (unfold r; destruct (Nat.modulo (length l) n) eqn:Em; [exact Hn|discriminate]).
    assert (0 < length l)%nat by (destruct l; [congruence|cbn; lia]). lia.
  - rewrite concat_app in HC. cbn [concat] in HC. now rewrite app_nil_r in HC.
Qed.
Lemma table_rows_shape n w l : n <> O -> exists full z, table_rows n w l = map (fun r => number_row w r ++ #",") full ++ [number_row w z] /\
  Forall (fun r => r <> []) full /\ (l <> [] -> z <> []) /\ concat full ++ z = l.
Proof.
  intros Hn. destruct (make_rows_shape n l Hn) as (full & z & E & H). exists full, z. split; [|exact H]. unfold table_rows. rewrite E, map_app. cbn [map].
  rewrite removelast_last, last_last. now rewrite map_map.
Qed.
Lemma shape_good (full : list (list N)) w z : Forall (fun r => r <> []) full -> z <> [] -> Forall Good (map (fun r => number_row w r ++ #",") full ++ [number_row w z]).
Proof.
  intros HF Hz. apply Forall_app. split; [|constructor; [now apply row_good|constructor]]. apply Forall_map. revert HF. apply Forall_impl. intros r Hr. now apply good_comma, row_good.
Qed.
Definition body_of (n : nat) (rows : list str) : str := file_text (rows_block (repeat x20 n) rows).
Lemma shape_body n w (full : list (list N)) z l : Forall (fun r => r <> []) full -> (l <> [] -> z <> []) -> concat full ++ z = l ->
  let rows := map (fun r => number_row w r ++ #",") full ++ [number_row w z] in
  (rows = [[]] \/ Forall Good rows) /\ Items literal (body_of n rows) l.
Proof.
  intros HF HZ HC rows. destruct l as [|v l].
  - apply app_eq_nil in HC as [HC ->]. assert (full = []) as -> by (destruct HF as [|x full Hx HF]; [reflexivity|cbn in HC; apply app_eq_nil in HC as [HC _]; congruence]).
    split; [now left|]. apply items_nil. exact lf_blank.
  - assert (Forall Good rows) as HG by (apply shape_good; [exact HF|]; apply HZ; discriminate). split; [now right|].
    unfold body_of. rewrite block_good by exact HG. rewrite <- HC. apply rows_items; [exact HF|]. apply HZ. discriminate.
Qed.
Lemma table_body n w l k : n <> O -> (table_rows n w l = [[]] \/ Forall Good (table_rows n w l)) /\ Items literal (body_of k (table_rows n w l)) l.
Proof. intros Hn. destruct (table_rows_shape n w l Hn) as (full & z & -> & H1 & H2 & H3). now apply shape_body. Qed.
Lemma ascii_shape vs : forall pre, exists full z, ascii_rows_loop vs (map (py_format_hex 2) pre) = map (fun r => number_row 2 r ++ #",") full ++ [number_row 2 z] /\
  Forall (fun r => r <> []) full /\ (pre ++ vs <> [] -> z <> []) /\ concat full ++ z = pre ++ vs.
Proof.
  induction vs as [|v vs IH]; intros pre; cbn [ascii_rows_loop].
  - exists [], pre. split; [reflexivity|]. split; [constructor|]. rewrite app_nil_r. auto.
  - rewrite map_length. destruct (length pre =? 8)%nat eqn:E.
    + destruct (IH [v]) as (full & z & E1 & H1 & H2 & H3). exists (pre :: full), z. split; [change ([py_format_hex 2 v]) with (map (py_format_hex 2) [v]); rewrite E1; reflexivity|].
      split; [constructor; [intros ->; discriminate|exact H1]|]. split; [intros _; apply H2; discriminate|]. cbn [concat]. now rewrite <- app_assoc, H3.
    + destruct (IH (pre ++ [v])) as (full & z & E1 & H1 & H2 & H3). rewrite map_app in E1. cbn [map] in E1. exists full, z. split; [exact E1|]. split; [exact H1|].
      rewrite <- app_assoc in *. auto.
Qed.
Lemma ascii_body l k : (ascii_rows_loop l [] = [[]] \/ Forall Good (ascii_rows_loop l [])) /\ Items literal (body_of k (ascii_rows_loop l [])) l.
Proof. destruct (ascii_shape l []) as (full & z & E & H1 & H2 & H3). change (ascii_rows_loop l []) with (ascii_rows_loop l (map (py_format_hex 2) [])). rewrite E. now apply shape_body. Qed.

(** Rows in braces *)
Lemma braced_rows {A} (item : str -> A -> Prop) (row : A -> str) n l :
  (forall x, exists s, row x = s ++ #"," /\ item s x) -> Items item (file_text (map (app (repeat x20 n)) (map row l))) l.
Proof.
  intros H. rewrite <- (app_nil_r (file_text _)). replace l with (l ++ []) at 2 by apply app_nil_r.
  assert (Pre item (file_text (map (app (repeat x20 n)) (map row l))) l) as K; [|apply K; constructor; constructor].
  induction l as [|x l IH]; [intros t m HI; exact HI|]. cbn [map]. change (file_text (?a :: ?b)) with ((a ++ [x0a]) ++ file_text b). change (x :: l) with ([x] ++ l).
  apply pre_app; [|exact IH]. destruct (H x) as (s & -> & Hs). rewrite <- app_assoc. apply pre_blank_item; [apply space_blank|exact Hs|exact lf_blank].
Qed.
Lemma brace_good s : ~ In x0a s -> Good (#"{" ++ s ++ #"},").
Proof.
  intros H. split; [|split].
  - exists x7b, (s ++ #"},"). split; [reflexivity|]. split; discriminate.
  - rewrite !in_app_iff. cbn. intuition discriminate.
  - exists (#"{" ++ s ++ #"}"), x2c. split; [now rewrite <- !app_assoc|reflexivity].
Qed.
Definition four (m : N * N * N * N) : list str := let '(a, b, c, d) := m in [py_format_hex 6 a; py_format_hex 8 b; py_format_hex 8 c; py_format_hex 8 d].
Lemma compact_row_is m : compact_row m = #"{" ++ py_join #", " (four m) ++ #"},".
Proof. destruct m as [[[a b] c] d]. unfold compact_row, four. cbn [py_join]. now rewrite <- !app_assoc. Qed.
Lemma mapping_row_is m : mapping_row m = #"{" ++ py_join #", " [py_format_hex 6 (fst m); py_format_hex 6 (snd m)] ++ #"},".
Proof. unfold mapping_row. cbn [py_join]. now rewrite <- !app_assoc. Qed.
Lemma join_literals ss vs : Forall2 literal ss vs -> ss <> [] -> Items literal (py_join #", " ss) vs.
Proof.
  induction 1 as [|s v ss vs Hs HF IH]; intros HN; [congruence|]. destruct HF as [|s' v' ss vs Hs' HF].
  - cbn. rewrite <- (app_nil_r s). apply (items_last literal [] s v []); [constructor|exact Hs|constructor].
  - change (py_join #", " (s :: s' :: ss)) with (s ++ #"," ++ [x20] ++ py_join #", " (s' :: ss)). rewrite app_assoc. apply (pre_item literal s v Hs).
    apply items_blank; [apply (space_blank 1)|]. apply IH. discriminate.
Qed.
Lemma join_no_lf sep ss : ~ In x0a sep -> Forall (fun s => ~ In x0a s) ss -> ~ In x0a (py_join sep ss).
Proof.
  intros Hs HF. induction HF as [|s ss H HF IH]; [intros []|]. destruct ss as [|s' ss]; [exact H|].
  change (py_join sep (s :: s' :: ss)) with (s ++ sep ++ py_join sep (s' :: ss)). rewrite !in_app_iff. tauto.
Qed.
Lemma format_no_lf w v : ~ In x0a (py_format_hex w v).
Proof. apply format_good. Qed.
Lemma compact_body l n : Forall Good (map compact_row l) /\ Items braced4 (body_of n (map compact_row l)) l.
Proof.
  assert (Forall Good (map compact_row l)) as HG.
  { apply Forall_map, Forall_forall. intros m _. rewrite compact_row_is. apply brace_good, join_no_lf; [exact comma_line|]. destruct m as [[[a b] c] d]. repeat (constructor; [apply format_no_lf|]). constructor. }
  split; [exact HG|]. unfold body_of. rewrite block_good by exact HG. apply braced_rows. intros m. exists (#"{" ++ py_join #", " (four m) ++ #"}").
  split; [rewrite compact_row_is, <- !app_assoc; reflexivity|]. destruct m as [[[a b] c] d]. eexists. split; [reflexivity|]. apply join_literals; [|discriminate]. repeat (constructor; [apply format_is|]). constructor.
Qed.
Lemma mapping_body l n : Forall Good (map mapping_row l) /\ Items braced2 (body_of n (map mapping_row l)) l.
Proof.
  assert (Forall Good (map mapping_row l)) as HG.
  { apply Forall_map, Forall_forall. intros m _. rewrite mapping_row_is. apply brace_good, join_no_lf; [exact comma_line|]. repeat (constructor; [apply format_no_lf|]). constructor. }
  split; [exact HG|]. unfold body_of. rewrite block_good by exact HG. apply braced_rows. intros m. exists (#"{" ++ py_join #", " [py_format_hex 6 (fst m); py_format_hex 6 (snd m)] ++ #"}").
  split; [rewrite mapping_row_is, <- !app_assoc; reflexivity|]. eexists. split; [reflexivity|]. apply join_literals; [|discriminate]. repeat (constructor; [apply format_is|]). constructor.
Qed.
