(** C118 *)
From Coq Require Import String.
From Verif Require Import Base Model.PyText Model.Codegen Spec.Template.
From Coq Require Import ZifyBool ZifyNat ZifyN.
Local Notation "'#' s" := (list_byte_of_string s%string) (at level 5, only parsing).

Lemma byte_eqb_true a b : byte_eqb a b = true <-> a = b.
Proof. unfold byte_eqb. split; [apply Byte.byte_dec_bl|apply Byte.byte_dec_lb]. Qed.
Lemma byte_eqb_false a b : byte_eqb a b = false <-> a <> b.
Proof. rewrite <- byte_eqb_true. destruct (byte_eqb a b); intuition congruence. Qed.
Lemma str_eqb_true a b : str_eqb a b = true <-> a = b.
Proof.
  revert b. induction a as [|x a IH]; intros [|y b]; cbn; try (split; [discriminate|discriminate]); [tauto|].
  rewrite andb_true_iff, byte_eqb_true, IH. split; [intros [-> ->]; reflexivity|]. intros E. injection E as -> ->. auto.
Qed.
Lemma prefix_true a b : prefix_eqb a b = true <-> exists v, b = a ++ v.
Proof.
  revert b. induction a as [|x a IH]; intros b; cbn; [split; eauto|]. destruct b as [|y b]; [split; [discriminate|intros [v E]; discriminate]|].
  rewrite andb_true_iff, byte_eqb_true, IH. split.
  - intros [-> [v ->]]. now exists v.
  - intros [v E]. injection E as -> ->. eauto.
Qed.
Lemma prefix_false a b : prefix_eqb a b = false <-> forall v, b <> a ++ v.
Proof.
  rewrite <- not_true_iff_false, prefix_true. split; [intros H v E; apply H; eauto|intros H [v E]; now apply (H v)].
Qed.

(** ** White space *)
Lemma py_space_white c : py_space c = true <-> white c.
Proof. unfold py_space, white. rewrite !orb_true_iff, !andb_true_iff, !N.leb_le, N.eqb_eq. intuition lia. Qed.
Lemma lstrip_spec s : exists w, s = w ++ py_lstrip s /\ Forall white w /\ (forall c u, py_lstrip s = c :: u -> ~ white c).
Proof.
  induction s as [|c s (w & E & HW & HN)]; cbn.
  - exists []. split; [reflexivity|]. split; [constructor|]. discriminate.
  - destruct (py_space c) eqn:Ec.
    + exists (c :: w). split; [cbn; congruence|]. split; [constructor; [now apply py_space_white|exact HW]|exact HN].
    + exists []. split; [reflexivity|]. split; [constructor|]. intros c' u E'. injection E' as <- <-. rewrite <- py_space_white. congruence.
Qed.
Lemma rstrip_spec s : stripped s (py_rstrip s).
Proof.
  unfold py_rstrip. destruct (lstrip_spec (rev s)) as (w & E & HW & HN). exists (rev w). split; [|split].
  - rewrite <- rev_app_distr, <- E. now rewrite rev_involutive.
  - now apply Forall_rev.
  - intros u c E'. apply (HN c (rev u)). rewrite <- (rev_involutive (py_lstrip (rev s))), E', rev_app_distr. reflexivity.
Qed.
Lemma stripped_fun s t : stripped s t -> t = py_rstrip s.
Proof.
  intros (w & E & HW & HN). destruct (rstrip_spec s) as (w' & E' & HW' & HN'). revert E HN. generalize (py_rstrip s) as t', E', HN'. clear E' HN'.
  intros t' E' HN' E HN. rewrite E in E'. clear E s. revert w' HW' E'. induction w as [|c w IH] using rev_ind; intros w' HW' E.
  - destruct w' as [|c w' _] using rev_ind; [now rewrite !app_nil_r in E|]. exfalso. rewrite app_nil_r, app_assoc in E. apply (HN _ _ E).
    apply Forall_app in HW' as [_ HW']. now inversion HW'.
  - apply Forall_app in HW as [HW Hc]. destruct w' as [|c' w' _] using rev_ind.
    + exfalso. rewrite app_nil_r, app_assoc in E. apply (HN' (t ++ w) c); [congruence|]. now inversion Hc.
    + rewrite !app_assoc in E. apply app_inj_tail in E as [E _]. apply (IH HW w'); [|exact E]. now apply Forall_app in HW'.
Qed.

(** ** Finding markers *)
Lemma cut_found t s : no_marker t -> (forall u, t <> u ++ #"[") -> py_cut #"[[[" (t ++ #"[[[" ++ s) = Some (t, s).
Proof.
  induction t as [|c t IH]; intros HN HE; [reflexivity|]. cbn [app].
  change (py_cut #"[[[" (c :: t ++ #"[[[" ++ s)) with
    (if prefix_eqb #"[[[" (c :: t ++ #"[[[" ++ s) then Some ([], skipn 3 (c :: t ++ #"[[[" ++ s))
     else match py_cut #"[[[" (t ++ #"[[[" ++ s) with Some (a, b) => Some (c :: a, b) | None => None end).
  assert (prefix_eqb #"[[[" (c :: t ++ #"[[[" ++ s) = false) as ->.
  { apply prefix_false. intros v E. cbn in E. injection E as -> E.
    destruct t as [|a t]; [now apply (HE [])|]. cbn in E. injection E as -> E.
    destruct t as [|b t]; [now apply (HE [x5b])|]. cbn in E. injection E as -> E.
    now apply (HN [] t). }
  rewrite IH; [reflexivity| |].
  - intros u v E. apply (HN (c :: u) v). cbn [app]. now rewrite E.
  - intros u E. apply (HE (c :: u)). cbn [app]. now rewrite E.
Qed.
Lemma cut_absent t s : (forall u v, s <> u ++ t ++ v) -> py_cut t s = None.
Proof.
  induction s as [|c s IH]; intros HN; unfold py_cut; fold py_cut.
  - assert (prefix_eqb t [] = false) as -> by (apply prefix_false; intros v; exact (HN [] v)). reflexivity.
  - assert (prefix_eqb t (c :: s) = false) as -> by (apply prefix_false; intros v; exact (HN [] v)).
    rewrite IH; [reflexivity|]. intros u v E. apply (HN (c :: u) v). cbn [app]. now rewrite E.
Qed.
Lemma cut_close k s : ~ In x5d k -> py_cut #"]]]" (k ++ #"]]]" ++ s) = Some (k, s).
Proof.
  induction k as [|c k IH]; intros HN; [reflexivity|]. cbn [app].
  change (py_cut #"]]]" (c :: k ++ #"]]]" ++ s)) with
    (if prefix_eqb #"]]]" (c :: k ++ #"]]]" ++ s) then Some ([], skipn 3 (c :: k ++ #"]]]" ++ s))
     else match py_cut #"]]]" (k ++ #"]]]" ++ s) with Some (a, b) => Some (c :: a, b) | None => None end).
  assert (prefix_eqb #"]]]" (c :: k ++ #"]]]" ++ s) = false) as ->.
  { apply prefix_false. intros v E. cbn in E. injection E as -> _. apply HN. now left. }
  rewrite IH; [reflexivity|]. intros H. apply HN. now right.
Qed.
Lemma key_not k c : Forall key_char k -> ~ key_char c -> ~ In c k.
Proof. rewrite Forall_forall. intros H1 H2 H3. exact (H2 (H1 c H3)). Qed.
Ltac not_key := unfold key_char; match goal with |- context [u8 ?b] => let n := eval vm_compute in (u8 b) in change (u8 b) with n end; lia.

Lemma prefix_word p k s : (forall v, k <> p ++ v) -> (forall c p1 p2, p = p1 ++ c :: p2 -> c <> x5d) -> prefix_eqb p (k ++ x5d :: s) = false.
Proof.
  revert k. induction p as [|a p IH]; intros k Hk Hp; [now destruct (Hk k)|]. apply prefix_false. intros v E. destruct k as [|b k].
  - injection E as <- _. now apply (Hp x5d [] p).
  - cbn in E. injection E as <- E. assert (prefix_eqb p (k ++ x5d :: s) = false) as H.
    { apply IH; [intros w ->; now apply (Hk w)|]. intros c p1 p2 ->. apply (Hp c (b :: p1) p2). reflexivity. }
    rewrite prefix_false in H. now apply (H v).
Qed.
Lemma marker_expand k s : plain_key k -> marker_token (k ++ #"]]]" ++ s) k = Some (TExpand k).
Proof.
  intros (HK & H1 & H2). unfold marker_token.
  assert (forall w, ~ key_char x20 /\ In x20 w -> forall v, k <> w ++ v) as HS.
  { intros w [Hb Hi] v E. apply (key_not k x20 HK Hb). rewrite E. apply in_or_app. now left. }
  assert (~ key_char x20) as N1 by not_key.
  change (#"]]]" ++ s) with (x5d :: x5d :: x5d :: s).
  rewrite !prefix_word; try (apply HS; split; [exact N1|cbn; tauto]); try exact H1; try exact H2;
    try (intros c p1 p2 E Ec; subst c; assert (In x5d (p1 ++ x5d :: p2)) as HI by (apply in_or_app; right; now left); rewrite <- E in HI; cbn in HI; intuition discriminate).
  assert (forall c, ~ key_char c -> str_eqb k [c] = false) as HC.
  { intros c Hc. apply not_true_iff_false. rewrite str_eqb_true. intros ->. apply (key_not [c] c HK Hc). now left. }
  change #"|" with [x7c]. change #">" with [x3e]. change #"<" with [x3c].
  rewrite !HC by not_key. reflexivity.
Qed.

Definition tokens_of (l : tline) : list token :=
  flat_map (fun p => [TText (fst p); TExpand (snd p)]) (fst l) ++ (match snd l with [] => [] | t => [TText t] end) ++ [TNewline].
Lemma tokenize_ok ps tail : plain_tline (ps, tail) -> forall fuel, (length (tline_text (ps, tail)) < fuel)%nat ->
  tokenize_line fuel (tline_text (ps, tail)) = Some (tokens_of (ps, tail)).
Proof.
  intros [HP [HT1 HT2]]. cbn [fst snd] in *. induction ps as [|[t k] ps IH]; intros [|fuel] HL; try lia.
  - unfold tline_text, tokens_of. cbn [fst snd map concat flat_map app tokenize_line]. rewrite cut_absent by exact HT2. now destruct tail.
  - apply Forall_cons_iff in HP as [(A1 & A2 & A3 & A4) HP']. cbn [fst snd] in *.
    assert (tline_text ((t, k) :: ps, tail) = t ++ #"[[[" ++ k ++ #"]]]" ++ tline_text (ps, tail)) as E.
    { unfold tline_text. cbn [fst snd map concat]. now rewrite <- !app_assoc. }
    rewrite E in *. cbn [tokenize_line]. rewrite cut_found by assumption.
    rewrite cut_close by (apply (key_not k x5d); [apply A4|not_key]). rewrite marker_expand by exact A4.
    rewrite IH; [reflexivity|exact HP'|]. rewrite !app_length in HL. cbn [length list_byte_of_string] in HL.
    change (length #"[[[") with 3%nat in HL. lia.
Qed.

Lemma split_lines_text l : l <> [] -> Forall (fun x => ~ In x0a x) l -> py_split x0a (lines_text l) = l.
Proof.
  intros HN HF. induction HF as [|x l Hx HF IH]; [congruence|].
  assert (forall y r, ~ In x0a y -> py_split x0a (y ++ x0a :: r) = y :: py_split x0a r) as K.
  { clear. induction y as [|c y IH]; intros r H; cbn [app py_split].
    - now rewrite (proj2 (byte_eqb_true x0a x0a) eq_refl).
    - assert (byte_eqb c x0a = false) as -> by (apply byte_eqb_false; intros ->; apply H; now left). rewrite IH; [reflexivity|]. intros Hi. apply H. now right. }
  assert (forall y, ~ In x0a y -> py_split x0a y = [y]) as K'.
  { clear. induction y as [|c y IH]; intros H; cbn [py_split]; [reflexivity|].
    assert (byte_eqb c x0a = false) as -> by (apply byte_eqb_false; intros ->; apply H; now left). rewrite IH; [reflexivity|]. intros Hi. apply H. now right. }
  destruct l as [|y l]; [now apply K'|]. change (lines_text (x :: y :: l)) with (x ++ x0a :: lines_text (y :: l)).
  rewrite K by exact Hx. rewrite IH by discriminate. reflexivity.
Qed.
Lemma tline_no_newline ps tail : plain_tline (ps, tail) -> ~ In x0a (tline_text (ps, tail)).
Proof.
  intros [HP [HT _]]. cbn [fst snd] in *. unfold tline_text. cbn [fst snd]. rewrite in_app_iff. intros [H|H]; [|contradiction].
  induction HP as [|[t k] ps (A1 & _ & _ & (A4 & _)) HP IH]; [exact H|]. cbn [map concat fst snd] in *. rewrite !in_app_iff in H.
  assert (~ In x0a k) by (apply key_not; [exact A4|not_key]).
  destruct H as [[H|[H|[H|H]]]|H]; try contradiction; try (now apply IH); cbn in H; intuition discriminate.
Qed.
Lemma tokenize_all ls : ls <> [] -> Forall plain_tline ls -> tokenize (lines_text (map tline_text ls)) = Some (flat_map tokens_of ls).
Proof.
  intros HN HF. unfold tokenize. rewrite split_lines_text.
  - clear HN. induction HF as [|[ps tail] ls H HF IH]; [reflexivity|]. cbn [map tokenize_lines flat_map]. rewrite (tokenize_ok ps tail H) by lia.
    now rewrite IH.
  - destruct ls; [congruence|discriminate].
  - apply Forall_map. revert HF. apply Forall_impl. intros [ps tail]. apply tline_no_newline.
Qed.

(** ** Running *)
Lemma bound_get d k v : bound d k v -> dict_get d k = Some v.
Proof.
  intros (u & w & -> & HF). unfold dict_get. induction HF as [|[k' v'] u Hk HF IH]; cbn [app find fst].
  - rewrite (proj2 (str_eqb_true k k) eq_refl). reflexivity.
  - cbn [fst] in Hk. assert (str_eqb k' k = false) as -> by (apply not_true_iff_false; rewrite str_eqb_true; exact Hk). exact IH.
Qed.
Lemma split1_absent c s : ~ In c s -> py_split1 c s = (s, None).
Proof.
  induction s as [|d s IH]; intros H; [reflexivity|]. cbn. assert (byte_eqb d c = false) as -> by (apply byte_eqb_false; intros ->; apply H; now left).
  rewrite IH; [reflexivity|]. intros Hi. apply H. now right.
Qed.
Lemma expand_get d o c n sc al k v : plain_key k -> bound d k v -> expand (Proc d o c n sc al) k = Some v.
Proof.
  intros (HK & _) HB. unfold expand. rewrite split1_absent by (apply key_not; [exact HK|not_key]). now apply bound_get.
Qed.
Lemma rcut_absent s : ~ In x0a s -> py_rcut_newline s = None.
Proof.
  induction s as [|c s IH]; intros H; [reflexivity|]. cbn. rewrite IH by (intros Hi; apply H; now right).
  now assert (byte_eqb c x0a = false) as -> by (apply byte_eqb_false; intros ->; apply H; now left).
Qed.
Lemma add_text_plain d out cur col sc al t : ~ In x0a t -> add_text (Proc d out cur col sc al) t = Proc d out (cur ++ t) (col + length t) sc al.
Proof. intros H. unfold add_text. now rewrite rcut_absent by exact H. Qed.

Lemma run_line d out ps ts : Forall2 (fun p t => inline d (snd p) t) ps ts -> forall tail cur col rest, plain_tline (ps, tail) ->
  run (Proc d out cur col [Active] []) false (tokens_of (ps, tail) ++ rest) =
  run (Proc d (out ++ [py_rstrip (cur ++ concat (map (fun q => fst (fst q) ++ snd q) (combine ps ts)) ++ tail)]) [] 0 [Active] []) false rest.
Proof.
  induction 1 as [|[t k] v ps ts [Hv HB] H IH]; intros tail cur col rest [HP [HT1 HT2]]; cbn [fst snd] in *.
  - unfold tokens_of. cbn [fst snd flat_map app combine map concat]. destruct tail as [|c tail].
    + cbn [app run step handle]. unfold handle_newline. cbn [top p_scope p_dict p_lines p_cur p_align]. now rewrite app_nil_r.
    + cbn [app run step handle top p_scope]. rewrite add_text_plain by exact HT1. unfold handle_newline. cbn [top p_scope p_dict p_lines p_cur p_align]. reflexivity.
  - apply Forall_cons_iff in HP as [(A1 & A2 & A3 & A4) HP']. cbn [fst snd] in *.
    change (tokens_of ((t, k) :: ps, tail)) with (TText t :: TExpand k :: tokens_of (ps, tail)).
    cbn [app run step handle top p_scope]. rewrite add_text_plain by exact A1. cbn [step handle top p_scope].
    assert (handle_expand (Proc d out (cur ++ t) (col + length t) [Active] []) k =
      Some (Proc d out ((cur ++ t) ++ v) (col + length t + length v) [Active] [], true)) as ->.
    { unfold handle_expand. destruct HB as [HB|[Hn HB]]; rewrite (expand_get d _ _ _ _ _ k _ A4 HB); [|destruct v; [congruence|]];
        now rewrite add_text_plain by exact Hv. }
    cbn [negb andb]. rewrite IH by (split; [exact HP'|split; assumption]). cbn [combine map concat fst snd].
    now rewrite <- !app_assoc.
Qed.

Lemma blanks_indent ind r : indent ind -> row_start r -> indentation (ind ++ r) = ind.
Proof.
  intros HI (c & r' & -> & H1 & H2). unfold indentation. assert (blanks (ind ++ c :: r') = (ind, true)) as ->; [|reflexivity].
  induction HI as [|b ind Hb HI IH]; cbn [app blanks].
  - assert (byte_eqb c x09 = false) as -> by now apply byte_eqb_false. assert (byte_eqb c x20 = false) as -> by now apply byte_eqb_false. reflexivity.
  - assert (byte_eqb b x09 || byte_eqb b x20 = true) as ->; [|now rewrite IH]. apply orb_true_iff. destruct Hb as [-> | ->]; [now right|now left].
Qed.
Lemma indent_space ind : indent ind -> forallb py_space ind = true.
Proof. intros H. apply forallb_forall. unfold indent in H. rewrite Forall_forall in H. intros c Hc. now destruct (H c Hc) as [-> | ->]. Qed.
Lemma indent_newline ind : indent ind -> ~ In x0a ind.
Proof. unfold indent. rewrite Forall_forall. intros H Hi. destruct (H _ Hi); discriminate. Qed.

Lemma run_marker d out ind k spill rest : indent ind -> ~ In x0a ind ->
  run (Proc d out [] spill [Active] []) false (tokens_of ([(ind, k)], []) ++ rest) =
  match handle_expand (Proc d out ind (spill + length ind) [Active] []) k with
  | None => None
  | Some (p, done) => run p (negb done && blank p) (TNewline :: rest)
  end.
Proof.
  intros HI HN. unfold tokens_of. cbn [fst snd flat_map app]. cbn [run step handle top p_scope]. rewrite add_text_plain by exact HN. cbn [app step handle top p_scope].
  destruct (handle_expand _ k) as [[p done]|]; reflexivity.
Qed.

Lemma blanks_all s : indent s -> indentation s = [].
Proof.
  intros H. unfold indentation. assert (snd (blanks s) = false) as E.
  { induction H as [|c s Hc H IH]; [reflexivity|]. cbn [blanks]. assert (byte_eqb c x09 || byte_eqb c x20 = true) as ->; [|destruct (blanks s); exact IH].
    apply orb_true_iff. destruct Hc as [-> | ->]; [now right|now left]. }
  destruct (blanks s) as [b f]. cbn in E. now subst f.
Qed.
Lemma margin_indentation s ind : margin s ind -> indentation s = ind /\ indent ind.
Proof.
  intros [(r & -> & HI & HR)|[HI ->]]; [split; [now apply blanks_indent|exact HI]|split; [now apply blanks_all|constructor]].
Qed.
Lemma white_blank s : Forall white s <-> is_empty_or_space s = true.
Proof.
  unfold is_empty_or_space, py_isspace. assert (Forall white s <-> forallb py_space s = true) as E.
  { rewrite Forall_forall, forallb_forall. split; intros H c Hc; apply py_space_white; auto. }
  destruct s; [split; auto|exact E].
Qed.
Definition pair_tokens (ps : list (str * str)) : list token := flat_map (fun p => [TText (fst p); TExpand (snd p)]) ps.
Definition good_pairs (ps : list (str * str)) : Prop :=
  Forall (fun p => ~ In x0a (fst p) /\ no_marker (fst p) /\ (forall u, fst p <> u ++ #"[") /\ plain_key (snd p)) ps.
Lemma run_parts d ps vs : parts d ps vs -> good_pairs ps -> forall out cur col ig rest,
  exists ig', run (Proc d out cur col [Active] []) ig (pair_tokens ps ++ rest) =
    run (Proc d out (cur ++ written ps vs) (col + width ps vs) [Active] []) ig' rest /\
    (ig' = true <-> (ps = [] /\ ig = true) \/ (Forall white (cur ++ written ps vs) /\ exists ps' p, ps = ps' ++ [p] /\ nothing d (snd p))).
Proof.
  induction 1 as [|[t k] [v w] ps vs HV HPS IH]; intros HP out cur col ig rest; cbn [fst snd] in *.
  - exists ig. unfold written, width. cbn. rewrite app_nil_r, Nat.add_0_r. split; [reflexivity|]. split; [auto|]. intros [[_ H]|(_ & ps' & p & E & _)]; [exact H|]. destruct ps'; discriminate.
  - apply Forall_cons_iff in HP as [(A1 & A2 & A3 & A4) HP']. cbn [fst snd] in *.
    change (pair_tokens ((t, k) :: ps) ++ rest) with (TText t :: TExpand k :: pair_tokens ps ++ rest).
    assert (written ((t, k) :: ps) ((v, w) :: vs) = t ++ v ++ written ps vs) as EW by (unfold written; cbn [combine map concat fst snd]; now rewrite <- app_assoc).
    assert (width ((t, k) :: ps) ((v, w) :: vs) = (length t + w + width ps vs)%nat) as EL by (unfold width; cbn [combine map list_sum fst snd]; reflexivity).
    rewrite EW, EL. cbn [run]. assert (step (Proc d out cur col [Active] []) ig (TText t) = Some (Proc d out (cur ++ t) (col + length t) [Active] [], false)) as ->.
    { assert (step (Proc d out cur col [Active] []) ig (TText t) = handle (Proc d out cur col [Active] []) (TText t)) as -> by (destruct ig; reflexivity).
      cbn [handle top p_scope]. now rewrite add_text_plain. }
    cbn [run step handle top p_scope].
    assert (exists done, handle_expand (Proc d out (cur ++ t) (col + length t) [Active] []) k = Some (Proc d out ((cur ++ t) ++ v) (col + length t + w) [Active] [], done) /\ (done = false <-> nothing d k)) as (done & -> & HD).
    { unfold handle_expand. destruct HV as [v [Hv HB]|HB|r HB].
      - exists true. split; [destruct HB as [HB|[Hn HB]]; rewrite (expand_get d _ _ _ _ _ k _ A4 HB); [|destruct v; [congruence|]]; now rewrite add_text_plain by exact Hv|].
        split; [discriminate|]. intros HN. assert (forall x, bound d k x -> dict_get d k = Some x) as G by (intros; now apply bound_get).
        destruct HB as [HB|[Hn HB]]; apply G in HB; destruct HN as [HN|[HN|HN]]; apply G in HN; congruence.
      - exists false. rewrite app_nil_r, Nat.add_0_r. split; [destruct HB as [HB|[HB|HB]]; now rewrite (expand_get d _ _ _ _ _ k _ A4 HB)|tauto].
      - exists true. rewrite (expand_get d _ _ _ _ _ k _ A4 HB). cbn [add_lines p_dict p_lines p_cur p_column p_scope p_align]. rewrite Nat.add_0_r. split; [reflexivity|].
        split; [discriminate|]. intros HN. assert (forall x, bound d k x -> dict_get d k = Some x) as G by (intros; now apply bound_get).
        apply G in HB; destruct HN as [HN|[HN|HN]]; apply G in HN; congruence. }
    destruct (IH HP' out ((cur ++ t) ++ v) (col + length t + w)%nat (negb done && blank (Proc d out ((cur ++ t) ++ v) (col + length t + w) [Active] [])) rest) as (ig' & E & HIG).
    exists ig'. split.
    { etransitivity; [exact E|]. now rewrite <- !app_assoc, <- !Nat.add_assoc. }
    rewrite HIG. clear E HIG IH. split.
    + intros [[-> H]|(HW & ps' & p & -> & HN)]; right.
      * apply andb_true_iff in H as [H1 H2]. apply negb_true_iff in H1. split.
        -- unfold blank in H2. cbn [p_cur] in H2. apply white_blank in H2. unfold written. cbn [combine map concat]. rewrite !app_nil_r. now rewrite <- app_assoc in H2.
        -- exists [], (t, k). split; [reflexivity|]. now apply HD.
      * split; [now rewrite <- !app_assoc in HW|]. exists ((t, k) :: ps'), p. auto.
    + intros [[H _]|(HW & ps' & p & E & HN)]; [discriminate|]. destruct ps' as [|q ps'].
      * injection E as <- ->. left. split; [reflexivity|]. apply andb_true_iff. split; [now apply negb_true_iff, HD|].
        unfold blank. cbn [p_cur]. apply white_blank. unfold written in HW. cbn [combine map concat] in HW. rewrite !app_nil_r in HW. now rewrite <- app_assoc.
      * injection E as <- ->. right. split; [now rewrite <- !app_assoc|]. eauto.
Qed.
Lemma run_tail d out cur col ig tail rest : ~ In x0a tail -> (tail = [] -> ig = false) ->
  run (Proc d out cur col [Active] []) ig ((match tail with [] => [] | t => [TText t] end ++ [TNewline]) ++ rest) =
  run (Proc d (out ++ [py_rstrip (cur ++ tail)]) [] 0 [Active] []) false rest.
Proof.
  intros HT Hig. destruct tail as [|c tail].
  - rewrite (Hig eq_refl). cbn [app run step handle]. unfold handle_newline. cbn [top p_scope p_dict p_lines p_cur p_align]. now rewrite app_nil_r.
  - cbn [app run]. assert (step (Proc d out cur col [Active] []) ig (TText (c :: tail)) = handle (Proc d out cur col [Active] []) (TText (c :: tail))) as -> by (destruct ig; reflexivity).
    cbn [handle top p_scope]. rewrite add_text_plain by exact HT. reflexivity.
Qed.
Lemma tokens_pairs ps tail : tokens_of (ps, tail) = pair_tokens ps ++ match tail with [] => [] | t => [TText t] end ++ [TNewline].
Proof. now destruct tail. Qed.
Lemma run_expanded d spill lines outs : Expanded d spill lines outs -> Forall plain_tline lines -> forall out,
  exists p, run (Proc d out [] spill [Active] []) false (flat_map tokens_of lines) = Some p /\ p_lines p = out ++ outs /\ p_scope p = [Active].
Proof.
  induction 1 as [spill|spill ps tail vs out lines o HV HL HS HE IH|spill ps tail vs out lines HV HL HE IH|spill ps vs t k qs ws tail r rs z ind pad o lines out HV HB HW HZ HM HPad HL HS HE IH]; intros HP acc.
  - eexists. split; [reflexivity|]. split; [now rewrite app_nil_r|reflexivity].
  - apply Forall_cons_iff in HP as [(H1 & HT & _) H2]. cbn [fst snd] in *. cbn [flat_map]. rewrite tokens_pairs, <- app_assoc.
    destruct (run_parts d ps vs HV H1 acc [] spill false ((match tail with [] => [] | t => [TText t] end ++ [TNewline]) ++ flat_map tokens_of lines)) as (ig & E & HIG).
    rewrite E, run_tail; [|exact HT|].
    2:{ intros ->. apply not_true_iff_false. intros Hig. apply HIG in Hig as [[_ Hig]|(Hw & Hex)]; [discriminate|]. apply HL. split; [reflexivity|]. split; [now rewrite app_nil_r|exact Hex]. }
    apply stripped_fun in HS. cbn [app] in *. match goal with |- context [py_rstrip ?x] => replace (py_rstrip x) with o by exact HS end.
    destruct (IH H2 (acc ++ [o])) as (p & E2 & El & Es). exists p. split; [exact E2|]. split; [|exact Es]. now rewrite El, <- app_assoc.
  - apply Forall_cons_iff in HP as [(H1 & HT & _) H2]. cbn [fst snd] in *. cbn [flat_map]. rewrite tokens_pairs, <- app_assoc.
    destruct (run_parts d ps vs HV H1 acc [] spill false ((match tail with [] => [] | t => [TText t] end ++ [TNewline]) ++ flat_map tokens_of lines)) as (ig & E & HIG).
    rewrite E. destruct HL as (-> & Hw & Hex). rewrite app_nil_r in Hw. assert (ig = true) as -> by (apply HIG; right; auto).
    cbn [app run step]. assert (blank (Proc d acc (written ps vs) (spill + width ps vs) [Active] []) = true) as -> by (now apply white_blank).
    cbn [p_dict p_lines p_cur p_column p_scope p_align]. exact (IH H2 acc).
  - apply Forall_cons_iff in HP as [(H1 & HT & _) H2]. cbn [fst snd] in *. cbn [flat_map]. rewrite tokens_pairs, <- app_assoc.
    unfold pair_tokens. rewrite flat_map_app, <- app_assoc. change (flat_map (fun p : str * str => [TText (fst p); TExpand (snd p)])) with pair_tokens.
    apply Forall_app in H1 as [H1 H1']. apply Forall_cons_iff in H1' as [(A1 & A2 & A3 & A4) H3]. cbn [fst snd] in *.
    match goal with |- context [pair_tokens ps ++ ?R] => destruct (run_parts d ps vs HV H1 acc [] spill false R) as (ig & E & _) end. rewrite E. clear E.
    change (pair_tokens ((t, k) :: qs)) with (TText t :: TExpand k :: pair_tokens qs). cbn [app run].
    assert (step (Proc d acc (written ps vs) (spill + width ps vs) [Active] []) ig (TText t) = Some (Proc d acc (written ps vs ++ t) (spill + width ps vs + length t) [Active] [], false)) as ->.
    { match goal with |- step ?p _ _ = _ => assert (step p ig (TText t) = handle p (TText t)) as -> by (destruct ig; reflexivity) end.
      cbn [handle top p_scope]. now rewrite add_text_plain. }
    cbn [run step handle top p_scope]. unfold handle_expand at 1. rewrite (expand_get d _ _ _ _ _ k _ A4 HB). unfold add_lines. cbn [p_dict p_lines p_cur p_column p_scope p_align].
    assert (exists x y, rs ++ [z] = x :: y) as (x & y & Exy) by (destruct rs; cbn; eauto). rewrite Exy. rewrite <- Exy. clear x y Exy.
    rewrite removelast_last, last_last. unfold alignment. cbn [p_cur p_column]. rewrite <- !(app_assoc (written ps vs) t r). destruct (margin_indentation _ _ HM) as [-> HI].
    rewrite <- HPad.
    assert (~ In x0a (pad ++ z)) as HZ'.
    { subst pad. rewrite !in_app_iff. intros [[Hi|Hi]|Hi]; [now apply (indent_newline ind)|apply repeat_spec in Hi; discriminate|contradiction]. }
    rewrite add_text_plain by exact HZ'. cbn [app negb andb].
    match goal with |- context [run (Proc d ?A ?C ?N _ _) false (pair_tokens qs ++ ?R)] => destruct (run_parts d qs ws HW H3 A C N false R) as (ig2 & E & HIG) end.
    rewrite E. clear E. rewrite run_tail; [|exact HT|].
    2:{ intros ->. apply not_true_iff_false. intros Hig. apply HIG in Hig as [[_ Hig]|(Hw & Hex)]; [discriminate|]. apply HL. split; [reflexivity|]. split; [now rewrite app_nil_r, app_assoc|exact Hex]. }
    rewrite <- !app_assoc. apply stripped_fun in HS. match goal with |- context [py_rstrip ?x] => replace (py_rstrip x) with o by exact HS end.
    match goal with |- exists p, run (Proc d ?A _ _ _ _) _ _ = _ /\ _ => destruct (IH H2 A) as (p & E & El & Es) end. exists p. split; [exact E|]. split; [|exact Es].
    rewrite El. rewrite <- !app_assoc. cbn [app]. reflexivity.
Qed.

(** The usual cases. *)
Lemma exp_end d spill : Expanded d spill [] [].
Proof. constructor. Qed.
Lemma inline_not d k t : inline d k t -> ~ nothing d k.
Proof.
  intros [_ HB] HN. assert (forall x, bound d k x -> dict_get d k = Some x) as G by (intros; now apply bound_get).
  destruct HB as [HB|[Hn HB]]; apply G in HB; destruct HN as [HN|[HN|HN]]; apply G in HN; congruence.
Qed.
Lemma Forall2_last {A B} (P : A -> B -> Prop) a x l : Forall2 P (a ++ [x]) l -> exists y, P x y.
Proof.
  revert l. induction a as [|y a IH]; intros l H; inversion H; subst; eauto.
Qed.
Lemma exp_line d spill ps tail ts out lines o :
  Forall2 (fun p t => inline d (snd p) t) ps ts ->
  stripped (concat (map (fun q => fst (fst q) ++ snd q) (combine ps ts)) ++ tail) o ->
  Expanded d 0 lines out -> Expanded d spill ((ps, tail) :: lines) (o :: out).
Proof.
  intros HV HS HE. apply ex_line with (map (fun t => (t, length t)) ts); [| | |exact HE].
  - clear HS. induction HV; constructor; [now constructor|assumption].
  - intros (_ & _ & ps' & p & -> & HN). apply Forall2_last in HV as [y Hy]. now apply inline_not in Hy.
  - replace (written ps (map (fun t => (t, length t)) ts)) with (concat (map (fun q => fst (fst q) ++ snd q) (combine ps ts))); [exact HS|].
    clear. unfold written. revert ts. induction ps as [|p ps IH]; intros [|t ts]; try reflexivity. cbn. now rewrite IH.
Qed.
Lemma exp_row d spill ind k r o lines out :
  indent ind -> bound d k (VList [r]) -> stripped (ind ++ r) o ->
  Expanded d 0 lines out -> Expanded d spill (([(ind, k)], []) :: lines) (o :: out).
Proof.
  intros HI HB HS HE. apply ex_line with [(r, 0%nat)]; [constructor; [now apply part_row|constructor]| |unfold written; cbn; now rewrite !app_nil_r|exact HE].
  intros (_ & _ & ps' & p & E & HN). assert (p = (ind, k)) as -> by (destruct ps' as [|? [|]]; [now injection E|discriminate..]). cbn [snd] in HN.
  assert (forall x, bound d k x -> dict_get d k = Some x) as G by (intros; now apply bound_get).
  apply G in HB; destruct HN as [HN|[HN|HN]]; apply G in HN; congruence.
Qed.
Lemma exp_rows d spill ind k r rs z o lines out :
  indent ind -> bound d k (VList (r :: rs ++ [z])) -> row_start r -> Forall (fun x => x <> []) rs -> ~ In x0a z ->
  stripped (ind ++ repeat x20 spill ++ z) o ->
  Expanded d 0 lines out ->
  Expanded d spill (([(ind, k)], []) :: lines) ((ind ++ r) :: map (fun x => ind ++ repeat x20 spill ++ x) rs ++ o :: out).
Proof.
  intros HI HB HR HRS HZ HS HE.
  assert (map (fun x => ind ++ repeat x20 spill ++ x) rs = map (fun x => match x with [] => [] | _ => (ind ++ repeat x20 spill) ++ x end) rs) as ->.
  { apply map_ext_Forall. eapply Forall_impl; [|exact HRS]. intros [|c x] Hx; [congruence|]. now rewrite <- app_assoc. }
  apply (ex_list d spill [] [] ind k [] [] [] r rs z ind (ind ++ repeat x20 spill) o lines out); auto; try (now constructor).
  - left. exists r. auto.
  - unfold width. cbn. rewrite Nat.add_0_r. do 2 f_equal. lia.
  - intros (_ & _ & ps' & p & E & _). destruct ps'; discriminate.
  - unfold written. cbn. now rewrite app_nil_r, <- app_assoc.
Qed.
Lemma exp_nothing d spill ind k lines out :
  indent ind -> nothing d k -> Expanded d (spill + length ind) lines out ->
  Expanded d spill (([(ind, k)], []) :: lines) out.
Proof.
  intros HI HN HE. apply ex_left_out with [([], 0%nat)]; [constructor; [now apply part_nothing|constructor]| |].
  - split; [reflexivity|]. split; [|exists [], (ind, k); auto]. unfold written. cbn. rewrite !app_nil_r. eapply Forall_impl; [|exact HI]. intros c [-> | ->]; [now left|right; left; cbv; now split].
  - unfold width. cbn. now rewrite !Nat.add_0_r.
Qed.
Lemma lines_text_join l : py_join [x0a] l = lines_text l.
Proof. induction l as [|x [|y l] IH]; [reflexivity|reflexivity|]. cbn [py_join lines_text] in *. now rewrite IH. Qed.
Lemma p_c118 d lines outs : lines <> [] -> Forall plain_tline lines -> Expanded d 0 lines outs ->
  make_lines (lines_text (map tline_text lines)) d = Some outs /\ make_text (lines_text (map tline_text lines)) d = Some (lines_text outs).
Proof.
  intros HN HP HE. assert (make_lines (lines_text (map tline_text lines)) d = Some outs) as E.
  { unfold make_lines. rewrite tokenize_all by assumption. destruct (run_expanded d 0 lines outs HE HP []) as (p & -> & El & Es). now rewrite Es, El. }
  split; [exact E|]. unfold make_text. rewrite E. now rewrite lines_text_join.
Qed.
Lemma p_c118_unique d lines out out' : lines <> [] -> Forall plain_tline lines -> Expanded d 0 lines out -> Expanded d 0 lines out' -> out = out'.
Proof.
  intros HN HP H1 H2. destruct (p_c118 d lines out HN HP H1) as [E1 _]. destruct (p_c118 d lines out' HN HP H2) as [E2 _]. congruence.
Qed.

Definition simple_token (t : token) : Prop := match t with TText _ | TExpand _ | TNewline => True | _ => False end.
Lemma add_text_keeps p t : p_dict (add_text p t) = p_dict p /\ p_scope (add_text p t) = p_scope p.
Proof. unfold add_text. destruct (py_rcut_newline t) as [[a b]|]; split; reflexivity. Qed.
Lemma add_lines_keeps p l : p_dict (add_lines p l) = p_dict p /\ p_scope (add_lines p l) = p_scope p.
Proof.
  unfold add_lines. destruct l as [|x [|y l]]; [split; reflexivity..|].
  match goal with |- context [add_text ?q ?t] => destruct (add_text_keeps q t) as [-> ->] end. split; reflexivity.
Qed.
Lemma some_fst {A B} (a a' : A) (b b' : B) : Some (a, b) = Some (a', b') -> a' = a.
Proof. congruence. Qed.
Lemma step_keeps p ig t p' ig' : p_scope p = [Active] -> simple_token t -> step p ig t = Some (p', ig') -> p_dict p' = p_dict p /\ p_scope p' = [Active].
Proof.
  intros HS Ht E. assert (handle p t = Some (p', ig') -> p_dict p' = p_dict p /\ p_scope p' = [Active]) as K.
  { unfold handle, handle_newline, top. rewrite HS. destruct t as [s| |key|key|key| | |s| | |]; try contradiction; intros H.
    - injection H as <- _. destruct (add_text_keeps p s) as [-> ->]. auto.
    - injection H as <- _. cbn. auto.
    - unfold handle_expand in H. destruct (expand p key) as [[|[|c s]|[|r l]|s]|]; try discriminate; apply some_fst in H; subst p'; auto.
      + destruct (add_text_keeps p (c :: s)) as [-> ->]. auto.
      + destruct (add_lines_keeps p (r :: l)) as [-> ->]. auto.
      + destruct (add_text_keeps p s) as [-> ->]. auto. }
  unfold step in E. destruct ig; [|exact (K E)]. destruct t; try exact (K E). injection E as <- _. cbn. auto.
Qed.
Lemma run_missing d k : Forall key_char k -> (forall v, ~ In (k, v) d) -> forall ts, Forall simple_token ts -> In (TExpand k) ts ->
  forall p ig, p_dict p = d -> p_scope p = [Active] -> run p ig ts = None.
Proof.
  intros HK Hd ts HT HI. induction HT as [|t ts Ht HT IH]; [contradiction|]. intros p ig Ed Es. cbn [run].
  destruct HI as [-> |HI].
  - assert (step p ig (TExpand k) = None) as ->; [|reflexivity].
    assert (expand p k = None) as E.
    { unfold expand. rewrite split1_absent by (apply key_not; [exact HK|not_key]). rewrite Ed. unfold dict_get.
      destruct (find (fun e => str_eqb (fst e) k) d) as [[k' v]|] eqn:Ef; [|reflexivity]. apply find_some in Ef as [Hi He]. cbn in He. apply str_eqb_true in He as ->. now destruct (Hd v). }
    unfold step, handle, handle_expand, top. rewrite Es, E. now destruct ig.
  - destruct (step p ig t) as [[p' ig']|] eqn:E; [|reflexivity]. destruct (step_keeps p ig t p' ig' Es Ht E) as [H1 H2]. apply IH; congruence.
Qed.
Lemma p_c118_missing d lines k ps (p : str) tail : Forall plain_tline lines -> In (ps, tail) lines -> In (p, k) ps ->
  (forall v, ~ In (k, v) d) -> make_text (lines_text (map tline_text lines)) d = None.
Proof.
  intros HP H1 H2 H3. unfold make_text, make_lines. rewrite tokenize_all; [|intros ->; contradiction|exact HP].
  assert (Forall key_char k) as HK.
  { rewrite Forall_forall in HP. destruct (HP _ H1) as [HF _]. cbn [fst] in HF. rewrite Forall_forall in HF. destruct (HF _ H2) as (_ & _ & _ & (HK & _)). exact HK. }
  rewrite (run_missing d k HK H3); [reflexivity| | |reflexivity|reflexivity].
  - apply Forall_forall. intros t Ht. apply in_flat_map in Ht as (l & _ & Ht). unfold tokens_of in Ht. rewrite !in_app_iff in Ht. destruct Ht as [Ht|[Ht|Ht]].
    + apply in_flat_map in Ht as (q & _ & [<-|[<-|[]]]); exact I.
    + destruct (snd l); [contradiction|]. destruct Ht as [<-|[]]. exact I.
    + destruct Ht as [<-|[]]. exact I.
  - apply in_flat_map. exists (ps, tail). split; [exact H1|]. unfold tokens_of. apply in_or_app. left. apply in_flat_map. exists (p, k). split; [exact H2|]. cbn. tauto.
Qed.
Lemma p_c118_alignment :
  make_text (lines_text [#"{"; #"    [[[a]]]"; #"    [[[b]]]"; #"}"]) [(#"a", VList []); (#"b", VList [#"1,"; #"2"])] =
  Some (lines_text [#"{"; #"    1,"; #"        2"; #"}"]).
Proof. vm_compute. reflexivity. Qed.

(** ** Deciding the conditions on concrete templates *)
Lemma prefix_app a v : prefix_eqb a (a ++ v) = true.
Proof. apply prefix_true. eauto. Qed.
Lemma cut_none_iff t s : py_cut t s = None -> forall u v, s <> u ++ t ++ v.
Proof.
  induction s as [|c s IH]; unfold py_cut; fold py_cut; intros H u v E.
  - destruct u; [|discriminate]. destruct (prefix_eqb t []) eqn:Ep; [discriminate|]. apply prefix_false with (v := v) in Ep. now apply Ep.
  - destruct (prefix_eqb t (c :: s)) eqn:Ep; [discriminate|]. destruct u as [|x u]; [apply prefix_false with (v := v) in Ep; now apply Ep|].
    injection E as <- E. destruct (py_cut t s) as [[a b]|]; [discriminate|]. exact (IH eq_refl u v E).
Qed.
Definition key_charb (c : byte) : bool :=
  let n := u8 c in ((0x30 <=? n) && (n <=? 0x39)) || ((0x41 <=? n) && (n <=? 0x5A)) || ((0x61 <=? n) && (n <=? 0x7A)) || (n =? 0x5F).
Definition textb (t : str) : bool :=
  negb (existsb (byte_eqb x0a) t) && match py_cut #"[[[" t with None => true | _ => false end.
Definition plain_tlineb (l : tline) : bool :=
  forallb (fun p => textb (fst p) && negb (match rev (fst p) with c :: _ => byte_eqb c x5b | [] => false end) &&
    forallb key_charb (snd p) && negb (prefix_eqb #"ELSE" (snd p)) && negb (prefix_eqb #"ENDIF" (snd p))) (fst l) && textb (snd l).
Lemma textb_ok t : textb t = true -> ~ In x0a t /\ no_marker t.
Proof.
  unfold textb. rewrite andb_true_iff, negb_true_iff. intros [H1 H2]. split.
  - intros Hi. assert (existsb (byte_eqb x0a) t = true) by (apply existsb_exists; exists x0a; split; [exact Hi|now apply byte_eqb_true]). congruence.
  - intros u v. destruct (py_cut _ t) eqn:E; [discriminate|]. now apply cut_none_iff.
Qed.
Lemma plain_check l : forallb plain_tlineb l = true -> Forall plain_tline l.
Proof.
  rewrite forallb_forall, Forall_forall. intros H x Hx. specialize (H x Hx). unfold plain_tlineb in H. rewrite andb_true_iff, forallb_forall in H.
  destruct H as [H1 H2]. apply textb_ok in H2. split; [|exact H2]. apply Forall_forall. intros [t k] Hp. specialize (H1 _ Hp). cbn [fst snd] in *.
  rewrite !andb_true_iff, !negb_true_iff in H1. destruct H1 as [[[[A1 A2] A3] A4] A5]. apply textb_ok in A1 as [A0 A1].
  split; [exact A0|]. split; [exact A1|]. split; [|split; [|split]].
  - intros u ->. rewrite rev_app_distr in A2. cbn in A2. discriminate.
  - apply Forall_forall. intros c Hc. rewrite forallb_forall in A3. specialize (A3 c Hc). unfold key_charb in A3. unfold key_char.
    rewrite !orb_true_iff, !andb_true_iff, !N.leb_le, N.eqb_eq in A3. intuition lia.
  - now apply prefix_false.
  - now apply prefix_false.
Qed.
Lemma stripped_check s t : py_rstrip s = t -> stripped s t.
Proof. intros <-. apply rstrip_spec. Qed.
Lemma bound_first d k v : match find (fun e => str_eqb (fst e) k) d with Some e => snd e = v | None => False end -> bound d k v.
Proof.
  induction d as [|[k' v'] d IH]; cbn [find fst]; [contradiction|]. destruct (str_eqb k' k) eqn:E.
  - apply str_eqb_true in E as ->. cbn. intros ->. exists [], d. split; [reflexivity|constructor].
  - intros H. destruct (IH H) as (u & w & -> & HF). exists ((k', v') :: u), w. split; [reflexivity|]. constructor; [|exact HF].
    cbn. rewrite <- str_eqb_true. congruence.
Qed.
