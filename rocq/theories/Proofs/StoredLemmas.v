(** C135: a list of strings stored as one. *)
From Verif Require Import Base Spec.Utf8Spec Spec.Strings Spec.Escape Spec.Algebra Spec.Split Model.Decode Model.Search Model.Split Model.Escape Model.Unescape
  Proofs.Utf8Lemmas Proofs.SearchLemmas Proofs.EscapeLemmas Proofs.SplitLemmas Proofs.AlgebraLemmas.

Lemma oct_no_control d x : hex_digit d x -> 0x20 <= u8 d.
Proof. unfold hex_digit. lia. Qed.
Lemma hex_no_control ds v : Hex ds v -> Forall (fun b => 0x20 <= u8 b) ds.
Proof. induction 1 as [|ds v c d H IH Hd]; [constructor|]. apply Forall_app. split; [exact IH|]. repeat constructor. now apply oct_no_control in Hd. Qed.
Lemma json_no_control e : JsonBody e -> Forall (fun b => 0x20 <= u8 b) e.
Proof.
  induction 1 as [|c s H1 H2 H3 H IH|c s Hc H IH|ds v s Hl Hd H IH].
  - constructor.
  - now constructor.
  - constructor; [cbn; lia|]. constructor; [|exact IH]. cbn in Hc. repeat destruct Hc as [<-|Hc]; try contradiction; cbn; lia.
  - cbn. constructor; [cbn; lia|]. constructor; [cbn; lia|]. apply Forall_app. split; [now apply hex_no_control in Hd|exact IH].
Qed.
(** The first control byte of the separator *)
Lemma first_control (sep : str) : Exists (fun b => u8 b < 0x20) sep ->
  exists k c, nth_error sep k = Some c /\ u8 c < 0x20 /\ forall i b, (i < k)%nat -> nth_error sep i = Some b -> 0x20 <= u8 b.
Proof.
  induction sep as [|a sep IH]; intros H; [inversion H|]. destruct (N.lt_ge_cases (u8 a) 0x20) as [Ha|Ha].
  - exists 0%nat, a. repeat split; auto. intros i b Hi. lia.
  - inversion H; subst; [lia|]. destruct (IH H1) as (k & c & E & Hc & Hk). exists (S k), c. repeat split; auto.
    intros [|i] b Hi Eb; cbn in Eb; [injection Eb as <-; exact Ha|]. apply (Hk i); [lia|exact Eb].
Qed.
Lemma no_early sep x y i : Exists (fun b => u8 b < 0x20) sep -> Forall (fun b => 0x20 <= u8 b) x ->
  (y = [] \/ y = sep) -> (i < length x)%nat \/ y = [] -> ~ occurs_at sep (x ++ y) i.
Proof.
  intros Hs Hx Hy Hi (u & v & E & Hu). destruct (first_control sep Hs) as (k & c & Ek & Hc & Hk).
  assert (nth_error (x ++ y) (i + k) = Some c) as En.
  { rewrite E, nth_error_app2 by lia. rewrite nth_error_app1; [|apply nth_error_Some; replace (i + k - length u)%nat with k by lia; congruence].
    now replace (i + k - length u)%nat with k by lia. }
  destruct (Nat.lt_ge_cases (i + k) (length x)) as [Hl|Hl].
  - rewrite nth_error_app1 in En by exact Hl. apply nth_error_In in En. rewrite Forall_forall in Hx. specialize (Hx _ En). cbv beta in Hx. lia.
  - rewrite nth_error_app2 in En by exact Hl. destruct Hy as [->| ->]; [now destruct (i + k - length x)%nat|].
    destruct Hi as [Hi| ->]; [|now inversion Hs]. assert (0x20 <= u8 c) by (apply (Hk (i + k - length x)%nat); [lia|exact En]). lia.
Qed.
Lemma control_separable sep l : Exists (fun b => u8 b < 0x20) sep -> l <> [] -> Forall (Forall (fun b => 0x20 <= u8 b)) l -> separable sep l.
Proof.
  intros Hs. induction l as [|x l IH]; intros Hn H; [contradiction|]. inversion H; subst. destruct l as [|y l].
  - intros i. rewrite <- (app_nil_r x). apply no_early; auto.
  - split; [|apply IH; [discriminate|assumption]]. intros i Hi. apply no_early; auto.
Qed.
Lemma p_c135 l es sep : Exists (fun b => u8 b < 0x20) sep -> l <> [] -> Forall Fits l ->
  Forall2 (fun s e => escape_json s = Ok e) l es -> Fits (join es sep) ->
  split_sep (join es sep) sep SIZE_MAX false = Ok es.
Proof.
  intros Hs Hn HF H HJ. apply p_c83; [intros ->; inversion Hs|exact HJ|]. apply control_separable; auto.
  - intros ->. inversion H. subst. contradiction.
  - clear Hn HJ. induction H as [|s e l es E H IH]; [constructor|]. inversion HF; subst. constructor; [|now apply IH].
    destruct (p_c57 s) as (e' & E' & HB & _); [assumption|]. assert (e' = e) as -> by congruence. now apply json_no_control.
Qed.
Lemma p_c135_back l es : Forall Fits l -> Forall Fits es -> Forall2 (fun s e => escape_json s = Ok e) l es ->
  Forall2 (fun e s => unescape e = Ok s) es l.
Proof.
  intros HF HE H. induction H as [|s e l es E H IH]; [constructor|]. inversion HF; subst. inversion HE; subst. constructor; auto. now apply p_c58.
Qed.
Lemma fits_parts (l : list str) sep : Fits (join l sep) -> Forall Fits l.
Proof.
  rewrite join_spec. induction l as [|x l IH]; intros H; [constructor|]. destruct l as [|y l].
  - constructor; [exact H|constructor].
  - cbn [interleave] in H. unfold Fits, size in H. rewrite !app_length in H. constructor; [unfold Fits, size; lia|].
    apply IH. unfold Fits, size. cbn [interleave] in *. lia.
Qed.
Lemma p_c135_all l es sep : Exists (fun b => u8 b < 0x20) sep -> l <> [] -> Forall Fits l ->
  Forall2 (fun s e => escape_json s = Ok e) l es -> Fits (join es sep) ->
  split_sep (join es sep) sep SIZE_MAX false = Ok es /\ Forall2 (fun e s => unescape e = Ok s) es l.
Proof. intros. split; [eapply p_c135; eassumption|]. apply p_c135_back; auto. now apply fits_parts with sep. Qed.
Lemma p_c135_inj l es l' es' sep : Exists (fun b => u8 b < 0x20) sep -> l <> [] -> l' <> [] -> Forall Fits l -> Forall Fits l' ->
  Forall2 (fun s e => escape_json s = Ok e) l es -> Forall2 (fun s e => escape_json s = Ok e) l' es' -> Fits (join es sep) ->
  join es sep = join es' sep -> l = l'.
Proof.
  intros Hs Hn Hn' HF HF' H H' HJ E. destruct (p_c135_all l es sep) as [S1 U1]; auto.
  destruct (p_c135_all l' es' sep) as [S2 U2]; auto; [congruence|]. assert (es' = es) as -> by congruence.
  clear - U1 U2. revert l' U2. induction U1 as [|e s es l E U1 IH]; intros l' U2; inversion U2; subst; [reflexivity|]. f_equal; [congruence|now apply IH].
Qed.
(** A byte separator works exactly if it is a control character. *)
Lemma json_keeps b e : 0x20 <= u8 b -> JsonOf [b] e -> In b e.
Proof.
  intros H HJ. inversion HJ as [|? ? ? H1 H2|? ? ? ? H1 H2|? ? ? ? H1 H2 H3 H4 H5]; subst.
  - now left.
  - cbn in H1. repeat destruct H1 as [H1|H1]; try contradiction; injection H1 as <- <-; cbn in *; try lia; auto.
  - exfalso. destruct H1 as [H1|[->| ->]]; [lia| |].
    + apply (H2 x22). cbn. tauto.
    + apply (H2 x5c). cbn. tauto.
Qed.
Lemma p_c135_byte b :
  (forall l es, l <> [] -> Forall Fits l -> Forall2 (fun s e => escape_json s = Ok e) l es -> Fits (join es [b]) ->
     split_sep (join es [b]) [b] SIZE_MAX false = Ok es) <-> u8 b < 0x20.
Proof.
  split.
  - intros H. destruct (N.lt_ge_cases (u8 b) 0x20) as [Hb|Hb]; [exact Hb|exfalso].
    assert (Fits [b]) as Hf by (unfold Fits, size; cbn; reflexivity).
    destruct (p_c57 [b] Hf) as (e & E & _ & HJ).
    assert (Fits e) as He by (clear - HJ; inversion HJ as [|? ? ? H1 H2|? ? ? ? H1 H2|? ? ? ? H1 H2 H3 H4 H5]; subst;
      match goal with H : JsonOf [] _ |- _ => inversion H; subst end; unfold Fits, size; cbn; try reflexivity; rewrite app_length, H3; reflexivity).
    assert (join [e] [b] = e) as EJ by reflexivity.
    specialize (H [[b]] [e]). rewrite EJ in H. assert (split_sep e [b] SIZE_MAX false = Ok [e]) as HS by (apply H; auto; discriminate).
    pose proof (p_c83 [e] [b]) as K. rewrite EJ in K. apply K in HS; [|discriminate|exact He].
    apply p_c83_byte in HS as [_ HS]. inversion HS as [|? ? HN _]; subst. apply HN. now apply json_keeps.
  - intros Hb l es. intros. eapply p_c135; eauto.
Qed.
