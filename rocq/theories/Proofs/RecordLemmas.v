(** C148: tables of texts. *)
From Verif Require Import Base Spec.Utf8Spec Spec.Strings Spec.Escape Spec.Algebra Spec.Split Model.Decode Model.Search Model.Split Model.Escape Model.Unescape
  Proofs.Utf8Lemmas Proofs.SearchLemmas Proofs.EscapeLemmas Proofs.SplitLemmas Proofs.AlgebraLemmas Proofs.StoredLemmas.

(** Reading back: the text is split into lines and every line into its cells. *)
Definition reads_back (f r : str) (text : str) (rows : list (list str)) : Prop :=
  exists lines, split_sep text r SIZE_MAX false = Ok lines /\ Forall2 (fun line row => split_sep line f SIZE_MAX false = Ok row) lines rows.

Lemma split_join s sep n parts : sep <> [] -> Fits s -> 1 <= n -> split_sep s sep n false = Ok parts -> join parts sep = s.
Proof. intros Hs HF Hn E. destruct (p_c36_join s sep n Hs HF Hn) as (p & E' & J & _). congruence. Qed.
Lemma p_c148_table : forall f r rows, f <> [] -> r <> [] -> let text := join (map (fun row => join row f) rows) r in Fits text ->
  (reads_back f r text rows <-> separable r (map (fun row => join row f) rows) /\ Forall (separable f) rows).
Proof.
  intros f r rows Hf Hr text HF. split.
  - intros (lines & HS & H2). assert (Forall Fits lines) as FL. { apply (fits_parts lines r). rewrite (split_join text r SIZE_MAX lines Hr HF ltac:(vm_compute; congruence) HS). exact HF. }
    assert (lines = map (fun row => join row f) rows) as ->.
    { clear HS HF text. induction H2 as [|line row lines rows H H2 IH]; [reflexivity|]. inversion FL; subst. cbn [map]. f_equal; [|now apply IH].
      symmetry. apply (split_join line f SIZE_MAX row Hf); auto. vm_compute. congruence. }
    split; [now apply p_c83|]. clear HS HF text. induction rows as [|row rows IH]; constructor; inversion H2; subst; inversion FL; subst; [now apply p_c83|now apply IH].
  - intros [H1 H2]. exists (map (fun row => join row f) rows). split; [now apply p_c83|].
    pose proof (fits_parts _ _ HF) as FL. clear H1 HF text. induction H2 as [|row rows H H2 IH]; cbn [map] in *; constructor; inversion FL; subst; [now apply p_c83|now apply IH].
Qed.

(** One-byte separators *)
Lemma in_join b f (row : list str) : b <> f -> In b (join row [f]) <-> exists x, In x row /\ In b x.
Proof.
  intros N. rewrite join_spec. induction row as [|x row IH]; [split; [intros []|intros (x & [] & _)]|]. destruct row as [|y row].
  - cbn [interleave]. split; [intros H; exists x; split; [now left|exact H]|intros (z & [<-|[]] & H); exact H].
  - change (interleave [f] (x :: y :: row)) with (x ++ [f] ++ interleave [f] (y :: row)). rewrite !in_app_iff, IH. split.
    + intros [H|[[->|[]]|(z & Hz & H)]]; [exists x; split; [now left|exact H]|congruence|exists z; split; [now right|exact H]].
    + intros (z & [<-|Hz] & H); [now left|right; right; exists z; now split].
Qed.
Lemma p_c148_bytes : forall f r rows, f <> r -> let text := join (map (fun row => join row [f]) rows) [r] in Fits text ->
  (reads_back [f] [r] text rows <-> rows <> [] /\ Forall (fun row => row <> [] /\ Forall (fun x => ~ In f x /\ ~ In r x) row) rows).
Proof.
  intros f r rows N text HF. unfold text. rewrite p_c148_table by (auto; discriminate). rewrite p_c83_byte. split.
  - intros [[H1 H2] H3]. split; [intros ->; now apply H1|]. rewrite Forall_forall in *. intros row Hr. specialize (H3 row Hr). apply p_c83_byte in H3. destruct H3 as [H3 H4].
    split; [exact H3|]. rewrite Forall_forall in *. intros x Hx. split; [now apply H4|]. intros Hb. apply (H2 (join row [f])).
    + now apply (in_map (fun row => join row [f])).
    + apply in_join; [congruence|]. now exists x.
  - intros [H1 H2]. split; [split; [destruct rows; [congruence|discriminate]|]|].
    + rewrite Forall_forall in *. intros line Hl. apply in_map_iff in Hl. destruct Hl as (row & <- & Hr). destruct (H2 row Hr) as [_ H3]. rewrite in_join by congruence.
      intros (x & Hx & Hb). rewrite Forall_forall in H3. now apply (H3 x Hx).
    + eapply Forall_impl; [|exact H2]. intros row [H3 H4]. apply p_c83_byte. split; [exact H3|]. eapply Forall_impl; [|exact H4]. now intros x [? _].
Qed.

(** Any cells, escaped *)
Lemma fits_cells f r (rows : list (list str)) : Fits (join (map (fun row => join row f) rows) r) -> Forall (Forall Fits) rows.
Proof.
  intros H. apply fits_parts in H. induction rows as [|row rows IH]; [constructor|]. cbn in H. inversion H; subst. constructor; [now apply fits_parts with f|now apply IH].
Qed.
Lemma p_c148_escaped : forall f r rows es, u8 f < 0x20 -> u8 r < 0x20 -> f <> r -> rows <> [] -> Forall (fun row => row <> []) rows -> Forall (Forall Fits) rows ->
  Forall2 (Forall2 (fun s e => escape_json s = Ok e)) rows es -> let text := join (map (fun row => join row [f]) es) [r] in Fits text ->
  reads_back [f] [r] text es /\ Forall2 (Forall2 (fun e s => unescape e = Ok s)) es rows.
Proof.
  intros f r rows es Hf Hr N Hn Hne HF H2 text HT. split.
  - apply p_c148_bytes; [exact N|exact HT|]. split; [intros ->; inversion H2; subst; congruence|]. clear Hn text HT.
    induction H2 as [|row e rows es H H2 IH]; [constructor|]. inversion Hne; subst. inversion HF; subst. constructor; [|now apply IH].
    split; [intros ->; inversion H; subst; congruence|]. clear - H H5 Hf Hr. induction H as [|s e row es E H IH]; [constructor|]. inversion H5; subst. constructor; [|now apply IH].
    destruct (p_c57 s) as (e' & E' & HB & _); [assumption|]. assert (e' = e) as -> by congruence. apply json_no_control in HB. rewrite Forall_forall in HB.
    split; intros Hin; apply HB in Hin; cbv beta in Hin; lia.
  - apply fits_cells in HT. clear Hn Hne. induction H2 as [|row e rows es H H2 IH]; [constructor|]. inversion HF; subst. inversion HT; subst. constructor; [|now apply IH].
    now apply p_c135_back.
Qed.
Lemma Forall2_fun {A B} (R : A -> B -> Prop) : (forall a b c, R a b -> R a c -> b = c) -> forall l m n, Forall2 R l m -> Forall2 R l n -> m = n.
Proof. intros HR l m n H. revert n. induction H as [|a b l m Hab H IH]; intros n Hn; inversion Hn; subst; [reflexivity|]. f_equal; [eapply HR; eassumption|now apply IH]. Qed.
Lemma p_c148_injective : forall f r rows es rows' es', u8 f < 0x20 -> u8 r < 0x20 -> f <> r ->
  rows <> [] -> Forall (fun row => row <> []) rows -> Forall (Forall Fits) rows -> rows' <> [] -> Forall (fun row => row <> []) rows' -> Forall (Forall Fits) rows' ->
  Forall2 (Forall2 (fun s e => escape_json s = Ok e)) rows es -> Forall2 (Forall2 (fun s e => escape_json s = Ok e)) rows' es' ->
  Fits (join (map (fun row => join row [f]) es) [r]) -> join (map (fun row => join row [f]) es) [r] = join (map (fun row => join row [f]) es') [r] -> rows = rows'.
Proof.
  intros f r rows es rows' es' Hf Hr N A1 A2 A3 B1 B2 B3 H H' HT E.
  destruct (p_c148_escaped f r rows es Hf Hr N A1 A2 A3 H HT) as [(l1 & S1 & R1) U1]. rewrite E in HT.
  destruct (p_c148_escaped f r rows' es' Hf Hr N B1 B2 B3 H' HT) as [(l2 & S2 & R2) U2]. rewrite E in S1. rewrite S1 in S2. injection S2 as <-.
  assert (es = es') as <-. { eapply (Forall2_fun _ _ l1); [exact R1|exact R2]. Unshelve. intros a b c X Y. cbv beta in *. congruence. }
  eapply (Forall2_fun _ _ es); [exact U1|exact U2]. Unshelve. intros a b c X Y. apply (Forall2_fun _ (fun a b c (X : unescape a = Ok b) (Y : unescape a = Ok c) => ltac:(congruence)) a b c X Y).
Qed.

(** Keys and values *)
Lemma split_once b k v : ~ In b k -> Fits (k ++ [b] ++ v) -> split_sep (k ++ [b] ++ v) [b] 1 false = Ok [k; v].
Proof.
  intros Hk HF. destruct (p_c36 (k ++ [b] ++ v) [b] 1 ltac:(discriminate) HF ltac:(lia)) as (cuts & rest & HC & HS & ->).
  destruct HS as [[Hc HS]|(c & u & g & -> & Hc & _)].
  - cbn in Hc. destruct cuts as [|x cuts]; [|cbn in Hc; lia]. inversion HC; subst. exfalso. apply (HS (length k)). now exists k, v.
  - cbn in Hc. destruct c as [|x c]; [|cbn in Hc; lia]. cbn [app map fst] in *. inversion HC as [|u' g' v' cuts' rest' [Eg Hu] HC']; subst. inversion HC'; subst. 
    assert (u = k /\ rest = v) as [-> ->]; [|reflexivity].
    match goal with E : _ ++ _ ++ _ = k ++ _ |- _ => rename E into EQ end.
    clear - Hk Hu EQ. assert (forall i, (i < length u)%nat -> nth_error u i <> Some b) as NU.
    { intros i L E. apply (Hu i L). apply occurs_byte. now rewrite nth_error_app1. }
    clear Hu. revert u NU EQ. induction k as [|a k IH]; intros [|x u] NU EQ; cbn in EQ.
    + injection EQ as E. now split.
    + injection EQ as E _. subst x. destruct (NU 0%nat); [cbn; lia|reflexivity].
    + injection EQ as E _. subst a. destruct Hk. now left.
    + injection EQ as -> E. destruct (IH ltac:(intros Hi; apply Hk; now right) u) as [-> ->]; [|exact E|now split].
      intros i L. apply (NU (S i)). cbn. lia.
Qed.
Lemma p_c148_pairs : forall q r (l : list (str * str)), q <> r -> l <> [] -> Forall (fun kv => ~ In q (fst kv) /\ ~ In r (fst kv) /\ ~ In r (snd kv)) l ->
  let text := join (map (fun kv => fst kv ++ [q] ++ snd kv) l) [r] in Fits text ->
  exists lines, split_sep text [r] SIZE_MAX false = Ok lines /\ Forall2 (fun line kv => split_sep line [q] 1 false = Ok [fst kv; snd kv]) lines l.
Proof.
  intros q r l N Hn H text HF. exists (map (fun kv => fst kv ++ [q] ++ snd kv) l). split.
  - apply p_c83; [discriminate|exact HF|]. apply p_c83_byte. split; [destruct l; [congruence|discriminate]|]. apply Forall_map. eapply Forall_impl; [|exact H].
    intros [k v] (H1 & H2 & H3). cbn [fst snd] in *. rewrite !in_app_iff. intros [X|[[X|[]]|X]]; auto.
  - apply fits_parts in HF. clear Hn text. induction l as [|[k v] l IH]; [constructor|]. cbn [map] in *. inversion H; subst. inversion HF; subst. constructor; [|now apply IH].
    cbn [fst snd] in *. now apply split_once.
Qed.
