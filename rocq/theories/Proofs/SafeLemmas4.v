(** No function misbehaves on malformed text (continued): replacing and ignoring case. *)
From Verif Require Import Base Spec.Utf8Spec Spec.Strings Spec.Safety Model.Decode Model.Encode Model.Subrange Model.Search Model.Split
  Model.CharClass Model.ConvertCase Model.CodepointSet Model.Chars Model.CaseInsensitive
  Proofs.Utf8Lemmas Proofs.DecodeLemmas Proofs.SkipLemmas Proofs.EncodeLemmas Proofs.CodepointLemmas Proofs.Utf8Props Proofs.SearchLemmas Proofs.SafeLemmas Proofs.SafeLemmas2 Proofs.SafeLemmas3.

Lemma occurs_len p s i : occurs_at p s i -> (i + length p <= length s)%nat.
Proof. intros (u & v & -> & <-). rewrite !app_length. lia. Qed.

Lemma find_last_n_runs U s p m : runs U any (find_last_n s p m).
Proof.
  unfold find_last_n. cut (forall fuel n i r, (i <= length s)%nat -> (i < fuel)%nat -> runs U any (find_last_n_loop fuel s p n i r)); [intros H; apply H; lia|].
  induction fuel as [|fuel IH]; intros n i r Hi Hf; [lia|]. cbn [find_last_n_loop]. destruct p as [|b p'].
  - cbn. exact I.
  - set (p := b :: p') in *. assert (Hp : p <> []) by discriminate. clearbody p.
    destruct (search_last_spec s p i Hp Hi) as [(a & [H1 H2] & H3 & ->)|(H1 & ->)]; [|exact I].
    destruct (Nat.eqb _ _); [exact I|]. destruct (sub64 n 1 =? 0); [exact I|]. destruct p; [contradiction|]. cbn [length] in *. apply IH; lia.
Qed.
Lemma replace_back_loop_runs U s t : forall l p r, runs U any (replace_back_loop s t l p r).
Proof.
  induction l as [|x l IH]; intros p r; cbn [replace_back_loop]; [exact I|]. eapply (runs_bind U any); [|intros r' _; apply IH].
  destruct (negb _); [|exact I]. rb (substr_any U s p (sub64 (sub_offset x) p)). intros; exact I.
Qed.
Lemma replace_runs U s from to m : index m -> runs U any (replace s from to m).
Proof.
  intros Hm. unfold replace. destruct (0 <=? m)%Z eqn:E.
  - eapply (runs_bind U any); [|intros [r i] _; exact I]. destruct from as [|b f'].
    + cut (forall fuel n i r, (Z.to_nat n < fuel)%nat -> runs U any (replace_front_loop fuel s [] to n i r)); [intros H; apply H; lia|].
      induction fuel as [|fuel IH]; intros n i r Hf; [lia|]. cbn [replace_front_loop]. destruct (Z.ltb_spec 0 n); [|exact I]. destruct (Nat.eqb _ _); [exact I|]. apply IH. lia.
    + set (p := b :: f') in *. assert (Hp : p <> []) by discriminate. clearbody p.
      cut (forall fuel n i r, (i <= length s)%nat -> (length s - i < fuel)%nat -> runs U any (replace_front_loop fuel s p to n i r)); [intros H; apply H; lia|].
      induction fuel as [|fuel IH]; intros n i r Hi Hf; [lia|]. cbn [replace_front_loop]. destruct (0 <? n)%Z; [|exact I].
      destruct (std_search_spec s p i Hp Hi) as [(H1 & H2 & H3)|(H1 & H2)].
      * destruct (Nat.eqb _ _); [exact I|]. apply occurs_len in H1. destruct p; [contradiction|]. cbn [length] in *. apply IH; lia.
      * rewrite H1, Nat.eqb_refl. exact I.
  - rb (signed_runs U (- m) ltac:(idx)). intros n ->. rb (find_last_n_runs U s from (Z.to_N (- m))). intros l _.
    rb (replace_back_loop_runs U s to (rev l) 0 []). intros [r p] _. destruct (negb (p =? size s)); [|exact I]. rb (substr_any U s p (size s)). intros; exact I.
Qed.
Lemma replace_codepoint_runs U s a b m : index m -> runs U any (replace_codepoint s a b m).
Proof.
  intros Hm. unfold replace_codepoint. destruct (encode_utf8_buf a 4) as [f n], (encode_utf8_buf b 4) as [t k]. destruct (n =? 0); [exact I|]. destruct (k =? 0); [exact I|]. now apply replace_runs.
Qed.
Lemma replace_invalid_runs U s c : runs U any (replace_invalid_utf8 s c).
Proof.
  unfold replace_invalid_utf8. destruct (encode_utf8_buf c 4) as [repl n]. eapply (runs_bind U any); [|intros [r p] _; exact I].
  cut (forall fuel i p r, (i <= length s)%nat -> (length s - i < fuel)%nat -> runs U any (replace_invalid_loop fuel s repl i p r)); [intros H; apply H; lia|].
  induction fuel as [|fuel IH]; intros i p r Hi Hf; [lia|]. cbn [replace_invalid_loop]. destruct (Nat.eqb_spec i (length s)); [exact I|].
  rb (decode_next_runs U s i Hi). intros [d j] (H1 & H2 & H3). cbn [fst snd] in *. destruct (N.eqb_spec d INVALID_CHAR) as [E|E]; cbn [negb].
  - specialize (H3 E). subst j. rb (skip_next_runs U s i Hi). intros [k|] Hk; [apply IH; lia|contradiction].
  - specialize (H2 E). apply IH; lia.
Qed.
Lemma replace_invalid_inplace_runs U s c : runs U any (replace_invalid_utf8_inplace s c).
Proof. unfold replace_invalid_utf8_inplace. rb (is_valid_runs U s). intros [|] _; [exact I|]. apply replace_invalid_runs. Qed.

(** Ignoring case *)
Lemma ci_compare_runs U s t : runs U any (ci_compare s t).
Proof.
  unfold ci_compare. cut (forall fuel i j, (i <= length s)%nat -> (j <= length t)%nat -> (length s - i < fuel)%nat -> runs U any (ci_compare_loop fuel s t i j)); [intros H; apply H; lia|].
  induction fuel as [|fuel IH]; intros i j Hi Hj Hf; [lia|]. cbn [ci_compare_loop]. rb (safe_next_runs U s i Hi). intros x Hx. rb (safe_next_runs U t j Hj). intros y Hy.
  destruct x as [[c i']|], y as [[d j']|]; try exact I. cbv zeta. destruct (negb _); [exact I|]. apply IH; lia.
Qed.
Lemma ci_equal_runs U s t : runs U any (ci_equal s t).
Proof.
  unfold ci_equal. cut (forall fuel i j, (i <= length s)%nat -> (j <= length t)%nat -> (length s - i < fuel)%nat -> runs U any (ci_equal_loop fuel s t i j)); [intros H; apply H; lia|].
  induction fuel as [|fuel IH]; intros i j Hi Hj Hf; [lia|]. cbn [ci_equal_loop]. rb (safe_next_runs U s i Hi). intros x Hx. rb (safe_next_runs U t j Hj). intros y Hy.
  destruct x as [[c i']|], y as [[d j']|]; try exact I. destruct (negb _); [exact I|]. apply IH; lia.
Qed.
Lemma ci_less_runs U s t : runs U any (ci_less s t).
Proof.
  unfold ci_less. cut (forall fuel i j, (i <= length s)%nat -> (j <= length t)%nat -> (length s - i < fuel)%nat -> runs U any (ci_less_loop fuel s t i j)); [intros H; apply H; lia|].
  induction fuel as [|fuel IH]; intros i j Hi Hj Hf; [lia|]. cbn [ci_less_loop]. rb (safe_next_runs U s i Hi). intros x Hx. rb (safe_next_runs U t j Hj). intros y Hy.
  destruct x as [[c i']|], y as [[d j']|]; try exact I. cbv zeta. destruct (negb _); [exact I|]. apply IH; lia.
Qed.
Lemma next_mismatch_runs U s t : forall fuel i j, (i <= length s)%nat -> (j <= length t)%nat -> (length s - i < fuel)%nat ->
  runs U (fun p => (i <= fst p <= length s)%nat) (next_ci_mismatch fuel s t i j).
Proof.
  induction fuel as [|fuel IH]; intros i j Hi Hj Hf; [lia|]. cbn [next_ci_mismatch]. rb (safe_next_runs U s i Hi). intros [[c i']|] Hx; [|cbn; lia]. rb (safe_next_runs U t j Hj). intros [[d j']|] Hy; [|cbn; lia].
  destruct (negb _); [cbn; lia|]. eapply runs_weaken; [apply (IH i' j'); lia|auto|cbv beta; intros a Ha; lia].
Qed.
Lemma prev_mismatch_runs s t : forall fuel i j, (i <= length s)%nat -> (j <= length t)%nat -> (i < fuel)%nat ->
  runs (long_run s \/ long_run t) (fun p => (fst p <= i)%nat) (prev_ci_mismatch fuel s t i j).
Proof.
  induction fuel as [|fuel IH]; intros i j Hi Hj Hf; [lia|]. cbn [prev_ci_mismatch].
  eapply runs_bind; [eapply runs_weaken; [apply (safe_prev_runs s i Hi)|tauto|cbv beta; intros a Ha; exact Ha]|cbv beta]. intros [[c i']|] Hx; [|cbn; lia].
  eapply runs_bind; [eapply runs_weaken; [apply (safe_prev_runs t j Hj)|tauto|cbv beta; intros a Ha; exact Ha]|cbv beta]. intros [[d j']|] Hy; [|cbn; lia].
  destruct (negb _); [cbn; lia|]. eapply runs_weaken; [apply (IH i' j'); lia|auto|cbv beta; intros a Ha; lia].
Qed.
Lemma ci_starts_with_runs U s t : runs U any (ci_starts_with s t).
Proof. unfold ci_starts_with. rb (next_mismatch_runs U s t (S (length s)) 0%nat 0%nat ltac:(lia) ltac:(lia) ltac:(lia)). intros; exact I. Qed.
Lemma ci_ends_with_runs s t : runs (long_run s \/ long_run t) any (ci_ends_with s t).
Proof. unfold ci_ends_with. rb (prev_mismatch_runs s t (S (length s)) (length s) (length t) ltac:(lia) ltac:(lia) ltac:(lia)). intros; exact I. Qed.
Lemma ci_find_first_runs U s t o : o <= size s -> runs U (first_inside s o) (ci_find_first s t o).
Proof.
  intros Ho. unfold ci_find_first. rb (safe_next_runs U t 0%nat ltac:(lia)). intros [[c k]|] Hk; [|split; [apply inside_none|now intros]].
  rb (runs_begin U s o Ho). intros i (-> & Hi). 
  cut (forall fuel i, (N.to_nat o <= i)%nat -> (i <= length s)%nat -> (length s - i < fuel)%nat -> runs U (first_inside s o) (ci_find_first_loop fuel s t c k i i)); [intros H; apply H; lia|].
  clear Hi. induction fuel as [|fuel IH]; intros i Hoi Hi Hf; [lia|]. cbn [ci_find_first_loop]. rb (safe_next_runs U s i Hi). intros [[d j]|] Hj; [|split; [apply inside_none|now intros]].
  destruct (case_insensitive_equal d c); [|apply IH; lia]. rb (next_mismatch_runs U s t (S (length s)) j k ltac:(lia) ltac:(lia) ltac:(lia)). intros [a b] Hab. cbn [fst] in Hab.
  destruct (Nat.eqb b (length t)); [|apply IH; lia]. cbn [runs]. split; [apply inside_its; lia|intros _; cbn [sub_its sub_offset]; lia].
Qed.
Lemma ci_find_last_runs s t o : runs (long_run s \/ long_run t) (last_inside s o) (ci_find_last s t o).
Proof.
  unfold ci_find_last. eapply runs_bind; [eapply runs_weaken; [apply (safe_prev_runs t (length t)); lia|tauto|cbv beta; intros a Ha; exact Ha]|cbv beta].
  intros [[c k]|] Hk; [|split; [apply inside_none|now intros]]. cbv zeta. rb (runs_begin (long_run s \/ long_run t) s (N.min o (size s)) ltac:(lia)). intros i (-> & Hi).
  cut (forall fuel i, (i <= N.to_nat (N.min o (size s)))%nat -> (i < fuel)%nat -> runs (long_run s \/ long_run t) (last_inside s o) (ci_find_last_loop fuel s t c k i i)); [intros H; apply H; lia|].
  assert (Hl : (N.to_nat (N.min o (size s)) <= length s)%nat) by (unfold size; lia).
  induction fuel as [|fuel IH]; intros i Hoi Hf; [lia|]. cbn [ci_find_last_loop].
  eapply runs_bind; [eapply runs_weaken; [apply (safe_prev_runs s i); lia|tauto|cbv beta; intros a Ha; exact Ha]|cbv beta]. intros [[d j]|] Hj; [|split; [apply inside_none|now intros]].
  destruct (case_insensitive_equal d c); [|apply IH; lia]. rb (prev_mismatch_runs s t (S (length s)) j k ltac:(lia) ltac:(lia) ltac:(lia)). intros [a b] Hab. cbn [fst] in Hab.
  destruct (Nat.eqb b 0); [|apply IH; lia]. cbn [runs]. split; [apply inside_its; lia|intros _; cbn [sub_its sub_offset sub_length]; lia].
Qed.
Lemma ci_split_sep_runs U s p m ig : Fits s -> runs U any (ci_split_sep s p m ig).
Proof. intros HF. apply split_where_runs; [exact HF|]. intros t Ht. apply (first_inside_weak U t 0), ci_find_first_runs. lia. Qed.
Lemma ci_replace_back_runs U s t : forall l p r, runs U any (ci_replace_back_loop s t l p r).
Proof. induction l as [|x l IH]; intros p r; cbn [ci_replace_back_loop]; [exact I|]. rb (substr_any U s p (sub64 (sub_start x) p)). intros a _. apply IH. Qed.
Lemma ci_replace_runs s from to m : Fits s -> runs (long_run s \/ long_run from) any (ci_replace s from to m).
Proof.
  intros HF. set (U := long_run s \/ long_run from). unfold ci_replace. destruct (0 <=? m)%Z.
  - eapply (runs_bind U any); [|intros [r i] _; exact I].
    cut (forall fuel s n r, Fits s -> (length s < fuel)%nat -> runs U any (ci_replace_front_loop fuel s from to n r)); [intros H; apply H; auto; lia|]. clear HF. clearbody U. clear s.
    induction fuel as [|fuel IH]; intros s n r HF Hf; [lia|]. cbn [ci_replace_front_loop]. destruct (0 <? n)%Z; [|exact I].
    rb (ci_find_first_runs U s from 0 ltac:(lia)). intros mt (Hin & _). unfold sub_bool. destruct (N.eqb_spec (sub_length mt) 0) as [E|E]; cbn [negb]; [exact I|]. destruct Hin as [Hin|Hin]; [contradiction|].
    rewrite (sub_end_eq s) by auto. rb (substr_any U s 0 (sub_start mt)). intros a _. rb (substr_from_piece U s (sub_offset mt + sub_length mt) HF). intros t (Ht & Lt). specialize (Lt Hin). apply IH; [exact (piece_fits _ _ Ht HF)|]. unfold size in *. lia.
  - eapply (runs_bind U any).
    + cut (forall fuel t n r, piece t s -> (length t < fuel)%nat -> runs U any (ci_collect_last fuel t from n r)); [intros H; apply H; [apply piece_refl|lia]|].
      induction fuel as [|fuel IH]; intros t n r Ht Hf; [lia|]. cbn [ci_collect_last]. destruct (n <? 0)%Z; [|exact I].
      eapply runs_bind; [eapply runs_weaken; [apply (ci_find_last_runs t from npos)| |cbv beta; intros a Ha; exact Ha]|cbv beta]; [intros [H|H]; [left; exact (piece_long _ _ Ht H)|now right]|].
      intros mt (Hin & _). unfold sub_bool. destruct (N.eqb_spec (sub_length mt) 0) as [E|E]; cbn [negb]; [exact I|]. destruct Hin as [Hin|Hin]; [contradiction|].
      rb (substr_piece U t 0 (sub_start mt)). intros x (Hx & L1 & L2). apply IH; [exact (piece_trans _ _ _ Hx Ht)|]. unfold sub_start, size in *. lia.
    + intros l _. rb (ci_replace_back_runs U s to (rev l) 0 []). intros [r p] _. destruct (negb (p =? size s)); [|exact I]. unfold substr_from. rb (substr_any U s p npos). intros; exact I.
Qed.
