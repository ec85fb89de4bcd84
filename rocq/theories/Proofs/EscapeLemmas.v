(** [escape_json]. *)
From Verif Require Import Base Spec.Utf8Spec Spec.Strings Spec.Escape Model.Decode Model.Encode Model.Subrange Model.Escape Model.Unescape
  Proofs.Utf8Lemmas Proofs.DecodeLemmas Proofs.EncodeLemmas Proofs.CodepointLemmas Proofs.SearchLemmas Proofs.NumeralLemmas Proofs.EscapeScan
  Proofs.UnescapeLemmas Proofs.UnescapeStep Proofs.UnescapeLoop.
From Coq Require Import ZifyBool ZifyNat ZifyN.

Lemma is_escapable_spec c : is_escapable c = true <-> must_escape c.
Proof.
  unfold is_escapable, must_escape. rewrite !orb_true_iff, !byte_eqb_eq, N.ltb_lt. tauto.
Qed.
Lemma is_escapable_false c : is_escapable c = false <-> ~ must_escape c.
Proof. rewrite <- is_escapable_spec. destruct (is_escapable c); split; congruence. Qed.

Lemma escapable_cut s : Forall (fun c => is_escapable c = false) s \/
  exists lits c q, s = lits ++ c :: q /\ Forall (fun c => is_escapable c = false) lits /\ is_escapable c = true.
Proof.
  induction s as [|c s IH]; [left; constructor|].
  destruct (is_escapable c) eqn:Ec.
  - right. exists [], c, s. repeat split; [constructor|exact Ec].
  - destruct IH as [IH|(lits & c' & q & -> & H & Hc)]; [left; now constructor|].
    right. exists (c :: lits), c', q. repeat split; [now constructor|exact Hc].
Qed.

Lemma ffesc_none pre lits : Forall (fun c => is_escapable c = false) lits ->
  find_first_escapable_char (pre ++ lits) (size pre) = Ok (Sub (size (pre ++ lits)) 0).
Proof.
  intros H. unfold find_first_escapable_char. rewrite begin_plus_size. cbn [bind].
  unfold std_find_if. rewrite skipn_length_app.
  assert (E : find_if_from is_escapable lits (length pre) = (length pre + length lits)%nat).
  { rewrite <- (app_nil_r lits) at 1. now rewrite find_if_skip by exact H. }
  rewrite E.
  replace (Nat.eqb (length pre + length lits) (length (pre ++ lits))) with true by (rewrite app_length; lia).
  do 2 f_equal. unfold size. rewrite app_length. lia.
Qed.
Lemma ffesc_at pre lits c q : Forall (fun c => is_escapable c = false) lits -> is_escapable c = true ->
  find_first_escapable_char (pre ++ lits ++ c :: q) (size pre) = Ok (Sub (size (pre ++ lits)) 1).
Proof.
  intros H Hc. unfold find_first_escapable_char. rewrite begin_plus_size. cbn [bind].
  unfold std_find_if. rewrite skipn_length_app. rewrite !find_if_skip by exact H. cbn [find_if_from]. rewrite Hc.
  replace (Nat.eqb (length pre + length lits) (length (pre ++ lits ++ c :: q))) with false by (rewrite !app_length; cbn [length]; lia).
  do 2 f_equal. unfold size. rewrite app_length. lia.
Qed.

Definition esc (c : byte) : str := if is_escapable c then x5c :: escape_body c else [c].
Lemma esc_lits lits : Forall (fun c => is_escapable c = false) lits -> flat_map esc lits = lits.
Proof.
  induction 1 as [|c lits Hc H IH]; [reflexivity|]. cbn [flat_map]. unfold esc at 1. rewrite Hc, IH. reflexivity.
Qed.
Lemma flat_map_app' {A B} (f : A -> list B) u v : flat_map f (u ++ v) = flat_map f u ++ flat_map f v.
Proof. induction u as [|x u IH]; [reflexivity|]. cbn [app flat_map]. rewrite IH. now rewrite app_assoc. Qed.

Lemma esc_loop n : forall t, (length t <= n)%nat -> forall pre acc fuel, (length t < fuel)%nat -> Fits (pre ++ t) ->
  exists r o, escape_json_loop fuel (pre ++ t) (size pre) acc = Ok (r, o) /\
    exists a, begin_plus (pre ++ t) o = Ok a /\ r ++ skipn a (pre ++ t) = acc ++ flat_map esc t.
Proof.
  induction n as [n IH] using lt_wf_ind. intros t Hn pre acc fuel Hf HF.
  destruct fuel as [|fuel]; [lia|]. cbn [escape_json_loop].
  destruct (escapable_cut t) as [H|(lits & c & q & -> & H & Hc)].
  - rewrite ffesc_none by exact H. cbn [bind sub_bool sub_length N.eqb negb].
    exists acc, (size pre). split; [reflexivity|]. exists (length pre). split; [apply begin_plus_size|].
    now rewrite skipn_length_app, esc_lits.
  - rewrite ffesc_at by assumption. cbn [bind sub_bool sub_length N.eqb negb].
    rewrite begin_plus_size. cbn [bind sub_offset].
    rewrite (app_assoc pre lits). rewrite begin_plus_size. cbn [bind]. rewrite size_nat, deref_mid. cbn [bind].
    replace (slice ((pre ++ lits) ++ c :: q) (length pre) (length (pre ++ lits))) with lits
      by (rewrite <- app_assoc; rewrite slice_app; [reflexivity|reflexivity|rewrite app_length; lia]).
    replace (sub_end (Sub (size (pre ++ lits)) 1)) with (size ((pre ++ lits) ++ [c])).
    2:{ unfold sub_end. cbn [sub_offset sub_length]. rewrite add64_small by sz. sz. }
    rewrite (cons1_app c (pre ++ lits) q). rewrite app_length in Hn, Hf. cbn [length] in Hn, Hf.
    assert (Lq : (length q < n)%nat) by lia. assert (Lf : (length q < fuel)%nat) by lia.
    destruct (IH (length q) Lq q (le_n _) ((pre ++ lits) ++ [c]) (acc ++ lits ++ [x5c] ++ escape_body c) fuel Lf) as (r & o & E1 & a & E2 & E3).
    { rewrite <- !app_assoc. exact HF. }
    exists r, o. split; [exact E1|]. exists a. split; [exact E2|].
    rewrite E3, flat_map_app', (esc_lits lits) by exact H. cbn [flat_map]. unfold esc at 2. rewrite Hc.
    rewrite <- !app_assoc. reflexivity.
Qed.
Lemma escape_json_eq s : Fits s -> escape_json s = Ok (flat_map esc s).
Proof.
  intros HF. unfold escape_json.
  destruct (esc_loop (length s) s (le_n _) [] [] (S (length s)) (Nat.lt_succ_diag_r _) HF) as (r & o & E1 & a & E2 & E3).
  cbn [app] in E1, E2, E3. change (size []) with 0 in E1. rewrite E1. cbn [bind]. rewrite E2. cbn [bind]. now rewrite E3.
Qed.

(** The digits of \u00xx. *)
Lemma u_digits c : must_escape c -> (forall l, ~ In (c, l) json_letters) ->
  exists ds, escape_body c = x75 :: ds /\ length ds = 4%nat /\ Hex ds (u8 c).
Proof.
  intros H N.
  assert (B : u8 c < 0x20).
  { destruct H as [H|[-> | ->]]; [exact H| |]; exfalso; eapply N; cbn; eauto 20. }
  exists (skipn 1 (escape_body c)).
  assert (K : forall a b va vb, hex_digit a va -> hex_digit b vb -> Hex [x30; x30; a; b] (va * 16 + vb)).
  { intros a b va vb Ha Hb.
    assert (Hex [] 0) as H0 by constructor.
    assert (hex_digit x30 0) as Hz by (left; split; reflexivity).
    pose proof (num_snoc _ 16 _ _ _ _ H0 Hz) as H1. pose proof (num_snoc _ 16 _ _ _ _ H1 Hz) as H2.
    pose proof (num_snoc _ 16 _ _ _ _ H2 Ha) as H3. pose proof (num_snoc _ 16 _ _ _ _ H3 Hb) as H4. exact H4. }
  destruct c; try (vm_compute in B; discriminate B); try (exfalso; eapply N; cbn; solve [eauto 20]);
  (split; [reflexivity|split; [reflexivity|]]);
  match goal with |- Hex (skipn 1 ?l) ?v => let l' := eval vm_compute in (skipn 1 l) in let v' := eval vm_compute in v in
    change (Hex l' v');
    match l' with [_; _; ?a; ?b] =>
      let va := eval vm_compute in (v' / 16) in let vb := eval vm_compute in (v' mod 16) in
      apply (K a b va vb); apply digit_value_hex; reflexivity end end.
Qed.
Lemma short_body c l : In (c, l) json_letters -> escape_body c = [l] /\ is_escapable c = true.
Proof.
  cbn [json_letters In]. intros H.
  repeat (destruct H as [H|H]; [injection H as <- <-; split; reflexivity|]). destruct H.
Qed.
Lemma json_letter_dec c : (exists l, In (c, l) json_letters) \/ (forall l, ~ In (c, l) json_letters).
Proof.
  cbn [json_letters In]. destruct c; first [left; eexists; tauto | right; intros v Hv; intuition discriminate].
Qed.
Lemma esc_JsonOf s : JsonOf s (flat_map esc s).
Proof.
  induction s as [|c s IH]; [constructor|]. cbn [flat_map]. unfold esc at 1.
  destruct (is_escapable c) eqn:Ec.
  - apply is_escapable_spec in Ec. destruct (json_letter_dec c) as [[l Hl]|N].
    + destruct (short_body c l Hl) as [-> _]. cbn [app]. now constructor.
    + destruct (u_digits c Ec N) as (ds & -> & L & H).
      change ((x5c :: x75 :: ds) ++ flat_map esc s) with ((x5c :: x75 :: ds) ++ flat_map esc s). now constructor.
  - apply is_escapable_false in Ec. cbn [app]. now constructor.
Qed.
Lemma p_c57_of s : Fits s -> exists e, escape_json s = Ok e /\ JsonOf s e.
Proof. intros HF. exists (flat_map esc s). split; [now apply escape_json_eq|apply esc_JsonOf]. Qed.

Lemma JsonOf_body s e : JsonOf s e -> JsonBody e.
Proof.
  induction 1 as [|c s e Hc H IH|c l s e Hc H IH|c ds s e Hc Hn Hl Hd H IH].
  - constructor.
  - unfold must_escape in Hc. apply json_char; [lia|intros ->; tauto|intros ->; tauto|exact IH].
  - apply json_short; [|exact IH]. cbn [json_letters In] in Hc.
    repeat (destruct Hc as [Hc|Hc]; [injection Hc as <- <-; cbn; tauto|]). destruct Hc.
  - now apply json_u with (u8 c).
Qed.
Lemma p_c57 s : Fits s -> exists e, escape_json s = Ok e /\ JsonBody e /\ JsonOf s e.
Proof. intros HF. destruct (p_c57_of s HF) as (e & E & H). exists e. repeat split; auto. now apply JsonOf_body with s. Qed.

(** Bytes of a JSON body. *)
Lemma digit_bytes ds v : Hex ds v -> Forall (fun c => 0x30 <= u8 c < 0x80) ds.
Proof.
  intros H. apply num_forall in H. eapply Forall_impl; [|exact H]. cbn. intros c [d Hd]. unfold hex_digit in Hd. lia.
Qed.
Lemma p_c57_text s cs e : Fits s -> Text s cs -> escape_json s = Ok e -> exists ds, Text e ds.
Proof.
  intros HF HT. rewrite escape_json_eq by exact HF. intros E. injection E as <-. clear HF.
  assert (A : forall l, Forall (fun c => u8 c < 0x80) l -> exists ds, Text l ds).
  { induction 1 as [|c l Hc H [ds IH]]; [exists []; constructor|]. exists (u8 c :: ds).
    change (c :: l) with ([c] ++ l). constructor; [now constructor|exact IH]. }
  induction HT as [|g c s cs Hg HT [ds IH]]; [exists []; constructor|].
  rewrite flat_map_app'. enough (exists es, Text (flat_map esc g) es) as [es H] by (exists (es ++ ds); now apply Text_app).
  assert (K : forall b, 0x80 <= u8 b -> esc b = [b]).
  { intros b Hb. unfold esc. replace (is_escapable b) with false; [reflexivity|]. symmetry. apply is_escapable_false.
    unfold must_escape. intros [H|[-> | ->]]; [lia|now vm_compute in Hb|now vm_compute in Hb]. }
  destruct Hg as [a Ha|a b Ha Hb|a b d Ha Hb Hd|a b d f Ha Hb Hd Hf]; unfold cont in *; cbn [flat_map]; rewrite ?app_nil_r.
  - apply A. unfold esc. destruct (is_escapable a) eqn:Ea; [|now repeat constructor].
    assert (In (u8 a) [0x22; 0x5c] \/ u8 a < 0x20) as D.
    { apply is_escapable_spec in Ea. destruct Ea as [Ea|[-> | ->]]; [now right|left; cbn; tauto|left; cbn; tauto]. }
    destruct a; try (vm_compute in Ha; discriminate Ha); try (repeat constructor).
  - rewrite !K by lia. exists [(u8 a - 0xC0) * 64 + (u8 b - 0x80)]. apply Text_one. now constructor.
  - rewrite !K by lia. eexists. apply Text_one. now apply (uchar3 a b d).
  - rewrite !K by lia. eexists. apply Text_one. now apply (uchar4 a b d f).
Qed.

(** C58 *)
Lemma byte_written c : u8 c < 0x80 -> written (u8 c) [c].
Proof. intros H. left. split; [lia|]. unfold encodes, rfc3629_bytes. now replace (u8 c <=? 0x7F) with true by lia. Qed.
Lemma JsonOf_reads s e : JsonOf s e -> Reads handled e [] s.
Proof.
  induction 1 as [|c s e Hc H IH|c l s e Hc H IH|c ds s e Hc Hn Hl Hd H IH].
  - constructor.
  - constructor; [|exact IH]. unfold must_escape in Hc. intros ->. tauto.
  - change (x5c :: l :: e) with ([x5c; l] ++ e). change (c :: s) with ([c] ++ s).
    assert (K : u8 c < 0x80 /\ Denotes [x5c; l] e (u8 c) /\ ~ In l numeric_letters).
    { cbn [json_letters In] in Hc.
      repeat (destruct Hc as [Hc|Hc]; [injection Hc as <- <-; split; [reflexivity|split; [|cbn; intuition discriminate]];
        first [apply den_letter; cbn; tauto | apply (den_self x22); [reflexivity|cbn; intuition discriminate|cbn; intuition discriminate]
          | apply (den_self x5c); [reflexivity|cbn; intuition discriminate|cbn; intuition discriminate]]|]).
      destruct Hc. }
    destruct K as (K1 & K2 & K3). apply (reads_escape handled _ (u8 c)); [exact K2|now apply handled_two|now apply byte_written|exact IH].
  - change (c :: s) with ([c] ++ s).
    assert (B : u8 c < 0x80).
    { destruct Hc as [Hc|[-> | ->]]; [lia|reflexivity|reflexivity]. }
    assert (NH : ~ high_surrogate (u8 c)) by (unfold high_surrogate; lia).
    apply (reads_escape handled _ (u8 c)); [now apply den_u|apply (handled_u ds (u8 c)); tauto|now apply byte_written|exact IH].
Qed.
Lemma p_c58 s e : Fits s -> Fits e -> escape_json s = Ok e -> unescape e = Ok s.
Proof.
  intros HF HFe E. apply unescape_ok; [exact HFe|]. apply JsonOf_reads.
  rewrite escape_json_eq in E by exact HF. injection E as <-. apply esc_JsonOf.
Qed.
Lemma esc_inj s : forall s', flat_map esc s = flat_map esc s' -> s = s'.
Proof.
  assert (NE : forall c, esc c <> []) by (intros c; unfold esc; destruct (is_escapable c); discriminate).
  assert (D : forall a b u v, esc a ++ u = esc b ++ v -> a = b /\ u = v).
  { intros a b u v. unfold esc.
    destruct (is_escapable a) eqn:Ea, (is_escapable b) eqn:Eb; cbn [app]; intros E.
    - apply cons_eq in E as [_ E].
      apply is_escapable_spec in Ea. apply is_escapable_spec in Eb.
      destruct (json_letter_dec a) as [[la Ha]|Na], (json_letter_dec b) as [[lb Hb]|Nb].
      + destruct (short_body _ _ Ha) as [Ka _], (short_body _ _ Hb) as [Kb _]. rewrite Ka, Kb in E. cbn [app] in E.
        apply cons_eq in E as [-> ->]. split; [|reflexivity].
        cbn [json_letters In] in Ha, Hb. clear - Ha Hb.
        repeat (destruct Ha as [Ha|Ha]; [injection Ha as <- <-; repeat (destruct Hb as [Hb|Hb]; [now injection Hb as <-|]); destruct Hb|]); destruct Ha.
      + destruct (short_body _ _ Ha) as [Ka _], (u_digits b Eb Nb) as (ds & Kb & _). rewrite Ka, Kb in E. cbn [app] in E.
        apply cons_eq in E as [-> _]. exfalso. cbn [json_letters In] in Ha. intuition discriminate.
      + destruct (short_body _ _ Hb) as [Kb _], (u_digits a Ea Na) as (ds & Ka & _). rewrite Ka, Kb in E. cbn [app] in E.
        apply cons_eq in E as [<- _]. exfalso. cbn [json_letters In] in Hb. intuition discriminate.
      + destruct (u_digits a Ea Na) as (ds & Ka & La & Ha), (u_digits b Eb Nb) as (ds' & Kb & Lb & Hb). rewrite Ka, Kb in E. cbn [app] in E.
        apply cons_eq in E as [_ E]. apply app_inj_len in E as [<- ->]; [|congruence]. split; [|reflexivity].
        apply u8_inj. now apply (Hex_fun ds).
    - apply cons_eq in E as [<- _]. discriminate Eb.
    - apply cons_eq in E as [-> _]. discriminate Ea.
    - now apply cons_eq in E. }
  induction s as [|c s IH]; intros [|c' s'] E; cbn [flat_map] in E.
  - reflexivity.
  - symmetry in E. apply app_eq_nil in E as [E _]. now apply NE in E.
  - apply app_eq_nil in E as [E _]. now apply NE in E.
  - apply D in E as [-> E]. f_equal. now apply IH.
Qed.
Lemma p_c58_inj s s' e : Fits s -> Fits s' -> escape_json s = Ok e -> escape_json s' = Ok e -> s = s'.
Proof.
  intros HF HF' E E'. rewrite escape_json_eq in E, E' by assumption. apply esc_inj. congruence.
Qed.

(** C59 *)
Lemma p_c59_find pre lits q : Forall (fun c => ~ must_escape c) lits ->
  (q = [] -> find_first_escapable_char (pre ++ lits ++ q) (size pre) = Ok (Sub (size (pre ++ lits ++ q)) 0)) /\
  (forall c q', q = c :: q' -> must_escape c ->
     find_first_escapable_char (pre ++ lits ++ q) (size pre) = Ok (Sub (size (pre ++ lits)) 1)).
Proof.
  intros H. assert (H' : Forall (fun c => is_escapable c = false) lits).
  { eapply Forall_impl; [|exact H]. intros c. apply is_escapable_false. }
  split.
  - intros ->. rewrite app_nil_r. now apply ffesc_none.
  - intros c q' -> Hc. apply ffesc_at; [exact H'|now apply is_escapable_spec].
Qed.
Lemma esc_length c : (1 <= length (esc c))%nat /\ (is_escapable c = true -> (2 <= length (esc c))%nat).
Proof.
  unfold esc, escape_body. destruct (is_escapable c); [|cbn; split; [lia|discriminate]].
  destruct (byte_eqb c x08), (byte_eqb c x0c), (byte_eqb c x0a), (byte_eqb c x0d), (byte_eqb c x09), (byte_eqb c x22), (byte_eqb c x5c);
    cbn [length]; split; lia.
Qed.
Lemma esc_longer s : (length s <= length (flat_map esc s))%nat.
Proof. induction s as [|c s IH]; [cbn; lia|]. cbn [flat_map]. rewrite app_length. cbn [length]. destruct (esc_length c). lia. Qed.
Lemma p_c59_has s : Fits s -> exists b, has_escapable_chars s = Ok b /\
  (b = true <-> Exists must_escape s) /\ (b = true <-> escape_json s <> Ok s).
Proof.
  intros HF. rewrite escape_json_eq by exact HF. unfold has_escapable_chars.
  destruct (escapable_cut s) as [H|(lits & c & q & -> & H & Hc)].
  - exists false. pose proof (ffesc_none [] s H) as E. cbn [app] in E. change (size []) with 0 in E. rewrite E. split; [reflexivity|].
    split.
    + split; [discriminate|]. intros HE. exfalso. apply Exists_exists in HE as (c & Hin & Hc). rewrite Forall_forall in H.
      specialize (H c Hin). apply is_escapable_false in H. contradiction.
    + split; [discriminate|]. intros HE. elim HE. now rewrite esc_lits.
  - exists true. pose proof (ffesc_at [] lits c q H Hc) as E. cbn [app] in E. change (size []) with 0 in E. rewrite E. split; [reflexivity|].
    split.
    + split; [intros _|reflexivity]. apply Exists_app. right. constructor. now apply is_escapable_spec.
    + split; [intros _|reflexivity]. intros E'. injection E' as E'. apply (f_equal (@length byte)) in E'.
      rewrite flat_map_app', esc_lits, !app_length in E' by exact H. cbn [flat_map length] in E'. rewrite app_length in E'.
      pose proof (esc_longer q). destruct (esc_length c) as [_ L]. specialize (L Hc). lia.
Qed.
Lemma p_c59_beyond s o : size s < o -> find_first_escapable_char s o = UB.
Proof. intros H. unfold find_first_escapable_char, begin_plus. now replace (o <=? size s) with false by lia. Qed.
