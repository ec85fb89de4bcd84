(** Valid in, valid out: escaping, unescaping, normalisation, code point replacement. *)
From Verif Require Import Base Spec.Utf8Spec Spec.Strings Spec.WellFormed Spec.UnicodeData Spec.Case Spec.Slices Spec.Replace Spec.Split Spec.CaseFold Spec.Normalization
  Spec.Escape
  Model.Decode Model.Encode Model.Subrange Model.Search Model.Split Model.CharClass Model.ConvertCase Model.Chars Model.CaseInsensitive Model.Escape Model.Unescape Model.Normalize
  Tables.UnicodeDataTables
  Proofs.Utf8Lemmas Proofs.EncodeLemmas Proofs.CodepointLemmas Proofs.SearchLemmas Proofs.NewlineLemmas Proofs.ReplaceLemmas Proofs.ReplaceCpLemmas
  Proofs.SliceLemmas Proofs.CharLemmas Proofs.PositionProps Proofs.SplitLemmas Proofs.CaseStringLemmas Proofs.UnicodeProps
  Proofs.CiReplaceLemmas Proofs.EscapeLemmas Proofs.UnescapeLoop Proofs.NormLemmas Proofs.ComposeLoop Proofs.NormProps Proofs.NormEquiv Proofs.SyncLemmas
  Proofs.ClosureLemmas.

Local Notation kept := Verif.Spec.Normalization.kept.

Lemma uchar_ascii_or_high g c : uchar g c -> (exists b, g = [b] /\ u8 b < 0x80) \/ Forall (fun b => 0x80 <= u8 b) g.
Proof.
  intros H. inversion H; subst; [left; eauto| | |]; right; repeat constructor; unfold cont in *; lia.
Qed.

Lemma pairs_scalar : forallb (fun p : N * (N * N) => scalarb (fst p) && (scalarb (fst (snd p)) && scalarb (snd (snd p)))) UD_PAIRS = true.
Proof. vm_compute. reflexivity. Qed.
Lemma has_pair_scalar c a b : has_pair c a b -> scalar c /\ scalar a /\ scalar b.
Proof.
  intros H. pose proof (proj1 (forallb_forall _ _) pairs_scalar _ H) as P. cbn [fst snd] in P.
  apply andb_true_iff in P. destruct P as [P1 P2]. apply andb_true_iff in P2. destruct P2 as [P2 P3].
  repeat split; now apply scalarb_spec.
Qed.
Lemma FullDecomp_scalar c ds : FullDecomp c ds -> ds = [c] \/ Forall scalar ds.
Proof.
  induction 1 as [c _|c a b ds HP HD IH]; [now left|right]. destruct (has_pair_scalar c a b HP) as (_ & Ha & Hb).
  apply Forall_app. split; [|constructor; [exact Hb|constructor]]. destruct IH as [->|IH]; [constructor; [exact Ha|constructor]|exact IH].
Qed.

Lemma Composing_text adj s segs c : Composing adj s segs c -> exists cs, Text s cs.
Proof.
  induction 1 as [g c H|s segs x c g m d b _ [cs IH] H _ _|s segs c g m _ [cs IH] H _ _].
  - exists [c]. now apply Text_one.
  - exists (cs ++ [m]). apply Text_app; [exact IH|now apply Text_one].
  - exists (cs ++ [m]). apply Text_app; [exact IH|now apply Text_one].
Qed.

Lemma Malformed_no_text s cs : Malformed s -> Text s cs -> False.
Proof.
  intros [HN HM] HT. inversion HT as [|g c t ts Hg Ht]; subst; [now apply HN|]. now apply (HM g c t Hg eq_refl).
Qed.

Section More.
  Variables (V : str -> Prop) (K : N -> Prop).
  Hypothesis C : closed V K.
  Local Definition mapp := cl_app V K C.
  Local Definition mtext := cl_text V K C.

  Lemma v_ascii l : Forall (fun b => u8 b < 0x80) l -> V l.
  Proof.
    intros H. apply (cl_enc V K C l (map u8 l)).
    - induction H as [|b l Hb _ IH]; [constructor|]. change (Encoded ([b] ++ l) (u8 b :: map u8 l)). constructor; [|exact IH].
      unfold encodes, rfc3629_bytes. cbn [map]. replace (u8 b <=? 0x7F) with true by (symmetry; apply N.leb_le; lia). reflexivity.
    - induction H as [|b l Hb _ IH]; constructor; [|exact IH]. apply (cl_scalar V K C). split; [|intros [L _]]; lia.
  Qed.

  Lemma esc_ascii b : u8 b < 0x80 -> Forall (fun b => u8 b < 0x80) (esc b).
  Proof. destruct b; intros H; try (exfalso; revert H; vm_compute; discriminate); vm_compute; repeat constructor. Qed.
  Lemma esc_high b : 0x80 <= u8 b -> esc b = [b].
  Proof. destruct b; intros H; try reflexivity; exfalso; revert H; vm_compute; intros H; now apply H. Qed.

  Lemma v_escape s r : V s -> Fits s -> escape_json s = Ok r -> V r.
  Proof.
    intros H HF E. rewrite (escape_json_eq s HF) in E. apply Ok_inj in E. subst r. destruct (mtext s H) as [cs HT]. clear HF.
    induction HT as [|g c s cs Hg Hs IH]; [exact (cl_nil V K C)|].
    destruct (v_rest V K C g [c] s H (Text_one g c Hg)) as [H1 H2]. rewrite flat_map_app'. apply mapp; [|now apply IH].
    destruct (uchar_ascii_or_high g c Hg) as [(b & -> & Hb)|Hb].
    - cbn [flat_map]. rewrite app_nil_r. apply v_ascii. now apply esc_ascii.
    - replace (flat_map esc g) with g; [exact H1|]. clear - Hb. induction Hb as [|b g Hb _ IH]; [reflexivity|].
      cbn [flat_map]. rewrite (esc_high b Hb), <- IH. reflexivity.
  Qed.

  (** Unescaping *)
  Lemma Numeral_hex_ascii ds v : Hex ds v -> Forall (fun b => u8 b < 0x80) ds.
  Proof. induction 1 as [|ds v c d _ IH Hc]; [constructor|]. apply Forall_app. split; [exact IH|]. constructor; [|constructor]. unfold hex_digit in Hc. lia. Qed.
  Lemma Numeral_oct_ascii ds v : Oct ds v -> Forall (fun b => u8 b < 0x80) ds.
  Proof. induction 1 as [|ds v c d _ IH Hc]; [constructor|]. apply Forall_app. split; [exact IH|]. constructor; [|constructor]. unfold oct_digit in Hc. lia. Qed.
  Lemma Denotes_ascii e r v : Denotes e r v -> Forall (fun b => u8 b < 0x80) e.
  Proof.
    destruct 1; repeat first [apply Forall_app; split | eapply Numeral_hex_ascii; eassumption | eapply Numeral_oct_ascii; eassumption
      | apply Forall_cons | apply Forall_nil]; try exact eq_refl; try assumption.
    - cbn [In letters] in H. repeat (destruct H as [H|H]; [injection H as <- <-; reflexivity|]). contradiction.
    - destruct H as [-> | ->]; reflexivity.
  Qed.
  Lemma ascii_text e : Forall (fun b => u8 b < 0x80) e -> Text e (map u8 e).
  Proof. induction 1 as [|b e Hb _ IH]; [constructor|]. change (Text ([b] ++ e) (u8 b :: map u8 e)). constructor; [now constructor|exact IH]. Qed.

  Lemma v_reads (ok : str -> str -> Prop) : (forall e q v, ok e q -> Denotes e q v -> v <= 0x10FFFF -> K v) ->
    forall n s t, (length s <= n)%nat -> V s -> Reads ok s [] t -> V t.
  Proof.
    intros HK. induction n as [|n IH]; intros s t L H R.
    - destruct s; [|cbn in L; lia]. inversion R as [| |e v b q r t' HD Ho Hw HR E1]; subst; [exact (cl_nil V K C)|].
      apply app_eq_nil in E1. destruct E1 as [-> ->]. inversion HD.
    - destruct (mtext s H) as [cs HT]. inversion HT as [E|g c q qs Hg Hq E1 E2]; subst.
      { apply (IH [] t); [cbn; lia|exact H|exact R]. }
      destruct (v_rest V K C g [c] q H (Text_one g c Hg)) as [H1 H2].
      assert (length q <= n)%nat as Lq. { rewrite app_length in L. apply uchar_nonempty in Hg. destruct g; [contradiction|cbn in L; lia]. }
      destruct (in_dec Byte.byte_eq_dec x5c g) as [I|I].
      + assert (g = [x5c]) as ->.
        { destruct (uchar_ascii_or_high g c Hg) as [(b & -> & _)|Hb]; [destruct I as [->|[]]; reflexivity|].
          rewrite Forall_forall in Hb. specialize (Hb _ I). exfalso. revert Hb. vm_compute. intros Hb. now apply Hb. }
        change ([x5c] ++ q) with (x5c :: q) in *. inversion R as [|d x r t' HN HR E1|e v b x r t' HD Ho Hw HR E1]; subst; [congruence|].
        pose proof (ascii_text e (Denotes_ascii e x v HD)) as He.
        rewrite <- E1 in H. destruct (v_rest V K C e _ x H He) as [_ H4]. apply mapp.
        * destruct Hw as [[Hv Hb]|[_ ->]]; [|exact (cl_nil V K C)]. apply (K_encodes V K C b v); [|exact Hb]. now apply (HK e x v).
        * apply (IH x t'); [|exact H4|exact HR]. rewrite <- E1, app_length in L. assert (e <> []) by (intros ->; inversion HD). destruct e; [contradiction|cbn in L; lia].
      + destruct (Reads_lits ok q [] (or_introl eq_refl) g t I R) as (t' & -> & _ & R'). apply mapp; [exact H1|]. now apply (IH q t').
  Qed.

  (** Normalising *)
  Lemma v_decomposed_rel s t : DecomposedTo s [] t -> V s -> V t.
  Proof.
    intros D. remember [] as e eqn:Ee. induction D as [s|g c s r t Hg HF D IH|g c ds b s r t Hg HF HL HE D IH]; intros H.
    - exact (cl_nil V K C).
    - destruct (v_rest V K C g [c] s H (Text_one g c Hg)) as [H1 H2]. apply mapp; [exact H1|now apply IH].
    - destruct (v_rest V K C g [c] s H (Text_one g c Hg)) as [H1 H2]. apply mapp; [|now apply IH].
      apply (cl_enc V K C b ds HE). destruct (FullDecomp_scalar c ds HF) as [->|HS]; [cbn in HL; lia|].
      eapply Forall_impl; [|exact HS]. exact (cl_scalar V K C).
  Qed.
  Lemma v_decomposed inner s r : V s -> to_decomposed inner s = Ok r -> V r.
  Proof.
    intros H E. destruct (p_c67_cases s) as (q & t & D & [->|[HM|(g & c & ds & q' & -> & Hg & HF & HL)]]).
    - rewrite (p_c67_ok inner s t D) in E. apply Ok_inj in E. subst r. now apply (v_decomposed_rel s t).
    - rewrite (p_c67_throw inner s q t D HM) in E. discriminate.
    - rewrite (p_c67_loops inner s g c ds q' t D Hg HF) in E by lia. discriminate.
  Qed.

  Definition seg_bytes (x : segment) : str := match x with Copied g => g | Made b => b end.
  Lemma v_segments adj s segs c : Composing adj s segs c -> V s -> Forall (fun x => V (seg_bytes x)) segs.
  Proof.
    induction 1 as [g c Hg|s segs x c g m d b HC IH Hg HX HB|s segs c g m HC IH Hg HN HO]; intros H.
    - constructor; [exact H|constructor].
    - destruct (Composing_text _ _ _ _ HC) as [cs HT]. destruct (v_rest V K C s cs g H HT) as [H1 H2].
      specialize (IH H1). apply Forall_app in IH. destruct IH as [I1 _]. apply Forall_app. split; [exact I1|]. constructor; [|constructor].
      cbn [seg_bytes]. apply (K_encodes V K C b d); [|exact HB]. apply (cl_scalar V K C). destruct HX as (_ & HP & _). now apply has_pair_scalar in HP.
    - destruct (Composing_text _ _ _ _ HC) as [cs HT]. destruct (v_rest V K C s cs g H HT) as [H1 H2].
      apply Forall_app. split; [now apply IH|]. constructor; [exact H2|constructor].
  Qed.
  Lemma v_kept_segs segs : Forall (fun x => V (seg_bytes x)) segs -> forall b, V (kept b segs).
  Proof.
    induction 1 as [|x segs Hx HS IH]; intros a; [exact (cl_nil V K C)|]. destruct x as [g|b]; cbn [kept].
    - apply mapp; [|apply IH]. destruct segs as [|[h|h] segs]; [destruct a; [exact (cl_nil V K C)|exact Hx]|exact Hx|destruct a; [exact (cl_nil V K C)|exact Hx]].
    - apply mapp; [exact Hx|apply IH].
  Qed.
  Lemma v_composed adj s r : V s -> to_composed adj s = Ok r -> V r.
  Proof.
    intros H E. destruct (mtext s H) as [cs HT].
    destruct (p_c70_cases adj s) as [->|[HM|[(segs & c & HC)|[(t & segs & c & q & -> & HC & HM)|U]]]].
    - replace (to_composed adj []) with (Ok ([] : str)) in E by (destruct adj; reflexivity). apply Ok_inj in E. now subst r.
    - elim (Malformed_no_text s cs HM HT).
    - rewrite (p_c68_result adj s segs c HC) in E. apply Ok_inj in E. subst r. apply v_kept_segs. now apply (v_segments adj s segs c).
    - rewrite (p_c68_throw adj t segs c q HC HM) in E. discriminate.
    - rewrite (proj2 (p_c70_iff adj s) U) in E. discriminate.
  Qed.

  Lemma v_from_utf32 cs : Forall (fun c => c <= 0x10FFFF -> K c) cs -> V (from_utf32 cs).
  Proof.
    intros H. apply (cl_enc V K C _ _ (from_utf32_Encoded cs)). apply Forall_forall. intros c Hc. apply filter_In in Hc. destruct Hc as [Hc L].
    rewrite Forall_forall in H. apply N.leb_le in L. now apply H.
  Qed.

  Lemma v_replace_codepoint s a b m r : V s -> K b -> Fits s -> replace_codepoint s a b m = Ok r -> V r.
  Proof.
    intros H HB HF E. unfold replace_codepoint in E. destruct (N.le_gt_cases a 0x10FFFF) as [L|L].
    - destruct (encode_buf_ok a L) as (f & nf & Ef & Hf & Nf). destruct (encode_buf_ok b (cl_max V K C b HB)) as (t & nt & Et & Ht & Nt).
      rewrite Ef, Et in E. replace (nf =? 0) with false in E by (symmetry; now apply N.eqb_neq). replace (nt =? 0) with false in E by (symmetry; now apply N.eqb_neq).
      apply (v_replace V K C s f t m r H); [|now apply (K_encodes V K C t b)|exact HF|exact E].
      exists [a]. apply Text_one. now apply encodes_uchar.
    - rewrite (encode_buf_large a L) in E. destruct (encode_utf8_buf b 4). discriminate.
  Qed.
End More.

(** Statements in terms of [validity]. *)
Lemma char_K V K c : closed V K -> V (from_utf32 [c]) -> c <= 0x10FFFF -> K c.
Proof.
  intros C H L. assert (Forall (fun c => c <= 0x10FFFF) [c]) as R by (constructor; [exact L|constructor]).
  pose proof (cl_cps V K C (from_utf32 [c]) [c] H (from_utf32_Text [c] R) R) as F. now apply Forall_inv in F.
Qed.
Lemma p_c79_append V s c r : validity V -> V s -> V (from_utf32 [c]) -> append s c = Ok r -> V r.
Proof.
  intros HV HS HC E. destruct (validity_closed V HV) as [K C]. destruct (N.le_gt_cases c 0x10FFFF) as [L|L].
  - apply (v_append V K C s c r HS); [now apply (char_K V K c C)|exact E].
  - rewrite (proj2 (append_bad s c L)) in E. discriminate.
Qed.
Lemma lib_text p : is_valid_utf8 p = Ok true -> Some_text p.
Proof. apply valid_text. Qed.


Lemma p_c79_case V s r : validity V -> V s -> to_lower_str s = Ok r \/ to_upper_str s = Ok r \/ to_title_str s = Ok r -> V r.
Proof. intros HV. destruct (validity_closed V HV) as [K C]. apply (v_case V K C). Qed.
Lemma p_c79_trim V p s r : validity V -> V s -> Fits s -> trim_where s p = Ok r \/ trim_start_where s p = Ok r \/ trim_end_where s p = Ok r -> V r.
Proof. intros HV. destruct (validity_closed V HV) as [K C]. apply (v_trim_where V K C). Qed.
Lemma p_c79_reverse V s r : validity V -> V s -> Fits s -> reverse s = Ok r -> V r.
Proof. intros HV. destruct (validity_closed V HV) as [K C]. apply (v_reverse V K C). Qed.
Lemma p_c79_split V s sep n ign parts : validity V -> V s -> is_valid_utf8 sep = Ok true -> Fits s ->
  split_sep s sep n ign = Ok parts \/ ci_split_sep s sep n ign = Ok parts -> Forall V parts.
Proof.
  intros HV HS HP HF [E|E]; destruct (validity_closed V HV) as [K C]; [apply (v_split_sep V K C s sep n ign)|apply (v_ci_split_sep V K C s sep n ign)]; auto using lib_text.
Qed.
Lemma p_c79_split_chars V s chars n ign parts : validity V -> V s -> Forall (fun d => d < 0x100000000) chars -> Fits s ->
  split_chars s chars n ign = Ok parts \/ ci_split_chars s chars n ign = Ok parts -> Forall V parts.
Proof.
  intros HV HS HP HF [E|E]; destruct (validity_closed V HV) as [K C]; [eapply (v_split_chars V K C)|eapply (v_ci_split_chars V K C)]; eauto using lib_text.
Qed.
Lemma p_c79_split_lines V after s n ign parts : validity V -> V s -> Fits s ->
  split_lines after s n ign = Ok parts -> Forall V parts.
Proof. intros HV. destruct (validity_closed V HV) as [K C]. apply (v_split_lines V K C). Qed.
Lemma p_c79_join V l d : validity V -> Forall V l -> V d -> V (join l d).
Proof. intros HV. destruct (validity_closed V HV) as [K C]. apply (v_join V K C). Qed.
Lemma p_c79_replace V s from to m r : validity V -> V s -> is_valid_utf8 from = Ok true -> V to -> Fits s ->
  replace s from to m = Ok r \/ ci_replace s from to m = Ok r -> V r.
Proof.
  intros HV HS HP HT HF [E|E]; destruct (validity_closed V HV) as [K C]; [apply (v_replace V K C s from to m)|apply (v_ci_replace V K C s from to m)]; auto using lib_text.
Qed.
Lemma p_c79_replace_codepoint V s a b m r : validity V -> V s -> V (from_utf32 [b]) -> Fits s -> replace_codepoint s a b m = Ok r -> V r.
Proof.
  intros HV HS HB HF E. destruct (validity_closed V HV) as [K C]. destruct (N.le_gt_cases b 0x10FFFF) as [L|L].
  - apply (v_replace_codepoint V K C s a b m r HS (char_K V K b C HB L) HF E).
  - exfalso. unfold replace_codepoint in E. rewrite (encode_buf_large b L) in E. destruct (encode_utf8_buf a 4) as [f n]. destruct (n =? 0); discriminate.
Qed.
Lemma p_c79_substring V s i j r : validity V -> V s -> Fits s -> (PTRDIFF_MIN < i <= PTRDIFF_MAX)%Z -> (PTRDIFF_MIN < j <= PTRDIFF_MAX)%Z ->
  (~ (i < 0 <= j)%Z /\ get_codepoint_substring s i j = Ok r) \/ (~ (j < 0 <= i)%Z /\ get_char_substring s i j = Ok r) -> V r.
Proof.
  intros HV HS HF Hi Hj [[N E]|[N E]]; destruct (validity_closed V HV) as [K C]; [apply (v_cp_substring V K C s i j)|apply (v_char_substring V K C s i j)]; auto;
  unfold isz, cp_ok; unfold PTRDIFF_MIN, PTRDIFF_MAX in *; lia.
Qed.
Lemma p_c79_replace_range V s i j t r : validity V -> V s -> V t -> Fits s -> (PTRDIFF_MIN < i <= PTRDIFF_MAX)%Z -> (PTRDIFF_MIN < j <= PTRDIFF_MAX)%Z ->
  (~ (i < 0 <= j)%Z /\ replace_codepoints s i j t = Ok r) \/ (~ (j < 0 <= i)%Z /\ replace_chars s i j t = Ok r) -> V r.
Proof.
  intros HV HS HT HF Hi Hj [[N E]|[N E]]; destruct (validity_closed V HV) as [K C]; [apply (v_cp_replace V K C s i j t)|apply (v_char_replace V K C s i j t)]; auto;
  unfold isz, cp_ok; unfold PTRDIFF_MIN, PTRDIFF_MAX in *; lia.
Qed.
Lemma p_c79_insert V s k c t r : validity V -> V s -> V t -> c <= 0x10FFFF -> V (from_utf32 [c]) -> Fits s -> (PTRDIFF_MIN < k <= PTRDIFF_MAX)%Z ->
  insert_codepoint s k c = Ok r \/ insert_codepoints s k t = Ok r \/ insert_char s k c = Ok r \/ insert_chars s k t = Ok r -> V r.
Proof.
  intros HV HS HT Hc HC HF Hk E. destruct (validity_closed V HV) as [K C].
  pose proof (char_K V K c C HC Hc) as HK. destruct E as [E|[E|E]]; [apply (v_insert_cp V K C s k c t r)|apply (v_insert_cp V K C s k c t r)|apply (v_insert_char V K C s k c t r)]; auto.
Qed.
Lemma p_c79_escape V s r : validity V -> V s -> Fits s -> escape_json s = Ok r -> V r.
Proof. intros HV. destruct (validity_closed V HV) as [K C]. apply (v_escape V K C). Qed.
Lemma p_c79_normalize V inner adj s r : validity V -> V s -> to_decomposed inner s = Ok r \/ to_composed adj s = Ok r -> V r.
Proof. intros HV HS [E|E]; destruct (validity_closed V HV) as [K C]; [eapply (v_decomposed V K C)|eapply (v_composed V K C)]; eauto. Qed.
Lemma Reads_weaken (ok ok' : str -> str -> Prop) s r t : (forall e q, ok e q -> ok' e q) -> Reads ok s r t -> Reads ok' s r t.
Proof. intros H. induction 1; [constructor|now constructor|eapply reads_escape; eauto]. Qed.
Lemma p_c79_unescape s t : is_valid_utf8 s = Ok true -> Fits s -> unescape s = Ok t -> is_valid_utf8 t = Ok true.
Proof.
  intros HS HF E. apply (p_c61_ok s t HF) in E. apply (v_reads _ _ closed_library handled (fun _ _ _ _ _ H => H) (length s) s t (le_n _) HS E).
Qed.
Lemma p_c79_unescape_rfc s t : rfc3629_valid s -> Fits s ->
  Reads (fun e q => handled e q /\ forall v, Denotes e q v -> ~ (0xD800 <= v <= 0xDFFF)) s [] t -> unescape s = Ok t /\ rfc3629_valid t.
Proof.
  intros HS HF R. split.
  - apply (p_c61_ok s t HF). eapply Reads_weaken; [|exact R]. now intros e q [H _].
  - refine (v_reads _ _ closed_rfc _ _ (length s) s t (le_n _) HS R). intros e q v [_ H] D L. split; [exact L|]. now apply (H v).
Qed.
Lemma p_c79_from_utf32 cs : is_valid_utf8 (from_utf32 cs) = Ok true /\ (Forall scalar cs -> rfc3629_valid (from_utf32 cs)).
Proof.
  split.
  - apply (v_from_utf32 _ _ closed_library). apply Forall_forall. auto.
  - intros H. apply (v_from_utf32 _ _ closed_rfc). eapply Forall_impl; [|exact H]. auto.
Qed.
Lemma p_c79_surrogate : rfc3629_valid [x5c; x75; x44; x38; x30; x30] /\
  unescape [x5c; x75; x44; x38; x30; x30] = Ok [xed; xa0; x80] /\ ~ rfc3629_valid [xed; xa0; x80].
Proof.
  split; [|split; [vm_compute; reflexivity|]].
  - apply (v_ascii _ _ closed_rfc). repeat constructor.
  - apply (valid_not_rfc [xed; xa0; x80] [0xD800]).
    + change [xed; xa0; x80] with ([xed; xa0; x80] ++ []). constructor; [|constructor]. apply (uchar3 xed xa0 x80); vm_compute; split; congruence.
    + right. intros H. apply Forall_inv in H. destruct H as [_ H]. apply H. vm_compute. split; discriminate.
Qed.
