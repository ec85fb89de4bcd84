(** The normalization forms of the Unicode standard: C127, C128. *)
From Verif Require Import Base Model.Decode Model.Encode Model.Normalize.
From Verif Require Import Spec.Utf8Spec Spec.Normalization Spec.NormalForms Tables.UnicodeDataTables Tables.CanonicalTables
  Proofs.NormLemmas Proofs.NormProps Proofs.NormalFormLemmas Proofs.NormalFormProps Proofs.Utf8Lemmas.

(** C127.  Every text has exactly one normalization form D ... *)
Theorem C127_form_total : forall cs, exists ds, NFD cs ds.
Proof. exact p_nfd_total. Qed.
Print Assumptions C127_form_total.
Theorem C127_form_unique : forall cs ds ds', NFD cs ds -> NFD cs ds' -> ds = ds'.
Proof. exact p_nfd_unique. Qed.
Print Assumptions C127_form_unique.
(** ... and to_decomposed, where it returns, gives it exactly if the text has
    neither a code point with a one-element decomposition nor a Hangul syllable
    and the marks of the result happen to be in canonical order; that is,
    exactly if the result is fully decomposed and in canonical order. *)
Theorem C127_exactly_partial : forall inner s cs t, Text s cs -> to_decomposed inner s = Ok t ->
  exists ts, Text t ts /\
    (NFD cs ts <-> Forall (fun d => forall m, ~ CanonicalMapping d m) ts /\ Ordered ts) /\
    (NFD cs ts <-> Forall (fun c => (forall a, ~ In (c, a) UD_SINGLETONS) /\ ~ hangul c) cs /\ Ordered ts).
Proof. exact p_c127_exactly. Qed.
Print Assumptions C127_exactly_partial.
(** Between two such texts the results tell equivalent from other texts. *)
Theorem C127_same_partial : forall inner s cs t ts s' cs' t' ts', Text s cs -> Text s' cs' ->
  to_decomposed inner s = Ok t -> to_decomposed inner s' = Ok t' -> Text t ts -> Text t' ts' ->
  Forall (fun c => (forall a, ~ In (c, a) UD_SINGLETONS) /\ ~ hangul c) cs ->
  Forall (fun c => (forall a, ~ In (c, a) UD_SINGLETONS) /\ ~ hangul c) cs' ->
  Ordered ts -> Ordered ts' -> (Equivalent cs cs' <-> ts = ts').
Proof. exact p_c127_same. Qed.
Print Assumptions C127_same_partial.
(** Every code point with a one-element decomposition and every Hangul syllable
    is left as it is, ... *)
Theorem C127_left_refuted : forall inner g c, uchar g c -> (exists a, In (c, a) UD_SINGLETONS) \/ hangul c ->
  to_decomposed inner g = Ok g /\ ~ NFD [c] [c].
Proof. exact p_c127_left. Qed.
Print Assumptions C127_left_refuted.
(** ... marks are not reordered: U+00E1 U+0323, whose form D is a U+0323 U+0301; ... *)
Lemma out_323 : out_of_order 0x301 0x323.
Proof. unfold out_of_order. replace (combining_class 0x301) with 230 by (vm_compute; reflexivity). replace (combining_class 0x323) with 220 by (vm_compute; reflexivity). now split. Qed.
Theorem C127_order_refuted : forall inner, exists t, to_decomposed inner [xc3; xa1; xcc; xa3] = Ok t /\
  Text [xc3; xa1; xcc; xa3] [0xE1; 0x323] /\ Text t [0x61; 0x301; 0x323] /\ NFD [0xE1; 0x323] [0x61; 0x323; 0x301].
Proof.
  intros inner. exists [x61; xcc; x81; xcc; xa3]. split; [|split; [|split]].
  - change ([xc3; xa1; xcc; xa3]) with ([xc3; xa1] ++ [xcc; xa3] ++ []). apply p_c67_ok.
    apply (dec_split [xc3; xa1] 0xE1 [0x61; 0x301] [x61; xcc; x81] _ [] [xcc; xa3]); [now apply (uchar2 xc3 xa1)| |split; repeat constructor| |].
    + apply (full_pair 0xE1 0x61 0x301 [0x61]); [apply (List.find_some (fun p => fst p =? 0xE1)); vm_compute; reflexivity|].
      apply full_atom. apply lookup_none. vm_compute. reflexivity.
    + apply (Encoded_cons [x61]); [reflexivity|]. apply (Encoded_cons [xcc; x81] 0x301 []); [reflexivity|constructor].
    + apply (dec_keep [xcc; xa3] 0x323 [] [] []); [now apply (uchar2 xcc xa3)| |constructor]. apply full_atom. apply lookup_none. vm_compute. reflexivity.
  - apply (Text_cons [xc3; xa1]); [now apply (uchar2 xc3 xa1)|]. apply (Text_cons [xcc; xa3] 0x323 []); [now apply (uchar2 xcc xa3)|constructor].
  - apply (Text_cons [x61]); [now apply (uchar1 x61)|]. apply (Text_cons [xcc; x81]); [now apply (uchar2 xcc x81)|].
    apply (Text_cons [xcc; xa3] 0x323 []); [now apply (uchar2 xcc xa3)|constructor].
  - apply nfd_iff. vm_compute. reflexivity.
Qed.
Print Assumptions C127_order_refuted.
(** ... so equivalent texts need not have equal results: U+212B (ANGSTROM SIGN)
    and U+00C5. *)
Theorem C127_angstrom_refuted : forall inner, Equivalent [0x212B] [0xC5] /\
  to_decomposed inner [xe2; x84; xab] = Ok [xe2; x84; xab] /\ to_decomposed inner [xc3; x85] = Ok [x41; xcc; x8a].
Proof.
  intros inner. split; [apply equivalent_iff; vm_compute; reflexivity|]. split.
  - apply (p_c127_left inner [xe2; x84; xab] 0x212B); [apply (uchar3 xe2 x84 xab); vm_compute; split; congruence|].
    left. exists 0xC5. apply (List.find_some (fun p => fst p =? 0x212B)). vm_compute. reflexivity.
  - change ([xc3; x85]) with ([xc3; x85] ++ []). apply p_c67_ok.
    apply (dec_split [xc3; x85] 0xC5 [0x41; 0x30A] [x41; xcc; x8a] [] [] []); [now apply (uchar2 xc3 x85)| |split; repeat constructor| |constructor].
    + apply (full_pair 0xC5 0x41 0x30A [0x41]); [apply (List.find_some (fun p => fst p =? 0xC5)); vm_compute; reflexivity|].
      apply full_atom. apply lookup_none. vm_compute. reflexivity.
    + apply (Encoded_cons [x41]); [reflexivity|]. apply (Encoded_cons [xcc; x8a] 0x30A []); [reflexivity|constructor].
Qed.
Print Assumptions C127_angstrom_refuted.
(** The hypotheses are met: U+1EAD, whose result is a U+0323 U+0302, is normal. *)
Example C127_ex : to_decomposed 0 [xe1; xba; xad] = Ok [x61; xcc; xa3; xcc; x82] /\ NFD [0x1EAD] [0x61; 0x323; 0x302] /\
  NFD [0xAC01] [0x1100; 0x1161; 0x11A8] /\ NFD [0xAC00; 0x2126] [0x1100; 0x1161; 0x3A9] /\ hangul 0xD7A3 /\ jamo 0xD7A3 = [0x1112; 0x1175; 0x11C2].
Proof. repeat split; try (apply nfd_iff); vm_compute; congruence. Qed.

(** C128.  Canonical equivalence is an equivalence; to_decomposed keeps it
    whenever it returns, ... *)
Theorem C128_relation : (forall cs, Equivalent cs cs) /\ (forall cs ds, Equivalent cs ds -> Equivalent ds cs) /\
  (forall cs ds es, Equivalent cs ds -> Equivalent ds es -> Equivalent cs es).
Proof. exact (conj p_equiv_refl (conj p_equiv_sym p_equiv_trans)). Qed.
Print Assumptions C128_relation.
Theorem C128_decomposed : forall inner s cs t, Text s cs -> to_decomposed inner s = Ok t ->
  exists ts, Text t ts /\ Equivalent cs ts.
Proof. exact p_c128_decomposed. Qed.
Print Assumptions C128_decomposed.
(** ... and to_composed exactly if no character is lost (C68) and no code point
    from U+100000 on is dropped by being mixed into the one before it (C69). *)
Theorem C128_composed : forall adjacent s cs segs c, Text s cs -> Composing adjacent s segs c ->
  exists r rs, to_composed adjacent s = Ok r /\ Text r rs /\
    (Equivalent cs rs <->
       (forall u b g v, segs = u ++ Made b :: Copied g :: v -> exists h w, v = Copied h :: w) /\
       length (filter (fun c => 0x100000 <=? c) rs) = length (filter (fun c => 0x100000 <=? c) cs)).
Proof. exact p_c128_composed. Qed.
Print Assumptions C128_composed.
Theorem C128_small_partial : forall adjacent s cs segs c,
  Text s cs -> Forall (fun c => c < 0x100000) cs -> Composing adjacent s segs c ->
  exists r rs, to_composed adjacent s = Ok r /\ Text r rs /\
    (Equivalent cs rs <-> (forall u b g v, segs = u ++ Made b :: Copied g :: v -> exists h w, v = Copied h :: w)).
Proof. exact p_c128_small. Qed.
Print Assumptions C128_small_partial.
(** A U+0308 b becomes U+00C4, which is not equivalent; @ U+100300 becomes U+00C0. *)
Theorem C128_refuted : forall adjacent,
  (to_composed adjacent [x41; xcc; x88; x62] = Ok [xc3; x84] /\ ~ Equivalent [0x41; 0x308; 0x62] [0xC4]) /\
  (to_composed adjacent [x40; xf4; x80; x8c; x80] = Ok [xc3; x80] /\ ~ Equivalent [0x40; 0x100300] [0xC0]).
Proof.
  intros []; repeat split; try (vm_compute; reflexivity); rewrite equivalent_iff; vm_compute; discriminate.
Qed.
Print Assumptions C128_refuted.
Example C128_ex : forall adjacent, Composing adjacent [x41; xcc; x88; x62] [Made [xc3; x84]; Copied [x62]] 0x62 /\
  Text [x41; xcc; x88; x62] [0x41; 0x308; 0x62] /\ Equivalent [0x41; 0x308; 0x62] [0xC4; 0x62].
Proof.
  intros adjacent. split; [|split; [|apply equivalent_iff; vm_compute; reflexivity]].
  - change [x41; xcc; x88; x62] with (([x41] ++ [xcc; x88]) ++ [x62]).
    apply (comp_next adjacent ([x41] ++ [xcc; x88]) [Made [xc3; x84]] 0xC4 [x62] 0x62); [|now apply (uchar1 x62)| |].
    + apply (comp_join adjacent [x41] [] (Copied [x41]) 0x41 [xcc; x88] 0x308 0xC4); [apply (comp_first adjacent [x41] 0x41); now apply (uchar1 x41)|now apply (uchar2 xcc x88)| |reflexivity].
      apply composes_small; [reflexivity|]. split; [|split; [reflexivity|intros [_ H]; discriminate H]].
      apply (List.find_some (fun p => fst p =? 0xC4)). vm_compute. reflexivity.
    + intros d [H _]. now apply H.
    + intros [H _]. now apply H.
  - apply (Text_cons [x41]); [now apply (uchar1 x41)|]. apply (Text_cons [xcc; x88]); [now apply (uchar2 xcc x88)|].
    apply (Text_cons [x62] 0x62 []); [now apply (uchar1 x62)|constructor].
Qed.
