(** Canonical decomposition and composition: C66-C71, C76, C77, C100.

    [inner] bounds the number of rounds of the [while (!ok)] loop in
    to_decomposed: a result [OutOfFuel] for every [inner] means that the loop
    never ends.  [adjacent] says whether the table TO_COMPOSED happens to lie
    directly behind TO_DECOMPOSED in memory, to which an address is compared by
    mistake; the theorems hold for both values. *)
From Verif Require Import Base Model.Decode Model.Encode Model.Normalize Spec.Utf8Spec Spec.Strings Spec.Normalization
  Proofs.NormLemmas Proofs.ComposeLemmas Proofs.ComposeLoop Proofs.NormProps Proofs.NormEquiv Proofs.NormIdem.

(** C66.  Every value has a full decomposition of one to four elements; up to
    three are returned, ... *)
Theorem C66_total : forall c, exists ds, FullDecomp c ds /\ (1 <= length ds <= 4)%nat.
Proof. intros c. destruct (shape_total c) as [ds H]. apply full_shape in H. exists ds. split; [exact H|]. now apply (p_c66 c ds). Qed.
Print Assumptions C66_total.
Theorem C66_unique : forall c ds ds', FullDecomp c ds -> FullDecomp c ds' -> ds = ds'.
Proof. exact (fun c ds ds' H H' => FullDecomp_fun c ds H ds' H'). Qed.
Print Assumptions C66_unique.
Theorem C66_decompose : forall c ds, FullDecomp c ds -> (length ds <= 3)%nat -> decompose c = Ok ds.
Proof. exact (fun c ds H => proj1 (p_c66 c ds H)). Qed.
Print Assumptions C66_decompose.
(** ... of four only the last two, in reverse order. *)
Theorem C66_four_refuted : forall c d1 d2 d3 d4, FullDecomp c [d1; d2; d3; d4] -> decompose c = Ok [d4; d3].
Proof. exact (fun c d1 d2 d3 d4 H => proj1 (proj2 (p_c66 c _ H)) d1 d2 d3 d4 eq_refl). Qed.
Print Assumptions C66_four_refuted.
Example C66_four_ex : FullDecomp 0x1F82 [0x3B1; 0x313; 0x300; 0x345] /\ decompose 0x1F82 = Ok [0x345; 0x300].
Proof.
  assert (H : forall c a b, find (fun p => fst p =? c) Tables.UnicodeDataTables.UD_PAIRS = Some (c, (a, b)) -> has_pair c a b).
  { intros c a b E. now apply List.find_some in E. }
  split; [|vm_compute; reflexivity].
  apply (full_pair 0x1F82 0x1F02 0x345 [0x3B1; 0x313; 0x300]); [apply H; vm_compute; reflexivity|].
  apply (full_pair 0x1F02 0x1F00 0x300 [0x3B1; 0x313]); [apply H; vm_compute; reflexivity|].
  apply (full_pair 0x1F00 0x3B1 0x313 [0x3B1]); [apply H; vm_compute; reflexivity|].
  apply full_atom. apply lookup_none. vm_compute. reflexivity.
Qed.
Example C66_ex : decompose 0x1EAD = Ok [0x61; 0x323; 0x302] /\ decompose 0x41 = Ok [0x41].
Proof. split; vm_compute; reflexivity. Qed.

(** C67.  What [to_decomposed] does on every byte string: it returns the
    decomposed text, throws at a malformed sequence, or - having come to a code
    point with a decomposition of four elements - never returns. *)
Theorem C67_result : forall inner s t, DecomposedTo s [] t -> to_decomposed inner s = Ok t.
Proof. exact p_c67_ok. Qed.
Print Assumptions C67_result.
Theorem C67_malformed : forall inner s r t, DecomposedTo s r t -> Malformed r -> to_decomposed inner s = Throw YstringException.
Proof. exact p_c67_throw. Qed.
Print Assumptions C67_malformed.
Theorem C67_never_returns_refuted : forall inner s g c ds r t,
  DecomposedTo s (g ++ r) t -> uchar g c -> FullDecomp c ds -> (3 < length ds)%nat -> to_decomposed inner s = OutOfFuel.
Proof. exact p_c67_loops. Qed.
Print Assumptions C67_never_returns_refuted.
Theorem C67_cases : forall s, exists r t, DecomposedTo s r t /\
  (r = [] \/ Malformed r \/ exists g c ds r', r = g ++ r' /\ uchar g c /\ FullDecomp c ds /\ length ds = 4%nat).
Proof. exact p_c67_cases. Qed.
Print Assumptions C67_cases.
Theorem C67_example_refuted : forall inner, to_decomposed inner [x41; xe1; xbe; x82] = OutOfFuel.
Proof.
  intros inner. apply (p_c67_loops inner [x41; xe1; xbe; x82] [xe1; xbe; x82] 0x1F82 [0x3B1; 0x313; 0x300; 0x345] [] [x41]).
  - apply (dec_keep [x41] 0x41 [xe1; xbe; x82]); [now apply (uchar1 x41)| |constructor].
    apply full_atom. apply lookup_none. vm_compute. reflexivity.
  - apply (uchar3 xe1 xbe x82); vm_compute; split; congruence.
  - apply C66_four_ex.
  - repeat constructor.
Qed.
Print Assumptions C67_example_refuted.
Example C67_ex : to_decomposed 0 [x61; xe1; xba; xad] = Ok [x61; x61; xcc; xa3; xcc; x82].
Proof. vm_compute. reflexivity. Qed.

(** C68.  The text is read from left to right, composing each character with
    the one before when possible; ... *)
Theorem C68_result : forall adjacent s segs c, Composing adjacent s segs c -> to_composed adjacent s = Ok (kept false segs).
Proof. exact p_c68_result. Qed.
Print Assumptions C68_result.
Theorem C68_malformed : forall adjacent s segs c r, Composing adjacent s segs c -> Malformed r ->
  to_composed adjacent (s ++ r) = Throw YstringException.
Proof. exact p_c68_throw. Qed.
Print Assumptions C68_malformed.
(** ... without composable pairs the text is returned unchanged; ... *)
Theorem C68_unchanged : forall adjacent s cs, Text s cs ->
  (forall u a m v, cs = u ++ a :: m :: v -> (forall d, ~ composes adjacent a m d) /\ ~ off_table a m) ->
  to_composed adjacent s = Ok s.
Proof. exact p_c68_none. Qed.
Print Assumptions C68_unchanged.
(** ... no text is lost if every copied character that directly follows a
    composed one is itself directly followed by a copied one; ... *)
Theorem C68_lossless : forall adjacent s segs c, Composing adjacent s segs c ->
  (forall u b g v, segs = u ++ Made b :: Copied g :: v -> exists h w, v = Copied h :: w) ->
  to_composed adjacent s = Ok (whole segs).
Proof. intros adjacent s segs c H HL. rewrite (p_c68_result _ _ _ _ H). now rewrite (p_c68_lossless segs HL). Qed.
Print Assumptions C68_lossless.
(** ... and otherwise that character is lost: A U+0308 b gives only U+00C4, and
    A U+0308 x U U+0308 gives U+00C4 U+00DC. *)
Theorem C68_last_lost_refuted : forall adjacent, to_composed adjacent [x41; xcc; x88; x62] = Ok [xc3; x84].
Proof. intros []; vm_compute; reflexivity. Qed.
Print Assumptions C68_last_lost_refuted.
Theorem C68_middle_lost_refuted : forall adjacent, to_composed adjacent [x41; xcc; x88; x78; x55; xcc; x88] = Ok [xc3; x84; xc3; x9c].
Proof. intros []; vm_compute; reflexivity. Qed.
Print Assumptions C68_middle_lost_refuted.
Example C68_ex : forall adjacent, to_composed adjacent [x61; x41; xcc; x88; x62; x63] = Ok [x61; xc3; x84; x62; x63].
Proof. intros []; vm_compute; reflexivity. Qed.

(** C69.  Two characters: composed, unchanged or undefined. *)
Theorem C69_two : forall adjacent g a h m, uchar g a -> uchar h m ->
  (forall d b, composes adjacent a m d -> encodes b d -> to_composed adjacent (g ++ h) = Ok b) /\
  (off_table a m -> to_composed adjacent (g ++ h) = UB) /\
  ((forall d, ~ composes adjacent a m d) -> ~ off_table a m -> to_composed adjacent (g ++ h) = Ok (g ++ h)).
Proof. exact p_c69. Qed.
Print Assumptions C69_two.
(** For second characters below U+100000 [composes] is UnicodeData's pairs, the
    first character being below U+1000, and without U+226E if [adjacent]. *)
Theorem C69_pairs_partial : forall adjacent a m d, m < 0x100000 ->
  (composes adjacent a m d <-> has_pair d a m /\ a < 0x1000 /\ ~ (adjacent = true /\ d = 0x226E)).
Proof. exact composes_small. Qed.
Print Assumptions C69_pairs_partial.
Theorem C69_cases : forall adjacent a m, a < 0x200000 -> m < 0x200000 ->
  off_table a m \/ (exists d, composes adjacent a m d) \/ (~ off_table a m /\ forall d, ~ composes adjacent a m d).
Proof. exact consult. Qed.
Print Assumptions C69_cases.
(** U+304B U+3099 (GA in hiragana) is a pair but is not composed ... *)
Theorem C69_missed_refuted : forall adjacent, has_pair 0x304C 0x304B 0x3099 /\
  to_composed adjacent [xe3; x81; x8b; xe3; x82; x99] = Ok [xe3; x81; x8b; xe3; x82; x99].
Proof.
  intros adjacent. split; [|destruct adjacent; vm_compute; reflexivity].
  apply (List.find_some (fun p => fst p =? 0x304C)). vm_compute. reflexivity.
Qed.
Print Assumptions C69_missed_refuted.
(** ... nor is < U+0338 if the tables are adjacent, ... *)
Theorem C69_first_refuted : to_composed true [x3c; xcc; xb8] = Ok [x3c; xcc; xb8] /\ to_composed false [x3c; xcc; xb8] = Ok [xe2; x89; xae].
Proof. split; vm_compute; reflexivity. Qed.
Print Assumptions C69_first_refuted.
(** ... while @ U+100300, which is no pair, is composed to U+00C0. *)
Theorem C69_mixed_refuted : forall adjacent, to_composed adjacent [x40; xf4; x80; x8c; x80] = Ok [xc3; x80].
Proof. intros []; vm_compute; reflexivity. Qed.
Print Assumptions C69_mixed_refuted.
Example C69_ex : composes true 0x41 0x308 0xC4.
Proof.
  apply composes_small; [reflexivity|]. split; [|split; [reflexivity|intros [_ H]; discriminate H]].
  apply (List.find_some (fun p => fst p =? 0xC4)). vm_compute. reflexivity.
Qed.

(** C70.  The look-up runs off the table exactly for pairs behind the last one,
    e.g. for two emoji. *)
Theorem C70_undefined : forall adjacent s, to_composed adjacent s = UB <->
  exists t segs c g m r, s = t ++ g ++ r /\ Composing adjacent t segs c /\ uchar g m /\ off_table c m.
Proof. exact p_c70_iff. Qed.
Print Assumptions C70_undefined.
Theorem C70_cases : forall adjacent s, s = [] \/ Malformed s \/ (exists segs c, Composing adjacent s segs c) \/
  (exists t segs c r, s = t ++ r /\ Composing adjacent t segs c /\ Malformed r) \/
  (exists t segs c g m r, s = t ++ g ++ r /\ Composing adjacent t segs c /\ uchar g m /\ off_table c m).
Proof. exact p_c70_cases. Qed.
Print Assumptions C70_cases.
Theorem C70_emoji_refuted : forall adjacent, to_composed adjacent [xf0; x9f; x98; x80; xf0; x9f; x98; x80] = UB.
Proof. intros []; vm_compute; reflexivity. Qed.
Print Assumptions C70_emoji_refuted.

(** C71.  A character with a pair [a] [b] is restored exactly if [a] is below
    U+1000 (and it is not U+226E with adjacent tables). *)
Theorem C71_restored_partial : forall adjacent inner c a b g ds t,
  has_pair c a b -> encodes g c -> FullDecomp c ds -> (length ds <= 3)%nat -> to_decomposed inner g = Ok t ->
  (to_composed adjacent t = Ok g <-> a < 0x1000 /\ ~ (adjacent = true /\ c = 0x226E)).
Proof. exact p_c71. Qed.
Print Assumptions C71_restored_partial.
(** U+1E69 (s with two dots) comes back as U+1E63, one dot lost. *)
Theorem C71_lost_refuted : forall adjacent, to_decomposed 0 [xe1; xb9; xa9] = Ok [x73; xcc; xa3; xcc; x87] /\
  to_composed adjacent [x73; xcc; xa3; xcc; x87] = Ok [xe1; xb9; xa3].
Proof. intros []; split; vm_compute; reflexivity. Qed.
Print Assumptions C71_lost_refuted.
Example C71_ex : forall adjacent, to_decomposed 0 [xe1; xba; xa5] = Ok [x61; xcc; x82; xcc; x81] /\
  to_composed adjacent [x61; xcc; x82; xcc; x81] = Ok [xe1; xba; xa5].
Proof. intros []; split; vm_compute; reflexivity. Qed.

(** C76.  Decomposing twice is decomposing once. *)
Theorem C76_idempotent : forall inner s t, to_decomposed inner s = Ok t -> to_decomposed inner t = Ok t.
Proof. exact p_c76_result. Qed.
Print Assumptions C76_idempotent.
Example C76_ex : to_decomposed 0 [x61; x61; xcc; xa3; xcc; x82] = Ok [x61; x61; xcc; xa3; xcc; x82].
Proof. vm_compute. reflexivity. Qed.

(** C77.  If no text is lost (C68) composing keeps the canonical decomposition. *)
Theorem C77_equivalent : forall adjacent inner s cs segs c t u,
  Encoded s cs -> Forall (fun c => c < 0x100000) cs -> Composing adjacent s segs c ->
  (forall u b g v, segs = u ++ Made b :: Copied g :: v -> exists h w, v = Copied h :: w) ->
  to_decomposed inner s = Ok t -> to_composed adjacent s = Ok u -> to_decomposed inner u = Ok t.
Proof.
  intros adjacent inner s cs segs c t u HE HB HC HL HD HU. rewrite (C68_lossless _ _ _ _ HC HL) in HU. injection HU as <-.
  exact (p_c77 adjacent inner s cs segs c t HE HB HC HD).
Qed.
Print Assumptions C77_equivalent.
Theorem C77_lost_example : forall adjacent, to_composed adjacent [x41; xcc; x88; x62] = Ok [xc3; x84] /\
  to_decomposed 0 [x41; xcc; x88; x62] = Ok [x41; xcc; x88; x62] /\ to_decomposed 0 [xc3; x84] = Ok [x41; xcc; x88].
Proof. intros []; repeat split; vm_compute; reflexivity. Qed.
Print Assumptions C77_lost_example.
Example C77_ex : forall adjacent, exists segs c, Composing adjacent [x41; xcc; x88; x62; x63] segs c /\
  (forall u b g v, segs = u ++ Made b :: Copied g :: v -> exists h w, v = Copied h :: w).
Proof.
  intros adjacent. exists [Made [xc3; x84]; Copied [x62]; Copied [x63]], 0x63. split.
  - assert (D : forall a m, m < 0x300 -> (forall d, ~ composes adjacent a m d) /\ ~ off_table a m).
    { intros a m L. split; [intros d [K _]|intros [K _]]; apply N.lt_nge in L; contradiction. }
    apply (comp_next adjacent [x41; xcc; x88; x62] [Made [xc3; x84]; Copied [x62]] 0x62 [x63] 0x63);
      [|now apply (uchar1 x63)|now apply D|now apply D].
    apply (comp_next adjacent [x41; xcc; x88] [Made [xc3; x84]] 0xC4 [x62] 0x62);
      [|now apply (uchar1 x62)|now apply D|now apply D].
    apply (comp_join adjacent [x41] [] (Copied [x41]) 0x41 [xcc; x88] 0x308 0xC4).
    + apply (comp_first adjacent [x41] 0x41). now apply (uchar1 x41).
    + apply (uchar2 xcc x88); vm_compute; split; congruence.
    + apply composes_small; [reflexivity|]. split; [|split; [reflexivity|intros [_ H]; discriminate H]].
      apply (List.find_some (fun p => fst p =? 0xC4)). vm_compute. reflexivity.
    + vm_compute. reflexivity.
  - intros u b g v E. destruct u as [|x [|y [|z u]]]; try discriminate E.
    + injection E as _ _ <-. eauto.
    + destruct u; discriminate E.
Qed.

(** C100.  Composing twice is composing once - unless the second look-up runs
    off the table (C70), ... *)
Theorem C100_twice_partial : forall adjacent s r, to_composed adjacent s = Ok r ->
  to_composed adjacent r = Ok r \/
  (to_composed adjacent r = UB /\ exists cs u a m v, Text r cs /\ cs = u ++ a :: m :: v /\ off_table a m).
Proof. exact p_c100_twice. Qed.
Print Assumptions C100_twice_partial.
(** ... which it does not for text below U+1D1BC, ... *)
Theorem C100_idempotent : forall adjacent s cs r, Text s cs -> Forall (fun c => c < 0x1D1BC) cs ->
  to_composed adjacent s = Ok r -> to_composed adjacent r = Ok r.
Proof. exact p_c100_small. Qed.
Print Assumptions C100_idempotent.
(** ... but does for an emoji, an A and a dot below, which are composed to an
    emoji and U+1EA0. *)
Theorem C100_undefined_refuted : forall adjacent,
  to_composed adjacent [xf0; x9f; x98; x80; x41; xcc; xa3] = Ok [xf0; x9f; x98; x80; xe1; xba; xa0] /\
  to_composed adjacent [xf0; x9f; x98; x80; xe1; xba; xa0] = UB.
Proof. intros []; split; vm_compute; reflexivity. Qed.
Print Assumptions C100_undefined_refuted.
Example C100_ex : forall adjacent, exists cs, Text [x41; xcc; x88; x62; x63] cs /\ Forall (fun c => c < 0x1D1BC) cs /\
  to_composed adjacent [x41; xcc; x88; x62; x63] = Ok [xc3; x84; x62; x63].
Proof.
  intros adjacent. exists [0x41; 0x308; 0x62; 0x63]. split; [|split; [repeat constructor|destruct adjacent; vm_compute; reflexivity]].
  apply (Text_cons [x41] 0x41); [now apply (uchar1 x41)|]. apply (Text_cons [xcc; x88] 0x308); [apply (uchar2 xcc x88); vm_compute; split; congruence|].
  apply (Text_cons [x62] 0x62); [now apply (uchar1 x62)|]. apply (Text_cons [x63] 0x63); [now apply (uchar1 x63)|constructor].
Qed.
