(** C109, C110: functions that call back, with predicates and finders that may
    have a state and may throw.  The state is a pair: of the callback object
    ([I]), which the functions copy, and of everything else ([X]). *)
From Verif Require Import Base Spec.Utf8Spec Spec.Strings Spec.Split Spec.Calls
  Model.Decode Model.Subrange Model.Search Model.Split Model.Callbacks
  Proofs.Utf8Lemmas Proofs.CallbackLemmas Proofs.CallbackProps.

(** C109.  find_first_where: the code points of [u] are asked about from left to
    right until one is accepted or the predicate throws, the text ends, or
    malformed bytes follow.  What the calls did outside ([x1], [x2]) remains. *)
Theorem C109_find_first_where : forall (I X : Type) (pred : N -> I * X -> outcome bool * (I * X)) pre u us i x i1 x1,
  Text u us -> Answers pred false (i, x) us (i1, x1) ->
  (forall g c v i2 x2, uchar g c -> pred c (i1, x1) = (Ok true, (i2, x2)) ->
     find_first_where_cb (pre ++ u ++ g ++ v) pred i (size pre) x = (Ok (Sub (size (pre ++ u)) (size g), c), x2)) /\
  (forall g c v e i2 x2, uchar g c -> pred c (i1, x1) = (Throw e, (i2, x2)) ->
     find_first_where_cb (pre ++ u ++ g ++ v) pred i (size pre) x = (Throw e, x2)) /\
  find_first_where_cb (pre ++ u) pred i (size pre) x = (Ok (Sub npos 0, INVALID_CHAR), x1) /\
  (forall r, Malformed r -> find_first_where_cb (pre ++ u ++ r) pred i (size pre) x = (Throw YstringException, x1)).
Proof. exact (@p_first). Qed.
Print Assumptions C109_find_first_where.
(** find_last_where: from right to left, starting at the offset. *)
Theorem C109_find_last_where : forall (I X : Type) (pred : N -> I * X -> outcome bool * (I * X)) u us post o i x i1 x1,
  Text u us -> Answers pred false (i, x) (rev us) (i1, x1) ->
  (forall pre g c i2 x2, N.min o (size (pre ++ g ++ u ++ post)) = size (pre ++ g ++ u) -> uchar g c ->
     pred c (i1, x1) = (Ok true, (i2, x2)) ->
     find_last_where_cb (pre ++ g ++ u ++ post) pred i o x = (Ok (Sub (size pre) (size g), c), x2)) /\
  (forall pre g c e i2 x2, N.min o (size (pre ++ g ++ u ++ post)) = size (pre ++ g ++ u) -> uchar g c ->
     pred c (i1, x1) = (Throw e, (i2, x2)) -> find_last_where_cb (pre ++ g ++ u ++ post) pred i o x = (Throw e, x2)) /\
  (N.min o (size (u ++ post)) = size u ->
     find_last_where_cb (u ++ post) pred i o x = (Ok (Sub npos 0, INVALID_CHAR), x1)) /\
  (forall r, N.min o (size (r ++ u ++ post)) = size (r ++ u) -> MalformedEnd r -> ~ long_cont_tail r ->
     find_last_where_cb (r ++ u ++ post) pred i o x = (Throw YstringException, x1)).
Proof. exact (@p_last). Qed.
Print Assumptions C109_find_last_where.
(** trim_start_where, trim_end_where: until one is not accepted. *)
Theorem C109_trim_start_where : forall (I X : Type) (pred : N -> I * X -> outcome bool * (I * X)) u us i x i1 x1,
  Text u us -> Answers pred true (i, x) us (i1, x1) ->
  (forall g c v i2 x2, Fits (u ++ g ++ v) -> uchar g c -> pred c (i1, x1) = (Ok false, (i2, x2)) ->
     trim_start_where_cb (u ++ g ++ v) pred i x = (Ok (g ++ v), x2)) /\
  (forall g c v e i2 x2, uchar g c -> pred c (i1, x1) = (Throw e, (i2, x2)) ->
     trim_start_where_cb (u ++ g ++ v) pred i x = (Throw e, x2)) /\
  trim_start_where_cb u pred i x = (Ok [], x1) /\
  (forall r, Malformed r -> trim_start_where_cb (u ++ r) pred i x = (Throw YstringException, x1)).
Proof. exact (@p_trim_start). Qed.
Print Assumptions C109_trim_start_where.
Theorem C109_trim_end_where : forall (I X : Type) (pred : N -> I * X -> outcome bool * (I * X)) u us i x i1 x1,
  Text u us -> Answers pred true (i, x) (rev us) (i1, x1) ->
  (forall v g c i2 x2, Fits (v ++ g ++ u) -> uchar g c -> pred c (i1, x1) = (Ok false, (i2, x2)) ->
     trim_end_where_cb (v ++ g ++ u) pred i x = (Ok (v ++ g), x2)) /\
  (forall v g c e i2 x2, Fits (v ++ g ++ u) -> uchar g c -> pred c (i1, x1) = (Throw e, (i2, x2)) ->
     trim_end_where_cb (v ++ g ++ u) pred i x = (Throw e, x2)) /\
  (Fits u -> trim_end_where_cb u pred i x = (Ok [], x1)) /\
  (forall r, Fits (r ++ u) -> MalformedEnd r -> ~ long_cont_tail r ->
     trim_end_where_cb (r ++ u) pred i x = (Throw YstringException, x1)).
Proof. exact (@p_trim_end). Qed.
Print Assumptions C109_trim_end_where.
(** trim_where: the start and then the end of what is left; the second pass
    begins with a copy of the predicate as it was passed. *)
Theorem C109_trim_where : forall (I X : Type) (pred : N -> I * X -> outcome bool * (I * X)) s i x,
  (forall t x1, trim_start_where_cb s pred i x = (Ok t, x1) -> trim_where_cb s pred i x = trim_end_where_cb t pred i x1) /\
  (forall e x1, trim_start_where_cb s pred i x = (Throw e, x1) -> trim_where_cb s pred i x = (Throw e, x1)).
Proof. exact (@p_trim). Qed.
Print Assumptions C109_trim_where.
(** For a predicate that returns or throws one of the cases applies to every text. *)
Theorem C109_cases : forall (I X : Type) (pred : N -> I * X -> outcome bool * (I * X)) b, answers_or_throws pred ->
  forall cs st,
  (exists st', Answers pred b st cs st') \/
  (exists us c vs st1 st2, cs = us ++ c :: vs /\ Answers pred b st us st1 /\
     (pred c st1 = (Ok (negb b), st2) \/ exists e, pred c st1 = (Throw e, st2))).
Proof. exact (@answers_cases). Qed.
Print Assumptions C109_cases.
(** split_where: the finder is called with the text, then with what follows each
    token, until it finds none, throws, or the last token found makes [max] parts. *)
Theorem C109_split_where : forall (I X : Type) (finder : str -> I * X -> outcome subrange * (I * X)) max ign s cuts rest i x i1 x1,
  Fits s -> Finds finder (i, x) s cuts rest (i1, x1) -> N.of_nat (length (kept ign (map fst cuts))) < max ->
  (forall o i2 x2, finder rest (i1, x1) = (Ok (Sub o 0), (i2, x2)) ->
     split_where_cb s finder i max ign x = (Ok (kept ign (map fst cuts ++ [rest])), x2)) /\
  (forall e i2 x2, finder rest (i1, x1) = (Throw e, (i2, x2)) -> split_where_cb s finder i max ign x = (Throw e, x2)) /\
  (forall u g v i2 x2, rest = u ++ g ++ v -> g <> [] -> finder rest (i1, x1) = (Ok (Sub (size u) (size g)), (i2, x2)) ->
     N.of_nat (length (kept ign (map fst cuts ++ [u]))) = max ->
     split_where_cb s finder i max ign x = (Ok (kept ign (map fst cuts ++ [u; v])), x2)).
Proof. exact (@p_split). Qed.
Print Assumptions C109_split_where.
(** TokenIterator, one next() after the other. *)
Theorem C109_token_iterator : forall (X : Type) (finder : str -> X -> outcome subrange * X) x0 s t x v tokens,
  Fits s -> CbRun finder x0 s t x v tokens ->
  s = concat (map (fun p => fst p ++ snd p) tokens) ++ v /\ ti_remainder t = Ok v /\
  (forall u g w x', v = u ++ g ++ w -> g <> [] -> finder v x = (Ok (Sub (size u) (size g)), x') ->
     exists t', ti_next_cb finder t x = (Ok true, (t', x')) /\ ti_bool t' = true /\
       ti_part t' = Ok u /\ ti_remainder t' = Ok w /\ CbRun finder x0 s t' x' w (tokens ++ [(u, g)])) /\
  (forall o x', finder v x = (Ok (Sub o 0), x') ->
     exists t', ti_next_cb finder t x = (Ok true, (t', x')) /\ ti_bool t' = false /\
       ti_part t' = Ok v /\ ti_get_token t' = Ok [] /\ ti_remainder t' = Ok [] /\
       forall y, ti_next_cb finder t' y = (Ok false, (t', y))) /\
  (forall e x', finder v x = (Throw e, x') -> exists t', ti_next_cb finder t x = (Throw e, (t', x'))).
Proof. exact (@p_next). Qed.
Print Assumptions C109_token_iterator.
(** With callbacks that are pure functions these are the functions of C01-C108. *)
Theorem C109_pure : forall (I X : Type) (i : I) (x : X) s (p : N -> bool) (finder : str -> outcome subrange) o n ign,
  find_first_where_cb s (fun c y => (Ok (p c), y)) i o x = (find_first_where s p o, x) /\
  find_last_where_cb s (fun c y => (Ok (p c), y)) i o x = (find_last_where s p o, x) /\
  trim_start_where_cb s (fun c y => (Ok (p c), y)) i x = (trim_start_where s p, x) /\
  trim_end_where_cb s (fun c y => (Ok (p c), y)) i x = (trim_end_where s p, x) /\
  trim_where_cb s (fun c y => (Ok (p c), y)) i x = (trim_where s p, x) /\
  split_where_cb s (fun t y => (finder t, y)) i n ign x = (split_where s finder n ign, x).
Proof.
  exact (fun I X i x s p finder o n ign => conj (ffw_pure p s i o x) (conj (flw_pure p s i o x) (conj (trim_start_pure p s i x)
    (conj (trim_end_pure p s i x) (conj (trim_pure p s i x) (split_pure finder s n ign i x)))))).
Qed.
Print Assumptions C109_pure.

(** A predicate that writes down what it is asked, counts its calls in itself,
    and throws when asked about '!' *)
Definition ex_pred (c : N) (st : N * list N) : outcome bool * (N * list N) :=
  let '(n, log) := st in
  (if c =? 0x21 then Throw (UserException 7) else Ok (n <? 2), (n + 1, log ++ [c])).
Example C109_ex :
  answers_or_throws ex_pred /\
  Answers ex_pred true (0, []) [0x61; 0x20AC] (2, [0x61; 0x20AC]) /\
  trim_start_where_cb [x61; xe2; x82; xac; x62; x63] ex_pred 0 [] = (Ok [x62; x63], [0x61; 0x20AC; 0x62]) /\
  trim_where_cb [x61; xe2; x82; xac; x62; x63; x64; x65] ex_pred 0 []
    = (Ok [x62; x63], [0x61; 0x20AC; 0x62; 0x65; 0x64; 0x63]) /\
  trim_where_cb [x61; xe2; x82; xac; x62; x21; x65] ex_pred 0 []
    = (Throw (UserException 7), [0x61; 0x20AC; 0x62; 0x65; 0x21]).
Proof.
  split. { intros c [n log]. unfold ex_pred. destruct (c =? 0x21); [right|left]; eauto. }
  split. { apply answers_cons with (1, [0x61]); [reflexivity|]. apply answers_cons with (2, [0x61; 0x20AC]); [reflexivity|constructor]. }
  repeat split; reflexivity.
Qed.
(** A finder with a state: the separators are ',' and ';' in turn. *)
Definition ex_finder (t : str) (st : bool * list str) : outcome subrange * (bool * list str) :=
  let '(b, log) := st in
  (find_first t (if b then [x3b] else [x2c]) 0, (negb b, log ++ [t])).
Example C109_split_ex :
  split_where_cb [x61; x2c; x62; x2c; x63; x3b; x64] ex_finder false SIZE_MAX false []
    = (Ok [[x61]; [x62; x2c; x63]; [x64]],
       [[x61; x2c; x62; x2c; x63; x3b; x64]; [x62; x2c; x63; x3b; x64]; [x64]]) /\
  Finds ex_finder (false, []) [x61; x2c; x62] [([x61], [x2c])] [x62] (true, [[x61; x2c; x62]]).
Proof.
  split; [reflexivity|].
  apply (finds_cons ex_finder (false, []) [x61] [x2c] [x62] (true, [[x61; x2c; x62]])); [discriminate|reflexivity|constructor].
Qed.

(** C110.  If the finder throws during the first next(), the iterator is as it was ... *)
Theorem C110_first_partial : forall (X : Type) (finder : str -> X -> outcome subrange * X) x0 s t x v e x',
  Fits s -> CbRun finder x0 s t x v [] -> finder v x = (Throw e, x') ->
  ti_next_cb finder t x = (Throw e, (t, x')).
Proof. exact (@p_retry_first). Qed.
Print Assumptions C110_first_partial.
(** ... and if it throws later, after a part [u] and a token [g], the iterator
    has lost its place: the remainder is as many bytes too short as [u] and [g]
    had, the next next() searches from there, and if there are not that many
    bytes then remainder() and every next() throw std::out_of_range. *)
Theorem C110_later_refuted : forall (X : Type) (finder : str -> X -> outcome subrange * X) x0 s t x v tokens u g e x',
  Fits s -> CbRun finder x0 s t x v (tokens ++ [(u, g)]) -> finder v x = (Throw e, x') ->
  exists t', ti_next_cb finder t x = (Throw e, (t', x')) /\
    (forall a w, v = a ++ w -> length a = length (u ++ g) ->
       ti_remainder t' = Ok w /\
       (forall y tok y', finder w y = (Ok tok, y') -> ti_next_cb finder t' y = ti_next_cb finder (ti_init w) y) /\
       (forall y e' y', finder w y = (Throw e', y') -> exists t2, ti_next_cb finder t' y = (Throw e', (t2, y')))) /\
    ((length v < length (u ++ g))%nat ->
       ti_remainder t' = Throw StdOutOfRange /\ forall y, ti_next_cb finder t' y = (Throw StdOutOfRange, (t', y))).
Proof. exact (@p_retry_later). Qed.
Print Assumptions C110_later_refuted.
(** "a,b,\xff,c" cut at ',' by a finder that throws in the second next(): the third goes on
    with "\xff,c" and never sees "b".  In "ab,c\xff" the second next() throws, and the
    third throws std::out_of_range. *)
Definition ex_comma (t : str) (n : N) : outcome subrange * N :=
  (let* p := find_first_of t [0x2C] 0 in Ok (fst p), n + 1).
Example C110_ex :
  let s := [x61; x2c; x62; x2c; xff; x2c; x63] in
  let f t n := ((if n =? 1 then Throw (UserException 0) else fst (ex_comma t n)), n + 1) in
  exists t1 t2 t3,
    ti_next_cb f (ti_init s) 0 = (Ok true, (t1, 1)) /\ ti_remainder t1 = Ok [x62; x2c; xff; x2c; x63] /\
    ti_next_cb f t1 1 = (Throw (UserException 0), (t2, 2)) /\ ti_remainder t2 = Ok [xff; x2c; x63] /\
    ti_next_cb f t2 2 = (Throw YstringException, (t3, 3)) /\ ti_remainder t3 = Ok [x63].
Proof. do 3 eexists. repeat split; reflexivity. Qed.
Example C110_short_ex :
  let s := [x61; x62; x2c; x63; xff] in
  exists t1 t2,
    ti_next_cb ex_comma (ti_init s) 0 = (Ok true, (t1, 1)) /\ ti_remainder t1 = Ok [x63; xff] /\
    ti_next_cb ex_comma t1 1 = (Throw YstringException, (t2, 2)) /\ ti_remainder t2 = Throw StdOutOfRange /\
    ti_next_cb ex_comma t2 2 = (Throw StdOutOfRange, (t2, 2)).
Proof. do 2 eexists. repeat split; reflexivity. Qed.
