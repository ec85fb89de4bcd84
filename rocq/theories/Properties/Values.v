(** C92-C94: Subrange, the class constants, comparison of code points. *)
From Verif Require Import Base Spec.Category Spec.UnicodeData Spec.Strings
  Model.Decode Model.Encode Model.Subrange Model.Search Model.CharClass Model.ConvertCase
  Proofs.UnicodeProps Proofs.ValueLemmas.

(** C92 *)
Theorem C92_equality : forall a b, sub_eqb a b = true <-> a = b.
Proof. exact p_c92_eq. Qed.
Print Assumptions C92_equality.
Theorem C92_denotes_text : forall (u m v : str), Fits (u ++ m ++ v) ->
  let r := Sub (size u) (size m) in
  r = sub_its 0 (length u) (length (u ++ m)) /\
  sub_start r = size u /\ sub_end r = size (u ++ m) /\ (sub_bool r = true <-> m <> []) /\
  substr (u ++ m ++ v) (sub_start r) (sub_length r) = Ok m.
Proof. exact p_c92_text. Qed.
Print Assumptions C92_denotes_text.
Theorem C92_default : forall s : str, Fits s -> sub_bool sub_default = false /\ size s < sub_start sub_default.
Proof. exact p_c92_default. Qed.
Print Assumptions C92_default.
Example C92_ex : substr [x61; x62; x63] (sub_start (Sub 1 1)) (sub_length (Sub 1 1)) = Ok [x62] /\ sub_eqb (Sub 1 0) (Sub 2 0) = false.
Proof. split; reflexivity. Qed.

(** C93.  The constant of each general category ... *)
Theorem C93_constants : forall k, 2 ^ category_number k =
  match k with
  | Lu => UPPERCASE_LETTER | Ll => LOWERCASE_LETTER | Lt => TITLECASE_LETTER | Lm => MODIFIER_LETTER | Lo => OTHER_LETTER
  | Mn => NONSPACING_MARK | Mc => SPACING_MARK | Me => ENCLOSING_MARK
  | Nd => DECIMAL_NUMBER | Nl => LETTER_NUMBER | No => OTHER_NUMBER
  | Pc => CONNECTOR_PUNCTUATION | Pd => DASH_PUNCTUATION | Ps => OPEN_PUNCTUATION | Pe => CLOSE_PUNCTUATION
  | Pi => INITIAL_PUNCTUATION | Pf => FINAL_PUNCTUATION | Po => OTHER_PUNCTUATION
  | Sm => MATH_SYMBOL | Sc => CURRENCY_SYMBOL | Sk => MODIFIER_SYMBOL | So => OTHER_SYMBOL
  | Zs => SPACE_SEPARATOR | Zl => CLASS_LINE_SEPARATOR | Zp => CLASS_PARAGRAPH_SEPARATOR
  | Cc => CONTROL | Cf => FORMAT | Cs => SURROGATE | Co => PRIVATE_USE | Cn => UNASSIGNED
  end.
Proof. exact (fun k => match k with Lu => eq_refl | _ => eq_refl end). Qed.
Print Assumptions C93_constants.
(** ... and the combined constants: which categories a mask selects. *)
Theorem C93_masks : forall k,
  let selects mask := N.land (2 ^ category_number k) mask <> 0 in
  (selects CASED_LETTER <-> In k [Lu; Ll; Lt]) /\
  (selects LETTER <-> In k [Lu; Ll; Lt; Lm; Lo]) /\
  (selects MARK <-> In k [Mn; Mc; Me]) /\
  (selects NUMBER <-> In k [Nd; Nl; No]) /\
  (selects PUNCTUATION <-> In k [Pc; Pd; Ps; Pe; Pi; Pf; Po]) /\
  (selects SYMBOL <-> In k [Sm; Sc; Sk; So]) /\
  (selects SEPARATOR <-> In k [Zs; Zl; Zp]) /\
  (selects OTHER <-> In k [Cc; Cf; Cs; Co; Cn]).
Proof. exact p_c93_masks. Qed.
Print Assumptions C93_masks.
(** Hence for a code point: *)
Theorem C93_get_char_class : forall c k, c < 0x200000 -> in_ideograph_gap c = false -> category_of c = k ->
  get_char_class c = Ok (2 ^ category_number k).
Proof. exact (fun c k H H' E => eq_ind _ (fun k => get_char_class c = Ok (2 ^ category_number k)) (p_c55 c H H') _ E). Qed.
Print Assumptions C93_get_char_class.
Example C93_ex : get_char_class 0x2028 = Ok CLASS_LINE_SEPARATOR /\ get_char_class 0xE000 = Ok PRIVATE_USE /\ get_char_class 0x41 = Ok UPPERCASE_LETTER.
Proof. repeat split; vm_compute; reflexivity. Qed.

(** C94 *)
Theorem C94_compare_code_points : forall a b, a < 0x100000000 -> b < 0x100000000 ->
  (case_insensitive_equal a b = true <-> simple_upper a = simple_upper b) /\
  (case_insensitive_less a b = true <-> simple_upper a < simple_upper b) /\
  (case_insensitive_compare a b = 0%Z <-> simple_upper a = simple_upper b) /\
  (a < 0x80000000 -> b < 0x80000000 ->
    case_insensitive_compare a b = (Z.of_N (simple_upper a) - Z.of_N (simple_upper b))%Z).
Proof. exact p_c94. Qed.
Print Assumptions C94_compare_code_points.
Theorem C94_orders : forall a b c, a < 0x100000000 -> b < 0x100000000 -> c < 0x100000000 ->
  case_insensitive_less a a = false /\
  (case_insensitive_less a b = true -> case_insensitive_less b c = true -> case_insensitive_less a c = true) /\
  (* exactly one of three *)
  (case_insensitive_less a b = true /\ case_insensitive_equal a b = false /\ case_insensitive_less b a = false \/
   case_insensitive_less a b = false /\ case_insensitive_equal a b = true /\ case_insensitive_less b a = false \/
   case_insensitive_less a b = false /\ case_insensitive_equal a b = false /\ case_insensitive_less b a = true) /\
  (case_insensitive_equal a b = true -> case_insensitive_equal b c = true -> case_insensitive_equal a c = true) /\
  case_insensitive_equal a b = case_insensitive_equal b a /\
  case_insensitive_equal a (to_upper a) = true.
Proof. exact p_c94_orders. Qed.
Print Assumptions C94_orders.
(** The bound 2^31 is needed (no code point reaches it). *)
Theorem C94_bound_is_needed : case_insensitive_compare 0x80000000 0 = (- 0x80000000)%Z /\ case_insensitive_less 0 0x80000000 = true.
Proof. exact (conj eq_refl eq_refl). Qed.
Print Assumptions C94_bound_is_needed.
Example C94_ex : case_insensitive_equal 0x3C3 0x3C2 = true /\ case_insensitive_less 0x61 0x42 = true /\ case_insensitive_compare 0x7A 0x41 = 25%Z.
Proof. repeat split; vm_compute; reflexivity. Qed.
