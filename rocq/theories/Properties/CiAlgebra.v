(** C139: how case-insensitive replace, split and join fit together. *)
From Verif Require Import Base Model.Decode Model.Encode Model.Subrange Model.Search Model.Split Model.CaseInsensitive
  Spec.Utf8Spec Spec.Strings Proofs.SplitLemmas Proofs.CiAlgebra.

(** Replacing every piece is splitting at the pieces and joining with the
    replacement; for a malformed text both throw the same. *)
Theorem C139_replace_is_split_join : forall s from ps to m, ps <> [] -> Text from ps -> Fits s -> (Z.of_N (size s) <= m)%Z ->
  ci_replace s from to m = let* parts := ci_split_sep s from SIZE_MAX false in Ok (join parts to).
Proof. exact p_c139_replace. Qed.
Print Assumptions C139_replace_is_split_join.
(** Replacing pieces by something equal to them but for case changes nothing
    but case. *)
Theorem C139_same_but_for_case : forall s cs p q m, p <> [] -> ci_equal p q = Ok true -> Text s cs -> Fits s ->
  exists r, ci_replace s p q m = Ok r /\ ci_equal s r = Ok true.
Proof. exact p_c139_same. Qed.
Print Assumptions C139_same_but_for_case.
(** The parts joined with one spelling of the separator are the same text but
    for case, and have the same parts. *)
Theorem C139_uniform : forall s p q parts, p <> [] -> ci_equal p q = Ok true -> Fits s ->
  ci_split_sep s p SIZE_MAX false = Ok parts -> Fits (join parts q) ->
  ci_split_sep (join parts q) p SIZE_MAX false = Ok parts /\ ci_equal s (join parts q) = Ok true.
Proof. exact p_c139_uniform. Qed.
Print Assumptions C139_uniform.
(** Texts equal but for case have parts equal but for case, ... *)
Theorem C139_split_alike : forall s s' p ps n ign, ps <> [] -> Text p ps -> ci_equal s s' = Ok true -> Fits s -> Fits s' -> 1 <= n ->
  exists l l', ci_split_sep s p n ign = Ok l /\ ci_split_sep s' p n ign = Ok l' /\ Forall2 (fun a b => ci_equal a b = Ok true) l l'.
Proof. exact p_c139_alike_split. Qed.
Print Assumptions C139_split_alike.
(** ... and are so after the same replacement. *)
Theorem C139_replace_alike : forall s s' p ps to ts m, ps <> [] -> Text p ps -> Text to ts -> ci_equal s s' = Ok true -> Fits s -> Fits s' ->
  exists r r', ci_replace s p to m = Ok r /\ ci_replace s' p to m = Ok r' /\ ci_equal r r' = Ok true.
Proof. exact p_c139_alike_replace. Qed.
Print Assumptions C139_replace_alike.
(** "aXbxc" and "AxBXc" at "x"; the separator made uniform; and a text with a
    byte FF. *)
Example C139_ex : ci_equal [x78] [x58] = Ok true /\ ci_split_sep [x61; x58; x62; x78; x63] [x78] SIZE_MAX false = Ok [[x61]; [x62]; [x63]] /\
  ci_replace [x61; x58; x62; x78; x63] [x78] [x2d] 5 = Ok [x61; x2d; x62; x2d; x63] /\
  join [[x61]; [x62]; [x63]] [x58] = [x61; x58; x62; x58; x63] /\ ci_equal [x61; x58; x62; x78; x63] [x61; x58; x62; x58; x63] = Ok true /\
  ci_split_sep [x41; x78; x42; x58; x63] [x78] SIZE_MAX false = Ok [[x41]; [x42]; [x63]] /\
  ci_replace [x61; x58; xff] [x78] [x2d] 5 = Throw YstringException.
Proof. repeat split; vm_compute; reflexivity. Qed.
