(** C148: tables of texts stored as one text: the cells of a row are joined with one separator, the rows with another,
    and both separators are used to split it again. *)
From Verif Require Import Base Spec.Utf8Spec Spec.Strings Spec.Algebra Model.Decode Model.Search Model.Split Model.Escape Model.Unescape Proofs.RecordLemmas.

(** Exactly which tables can be read back: [separable] (of C83) says that a list can be told apart at a separator. *)
Theorem C148_table : forall f r rows, f <> [] -> r <> [] -> let text := join (map (fun row => join row f) rows) r in Fits text ->
  ((exists lines, split_sep text r SIZE_MAX false = Ok lines /\ Forall2 (fun line row => split_sep line f SIZE_MAX false = Ok row) lines rows) <->
   separable r (map (fun row => join row f) rows) /\ Forall (separable f) rows).
Proof. exact p_c148_table. Qed.
Print Assumptions C148_table.
(** With two different bytes as separators: those without empty rows or lists of rows, and without a separator in a cell. *)
Theorem C148_bytes : forall f r rows, f <> r -> let text := join (map (fun row => join row [f]) rows) [r] in Fits text ->
  ((exists lines, split_sep text [r] SIZE_MAX false = Ok lines /\ Forall2 (fun line row => split_sep line [f] SIZE_MAX false = Ok row) lines rows) <->
   rows <> [] /\ Forall (fun row => row <> [] /\ Forall (fun x => ~ In f x /\ ~ In r x) row) rows).
Proof. exact p_c148_bytes. Qed.
Print Assumptions C148_bytes.
(** Cells with any contents can be stored escaped, between two control characters. *)
Theorem C148_escaped : forall f r rows es, u8 f < 0x20 -> u8 r < 0x20 -> f <> r -> rows <> [] -> Forall (fun row => row <> []) rows -> Forall (Forall Fits) rows ->
  Forall2 (Forall2 (fun s e => escape_json s = Ok e)) rows es -> let text := join (map (fun row => join row [f]) es) [r] in Fits text ->
  (exists lines, split_sep text [r] SIZE_MAX false = Ok lines /\ Forall2 (fun line row => split_sep line [f] SIZE_MAX false = Ok row) lines es) /\
  Forall2 (Forall2 (fun e s => unescape e = Ok s)) es rows.
Proof. exact p_c148_escaped. Qed.
Print Assumptions C148_escaped.
(** So different tables are stored differently. *)
Theorem C148_injective : forall f r rows es rows' es', u8 f < 0x20 -> u8 r < 0x20 -> f <> r ->
  rows <> [] -> Forall (fun row => row <> []) rows -> Forall (Forall Fits) rows -> rows' <> [] -> Forall (fun row => row <> []) rows' -> Forall (Forall Fits) rows' ->
  Forall2 (Forall2 (fun s e => escape_json s = Ok e)) rows es -> Forall2 (Forall2 (fun s e => escape_json s = Ok e)) rows' es' ->
  Fits (join (map (fun row => join row [f]) es) [r]) -> join (map (fun row => join row [f]) es) [r] = join (map (fun row => join row [f]) es') [r] -> rows = rows'.
Proof. exact p_c148_injective. Qed.
Print Assumptions C148_injective.
(** Keys and values, split once at the first q: the value can contain it. *)
Theorem C148_pairs : forall q r (l : list (str * str)), q <> r -> l <> [] -> Forall (fun kv => ~ In q (fst kv) /\ ~ In r (fst kv) /\ ~ In r (snd kv)) l ->
  let text := join (map (fun kv => fst kv ++ [q] ++ snd kv) l) [r] in Fits text ->
  exists lines, split_sep text [r] SIZE_MAX false = Ok lines /\ Forall2 (fun line kv => split_sep line [q] 1 false = Ok [fst kv; snd kv]) lines l.
Proof. exact p_c148_pairs. Qed.
Print Assumptions C148_pairs.

(** A row with an empty cell and a row of one cell, tab and line feed as separators. *)
Example C148_ex : let rows := [[[x61]; []; [x62; x63]]; [[x64]]] in
  Forall (fun row => row <> [] /\ Forall (fun x => ~ In x09 x /\ ~ In x0a x) row) rows /\
  join (map (fun row => join row [x09]) rows) [x0a] = [x61; x09; x09; x62; x63; x0a; x64] /\
  split_sep [x61; x09; x09; x62; x63; x0a; x64] [x0a] SIZE_MAX false = Ok [[x61; x09; x09; x62; x63]; [x64]] /\
  split_sep [x61; x09; x09; x62; x63] [x09] SIZE_MAX false = Ok [[x61]; []; [x62; x63]].
Proof.
  split; [|repeat split; vm_compute; reflexivity].
  repeat constructor; try discriminate; cbn; intros H; repeat destruct H as [H|H]; try discriminate; exact H.
Qed.
(** A cell that contains both separators. *)
Example C148_escaped_ex : Forall2 (Forall2 (fun s e => escape_json s = Ok e)) [[[x61; x09; x0a]; [x62]]] [[[x61; x5c; x74; x5c; x6e]; [x62]]] /\
  split_sep [x61; x5c; x74; x5c; x6e; x09; x62] [x09] SIZE_MAX false = Ok [[x61; x5c; x74; x5c; x6e]; [x62]] /\ unescape [x61; x5c; x74; x5c; x6e] = Ok [x61; x09; x0a].
Proof. split; [repeat constructor; vm_compute; reflexivity|split; vm_compute; reflexivity]. Qed.
(** "k=v=w" is the key k with the value "v=w".  An empty row comes back as a row with one empty cell, a key with q is cut. *)
Example C148_pairs_ex : split_sep [x6b; x3d; x76; x3d; x77] [x3d] 1 false = Ok [[x6b]; [x76; x3d; x77]].
Proof. vm_compute. reflexivity. Qed.
Example C148_needed : join (map (fun row => join row [x09]) [[]; [[x61]]]) [x0a] = [x0a; x61] /\
  split_sep [x0a; x61] [x0a] SIZE_MAX false = Ok [[]; [x61]] /\ split_sep [] [x09] SIZE_MAX false = Ok [[]] /\
  split_sep ([x6b; x3d; x6b] ++ [x3d] ++ [x76]) [x3d] 1 false = Ok [[x6b]; [x6b; x3d; x76]].
Proof. repeat split; vm_compute; reflexivity. Qed.
