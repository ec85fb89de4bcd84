(** C135: a list of strings stored as one. *)
From Verif Require Import Base Spec.Strings Model.Search Model.Split Model.Escape Model.Unescape Proofs.StoredLemmas.

(** The strings of a list, any bytes, are escaped with escape_json and joined with
    a separator that contains a control character: split and unescape give the list
    back. *)
Theorem C135_list_back : forall l es sep, Exists (fun b => u8 b < 0x20) sep -> l <> [] -> Forall Fits l ->
  Forall2 (fun s e => escape_json s = Ok e) l es -> Fits (join es sep) ->
  split_sep (join es sep) sep SIZE_MAX false = Ok es /\ Forall2 (fun e s => unescape e = Ok s) es l.
Proof. exact p_c135_all. Qed.
Print Assumptions C135_list_back.
(** So different lists are stored differently. *)
Theorem C135_injective : forall l es l' es' sep, Exists (fun b => u8 b < 0x20) sep -> l <> [] -> l' <> [] -> Forall Fits l -> Forall Fits l' ->
  Forall2 (fun s e => escape_json s = Ok e) l es -> Forall2 (fun s e => escape_json s = Ok e) l' es' -> Fits (join es sep) ->
  join es sep = join es' sep -> l = l'.
Proof. exact p_c135_inj. Qed.
Print Assumptions C135_injective.
(** A separator of one byte works for all lists only if it is a control character. *)
Theorem C135_one_byte : forall b,
  (forall l es, l <> [] -> Forall Fits l -> Forall2 (fun s e => escape_json s = Ok e) l es -> Fits (join es [b]) ->
     split_sep (join es [b]) [b] SIZE_MAX false = Ok es) <-> u8 b < 0x20.
Proof. exact p_c135_byte. Qed.
Print Assumptions C135_one_byte.
Example C135_ex : exists es, Forall2 (fun s e => escape_json s = Ok e) [[x0a; x2c]; []; [x22; xff]] es /\
  split_sep (join es [x2c; x0a]) [x2c; x0a] SIZE_MAX false = Ok es /\ Forall2 (fun e s => unescape e = Ok s) es [[x0a; x2c]; []; [x22; xff]].
Proof. exists [[x5c; x6e; x2c]; []; [x5c; x22; xff]]. repeat constructor; vm_compute; reflexivity. Qed.
(** The separator of JSON's own lists, quote comma quote, does not work: the list of
    the two strings quote comma and a. *)
Example C135_ex_quotes : let sep := [x22; x2c; x22] in exists es, Forall2 (fun s e => escape_json s = Ok e) [[x22; x2c]; [x61]] es /\
  split_sep (join es sep) sep SIZE_MAX false = Ok [[x5c]; [x2c; x22; x61]].
Proof. exists [[x5c; x22; x2c]; [x61]]. split; [repeat constructor; vm_compute; reflexivity|vm_compute; reflexivity]. Qed.
