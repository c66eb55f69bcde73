(** PropertiesChain.v -- property C94: the chains of a Super-Mon symbol table (supermon/supermon.go
    AddSymbol, DeleteSymbol, ReadSymbolTable, WriteSymbolTable). *)
From Verif Require Import GoBase SupermonModel SupermonSpec SupermonTableSpec SupermonChainSpec SupermonChainProofs SupermonChainExProofs.

(** ** C94 *)
(** In full: the entries in use whose addresses have the same hash form one chain, in which a new
    symbol is the last, and stay so through any additions, moves and deletions on a disk.  False:
    three additions to a blank table leave a symbol off its chain (a symbol moved to an address
    with hash 0 is linked to itself, and then to none). *)
Theorem C94_off_chain_refuted : exists ops, Forall edit_ok ops /\ (exists s, plain_disk s (repeat sym0 819)) /\
  forall s, plain_disk s (repeat sym0 819) ->
    exists s' t', disk_edits ops s = Ok (s', [OAdded; OAdded; OAdded]) /\ disk_table s' = Ok t' /\ ~ exists c, one_chain t' c.
Proof. exact C94_refuted_lemma. Qed.
Print Assumptions C94_off_chain_refuted.
(** What one addition, move or deletion does to the chains.  Missing: those that are not [careful],
    that is, moves to an address with hash 0 and deletions or moves of the first entry when an entry
    that comes after an unused one is linked to it. *)
Theorem C94_one_edit_partial : forall op t t' c, zlen t = 819 -> map_table t -> blank_links t -> one_chain t c -> op_name op <> [] -> careful op t ->
  match op with SAdd n a => AddSymbol t n a = (t', Ok tt) | SDel n => DeleteSymbol t n = (t', true) end ->
  exists c', one_chain t' c' /\ chains_after op t t' c c'.
Proof. exact C94_step_lemma. Qed.
Print Assumptions C94_one_edit_partial.
(** Any sequence of edits of the table on a disk, each read, changed and written, in which every
    edit is careful, or which leaves the symbol of the first entry alone and sets no address with
    hash 0: every edit answers like the abstract map, the table can be read at the end, has one chain
    for every hash, and gives every name the abstract map's address; the other files are as before.
    Missing: as above. *)
Theorem C94_history_partial : forall ops s t m c, plain_disk s t -> table_ok t -> names_unique t -> one_chain t c ->
  (forall n, n <> [] -> am_addr m n = ByName t n) -> am_free m = unused t ->
  Forall edit_ok ops -> (all_careful ops s \/ spares_first t ops) ->
  exists s' t' c', disk_edits ops s = Ok (s', snd (am_run ops m)) /\ plain_disk s' t' /\
    table_ok t' /\ names_unique t' /\ one_chain t' c' /\
    (forall n, n <> [] -> ByName t' n = am_addr (fst (am_run ops m)) n) /\ unused t' = am_free (fst (am_run ops m)) /\
    others_same s s'.
Proof. exact C94_history_lemma. Qed.
Print Assumptions C94_history_partial.
(** A disk with the 156 symbols of supermon/testdata/chacha20.dsk, and six edits of it. *)
Example C94_example : exists s c, plain_disk s real_table /\ table_ok real_table /\ names_unique real_table /\ one_chain real_table c /\
  c 94 = [79; 73; 0] /\ Forall edit_ok real_ops /\ spares_first real_table real_ops.
Proof. exact C94_example_lemma. Qed.
(** On that disk, deleting FHELLO does no harm (C38), but does once FSUPERMON has been deleted. *)
Example C94_real_damage : ~ damaging real_table 0 /\ ~ orphans real_table 0 /\
  damaging (map canon (fst (DeleteSymbol real_table (s2b "FSUPERMON")))) 0 /\
  nm (map canon (fst (DeleteSymbol real_table (s2b "FSUPERMON")))) 0 = s2b "FHELLO".
Proof. exact real_damage. Qed.
