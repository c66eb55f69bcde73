(** PropertiesNames.v -- property C98: sessions of commands in which files are given names
    (cmd/put.go, cmd/delete.go, cmd/dump.go, cmd/catalog.go, supermon/supermon.go). *)
From Verif Require Import GoBase TypesModel DiskSpec SupermonModel SupermonSpec SupermonTableSpec SupermonStoreSpec SupermonChainSpec SupermonOpProofs.
From Verif Require Import ProdosModel CmdModel CmdSpec MainModel NakedCmdSpec SessionSpec NamesSpec NamesProofs NamesExProofs.

(** ** C98 *)
(** Any sequence of put, rm, dump and ls on a disk with a symbol table gives the exit statuses and
    the output that a store of numbered files with a row of name cards gives; and afterwards the
    disk holds the files and the names of that board, and again has a well-formed symbol table.
    [sensible] says which actions may occur and what each amounts to when its turn comes: any put,
    rm or dump by number, by symbol or by number and symbol, as long as it spares the first card
    and files 3 and 4 and moves no symbol to file 95 or 223.  As in C95, no command may find the
    mark of DOS 3.3 on the image. *)
Theorem C98_named_session : forall (iter : list (Z * Subdirectory) -> list (Z * Subdirectory)) fuel order img o h w c d t ch k,
  img <> s2b "-" -> first_order img order o ->
  w_fs w img = NFile c true true -> naked_image c o d -> w_room w = None -> w_outroom w = None ->
  plain_disk (d, stored_map d) t -> table_ok t -> names_unique t -> one_chain t ch -> no_numeric_symbols t -> nm t 0 <> [] ->
  (forall n, n <> img -> w_fs w n = b_files k n) -> same_but_symbols (store_of d (stored_map d)) (b_store k) -> cards_of t = b_cards k ->
  sensible img h k ->
  throughout (unmarked img) (map (fun ap => command iter fuel order img (fst ap)) h) w ->
  exists w' k' outcomes c' d' t' ch',
    session (map (fun ap => command iter fuel order img (fst ap)) h) w = (w', outcomes) /\
    acts2 h k = (k', outcomes) /\
    w_fs w' img = NFile c' true true /\ naked_image c' o d' /\
    plain_disk (d', stored_map d') t' /\ table_ok t' /\ names_unique t' /\ one_chain t' ch' /\ no_numeric_symbols t' /\
    (forall n, n <> img -> w_fs w' n = b_files k' n) /\ same_but_symbols (store_of d' (stored_map d')) (b_store k') /\ cards_of t' = b_cards k'.
Proof. exact C98_lemma. Qed.
Print Assumptions C98_named_session.
(** None does if none does at the start, and track 17 sector 0 belongs to a file (not 3 or 4) that
    the session neither puts nor removes. *)
Theorem C98_spared : forall (iter : list (Z * Subdirectory) -> list (Z * Subdirectory)) fuel order img o h w c d t ch k,
  img <> s2b "-" -> first_order img order o ->
  w_fs w img = NFile c true true -> naked_image c o d -> w_room w = None -> w_outroom w = None ->
  plain_disk (d, stored_map d) t -> table_ok t -> names_unique t -> one_chain t ch -> no_numeric_symbols t -> nm t 0 <> [] ->
  (forall n, n <> img -> w_fs w n = b_files k n) -> same_but_symbols (store_of d (stored_map d)) (b_store k) -> cards_of t = b_cards k ->
  sensible img h k ->
  release_byte c <> 3 -> mark_owner d <> FREE -> mark_owner d <> 3 -> mark_owner d <> 4 -> spares (mark_owner d) h k ->
  throughout (unmarked img) (map (fun ap => command iter fuel order img (fst ap)) h) w.
Proof. exact C98_spared_lemma. Qed.
Print Assumptions C98_spared.
(** Seventeen actions on a disk with the 156 symbols of supermon/testdata/chacha20.dsk, with what
    each prints: a file is put under a symbol that is there, under a number and a new symbol, under a
    new symbol alone, under a symbol that named a ROM routine; a symbol is moved and removed. *)
Example C98_example : forall iter fuel, exists w w',
  session (map (fun ap => command iter fuel (s2b "auto") (s2b "x.do") (fst ap)) day3) w = (w', day3_outcomes).
Proof. exact day3_example. Qed.
