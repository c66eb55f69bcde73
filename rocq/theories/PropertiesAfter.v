(** PropertiesAfter.v -- properties C90 to C92: what ls and dump show after put, rm and reorder
    (cmd/put.go, cmd/delete.go, cmd/reorder.go, cmd/catalog.go, cmd/dump.go). *)
From Verif Require Import SupermonChainExProofs NamesSpec BoundSpec BoundProofs BoundExProofs GoBase GoLemmas DiskSpec SupermonModel SupermonSpec SupermonTableSpec SupermonStoreSpec SupermonFinalProofs.
From Verif Require ProdosSpec.
From Verif Require Import ProdosModel CmdModel CmdSpec NakedCmdSpec DetectSpec ListSpec NakedExProofs AfterProofs AfterRmProofs ReorderProofs AfterExProofs TableRmProofs TableRmExProofs
  SupermonBreakSpec AfterRmAnyProofs AfterPutAnyProofs AfterPutAnyExProofs.

(** ** C90 *)
(** In full: after a successful put, ls lists what it listed before and the new file, under the
    name given, and dump of that name prints the file.  For names this is false: a symbol left over
    from an earlier file of the same number hides the new name.  Here no file 1 exists, dump FHELLO
    fails, and yet the file put as NEWFILE is then listed as FHELLO and NEWFILE is not. *)
Theorem C90_stale_symbol_refuted : forall (iter : list (Z * Subdirectory) -> list (Z * Subdirectory)) fuel, ProdosSpec.an_order iter ->
  exists w w' new, w_outroom w = None /\
    run (PutCmd_Run iter fuel (s2b "auto") (s2b "auto") (s2b "B") false 0 (s2b "x.do") (s2b "NEWFILE") (s2b "f")) w = (w', Ok tt) /\
    output w w' (s2b "x.do") new /\
    eventually (fun k => fails_cleanly (DumpCmd_Run iter k (s2b "auto") (s2b "auto") (s2b "x.do") (s2b "FHELLO")) w) /\
    forall w2, input w2 (s2b "x.do") new -> w_outroom w2 = None ->
      eventually (fun k => (exists names text, all_lines names text /\ In (s2b "FHELLO") names /\ ~ In (s2b "NEWFILE") names /\
          prints (LsCmd_Run iter k (s2b "auto") (s2b "auto") true (s2b "x.do") []) w2 text) /\
        prints (DumpCmd_Run iter k (s2b "auto") (s2b "auto") (s2b "x.do") (s2b "NEWFILE")) w2 (padded (repeat 7 300))).
Proof. exact put_stale. Qed.
Print Assumptions C90_stale_symbol_refuted.
(** Proved for files put by number or by a name already in use: the names ls shows are those of the
    table, as before. *)
Theorem C90_put_known : forall (iter : list (Z * Subdirectory) -> list (Z * Subdirectory)) fuel order system ft ow addr img tgt src w w' s,
  run (PutCmd_Run iter fuel order system ft ow addr img tgt src) w = (w', Ok tt) ->
  input w src s -> s <> [] ->
  exists c o d t d' new,
    input w img c /\ naked_image c o d /\ (ProdosSpec.an_order iter -> only_seen img order system c o d) /\ names_on d t /\ output w w' img new /\ naked_image new o d' /\
    forall f, no_colon tgt -> resolves t tgt f -> f <> 3 -> f <> 4 ->
    exists fs fs', files_on d fs /\ files_on d' fs' /\ (forall g, In g fs' <-> g = f \/ In g fs) /\
    file_on d' f = padded s /\
    forall system2 (short : bool) w2, (system2 = s2b "auto" \/ system2 = s2b "nakedos") -> ProdosSpec.an_order iter ->
      seen_as img order new (s2b "nakedos") d' o -> input w2 img new -> w_outroom w2 = None ->
      eventually (fun k =>
        (exists text, all_lines (map (if short then shown t else shown_full t) fs') text /\
           prints (LsCmd_Run iter k order system2 short img []) w2 text) /\
        prints (DumpCmd_Run iter k order system2 img tgt) w2 (padded s)).
Proof. exact put_known_ls. Qed.
Print Assumptions C90_put_known.
(** Proved for files put under a new name: which number the file gets (the least unused one), and
    which name ls shows for it (the name given, unless a symbol for that number comes before the
    first unused entry of the table).  Missing: tables with duplicate names or links to unused
    entries, names bound to something else and number:name; for these see the next theorem. *)
Theorem C90_put_symbol_partial : forall (iter : list (Z * Subdirectory) -> list (Z * Subdirectory)) fuel order system ft ow addr img tgt src w w' s,
  run (PutCmd_Run iter fuel order system ft ow addr img tgt src) w = (w', Ok tt) ->
  input w src s -> s <> [] -> tgt <> [] -> valid_name tgt -> (forall g, ~ numeric tgt g) ->
  exists c o d d' new,
    input w img c /\ naked_image c o d /\ (ProdosSpec.an_order iter -> only_seen img order system c o d) /\
    output w w' img new /\ naked_image new o d' /\
    forall t, bytes_ok c -> table_on d t -> names_unique t -> live_links t -> ByName t tgt = 0 ->
      exists f fs fs', legal f /\ files_on d fs /\ files_on d' fs' /\ ~ In f fs /\ (forall g, In g fs' <-> g = f \/ In g fs) /\
        (forall g, 1 <= g < f -> In g fs) /\ file_on d' f = padded s /\
        (forall name, (((forall k, 0 <= k < zlen t -> ad t k = 0xDF00 + f -> exists j, 0 <= j < k /\ ad t j = 0) /\ name = upcase tgt) \/
            (exists k, 0 <= k < zlen t /\ ad t k = 0xDF00 + f /\ (forall j, 0 <= j < k -> ad t j <> 0xDF00 + f /\ ad t j <> 0) /\ name = nm t k)) ->
         forall system2 (short : bool) w2, (system2 = s2b "auto" \/ system2 = s2b "nakedos") -> ProdosSpec.an_order iter ->
           seen_as img order new (s2b "nakedos") d' o -> input w2 img new -> w_outroom w2 = None ->
           eventually (fun k =>
             (exists text, all_lines (map (fun g => if g =? f then (if short then name else printed f ++ 58 :: name)
                                                    else (if short then shown t else shown_full t) g) fs') text /\
                prints (LsCmd_Run iter k order system2 short img []) w2 text) /\
             prints (DumpCmd_Run iter k order system2 img tgt) w2 (padded s))).
Proof. exact put_symbol_ls. Qed.
Print Assumptions C90_put_symbol_partial.
(** Proved for a symbol, or a number and a symbol, whatever the symbol was bound to and whatever the
    table looks like: which file is meant, that it holds the data and the other files keep theirs, and
    exactly what ls and dump show: the names of the table with the symbol bound to the file, or no names
    at all if the change damages the table ([bound_after], [add_breaks]: SupermonBreakSpec.v).  If the
    file is 3 or 4, the table is written over the data unless the symbol was bound to it before. *)
Theorem C90_put_named : forall (iter : list (Z * Subdirectory) -> list (Z * Subdirectory)) fuel order system ft ow addr img tgt src w w' s,
  run (PutCmd_Run iter fuel order system ft ow addr img tgt src) w = (w', Ok tt) ->
  input w src s -> s <> [] ->
  exists c o d d' new fs fs',
    input w img c /\ naked_image c o d /\ (ProdosSpec.an_order iter -> only_seen img order system c o d) /\
    output w w' img new /\ naked_image new o d' /\ files_on d fs /\ files_on d' fs' /\
    forall t q, bytes_ok c -> table_on d t ->
      names_symbol tgt q -> q <> [] -> valid_name q -> (forall g, ~ numeric q g) ->
      exists f, legal f /\ meant d t tgt q f /\ (exists i, place t q i) /\ (forall g, In g fs' <-> g = f \/ In g fs) /\
        (symbol_file t q f \/ (f <> 3 /\ f <> 4) -> file_on d' f = padded s) /\
        (forall g, legal g -> g <> f -> g <> 3 -> g <> 4 -> file_on d' g = file_on d g) /\
        (~ symbol_file t q f \/ (f <> 3 /\ f <> 4) -> forall t', bound_after t q (0xDF00 + f) t' ->
         (~ add_breaks t q (0xDF00 + f) -> resolves t' q f) /\
         forall system2 w2, (system2 = s2b "auto" \/ system2 = s2b "nakedos") -> ProdosSpec.an_order iter ->
           seen_as img order new (s2b "nakedos") d' o -> input w2 img new -> w_outroom w2 = None ->
           (forall short : bool, eventually (fun k =>
             exists text, all_lines (map (if short then shown t' else shown_full t') fs') text /\
                prints (LsCmd_Run iter k order system2 short img []) w2 text)) /\
           (forall name g, resolves t' name g -> In g fs' -> eventually (fun k => prints (DumpCmd_Run iter k order system2 img name) w2 (file_on d' g))) /\
           (forall name, (forall g, resolves t' name g -> ~ In g fs') -> eventually (fun k => fails_cleanly (DumpCmd_Run iter k order system2 img name) w2))).
Proof. exact put_any. Qed.
Print Assumptions C90_put_named.
(** What this comes to for distinct names, proper chains and a symbol that is not in the first entry:
    the names are never lost ([bind] and [table_of]: NamesSpec.v). *)
Theorem C90_put_named_chained : forall (iter : list (Z * Subdirectory) -> list (Z * Subdirectory)) fuel order system ft ow addr img tgt src w w' s,
  run (PutCmd_Run iter fuel order system ft ow addr img tgt src) w = (w', Ok tt) ->
  input w src s -> s <> [] ->
  exists c o d d' new,
    input w img c /\ naked_image c o d /\ (ProdosSpec.an_order iter -> only_seen img order system c o d) /\
    output w w' img new /\ naked_image new o d' /\
    forall t q, bytes_ok c -> table_on d t -> names_unique t -> chained t ->
      names_symbol tgt q -> q <> [] -> valid_name q -> (forall g, ~ numeric q g) -> equal_fold q (nm t 0) = false ->
      exists f, legal f /\ (f <> 3 -> f <> 4 ->
        exists l fs fs', meant d t tgt q f /\ bind (cards_of t) q (0xDF00 + f) = Some l /\
        files_on d fs /\ files_on d' fs' /\ (forall g, In g fs' <-> g = f \/ In g fs) /\ file_on d' f = padded s /\
        (forall g, legal g -> g <> f -> g <> 3 -> g <> 4 -> file_on d' g = file_on d g) /\
        forall system2 (short : bool) w2, (system2 = s2b "auto" \/ system2 = s2b "nakedos") -> ProdosSpec.an_order iter ->
           seen_as img order new (s2b "nakedos") d' o -> input w2 img new -> w_outroom w2 = None ->
           eventually (fun k =>
             (exists text, all_lines (map (if short then shown (table_of l) else shown_full (table_of l)) fs') text /\
                prints (LsCmd_Run iter k order system2 short img []) w2 text) /\
             prints (DumpCmd_Run iter k order system2 img q) w2 (padded s))).
Proof. exact put_bound_ls. Qed.
Print Assumptions C90_put_named_chained.
(** put x.do 1:GAME f on the disk of C91_rm_loses_names_refuted: the put succeeds, and then ls shows no
    names any more and dump GAME fails. *)
Theorem C90_put_loses_names_refuted : forall (iter : list (Z * Subdirectory) -> list (Z * Subdirectory)) fuel, ProdosSpec.an_order iter ->
  exists w w' new, w_outroom w = None /\ input w (s2b "f") (repeat 7 300) /\
    run (PutCmd_Run iter fuel (s2b "auto") (s2b "auto") (s2b "B") false 0 (s2b "x.do") (s2b "1:GAME") (s2b "f")) w = (w', Ok tt) /\
    output w w' (s2b "x.do") new /\
    eventually (fun k => shows_line (LsCmd_Run iter k (s2b "auto") (s2b "auto") true (s2b "x.do") []) w (s2b "FSYMTBL1")) /\
    forall w2, input w2 (s2b "x.do") new -> w_outroom w2 = None ->
      eventually (fun k => (exists names text, all_lines names text /\ In (s2b "DF03") names /\ ~ In (s2b "FSYMTBL1") names /\
          prints (LsCmd_Run iter k (s2b "auto") (s2b "auto") true (s2b "x.do") []) w2 text) /\
        fails_cleanly (DumpCmd_Run iter k (s2b "auto") (s2b "auto") (s2b "x.do") (s2b "GAME")) w2).
Proof. exact put_loses. Qed.
Print Assumptions C90_put_loses_names_refuted.
(** put x.do 40:cout f, on a disk with the 156 symbols of supermon/testdata/chacha20.dsk, one of
    which is COUT for a routine in ROM. *)
Example C90_named_example : forall (iter : list (Z * Subdirectory) -> list (Z * Subdirectory)) fuel, exists w w' c d,
  input w (s2b "f") (repeat 7 300) /\ input w (s2b "x.do") c /\ naked_image c (s2b "do") d /\ bytes_ok c /\ release_byte c <> 3 /\
  table_on d real_table /\ names_unique real_table /\ chained real_table /\
  names_symbol (s2b "40:cout") (s2b "cout") /\ s2b "cout" <> [] /\ valid_name (s2b "cout") /\ (forall g, ~ numeric (s2b "cout") g) /\
  equal_fold (s2b "cout") (nm real_table 0) = false /\ ByName real_table (s2b "cout") = 0xFDED /\
  run (PutCmd_Run iter fuel (s2b "auto") (s2b "auto") (s2b "B") false 0 (s2b "x.do") (s2b "40:cout") (s2b "f")) w = (w', Ok tt).
Proof. exact bound_example. Qed.
Example C90_number_example : forall (iter : list (Z * Subdirectory) -> list (Z * Subdirectory)) fuel, exists w w' new,
  input w (s2b "f") (repeat 7 300) /\ numeric (s2b "DF06") 6 /\
  run (PutCmd_Run iter fuel (s2b "auto") (s2b "auto") (s2b "B") false 0 (s2b "x.do") (s2b "DF06") (s2b "f")) w = (w', Ok tt) /\
  output w w' (s2b "x.do") new /\ first_order (s2b "x.do") (s2b "auto") (s2b "do") /\ release_byte new <> 3.
Proof. exact put_dump_example. Qed.
Example C90_symbol_example : forall (iter : list (Z * Subdirectory) -> list (Z * Subdirectory)) fuel, ProdosSpec.an_order iter ->
  exists w w' new,
    run (PutCmd_Run iter fuel (s2b "auto") (s2b "auto") (s2b "B") false 0 (s2b "x.do") (s2b "NEWFILE") (s2b "f")) w = (w', Ok tt) /\
    output w w' (s2b "x.do") new /\
    forall w2, input w2 (s2b "x.do") new -> w_outroom w2 = None ->
      eventually (fun k => shows_line (LsCmd_Run iter k (s2b "auto") (s2b "auto") true (s2b "x.do") []) w2 (s2b "NEWFILE") /\
        prints (DumpCmd_Run iter k (s2b "auto") (s2b "auto") (s2b "x.do") (s2b "NEWFILE")) w2 (padded (repeat 7 300))).
Proof. exact put_fresh. Qed.

(** ** C91 *)
(** In full: after a successful rm, ls lists what it listed before but for the file removed, and dump
    of the name given fails.  The names are not always kept: on this disk ls shows FSYMTBL1 for
    file 3, but no longer after rm GAME, which has damaged the symbol table. *)
Theorem C91_rm_loses_names_refuted : forall (iter : list (Z * Subdirectory) -> list (Z * Subdirectory)) fuel, ProdosSpec.an_order iter ->
  exists w w' new, w_outroom w = None /\
    run (DeleteCmd_Run iter fuel (s2b "auto") (s2b "auto") false (s2b "x.do") (s2b "GAME")) w = (w', Ok tt) /\
    output w w' (s2b "x.do") new /\
    eventually (fun k => shows_line (LsCmd_Run iter k (s2b "auto") (s2b "auto") true (s2b "x.do") []) w (s2b "FSYMTBL1")) /\
    forall w2, input w2 (s2b "x.do") new -> w_outroom w2 = None ->
      eventually (fun k => exists names text, all_lines names text /\ In (s2b "DF03") names /\ ~ In (s2b "FSYMTBL1") names /\
        prints (LsCmd_Run iter k (s2b "auto") (s2b "auto") true (s2b "x.do") []) w2 text).
Proof. exact rm_loses. Qed.
Print Assumptions C91_rm_loses_names_refuted.
(** Proved, for every symbol table: which files there are afterwards and what they hold, and exactly what
    ls and dump show: the names of the table without the name deleted, or no names at all if deleting it
    damages the table ([left_after]: SupermonBreakSpec.v).  dump of the name fails unless a second
    symbol has that name too.  The table's own files 3 and 4 are the subject of C91_rm_table_files. *)
Theorem C91_rm : forall (iter : list (Z * Subdirectory) -> list (Z * Subdirectory)) fuel order system missingOk img name w w',
  run (DeleteCmd_Run iter fuel order system missingOk img name) w = (w', Ok tt) ->
  exists c o d t d' new f,
    input w img c /\ naked_image c o d /\ (ProdosSpec.an_order iter -> only_seen img order system c o d) /\
    names_on d t /\ output w w' img new /\ naked_image new o d' /\
    legal f /\ resolves t name f /\
    (f <> 3 -> f <> 4 ->
     exists fs fs', files_on d fs /\ files_on d' fs' /\ (forall g, In g fs' <-> In g fs /\ g <> f) /\
       (forall g, legal g -> g <> f -> g <> 3 -> g <> 4 -> file_on d' g = file_on d g) /\
       (forall t', bytes_ok c -> left_after t name t' ->
        forall system2 w2, (system2 = s2b "auto" \/ system2 = s2b "nakedos") -> ProdosSpec.an_order iter ->
          seen_as img order new (s2b "nakedos") d' o -> input w2 img new -> w_outroom w2 = None ->
          (forall short : bool, eventually (fun k =>
            exists text, all_lines (map (if short then shown t' else shown_full t') fs') text /\
               prints (LsCmd_Run iter k order system2 short img []) w2 text)) /\
          (forall n g, resolves t' n g -> In g fs' -> eventually (fun k => prints (DumpCmd_Run iter k order system2 img n) w2 (file_on d' g))) /\
          (forall n, (forall g, resolves t' n g -> ~ In g fs') -> eventually (fun k => fails_cleanly (DumpCmd_Run iter k order system2 img n) w2)))).
Proof. exact rm_any. Qed.
Print Assumptions C91_rm.
(** What this comes to for distinct names and proper chains: ls shows the names it showed, or none after
    a damaging deletion, and dump fails. *)
Theorem C91_rm_chained : forall (iter : list (Z * Subdirectory) -> list (Z * Subdirectory)) fuel order system missingOk img name w w',
  run (DeleteCmd_Run iter fuel order system missingOk img name) w = (w', Ok tt) ->
  exists c o d t d' new f,
    input w img c /\ naked_image c o d /\ (ProdosSpec.an_order iter -> only_seen img order system c o d) /\
    names_on d t /\ output w w' img new /\ naked_image new o d' /\
    legal f /\ resolves t name f /\
    (f <> 3 -> f <> 4 ->
     exists fs fs', files_on d fs /\ files_on d' fs' /\ (forall g, In g fs' <-> In g fs /\ g <> f) /\
       (forall t', ((t' = t /\ (forall i, 0 <= i < zlen t -> equal_fold name (nm t i) = false)) \/
                    (bytes_ok c /\ (forall g, ~ numeric name g) /\ name <> [] /\ names_unique t /\ chained t /\
                     exists i, 0 <= i < zlen t /\ equal_fold name (nm t i) = true /\
                       ((~ damaging t i /\ t' = t) \/ (damaging t i /\ t' = [])))) ->
        forall system2 (short : bool) w2, (system2 = s2b "auto" \/ system2 = s2b "nakedos") -> ProdosSpec.an_order iter ->
          seen_as img order new (s2b "nakedos") d' o -> input w2 img new -> w_outroom w2 = None ->
          eventually (fun k =>
            (exists text, all_lines (map (if short then shown t' else shown_full t') fs') text /\
               prints (LsCmd_Run iter k order system2 short img []) w2 text) /\
            fails_cleanly (DumpCmd_Run iter k order system2 img name) w2))).
Proof. exact rm_ls. Qed.
Print Assumptions C91_rm_chained.
Example C91_example : forall (iter : list (Z * Subdirectory) -> list (Z * Subdirectory)) fuel, ProdosSpec.an_order iter ->
  exists w w' new, w_outroom w = None /\
    run (DeleteCmd_Run iter fuel (s2b "auto") (s2b "auto") false (s2b "x.do") (s2b "GAME")) w = (w', Ok tt) /\
    output w w' (s2b "x.do") new /\
    forall w2, input w2 (s2b "x.do") new -> w_outroom w2 = None ->
      eventually (fun k => shows_line (LsCmd_Run iter k (s2b "auto") (s2b "auto") true (s2b "x.do") []) w2 (s2b "FSYMTBL1")).
Proof. exact rm_keeps. Qed.

(** The files that hold the symbol table cannot be removed by a symbol: rm FSYMTBL1 succeeds and dump
    DF03 still prints file 3. *)
Theorem C91_table_symbol_refuted : forall (iter : list (Z * Subdirectory) -> list (Z * Subdirectory)) fuel, ProdosSpec.an_order iter ->
  exists w w' new, w_outroom w = None /\
    run (DeleteCmd_Run iter fuel (s2b "auto") (s2b "auto") false (s2b "x.do") (s2b "FSYMTBL1")) w = (w', Ok tt) /\
    output w w' (s2b "x.do") new /\
    forall w2, input w2 (s2b "x.do") new -> w_outroom w2 = None ->
      eventually (fun k => exists text, text <> [] /\ prints (DumpCmd_Run iter k (s2b "auto") (s2b "auto") (s2b "x.do") (s2b "DF03")) w2 text).
Proof. exact rm_table_symbol. Qed.
Print Assumptions C91_table_symbol_refuted.
(** Exactly what a successful rm of file 3 or 4 does.  By a number that is not also the spelling of a
    symbol: the file is gone, every other file stays, and ls shows no symbols any more.  By a symbol:
    no file is gone, files other than 3 and 4 are as before, and ls and dump still show the file. *)
Theorem C91_rm_table_files : forall (iter : list (Z * Subdirectory) -> list (Z * Subdirectory)) fuel order system missingOk img name w w',
  run (DeleteCmd_Run iter fuel order system missingOk img name) w = (w', Ok tt) ->
  exists c o d t d' new f fs fs',
    input w img c /\ naked_image c o d /\ (ProdosSpec.an_order iter -> only_seen img order system c o d) /\ names_on d t /\ output w w' img new /\ naked_image new o d' /\
    resolves t name f /\ files_on d fs /\ files_on d' fs' /\
    (f = 3 \/ f = 4 ->
     ((forall i, 0 <= i < zlen t -> equal_fold name (nm t i) = false) ->
      (forall g, In g fs' <-> In g fs /\ g <> f) /\ (forall g, legal g -> g <> f -> file_on d' g = file_on d g) /\
      forall system2 (short : bool) w2, (system2 = s2b "auto" \/ system2 = s2b "nakedos") -> ProdosSpec.an_order iter ->
        seen_as img order new (s2b "nakedos") d' o -> input w2 img new -> w_outroom w2 = None ->
        eventually (fun k =>
          (exists text, all_lines (map printed fs') text /\ prints (LsCmd_Run iter k order system2 short img []) w2 text) /\
          fails_cleanly (DumpCmd_Run iter k order system2 img name) w2)) /\
     ((exists i, 0 <= i < zlen t /\ equal_fold name (nm t i) = true) ->
      (forall g, In g fs' <-> In g fs \/ g = f) /\ (forall g, legal g -> g <> 3 -> g <> 4 -> file_on d' g = file_on d g) /\
      forall system2 w2, (system2 = s2b "auto" \/ system2 = s2b "nakedos") -> ProdosSpec.an_order iter ->
        seen_as img order new (s2b "nakedos") d' o -> input w2 img new -> w_outroom w2 = None ->
        eventually (fun k => prints (DumpCmd_Run iter k order system2 img (printed f)) w2 (file_on d' f)) /\
        forall t' (short : bool), names_on d' t' -> eventually (fun k =>
          exists text, all_lines (map (if short then shown t' else shown_full t') fs') text /\ prints (LsCmd_Run iter k order system2 short img []) w2 text))).
Proof. exact rm_table. Qed.
Print Assumptions C91_rm_table_files.
(** rm DF03: GAME is then listed as DF06. *)
Example C91_table_example : forall (iter : list (Z * Subdirectory) -> list (Z * Subdirectory)) fuel, ProdosSpec.an_order iter ->
  exists w w' new, w_outroom w = None /\
    eventually (fun k => shows_line (LsCmd_Run iter k (s2b "auto") (s2b "auto") true (s2b "x.do") []) w (s2b "GAME")) /\
    run (DeleteCmd_Run iter fuel (s2b "auto") (s2b "auto") false (s2b "x.do") (s2b "DF03")) w = (w', Ok tt) /\
    output w w' (s2b "x.do") new /\
    forall w2, input w2 (s2b "x.do") new -> w_outroom w2 = None ->
      eventually (fun k => (exists fs text, all_lines (map printed fs) text /\ In 6 fs /\ ~ In 3 fs /\
          prints (LsCmd_Run iter k (s2b "auto") (s2b "auto") true (s2b "x.do") []) w2 text) /\
        fails_cleanly (DumpCmd_Run iter k (s2b "auto") (s2b "auto") (s2b "x.do") (s2b "DF03")) w2).
Proof. exact rm_table_number. Qed.

(** ** C92 *)
Theorem C92_reorder_shows : forall (iter : list (Z * Subdirectory) -> list (Z * Subdirectory)) inF outF ow img newImg w w' ka kb a b c order1 order2 sys d,
  order_flag inF -> order_flag outF -> known img inF newImg outF ka kb -> chosen ka kb a b ->
  run (ReorderCmd_Run inF outF ow img newImg) w = (w', Ok tt) -> input w img c ->
  ProdosSpec.an_order iter -> seen_as img order1 c sys d a -> first_order (reorder_target img newImg) order2 b ->
  exists new, output w w' (reorder_target img newImg) new /\ seen_as (reorder_target img newImg) order2 new sys d b /\
    forall system w1 w2, (system = s2b "auto" \/ system = sys) ->
      input w1 img c -> input w2 (reorder_target img newImg) new -> w_outroom w1 = None -> w_outroom w2 = None ->
      (forall short dir, eventually (fun fuel =>
         same_outcome (LsCmd_Run iter fuel order1 system short img dir) w1
                      (LsCmd_Run iter fuel order2 system short (reorder_target img newImg) dir) w2)) /\
      (forall n, eventually (fun fuel =>
         same_outcome (DumpCmd_Run iter fuel order1 system img n) w1
                      (DumpCmd_Run iter fuel order2 system (reorder_target img newImg) n) w2)).
Proof. exact reorder_shows. Qed.
Print Assumptions C92_reorder_shows.
Example C92_example : exists w w' c d,
  run (ReorderCmd_Run (s2b "do") (s2b "po") false (s2b "x.do") (s2b "y.po")) w = (w', Ok tt) /\ input w (s2b "x.do") c /\
  known (s2b "x.do") (s2b "do") (s2b "y.po") (s2b "po") (Some (s2b "do")) (Some (s2b "po")) /\
  chosen (Some (s2b "do")) (Some (s2b "po")) (s2b "do") (s2b "po") /\
  seen_as (s2b "x.do") (s2b "auto") c (s2b "nakedos") d (s2b "do") /\ names_on d ex_table /\
  first_order (s2b "y.po") (s2b "auto") (s2b "po").
Proof. exact reorder_example. Qed.
