(** PropertiesSession.v -- property C95: sessions of commands on a NakedOS image
    (cmd/put.go, cmd/delete.go, cmd/dump.go, cmd/catalog.go). *)
From Verif Require Import GoBase TypesModel DiskSpec SupermonModel SupermonSpec SupermonTableSpec SupermonStoreSpec SupermonOpProofs.
From Verif Require Import ProdosModel CmdModel CmdSpec MainModel NakedCmdSpec SessionSpec SessionProofs SessionExProofs.

(** ** C95 *)
(** Any sequence of put, rm, dump and ls (each a new run of the program, each reading the image
    from its file and writing it back) gives the exit statuses and the output that a store of
    files gives.  [meant] says which actions may occur: put by number or by a symbol on the disk,
    rm by number (or of a name that means nothing), dump of any name, ls, and saving other files.
    With the default [--system auto] the image is taken for a DOS 3.3 disk as soon as byte 3 of
    track 17 sector 0 is 3 (C77), so the theorem is about sessions in which no command finds that
    byte there. *)
Theorem C95_session : forall (iter : list (Z * Subdirectory) -> list (Z * Subdirectory)) fuel order img o t h w c d k,
  img <> s2b "-" -> first_order img order o -> no_numeric_symbols t ->
  w_fs w img = NFile c true true -> naked_image c o d -> names_on d t -> w_room w = None -> w_outroom w = None ->
  (forall n, n <> img -> w_fs w n = k_files k n) -> same_store (store_of d (stored_map d)) (k_store k) ->
  Forall (fun af => meant t img (fst af) (snd af)) h ->
  throughout (unmarked img) (map (fun af => command iter fuel order img (fst af)) h) w ->
  exists w' k' outcomes c' d',
    session (map (fun af => command iter fuel order img (fst af)) h) w = (w', outcomes) /\
    acts t h k = (k', outcomes) /\
    w_fs w' img = NFile c' true true /\ naked_image c' o d' /\ names_on d' t /\
    same_store (store_of d' (stored_map d')) (k_store k') /\
    (forall n, n <> img -> w_fs w' n = k_files k' n).
Proof. exact C95_lemma. Qed.
Print Assumptions C95_session.
(** A session that starts on such an image stays with such images if no file is put that has the
    byte 3 at an offset 256j+3. *)
Theorem C95_harmless : forall (iter : list (Z * Subdirectory) -> list (Z * Subdirectory)) fuel order img o t h w c d k,
  img <> s2b "-" -> first_order img order o -> no_numeric_symbols t ->
  w_fs w img = NFile c true true -> naked_image c o d -> names_on d t -> w_room w = None -> w_outroom w = None ->
  (forall n, n <> img -> w_fs w n = k_files k n) -> same_store (store_of d (stored_map d)) (k_store k) ->
  Forall (fun af => meant t img (fst af) (snd af)) h ->
  release_byte c <> 3 -> harmless t h k ->
  throughout (unmarked img) (map (fun af => command iter fuel order img (fst af)) h) w.
Proof. exact C95_harmless_lemma. Qed.
Print Assumptions C95_harmless.
(** Twelve actions on a blank disk, with what each prints. *)
Example C95_example : forall iter fuel, exists w w',
  session (map (fun af => command iter fuel (s2b "auto") (s2b "x.do") (fst af)) day) w = (w', day_outcomes).
Proof. exact day_example. Qed.
(** The same with a symbol table and a put by symbol; putting an empty file crashes the program
    and changes nothing. *)
Example C95_example_symbol : forall iter fuel, exists w w',
  session (map (fun af => command iter fuel (s2b "auto") (s2b "x.do") (fst af)) day2) w = (w', day2_outcomes).
Proof. exact day2_example. Qed.
