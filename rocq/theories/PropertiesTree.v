(** PropertiesTree.v -- property C129: where the directories of a ProDOS volume lie does not matter
    (prodos/prodos.go, cmd/catalog.go, cmd/dump.go, disk/open.go). *)
From Verif Require Import GoBase DiskSpec ProdosModel ProdosSpec ProdosStmtProofs CmdModel CmdSpec DetectSpec TreeSpec TreeProofs TreeExProofs.

(** ** C129 *)
(** Two ProDOS volumes, on floppies in any sector order or hard disks, with the same folders and the same names in
    each of them, in the same order; no two folders of a volume have the same path.  In whatever order the code
    visits its map of folders, ls of every path ends the same on both and prints the same, and so does dump. *)
Theorem C129_same : forall (iter iter' : list (Z * Subdirectory) -> list (Z * Subdirectory)) img img' order order' system system' c c' d d' o o' t t' w w',
  an_order iter -> an_order iter' ->
  seen_as img order c (s2b "prodos") d o -> seen_as img' order' c' (s2b "prodos") d' o' ->
  (system = s2b "auto" \/ system = s2b "prodos") -> (system' = s2b "auto" \/ system' = s2b "prodos") ->
  well_formed d t -> well_formed d' t' -> same_tree d d' t t' -> distinct_paths d t ->
  input w img c -> input w' img' c' -> w_outroom w = None -> w_outroom w' = None ->
  (forall short dir, eventually (fun fuel => show_alike (LsCmd_Run iter fuel order system short img dir) w (LsCmd_Run iter' fuel order' system' short img' dir) w')) /\
  (forall n, eventually (fun fuel => show_alike (DumpCmd_Run iter fuel order system img n) w (DumpCmd_Run iter' fuel order' system' img' n) w')).
Proof. exact same_listing. Qed.
Print Assumptions C129_same.
(** Conversely the folders and names are just what ls shows: if the listings of all paths are alike, the two
    volumes have the same folders with the same names (as long as no name has a line end in it). *)
Theorem C129_told_apart : forall (iter iter' : list (Z * Subdirectory) -> list (Z * Subdirectory)) img img' order order' system system' c c' d d' o o' t t' w w' short,
  an_order iter -> an_order iter' ->
  seen_as img order c (s2b "prodos") d o -> seen_as img' order' c' (s2b "prodos") d' o' ->
  (system = s2b "auto" \/ system = s2b "prodos") -> (system' = s2b "auto" \/ system' = s2b "prodos") ->
  well_formed d t -> well_formed d' t' -> distinct_paths d t -> distinct_paths d' t' -> plain_names d t -> plain_names d' t' ->
  input w img c -> input w' img' c' -> w_outroom w = None -> w_outroom w' = None ->
  (forall dir, eventually (fun fuel => show_alike (LsCmd_Run iter fuel order system short img dir) w (LsCmd_Run iter' fuel order' system' short img' dir) w')) ->
  forall p ns, has_folder d t p ns <-> has_folder d' t' p ns.
Proof. exact same_folders. Qed.
Print Assumptions C129_told_apart.
(** A floppy and a smaller hard disk with three folders. *)
Example C129_example : exists w w',
  seen_as (s2b "x.po") (s2b "auto") ex_vol (s2b "prodos") ex_vol (s2b "po") /\
  seen_as (s2b "y.hdv") (s2b "auto") small_vol (s2b "prodos") small_vol (s2b "po") /\
  well_formed ex_vol ex_tree /\ well_formed small_vol small_tree /\ same_tree ex_vol small_vol ex_tree small_tree /\ distinct_paths ex_vol ex_tree /\
  input w (s2b "x.po") ex_vol /\ input w' (s2b "y.hdv") small_vol /\ w_outroom w = None /\ w_outroom w' = None.
Proof. exact small_example. Qed.
Example C129_names : map (fun x => (fst x, names_in small_vol (fst (snd x)) (snd (snd x)))) (paths small_vol [] small_tree) =
  [([], [s2b "HELLO"; s2b "SUB"; s2b "DATA"]); (s2b "SUB", [s2b "NOTES"; s2b "INNER"]); (s2b "SUB/INNER", [s2b "X"])].
Proof. exact small_names. Qed.
Example C129_plain : distinct_paths small_vol small_tree /\ plain_names ex_vol ex_tree /\ plain_names small_vol small_tree.
Proof. exact small_plain. Qed.
