(** PropertiesBackup.v -- property C124: the files of a NakedOS disk, dumped and put on another disk,
    give a disk that looks the same (cmd/dump.go, cmd/put.go, cmd/catalog.go, supermon/supermon.go). *)
From Verif Require Import GoBase DiskSpec SupermonModel SupermonSpec SupermonTableSpec ProdosModel CmdModel CmdSpec MainModel NakedCmdSpec NakedExProofs SessionSpec SupermonFinalProofs.
From Verif Require DetectProofs.
From Verif Require Import BackupSpec BackupProofs BackupExProofs.

(** ** C124 *)
(** dump of a numeric name prints the contents of the file, so these can be saved. *)
Theorem C124_dump : forall (iter : list (Z * Subdirectory) -> list (Z * Subdirectory)) fuel order img o c d n f w,
  first_order img order o -> naked_image c o d -> release_byte c <> 3 -> input w img c -> w_outroom w = None ->
  numeric n f -> file_on d f <> [] ->
  exists w', main_run (DumpCmd_Run iter fuel order (s2b "auto") img n) w = (w', 0) /\ same_files w w' /\ w_stdout w' = w_stdout w ++ file_on d f.
Proof. exact numeric_dump. Qed.
Print Assumptions C124_dump.
(** Some of the files of the disk [d], each saved in a file of the computer and put from there, by number, on
    a disk that has room and none of these files: every command succeeds and prints nothing; afterwards the
    disk has these files with the contents they had on [d], its other files are as before, the free sectors
    are fewer by as many as the files take, and the other files of the computer are unchanged. *)
Theorem C124_restore : forall (iter : list (Z * Subdirectory) -> list (Z * Subdirectory)) fuel order img o ow addr d l w c e,
  img <> s2b "-" -> first_order img order o -> zlen d = 143360 ->
  w_fs w img = NFile c true true -> naked_image c o e -> w_room w = None -> w_outroom w = None ->
  Forall (good_item img w) l -> NoDup (map it_file l) ->
  (forall i, In i l -> file_on d (it_file i) <> [] /\ file_on e (it_file i) = []) -> total d l <= free_on e ->
  throughout (unmarked img) (map (command iter fuel order img) (restore ow addr d l)) w ->
  exists w' c' e', session (map (command iter fuel order img) (restore ow addr d l)) w = (w', map (fun _ => (0, [])) (restore ow addr d l)) /\
    w_fs w' img = NFile c' true true /\ naked_image c' o e' /\
    (forall i, In i l -> file_on e' (it_file i) = file_on d (it_file i)) /\
    (forall f, legal f -> (forall i, In i l -> it_file i <> f) -> file_on e' f = file_on e f) /\
    free_on e' = free_on e - total d l /\
    (forall n, n <> img -> (forall i, In i l -> it_way i <> n) -> w_fs w' n = w_fs w n).
Proof. exact restore_lemma. Qed.
Print Assumptions C124_restore.
(** The image is taken for a NakedOS disk from the first command to after the last, if it was at first and no
    sector of the files has 3 as its byte 3 (see C77). *)
Theorem C124_unmarked : forall (iter : list (Z * Subdirectory) -> list (Z * Subdirectory)) fuel order img o ow addr d l w c e,
  img <> s2b "-" -> first_order img order o -> zlen d = 143360 ->
  w_fs w img = NFile c true true -> naked_image c o e -> w_room w = None -> w_outroom w = None ->
  Forall (good_item img w) l -> NoDup (map it_file l) ->
  (forall i, In i l -> file_on d (it_file i) <> [] /\ file_on e (it_file i) = []) -> total d l <= free_on e ->
  release_byte c <> 3 -> (forall i, In i l -> no_mark (file_on d (it_file i))) ->
  throughout (unmarked img) (map (command iter fuel order img) (restore ow addr d l)) w /\
  unmarked img (fst (session (map (command iter fuel order img) (restore ow addr d l)) w)).
Proof. exact restore_unmarked. Qed.
Print Assumptions C124_unmarked.
(** Files of a disk, and the sectors free on it, are together no more than the 548 sectors that are free on a
    disk without files. *)
Theorem C124_fits : forall d l, floppy d (stored_map d) -> NoDup (map it_file l) -> (forall i, In i l -> legal (it_file i)) -> total d l + free_on d <= 548.
Proof. exact total_fits. Qed.
Print Assumptions C124_fits.
(** All files of a disk, put on a disk without files: the copy holds the same files, ls prints the same lines
    for both disks (the names too, since the symbol table is in two of the files), and dump prints the same
    for every name, or fails for both. *)
Theorem C124_backup : forall (iter : list (Z * Subdirectory) -> list (Z * Subdirectory)) fuel img0 order0 o0 w0 c0 d order img o ow addr l w c e,
  first_order img0 order0 o0 -> naked_image c0 o0 d -> release_byte c0 <> 3 -> input w0 img0 c0 -> w_outroom w0 = None ->
  img <> s2b "-" -> first_order img order o ->
  w_fs w img = NFile c true true -> naked_image c o e -> w_room w = None -> w_outroom w = None ->
  (forall f, legal f -> file_on e f = []) -> total d l <= free_on e ->
  Forall (good_item img w) l -> NoDup (map it_file l) ->
  (forall f, legal f -> (file_on d f <> [] <-> exists i, In i l /\ it_file i = f)) ->
  throughout (unmarked img) (map (command iter fuel order img) (restore ow addr d l)) w ->
  exists w' c' e', session (map (command iter fuel order img) (restore ow addr d l)) w = (w', map (fun _ => (0, [])) (restore ow addr d l)) /\
    w_fs w' img = NFile c' true true /\ naked_image c' o e' /\ same_contents d e' /\
    (release_byte c' <> 3 ->
      (forall short, both_show (LsCmd_Run iter fuel order0 (s2b "auto") short img0 []) w0 (LsCmd_Run iter fuel order (s2b "auto") short img []) w') /\
      (forall n, both_show (DumpCmd_Run iter fuel order0 (s2b "auto") img0 n) w0 (DumpCmd_Run iter fuel order (s2b "auto") img n) w')).
Proof. exact backup_lemma. Qed.
Print Assumptions C124_backup.
(** Disks that hold the same files have the same symbols. *)
Theorem C124_names : forall d d' t, floppy d (stored_map d) -> floppy d' (stored_map d') -> same_contents d d' -> names_on d t -> names_on d' t.
Proof. exact names_both. Qed.
Print Assumptions C124_names.
(** A disk with a file in sector 100 and one in sector 272, copied to a disk without files. *)
Example C124_order : first_order (s2b "x.do") (s2b "auto") (s2b "do").
Proof. exact (ex_intro _ _ DetectProofs.auto_do). Qed.
Example C124_files : file_on two_disk 6 = repeat 1 256 /\ file_on two_disk 5 = zeros 256.
Proof. exact (conj two_six two_five). Qed.
Example C124_example : forall iter fuel, exists c0 c w,
  naked_image c0 (s2b "do") two_disk /\ release_byte c0 <> 3 /\
  w_fs w (s2b "x.do") = NFile c true true /\ naked_image c (s2b "do") (map_disk ex_map) /\ release_byte c <> 3 /\
  w_room w = None /\ w_outroom w = None /\
  Forall (good_item (s2b "x.do") w) two_items /\ NoDup (map it_file two_items) /\
  (forall i, In i two_items -> file_on two_disk (it_file i) <> [] /\ file_on (map_disk ex_map) (it_file i) = []) /\
  total two_disk two_items <= free_on (map_disk ex_map) /\
  throughout (unmarked (s2b "x.do")) (map (command iter fuel (s2b "auto") (s2b "x.do")) (restore false 0 two_disk two_items)) w /\
  unmarked (s2b "x.do") (fst (session (map (command iter fuel (s2b "auto") (s2b "x.do")) (restore false 0 two_disk two_items)) w)) /\
  (forall f, legal f -> file_on (map_disk ex_map) f = []) /\
  (forall f, legal f -> (file_on two_disk f <> [] <-> exists i, In i two_items /\ it_file i = f)).
Proof. exact back_example. Qed.
