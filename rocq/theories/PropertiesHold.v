(** PropertiesHold.v -- property C126: where the files lie on a NakedOS disk does not matter
    (cmd/put.go, cmd/delete.go, cmd/nakedos.go, cmd/catalog.go, cmd/dump.go, supermon/supermon.go). *)
From Verif Require Import GoBase DiskSpec SupermonSpec SupermonTableSpec ProdosModel CmdModel CmdSpec MainModel NakedCmdSpec NakedExProofs SessionSpec SupermonFinalProofs ShelfSpec.
From Verif Require DetectProofs.
From Verif Require Import TwinSpec BackupSpec HoldSpec HoldCmdProofs BackupExProofs HoldApartProofs HoldCopyProofs HoldExProofs.

(** ** C126 *)
(** Two NakedOS images that hold the same files and have as many free sectors, on two computers that are
    otherwise the same.  Every session of puts, removals, mkhellos, listings and dumps gives the same exit
    statuses and prints the same on both; afterwards the two images hold the same again. *)
Theorem C126_same : forall (iter : list (Z * Subdirectory) -> list (Z * Subdirectory)) fuel order img o h w w' c c' q d d',
  img <> s2b "-" -> first_order img order o -> Forall (work_of order img) h -> beside img w w' ->
  w_fs w img = NFile c true q -> w_fs w' img = NFile c' true q -> same_holding c c' o d d' -> no_empty_source h w ->
  throughout (unmarked img) (map (deed_command iter fuel) h) w -> throughout (unmarked img) (map (deed_command iter fuel) h) w' ->
  exists v v' l c1 c1' q1 d1 d1',
    session (map (deed_command iter fuel) h) w = (v, l) /\ session (map (deed_command iter fuel) h) w' = (v', l) /\ beside img v v' /\
    w_fs v img = NFile c1 true q1 /\ w_fs v' img = NFile c1' true q1 /\ same_holding c1 c1' o d1 d1'.
Proof. exact place_session. Qed.
Print Assumptions C126_same.
(** Conversely the files and the number of free sectors are just what such sessions show: of two images
    that do not hold the same, some session prints something else or ends otherwise. *)
Theorem C126_told_apart : forall (iter : list (Z * Subdirectory) -> list (Z * Subdirectory)) fuel order img o w w' c c' d d' file,
  img <> s2b "-" -> first_order img order o -> beside img w w' -> w_outroom w = None ->
  w_fs w img = NFile c true true -> w_fs w' img = NFile c' true true -> naked_image c o d -> naked_image c' o d' -> release_byte c <> 3 -> release_byte c' <> 3 ->
  file <> img -> file <> s2b "-" -> w_fs w file = NMissing \/ (exists x, x <> [] /\ w_fs w file = NFile x true true) ->
  same_holding c c' o d d' \/ exists h, Forall (work_of order img) h /\ no_empty_source h w /\
     snd (session (map (deed_command iter fuel) h) w) <> snd (session (map (deed_command iter fuel) h) w').
Proof. exact apart. Qed.
Print Assumptions C126_told_apart.
(** In particular a disk may be tidied up by copying all its files to a disk without files (C124): if both
    disks have as many sectors that are not reserved, the copy holds the same as the first disk, and every
    session on the copy goes as it would on the first. *)
Theorem C126_copied : forall (iter : list (Z * Subdirectory) -> list (Z * Subdirectory)) fuel order img o ow addr c0 d l w c e,
  img <> s2b "-" -> first_order img order o -> naked_image c0 o d ->
  w_fs w img = NFile c true true -> naked_image c o e -> w_room w = None -> w_outroom w = None ->
  (forall f, legal f -> file_on e f = []) -> free_on e = total d l + free_on d ->
  Forall (good_item img w) l -> NoDup (map it_file l) ->
  (forall f, legal f -> (file_on d f <> [] <-> exists i, In i l /\ it_file i = f)) ->
  throughout (unmarked img) (map (command iter fuel order img) (restore ow addr d l)) w ->
  exists v c1 e1, session (map (command iter fuel order img) (restore ow addr d l)) w = (v, map (fun _ => (0, [])) (restore ow addr d l)) /\
    w_fs v img = NFile c1 true true /\ same_holding c0 c1 o d e1 /\
    forall h u, Forall (work_of order img) h -> beside img u v -> w_fs u img = NFile c0 true true -> no_empty_source h u ->
      throughout (unmarked img) (map (deed_command iter fuel) h) u -> throughout (unmarked img) (map (deed_command iter fuel) h) v ->
      snd (session (map (deed_command iter fuel) h) v) = snd (session (map (deed_command iter fuel) h) u).
Proof. exact copied_holds. Qed.
Print Assumptions C126_copied.
(** A disk with one file, and the same with the file in another sector; the file is dumped, two files are
    put, the first one is removed, and the rest is listed. *)
Example C126_order : first_order (s2b "x.do") (s2b "auto") (s2b "do").
Proof. exact (ex_intro _ _ DetectProofs.auto_do). Qed.
Example C126_work : Forall (work_of (s2b "auto") (s2b "x.do")) place_deeds.
Proof. exact place_work. Qed.
Example C126_example : forall iter fuel, exists w w' c c' v,
  beside (s2b "x.do") w w' /\ w_fs w (s2b "x.do") = NFile c true true /\ w_fs w' (s2b "x.do") = NFile c' true true /\
  same_holding c c' (s2b "do") (map_disk five_map) (map_disk moved_map) /\ stored_map (map_disk five_map) <> stored_map (map_disk moved_map) /\
  no_empty_source place_deeds w /\ throughout (unmarked (s2b "x.do")) (map (deed_command iter fuel) place_deeds) w /\
  throughout (unmarked (s2b "x.do")) (map (deed_command iter fuel) place_deeds) w' /\
  session (map (deed_command iter fuel) place_deeds) w = (v, [(0, zeros 256); (0, []); (0, []); (0, []); (0, s2b "DF06" ++ [10] ++ s2b "DF1A" ++ [10])]).
Proof. exact place_example. Qed.
(** The disk, and the same with one sector more reserved: only the room differs. *)
Example C126_less : exists w w' c c',
  beside (s2b "x.do") w w' /\ w_outroom w = None /\ w_fs w (s2b "x.do") = NFile c true true /\ w_fs w' (s2b "x.do") = NFile c' true true /\
  naked_image c (s2b "do") (map_disk five_map) /\ naked_image c' (s2b "do") (map_disk less_map) /\ release_byte c <> 3 /\ release_byte c' <> 3 /\
  w_fs w (s2b "g") = NMissing /\ same_contents (map_disk five_map) (map_disk less_map) /\
  ~ same_holding c c' (s2b "do") (map_disk five_map) (map_disk less_map).
Proof. exact less_example. Qed.
(** The disks of C124_example, which meets the other hypotheses of C126_copied. *)
Example C126_room : free_on (map_disk ex_map) = total two_disk two_items + free_on two_disk.
Proof. exact two_room. Qed.
Example C126_copy : forall iter fuel, exists c0 c w,
  naked_image c0 (s2b "do") two_disk /\ release_byte c0 <> 3 /\
  w_fs w (s2b "x.do") = NFile c true true /\ naked_image c (s2b "do") (map_disk ex_map) /\ release_byte c <> 3 /\
  w_room w = None /\ w_outroom w = None /\
  Forall (good_item (s2b "x.do") w) two_items /\ NoDup (map it_file two_items) /\
  (forall i, In i two_items -> file_on two_disk (it_file i) <> [] /\ file_on (map_disk ex_map) (it_file i) = []) /\
  total two_disk two_items <= free_on (map_disk ex_map) /\
  throughout (unmarked (s2b "x.do")) (map (command iter fuel (s2b "auto") (s2b "x.do")) (restore false 0 two_disk two_items)) w /\
  unmarked (s2b "x.do") (fst (session (map (command iter fuel (s2b "auto") (s2b "x.do")) (restore false 0 two_disk two_items)) w)) /\
  (forall f, legal f -> file_on (map_disk ex_map) f = []) /\
  (forall f, legal f -> (file_on two_disk f <> [] <-> exists i, In i two_items /\ it_file i = f)).
Proof. exact back_example. Qed.
