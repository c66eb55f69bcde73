(** PropertiesCycle.v -- property C121: the loader of mkhello runs what was last put in the file it is for
    (cmd/nakedos.go, cmd/put.go, cmd/delete.go, cmd/reorder.go). *)
From Verif Require Import GoBase TypesModel DiskSpec SupermonModel SupermonSpec SupermonTableSpec SupermonStoreSpec ProdosModel CmdModel CmdSpec MainModel NakedCmdSpec BootSpec HelloSpec.
From Verif Require Import SessionSpec NamesSpec ShelfSpec ShelfExProofs CycleSpec CycleProofs CycleExProofs.

(** ** C121 *)
(** A session as in C117 in which mkhello succeeds for file [f] of a disk, and later a put of that file
    does.  If file 1 is left alone after the mkhello, and file [f] after the put, NakedOS running file
    1 of the image that the session leaves comes to the start address with what was put in memory: the
    contents of the source when the put was given.  Between and after the two, anything of C117 may
    happen on this and other disks. *)
Theorem C121_latest : forall (iter : list (Z * Subdirectory) -> list (Z * Subdirectory)) fuel h1 order img n a s0 f p h2 order2 ft ow addr n2 src p2 h3 w K w' l1 o1 l2 o2 l3 data r q,
  let hello := (Hello order img n a s0, SLoad f p) in
  let put := (On order2 img (APut ft ow addr n2 src), SPlan p2) in
  let start := if s0 =? 0xFFFF then a else s0 in
  let run_of h := session (map (fun xm => deed_command iter fuel (fst xm)) h) w in
  let shelf_after h := fst (deeds h K) in
  shows w K -> orderly (h1 ++ hello :: h2 ++ put :: h3) K -> unnoticed iter fuel (map fst (h1 ++ hello :: h2 ++ put :: h3)) w ->
  run_of (h1 ++ hello :: h2 ++ put :: h3) = (w', l1 ++ (0, o1) :: l2 ++ (0, o2) :: l3) -> length l1 = length h1 -> length l2 = length h2 ->
  leaves 1 img (h2 ++ put :: h3) (shelf_after (h1 ++ [hello])) ->
  file_touched (fst put) (snd put) (shelf_after (h1 ++ hello :: h2)) = Some f -> f <> 3 -> f <> 4 ->
  leaves f img h3 (shelf_after (h1 ++ hello :: h2 ++ [put])) ->
  w_fs (fst (run_of (h1 ++ hello :: h2))) src = NFile data r q -> data <> [] -> 0x400 <= a -> a + zlen (padded data) <= 0xC000 ->
  exists c o d, w_fs w' img = NFile c true true /\ naked_image c o d /\ starts_into d (padded data) a start.
Proof. exact latest_starts. Qed.
Print Assumptions C121_latest.
(** The same for every image that a session leaves, copies and reordered ones included: if file 1 of
    its disk is a loader, it runs what the disk has in the file the loader is for. *)
Theorem C121_every_disk : forall (iter : list (Z * Subdirectory) -> list (Z * Subdirectory)) fuel h w K w' l img x f a start,
  shows w K -> orderly h K -> unnoticed iter fuel (map fst h) w ->
  session (map (fun xm => deed_command iter fuel (fst xm)) h) w = (w', l) ->
  sh_disks (fst (deeds h K)) img = Some x -> st_file (kp_store x) 1 = padded (loader f a start) ->
  legal f -> f <> 3 -> f <> 4 -> a mod 256 = 0 -> 0 <= start < 65536 ->
  in_use (kp_store x) f = true -> 0x400 <= a -> a + zlen (st_file (kp_store x) f) <= 0xC000 ->
  exists c d, w_fs w' img = NFile c true true /\ naked_image c (kp_order x) d /\ starts_into d (st_file (kp_store x) f) a start.
Proof. exact shelf_starts. Qed.
Print Assumptions C121_every_disk.
(** Ten deeds: a program is put on x.do, and mkhello run; y.po is made of it, and the program removed
    there; a second version is put on x.do; another file is put on it, the source is overwritten, and
    x.do copied. *)
Example C121_example : forall iter fuel, exists w w',
  let hello := (Hello (s2b "auto") (s2b "x.do") (s2b "Game") 0x2000 0xFFFF, SLoad 64 (PlFile 1)) in
  let put := (On (s2b "auto") (s2b "x.do") (APut (s2b "B") true 0 (s2b "game") (s2b "f")), SPlan (PlFile 64)) in
  let run_of h := session (map (fun xm => deed_command iter fuel (fst xm)) h) w in
  let shelf_after h := fst (deeds h day4_shelf) in
  shows w day4_shelf /\ orderly (cycle1 ++ hello :: cycle2 ++ put :: cycle3) day4_shelf /\ unnoticed iter fuel (map fst (cycle1 ++ hello :: cycle2 ++ put :: cycle3)) w /\
  run_of (cycle1 ++ hello :: cycle2 ++ put :: cycle3) = (w', repeat (0, []) 2 ++ (0, []) :: repeat (0, []) 3 ++ (0, []) :: repeat (0, []) 3) /\
  leaves 1 (s2b "x.do") (cycle2 ++ put :: cycle3) (shelf_after (cycle1 ++ [hello])) /\
  file_touched (fst put) (snd put) (shelf_after (cycle1 ++ hello :: cycle2)) = Some 64 /\
  leaves 64 (s2b "x.do") cycle3 (shelf_after (cycle1 ++ hello :: cycle2 ++ [put])) /\
  w_fs (fst (run_of (cycle1 ++ hello :: cycle2))) (s2b "f") = NFile (repeat 9 700) true true.
Proof. exact cycle_example. Qed.
