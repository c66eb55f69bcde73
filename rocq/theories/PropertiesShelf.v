(** PropertiesShelf.v -- property C117: sessions of commands on several NakedOS images
    (cmd/put.go, cmd/delete.go, cmd/dump.go, cmd/catalog.go, cmd/nakedos.go, cmd/reorder.go). *)
From Verif Require Import GoBase TypesModel DiskSpec SupermonModel SupermonSpec SupermonTableSpec SupermonStoreSpec SupermonChainSpec SupermonOpProofs.
From Verif Require Import ProdosModel CmdModel CmdSpec MainModel NakedCmdSpec SessionSpec NamesSpec ShelfSpec ShelfProofs ShelfExProofs.

(** ** C117 *)
(** Any sequence of put, rm, dump, ls, mkhello and reorder on any number of NakedOS images, in
    whichever sector orders, with images copied and any other files saved in between, gives the exit
    statuses and the output that a shelf of disks gives: each disk a store of numbered files with a
    row of name cards; reorder puts a copy of one disk in the other sector order under another name,
    and the two are changed separately from then on, or turns the disk itself; mkhello is a put of
    the loader.  Afterwards every image again holds the files
    and the names of its disk, in a well-formed symbol table, and every other file is what it was
    saved as.  [orderly] says which deeds may occur and what the names in each amount to when its
    turn comes (as [sensible] in C98). *)
Theorem C117_shelf : forall (iter : list (Z * Subdirectory) -> list (Z * Subdirectory)) fuel h w K,
  shows w K -> orderly h K -> unnoticed iter fuel (map fst h) w ->
  exists w' K' outcomes,
    session (map (fun xm => deed_command iter fuel (fst xm)) h) w = (w', outcomes) /\ deeds h K = (K', outcomes) /\ shows w' K'.
Proof. exact shelf_session. Qed.
Print Assumptions C117_shelf.
(** No image is taken for a DOS 3.3 disk if none is at the start, and track 17 sector 0 of each
    belongs to file [g] (not 3 or 4), which the session neither puts nor removes. *)
Theorem C117_spared : forall (iter : list (Z * Subdirectory) -> list (Z * Subdirectory)) fuel h w K g,
  shows w K -> orderly h K -> g <> FREE -> g <> 3 -> g <> 4 ->
  (forall img x c d, sh_disks K img = Some x -> w_fs w img = NFile c true true -> naked_image c (kp_order x) d -> release_byte c <> 3 /\ mark_owner d = g) ->
  spare g h K -> unnoticed iter fuel (map fst h) w.
Proof. exact shelf_spared. Qed.
Print Assumptions C117_spared.
(** Twenty-three deeds on x.do, a disk with the 156 symbols of supermon/testdata/chacha20.dsk, and y.po,
    which reorder makes of it: a file is put on the first, removed from the second, and still there on
    the first; mkhello on the first leaves the second alone; a second reorder is refused, then forced.
    Then y.po is reordered in place, and listed with --order do; and a file is put on a copy of x.do only. *)
Example C117_example : forall iter fuel, exists w w',
  shows w day4_shelf /\ session (map (fun xm => deed_command iter fuel (fst xm)) day4) w = (w', day4_outcomes) /\
  w_fs w' (s2b "y.po") <> w_fs w (s2b "y.po").
Proof. exact day4_example. Qed.
