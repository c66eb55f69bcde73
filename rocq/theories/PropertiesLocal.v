(** PropertiesLocal.v -- property C122: damage to the rest of a disk does not change what ls and dump show
    (cmd/catalog.go, cmd/dump.go, disk/open.go, dos3/dos3.go, supermon/supermon.go, prodos/prodos.go). *)
From Verif Require Import GoBase TypesModel DiskSpec SupermonModel SupermonSpec SupermonTableSpec ProdosModel CmdModel CmdSpec MainModel NakedCmdSpec DetectSpec NakedExProofs.
From Verif Require ProdosSpec Dos3StmtProofs ProdosStmtProofs.
From Verif Require Import LocalSpec LocalProofs LocalExProofs.

(** ** C122 *)
(** [agree c c' o sys d d']: the images [c] and [c'] hold the disks [d] and [d'], and the part of them
    by which a disk of the operating system [sys] is told and its files are listed is the same.  For
    DOS 3.3 this is the VTOC and the catalog sectors; for NakedOS the sector map and the symbol table,
    and what might make the disk a DOS 3.3 one; for ProDOS the blocks of the directories, and what
    might make it one of the others.  If the first image is told to be a disk of that system, so is
    the second. *)
Theorem C122_told : forall img order c c' sys d d' o,
  seen_as img order c sys d o -> (zlen c = 143360 -> first_order img order o) -> bytes_ok c -> bytes_ok c' ->
  agree c c' o sys d d' -> seen_as img order c' sys d' o.
Proof. exact seen_same. Qed.
Print Assumptions C122_told.
(** And ls prints the same and ends in the same way for both; so does dump for each file of which the
    sectors (for DOS 3.3, those of its track/sector lists and the ones listed there) are the same. *)
Theorem C122_shown : forall (iter : list (Z * Subdirectory) -> list (Z * Subdirectory)) img order system c c' sys d d' o w w',
  ProdosSpec.an_order iter -> seen_as img order c sys d o -> (zlen c = 143360 -> first_order img order o) -> bytes_ok c -> bytes_ok c' ->
  agree c c' o sys d d' -> (system = s2b "auto" \/ system = sys) -> input w img c -> input w' img c' -> w_outroom w = w_outroom w' ->
  eventually (fun fuel =>
    (forall short dir, same_show (LsCmd_Run iter fuel order system short img dir) w w') /\
    (forall n, same_file d d' n sys -> same_show (DumpCmd_Run iter fuel order system img n) w w')).
Proof. exact read_same. Qed.
Print Assumptions C122_shown.
(** A DOS 3.3 disk of which the boot sector and the one sector of DATA are overwritten: HELLO is as
    before.  A ProDOS disk of which block 20 is overwritten.  A NakedOS disk of which a free sector
    is: DF05 is as before. *)
Example C122_dos : seen_as (s2b "x.dsk") (s2b "auto") Dos3StmtProofs.ex_dos_disk (s2b "dos3") Dos3StmtProofs.ex_dos_disk (s2b "do") /\
  first_order (s2b "x.dsk") (s2b "auto") (s2b "do") /\ bytes_ok Dos3StmtProofs.ex_dos_disk /\ bytes_ok hurt_dos /\
  agree Dos3StmtProofs.ex_dos_disk hurt_dos (s2b "do") (s2b "dos3") Dos3StmtProofs.ex_dos_disk hurt_dos /\
  same_file Dos3StmtProofs.ex_dos_disk hurt_dos (s2b "HELLO") (s2b "dos3") /\
  Dos3Spec.lookup (Dos3Spec.entries Dos3StmtProofs.ex_dos_disk [(17, 15); (17, 14)]) (s2b "DATA") (Dos3Spec.slot (sector Dos3StmtProofs.ex_dos_disk 17 15) 2) /\
  sector Dos3StmtProofs.ex_dos_disk 18 12 <> sector hurt_dos 18 12.
Proof. exact local_dos. Qed.
Example C122_prodos : seen_as (s2b "x.po") (s2b "auto") ProdosStmtProofs.ex_vol (s2b "prodos") ProdosStmtProofs.ex_vol (s2b "po") /\
  first_order (s2b "x.po") (s2b "auto") (s2b "po") /\ bytes_ok ProdosStmtProofs.ex_vol /\ bytes_ok hurt_vol /\
  agree ProdosStmtProofs.ex_vol hurt_vol (s2b "po") (s2b "prodos") ProdosStmtProofs.ex_vol hurt_vol /\
  sub ProdosStmtProofs.ex_vol 10240 10752 <> sub hurt_vol 10240 10752.
Proof. exact local_prodos. Qed.
Example C122_naked : exists c c', seen_as (s2b "x.do") (s2b "auto") c (s2b "nakedos") (map_disk five_map) (s2b "do") /\
  first_order (s2b "x.do") (s2b "auto") (s2b "do") /\ bytes_ok c /\ bytes_ok c' /\
  agree c c' (s2b "do") (s2b "nakedos") (map_disk five_map) hurt_naked /\
  same_file (map_disk five_map) hurt_naked (s2b "DF05") (s2b "nakedos") /\ sec (map_disk five_map) 100 <> sec hurt_naked 100.
Proof. exact local_naked. Qed.
