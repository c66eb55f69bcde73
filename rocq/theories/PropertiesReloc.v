(** PropertiesReloc.v -- property C128: where the files of a DOS 3.3 disk lie does not matter
    (dos3/dos3.go, cmd/catalog.go, cmd/dump.go, disk/open.go). *)
From Verif Require Import GoBase DiskSpec Dos3Spec ProdosModel CmdModel CmdSpec MainModel DetectSpec DetectProofs BackupSpec RelocSpec RelocProofs RelocExProofs.
From Verif Require ProdosSpec Dos3StmtProofs.

(** ** C128 *)
(** Two DOS 3.3 images whose catalogs list the same files in the same order, each with the same data in as many
    track/sector lists.  The images may have other names and sector orders; catalog, lists and data may be in
    other sectors, deleted entries and all else may differ.  ls and dump, for every folder and name, end with the
    same status and print the same. *)
Theorem C128_same : forall (iter : list (Z * Subdirectory) -> list (Z * Subdirectory)) img img' order order' system system' c c' d d' o o' l l' w w',
  ProdosSpec.an_order iter ->
  seen_as img order c (s2b "dos3") d o -> seen_as img' order' c' (s2b "dos3") d' o' ->
  (system = s2b "auto" \/ system = s2b "dos3") -> (system' = s2b "auto" \/ system' = s2b "dos3") ->
  bytes_ok d -> bytes_ok d' -> catalog d l -> catalog d' l' -> same_dos_files d l d' l' ->
  input w img c -> input w' img' c' -> w_outroom w = w_outroom w' ->
  eventually (fun fuel =>
    (forall short dir, both_show (LsCmd_Run iter fuel order system short img dir) w (LsCmd_Run iter fuel order' system' short img' dir) w') /\
    (forall n, both_show (DumpCmd_Run iter fuel order system img n) w (DumpCmd_Run iter fuel order' system' img' n) w')).
Proof. exact relocated. Qed.
Print Assumptions C128_same.
(** A disk with six files, and the same with half of the catalog and two of the files elsewhere, a deleted entry
    less, and another volume number. *)
Example C128_example : exists w w',
  seen_as (s2b "x.dsk") (s2b "auto") Dos3StmtProofs.ex_dos_disk (s2b "dos3") Dos3StmtProofs.ex_dos_disk (s2b "do") /\
  seen_as (s2b "y.do") (s2b "auto") reloc_disk (s2b "dos3") reloc_disk (s2b "do") /\
  bytes_ok Dos3StmtProofs.ex_dos_disk /\ bytes_ok reloc_disk /\ catalog Dos3StmtProofs.ex_dos_disk [(17, 15); (17, 14)] /\ catalog reloc_disk [(17, 15); (17, 3)] /\
  same_dos_files Dos3StmtProofs.ex_dos_disk [(17, 15); (17, 14)] reloc_disk [(17, 15); (17, 3)] /\ Dos3StmtProofs.ex_dos_disk <> reloc_disk /\
  length (filter is_live (entries Dos3StmtProofs.ex_dos_disk [(17, 15); (17, 14)])) = 6%nat /\
  input w (s2b "x.dsk") Dos3StmtProofs.ex_dos_disk /\ input w' (s2b "y.do") reloc_disk /\ w_outroom w = w_outroom w'.
Proof. exact reloc_example. Qed.
