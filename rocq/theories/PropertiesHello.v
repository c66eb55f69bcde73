(** PropertiesHello.v -- property C120: a disk with the loader of mkhello runs the program (cmd/nakedos.go). *)
From Verif Require Import GoBase TypesModel DiskSpec SupermonModel SupermonSpec SupermonTableSpec ProdosModel CmdModel CmdSpec NakedCmdSpec BootSpec HelloSpec HelloProofs HelloExProofs.

(** ** C120 *)
(** After mkhello has succeeded, NakedOS running file 1 of the disk comes to the start address with the
    contents of the file that was named, as they were before, in memory from the load address on; if
    the file is there, not one of 1 (the loader itself), 3 and 4 (the symbols), and fits between pages
    4 and BF.  [starts_into] says what the machine is and where the loader may be. *)
Theorem C120_mkhello_runs : forall (iter : list (Z * Subdirectory) -> list (Z * Subdirectory)) fuel order img name address start0 w w',
  run (MkHelloCmd_Run iter fuel order img name address start0) w = (w', Ok tt) ->
  0 <= address < 65536 -> 0 <= start0 < 65536 ->
  let start := if start0 =? 0xFFFF then address else start0 in
  exists c o d t d' new f,
    input w img c /\ naked_image c o d /\ names_on d t /\ target t name f /\ output w w' img new /\ naked_image new o d' /\
    (f <> 1 -> f <> 3 -> f <> 4 -> file_on d f <> [] -> 0x400 <= address -> address + zlen (file_on d f) <= 0xC000 ->
     starts_into d' (file_on d f) address start).
Proof. exact hello_starts. Qed.
Print Assumptions C120_mkhello_runs.
(** mkhello of a file of 256 bytes; and a machine with the loader at 800. *)
Example C120_example : forall (iter : list (Z * Subdirectory) -> list (Z * Subdirectory)) fuel, exists w w' c d,
  run (MkHelloCmd_Run iter fuel (s2b "auto") (s2b "x.do") (s2b "DF05") 0x2000 0xFFFF) w = (w', Ok tt) /\
  input w (s2b "x.do") c /\ naked_image c (s2b "do") d /\ file_on d 5 = zeros 256.
Proof. exact hello_example. Qed.
Example C120_machine_example : forall d, exists s, rPC s = 0x800 /\ 0 <= rS s < 256 /\ forall i, 0 <= i < 16 -> mem s (0x800 + i) = znth 0 (file_on d 1) i.
Proof. exact hello_machine. Qed.
