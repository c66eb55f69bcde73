(** PropertiesChanges.v -- property C113: exactly which bytes of a NakedOS disk put, rm and mkhello change
    (cmd/put.go, cmd/delete.go, cmd/nakedos.go, supermon/supermon.go). *)
From Verif Require Import GoBase TypesModel SupermonModel SupermonSpec SupermonTableSpec NakedCmdSpec NakedExProofs.
From Verif Require ProdosSpec.
From Verif Require Import ProdosModel CmdModel CmdSpec ListSpec StatusSpec ChangesSpec ChangesTabProofs ChangesProofs ChangesExProofs.

(** ** C113 *)
(** What the following theorems say about a disk leaves no choice: every byte is determined. *)
Theorem C113_determined :
  (forall d f c d1 d2, placed d f c d1 -> placed d f c d2 -> d1 = d2) /\
  (forall d t n s d1 d2, put_changes d t n s d1 -> put_changes d t n s d2 -> d1 = d2) /\
  (forall d t n d1 d2, rm_changes d t n d1 -> rm_changes d t n d2 -> d1 = d2).
Proof. exact placed_exact. Qed.
Print Assumptions C113_determined.
(** WriteFile puts a file into the lowest sectors that are free or its own, in order; no other sector
    changes but for the bytes of the map. *)
Theorem C113_WriteFile : forall f c ow (d sm d' sm' : bytes) ex, floppy d sm -> legal f -> c <> [] ->
  WriteFile f c ow (d, sm) = ((d', sm'), Ok ex) -> placed d f c d' /\ floppy d' sm'.
Proof. exact WriteFile_placed. Qed.
Print Assumptions C113_WriteFile.
(** AddSymbol and DeleteSymbol change exactly the entries named here, in any table. *)
Theorem C113_table :
  (forall t n a t', AddSymbol t n a = (t', Ok tt) <-> a <> 0 /\ added t n a t') /\
  (forall t n t', DeleteSymbol t n = (t', true) <-> deleted t n t') /\
  (forall t n a t1 t2, added t n a t1 -> added t n a t2 -> t1 = t2) /\ (forall t n t1 t2, deleted t n t1 -> deleted t n t2 -> t1 = t2).
Proof. exact table_exact. Qed.
Print Assumptions C113_table.
(** put: the file, then, if the symbol has yet to be given to it, files 3 and 4 with the table to which
    the symbol has been added. *)
Theorem C113_put : forall (iter : list (Z * Subdirectory) -> list (Z * Subdirectory)) fuel order system ft ow addr img tgt src w w' s,
  run (PutCmd_Run iter fuel order system ft ow addr img tgt src) w = (w', Ok tt) ->
  input w src s -> s <> [] -> is_ascii tgt ->
  exists c o d t d' new,
    input w img c /\ naked_image c o d /\ (ProdosSpec.an_order iter -> only_seen img order system c o d) /\ names_on d t /\
    output w w' img new /\ naked_image new o d' /\ put_changes d t tgt s d'.
Proof. exact put_changes_run. Qed.
Print Assumptions C113_put.
(** mkhello is a put of sixteen bytes. *)
Theorem C113_mkhello : forall (iter : list (Z * Subdirectory) -> list (Z * Subdirectory)) fuel order img name address start0 w w',
  run (MkHelloCmd_Run iter fuel order img name address start0) w = (w', Ok tt) ->
  0 <= address < 65536 -> 0 <= start0 < 65536 ->
  let start := if start0 =? 0xFFFF then address else start0 in
  exists c o d t d' new f,
    input w img c /\ naked_image c o d /\ (ProdosSpec.an_order iter -> only_seen img order (s2b "auto") c o d) /\ names_on d t /\ target t name f /\
    output w w' img new /\ naked_image new o d' /\
    put_changes d t (s2b "DF01:FHELLO") [0x20; 0x40; 0x03; 0x6D; 0x01; 0xDC; 0x2C; f; 0xDF; 0x2C; 0; address / 256; 0xD8; 0x4C; start mod 256; start / 256] d'.
Proof. exact mkhello_changes_run. Qed.
Print Assumptions C113_mkhello.
(** rm changes the map and, if the name is in the table, files 3 and 4.  The sectors of the file are
    free but hold its data still. *)
Theorem C113_rm : forall (iter : list (Z * Subdirectory) -> list (Z * Subdirectory)) fuel order system missingOk img name w w',
  run (DeleteCmd_Run iter fuel order system missingOk img name) w = (w', Ok tt) ->
  exists c o d t d' new,
    input w img c /\ naked_image c o d /\ (ProdosSpec.an_order iter -> only_seen img order system c o d) /\ names_on d t /\
    output w w' img new /\ naked_image new o d' /\ rm_changes d t name d'.
Proof. exact rm_changes_run. Qed.
Print Assumptions C113_rm.
(** On a disk with file 5 in sector 272 and another file in sector 13: where two new sectors go, and
    where file 5 goes when it is written again. *)
Example C113_example : let d := map_disk (zset five_map 13 9) in
  floppy d (zset five_map 13 9) /\ taken d 6 (repeat 7 300) = [12; 14] /\ taken d 5 (repeat 7 300) = [12; 14] /\
  zlen (room d 6) = 546 /\ zlen (room d 5) = 547.
Proof. exact place_example. Qed.
Example C113_put_example : forall (iter : list (Z * Subdirectory) -> list (Z * Subdirectory)) fuel, exists w w' s,
  input w (s2b "f") s /\ s <> [] /\ is_ascii (s2b "40:cout") /\
  run (PutCmd_Run iter fuel (s2b "auto") (s2b "auto") (s2b "B") false 0 (s2b "x.do") (s2b "40:cout") (s2b "f")) w = (w', Ok tt).
Proof. exact place_put_example. Qed.
Example C113_mkhello_example : forall (iter : list (Z * Subdirectory) -> list (Z * Subdirectory)) fuel, exists w w',
  run (MkHelloCmd_Run iter fuel (s2b "auto") (s2b "x.do") (s2b "DF05") 0x2000 0xFFFF) w = (w', Ok tt).
Proof. exact mkhello_example. Qed.
Example C113_rm_example : forall (iter : list (Z * Subdirectory) -> list (Z * Subdirectory)) fuel, exists w w',
  run (DeleteCmd_Run iter fuel (s2b "auto") (s2b "auto") false (s2b "x.do") (s2b "DF05")) w = (w', Ok tt).
Proof. exact rm_example. Qed.
(** The bytes of the entries of a table. *)
Example C113_name_example : name_code (s2b "FHELLO") = 6 + 32 * (8 + 32 * (5 + 32 * (12 + 32 * (12 + 32 * 15)))) /\
  name_code (s2b "A09") = 1 + 32 * (27 + 64 * 63) /\ link_addr 3 = 0xD00F.
Proof. repeat split; reflexivity. Qed.
(** A symbol added to a table of three entries joins the chain of its hash; another, renamed to an
    address of another hash, keeps its entry. *)
Example C113_table_example : let t := [Sym 0xDF05 (s2b "A") (-1); sym0; Sym 0xDF06 (s2b "B") (-1)] in
  added t (s2b "C") 0xDE04 [Sym 0xDF05 (s2b "A") 1; Sym 0xDE04 (s2b "C") (-1); Sym 0xDF06 (s2b "B") (-1)] /\
  added t (s2b "b") 0xDE04 [Sym 0xDF05 (s2b "A") 2; sym0; Sym 0xDE04 (s2b "b") (-1)] /\
  deleted [Sym 0xDF05 (s2b "A") 1; Sym 0xDE04 (s2b "C") (-1)] (s2b "c") [Sym 0xDF05 (s2b "A") (-1); Sym 0 [] (-1)].
Proof. exact table_example. Qed.
