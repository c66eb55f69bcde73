(** PropertiesSpell.v -- property C116: the ways to write the name of a NakedOS file, and mkhello as a put
    (cmd/put.go, cmd/delete.go, cmd/dump.go, cmd/nakedos.go, supermon/supermon.go). *)
From Verif Require Import GoBase TypesModel SupermonModel SupermonSpec SupermonTableSpec SupermonOpProofs SupermonFinalProofs.
From Verif Require ProdosSpec Dos3StmtProofs.
From Verif Require Import ProdosModel CmdModel CmdSpec MainModel NakedCmdSpec DetectSpec SessionSpec StatusSpec SpellSpec SpellProofs SpellCmdProofs SpellExProofs.

(** ** C116 *)
(** Upper or lower case makes no difference to put, rm and mkhello: on any image, valid or not, with any
    flags, they end in the same way and leave every file, standard input and standard output the same. *)
Theorem C116_case : forall (iter : list (Z * Subdirectory) -> list (Z * Subdirectory)) fuel n n' w, upcase n = upcase n' ->
  (forall order system ft ow addr img src, main_run (PutCmd_Run iter fuel order system ft ow addr img n src) w = main_run (PutCmd_Run iter fuel order system ft ow addr img n' src) w) /\
  (forall order system force img, main_run (DeleteCmd_Run iter fuel order system force img n) w = main_run (DeleteCmd_Run iter fuel order system force img n') w) /\
  (forall order img a s, main_run (MkHelloCmd_Run iter fuel order img n a s) w = main_run (MkHelloCmd_Run iter fuel order img n' a s) w).
Proof. exact edits_alike. Qed.
Print Assumptions C116_case.
(** On a NakedOS image dump may be given any name of the file, in any case. *)
Theorem C116_dump : forall (iter : list (Z * Subdirectory) -> list (Z * Subdirectory)) img order system c d o t n n' w,
  ProdosSpec.an_order iter -> seen_as img order c (s2b "nakedos") d o -> (system = s2b "auto" \/ system = s2b "nakedos") -> names_on d t -> input w img c ->
  upcase n = upcase n' \/ (exists f, resolves t n f /\ resolves t n' f) ->
  eventually (fun k => main_run (DumpCmd_Run iter k order system img n) w = main_run (DumpCmd_Run iter k order system img n') w).
Proof. exact dump_same. Qed.
Print Assumptions C116_dump.
(** put depends on its target only through what it means: the file, and the symbol to be given to it if
    it does not have it yet.  So a file may be put by number, by its symbol or by both, and a new
    name may be given with or without the number that is free. *)
Theorem C116_put : forall (iter : list (Z * Subdirectory) -> list (Z * Subdirectory)) img order system c d o t n f q e n' q' e' ft ow addr addr' src w,
  ProdosSpec.an_order iter -> seen_as img order c (s2b "nakedos") d o -> (system = s2b "auto" \/ system = s2b "nakedos") -> names_on d t -> input w img c ->
  put_meaning d t n f q e -> put_meaning d t n' f q' e' -> same_meaning q e q' e' ->
  eventually (fun k => main_run (PutCmd_Run iter k order system ft ow addr img n src) w = main_run (PutCmd_Run iter k order system ft ow addr' img n' src) w).
Proof. exact put_same. Qed.
Print Assumptions C116_put.
(** rm removes the symbol it is given, so numbers and symbols are not the same to it; numbers are. *)
Theorem C116_rm : forall (iter : list (Z * Subdirectory) -> list (Z * Subdirectory)) img order system c d o t n n' f force w,
  ProdosSpec.an_order iter -> seen_as img order c (s2b "nakedos") d o -> (system = s2b "auto" \/ system = s2b "nakedos") -> names_on d t -> input w img c ->
  no_numeric_symbols t -> numeric n f -> numeric n' f ->
  eventually (fun k => main_run (DeleteCmd_Run iter k order system force img n) w = main_run (DeleteCmd_Run iter k order system force img n') w).
Proof. exact rm_same. Qed.
Print Assumptions C116_rm.
Theorem C116_mkhello : forall (iter : list (Z * Subdirectory) -> list (Z * Subdirectory)) img order c d o t n n' f a s w,
  ProdosSpec.an_order iter -> seen_as img order c (s2b "nakedos") d o -> names_on d t -> input w img c -> target t n f -> target t n' f ->
  eventually (fun k => main_run (MkHelloCmd_Run iter k order img n a s) w = main_run (MkHelloCmd_Run iter k order img n' a s) w).
Proof. exact mkhello_same. Qed.
Print Assumptions C116_mkhello.
(** mkhello does what put --overwrite of the loader as DF01:FHELLO does. *)
Theorem C116_mkhello_put : forall (iter : list (Z * Subdirectory) -> list (Z * Subdirectory)) img order c d o t n f a s0 ft addr src r w,
  ProdosSpec.an_order iter -> seen_as img order c (s2b "nakedos") d o -> names_on d t -> input w img c -> target t n f -> 0 <= a < 65536 -> 0 <= s0 < 65536 ->
  let start := if s0 =? 0xFFFF then a else s0 in
  a mod 256 = 0 -> a <= start -> binary ft = true -> src <> s2b "-" ->
  w_fs w src = NFile [0x20; 0x40; 0x03; 0x6D; 0x01; 0xDC; 0x2C; f; 0xDF; 0x2C; 0; a / 256; 0xD8; 0x4C; start mod 256; start / 256] true r ->
  eventually (fun k => main_run (MkHelloCmd_Run iter k order img n a s0) w = main_run (PutCmd_Run iter k order (s2b "auto") ft true addr img (s2b "DF01:FHELLO") src) w).
Proof. exact mkhello_put. Qed.
Print Assumptions C116_mkhello_put.
(** On this disk FHELLO is file 5 and file 1 is unused; the put in the third line succeeds. *)
Example C116_example : forall iter fuel, exists w w' c d,
  input w (s2b "x.do") c /\ seen_as (s2b "x.do") (s2b "auto") c (s2b "nakedos") d (s2b "do") /\ names_on d ex_table /\
  run (PutCmd_Run iter fuel (s2b "auto") (s2b "auto") (s2b "B") false 0 (s2b "x.do") (s2b "NEWFILE") (s2b "f")) w = (w', Ok tt) /\
  put_meaning d ex_table (s2b "NEWFILE") 1 (s2b "NEWFILE") true /\ put_meaning d ex_table (s2b "df01:NewFile") 1 (s2b "NewFile") true /\ upcase (s2b "NEWFILE") = upcase (s2b "NewFile") /\
  put_meaning d ex_table (s2b "5") 5 [] false /\ put_meaning d ex_table (s2b "FHello") 5 (s2b "FHello") false /\ put_meaning d ex_table (s2b "05:FHELLO") 5 (s2b "FHELLO") false /\
  valid_name [] /\ valid_name (s2b "FHello") /\ valid_name (s2b "FHELLO") /\
  resolves ex_table (s2b "FHello") 5 /\ resolves ex_table (s2b "DF05") 5 /\ target ex_table (s2b "FHello") 5 /\ target ex_table (s2b "5:ANYNAME") 5 /\
  numeric (s2b "DF05") 5 /\ numeric (s2b "5") 5 /\ no_numeric_symbols ex_table.
Proof. exact spell_example. Qed.
Example C116_mkhello_example : exists w c d,
  seen_as (s2b "x.do") (s2b "auto") c (s2b "nakedos") d (s2b "do") /\ names_on d ex_table /\ input w (s2b "x.do") c /\ target ex_table (s2b "FHELLO") 5 /\ binary (s2b "B") = true /\
  w_fs w (s2b "f") = NFile [0x20; 0x40; 0x03; 0x6D; 0x01; 0xDC; 0x2C; 5; 0xDF; 0x2C; 0; 0x2000 / 256; 0xD8; 0x4C; 0x2000 mod 256; 0x2000 / 256] true true.
Proof. exact loader_example. Qed.
(** The names of DOS 3.3 files are compared letter by letter. *)
Example C116_dos3_example : forall iter w, ProdosSpec.an_order iter -> input w (s2b "x.dsk") Dos3StmtProofs.ex_dos_disk -> w_outroom w = None ->
  eventually (fun k => prints (DumpCmd_Run iter k (s2b "auto") (s2b "auto") (s2b "x.dsk") (s2b "HELLO")) w [1; 2; 3; 4; 5]) /\
  eventually (fun k => fails_cleanly (DumpCmd_Run iter k (s2b "auto") (s2b "auto") (s2b "x.dsk") (s2b "hello")) w).
Proof. exact dos_case. Qed.
