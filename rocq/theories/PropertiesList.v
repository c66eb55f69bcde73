(** PropertiesList.v -- property C89 (cmd/catalog.go, cmd/dump.go, cmd/delete.go). *)
From Verif Require Import GoBase GoLemmas DiskSpec SupermonModel SupermonSpec SupermonTableSpec SupermonStoreSpec SupermonNameProofs SupermonStmtProofs SupermonFinalProofs.
From Verif Require Dos3Model Dos3Spec Dos3StmtProofs.
From Verif Require ProdosSpec.
From Verif Require Import ProdosModel CmdModel CmdSpec NakedCmdSpec NakedOpenProofs DetectSpec DetectProofs ListSpec ListProofs ListTwinProofs.

(** ** C89 *)
(** In full: the name ls prints for a file is a name by which dump finds it.  This is false.
    Without --short, ls prints NakedOS files that have a symbol as DF05:HELLO; neither dump nor rm
    accepts that, for any such file on any disk. *)
Theorem C89_full_names_refuted : forall iter img order system c d o t f n force w,
  ProdosSpec.an_order iter -> seen_as img order c (s2b "nakedos") d o ->
  (system = s2b "auto" \/ system = s2b "nakedos") -> names_on d t -> input w img c -> w_outroom w = None ->
  legal f -> file_on d f <> [] -> symbol_for t f = Some n ->
  eventually (fun fuel =>
    shows_line (LsCmd_Run iter fuel order system false img []) w (printed f ++ 58 :: n) /\
    fails_cleanly (DumpCmd_Run iter fuel order system img (printed f ++ 58 :: n)) w /\
    fails_cleanly (DeleteCmd_Run iter fuel order system force img (printed f ++ 58 :: n)) w).
Proof. exact full_names. Qed.
Print Assumptions C89_full_names_refuted.
(** With --short, a symbol that reads as a file number gives the file of that number. *)
Theorem C89_numeric_symbol_refuted : forall iter img order system c d o t f g n w,
  ProdosSpec.an_order iter -> seen_as img order c (s2b "nakedos") d o ->
  (system = s2b "auto" \/ system = s2b "nakedos") -> names_on d t -> input w img c -> w_outroom w = None ->
  legal f -> file_on d f <> [] -> symbol_for t f = Some n -> numeric n g -> file_on d g <> [] ->
  eventually (fun fuel =>
    shows_line (LsCmd_Run iter fuel order system true img []) w n /\
    prints (DumpCmd_Run iter fuel order system img n) w (file_on d g)).
Proof. exact numeric_names. Qed.
Print Assumptions C89_numeric_symbol_refuted.
(** On DOS 3.3 disks, files that are not of type T, I, A or B are listed, but not printed. *)
Theorem C89_dos3_types_refuted : forall iter img order system c d o l e n w,
  ProdosSpec.an_order iter -> seen_as img order c (s2b "dos3") d o ->
  (system = s2b "auto" \/ system = s2b "dos3") -> bytes_ok d -> Dos3Spec.catalog d l -> input w img c -> w_outroom w = None ->
  Dos3Spec.lookup (Dos3Spec.entries d l) n e -> ~ In (znth 0 e 2 mod 128) [0; 1; 2; 4] ->
  eventually (fun fuel =>
    (forall short, shows_line (LsCmd_Run iter fuel order system short img []) w n) /\
    fails_cleanly (DumpCmd_Run iter fuel order system img n) w).
Proof. exact dos_types. Qed.
Print Assumptions C89_dos3_types_refuted.
(** And those whose length bytes claim more than the file holds are listed, but make dump crash. *)
Theorem C89_dos3_crash_refuted : forall iter img order system c d o l e n ls data w,
  ProdosSpec.an_order iter -> seen_as img order c (s2b "dos3") d o ->
  (system = s2b "auto" \/ system = s2b "dos3") -> bytes_ok d -> Dos3Spec.catalog d l -> input w img c -> w_outroom w = None ->
  Dos3Spec.lookup (Dos3Spec.entries d l) n e -> Dos3Spec.body d (znth 0 e 0, znth 0 e 1) ls data ->
  Dos3Spec.fatal (znth 0 e 2 mod 128) (zlen ls) data ->
  eventually (fun fuel =>
    (forall short, shows_line (LsCmd_Run iter fuel order system short img []) w n) /\
    exists w', run (DumpCmd_Run iter fuel order system img n) w = (w', Panic)).
Proof. exact dos_fatal. Qed.
Print Assumptions C89_dos3_crash_refuted.
(** And of several files of one name, dump prints the first; the others cannot be reached. *)
Theorem C89_dos3_same_name_refuted : forall iter img order system c d o l a e b e2 n ls data start out w,
  ProdosSpec.an_order iter -> seen_as img order c (s2b "dos3") d o ->
  (system = s2b "auto" \/ system = s2b "dos3") -> bytes_ok d -> Dos3Spec.catalog d l -> input w img c -> w_outroom w = None ->
  Dos3Spec.entries d l = a ++ e :: b -> Dos3Spec.is_live e = true -> Dos3Spec.entry_name e n ->
  (forall x, In x a -> Dos3Spec.is_live x = true -> ~ Dos3Spec.entry_name x n) ->
  In e2 b -> Dos3Spec.is_live e2 = true -> Dos3Spec.entry_name e2 n ->
  Dos3Spec.body d (znth 0 e 0, znth 0 e 1) ls data -> Dos3Spec.decoded (znth 0 e 2 mod 128) (zlen ls) data start out ->
  eventually (fun fuel =>
    (forall short, shows_line (LsCmd_Run iter fuel order system short img []) w n) /\
    prints (DumpCmd_Run iter fuel order system img n) w out /\
    forall ls2 data2 start2 out2, Dos3Spec.body d (znth 0 e2 0, znth 0 e2 1) ls2 data2 ->
      Dos3Spec.decoded (znth 0 e2 2 mod 128) (zlen ls2) data2 start2 out2 -> out2 <> out ->
      ~ prints (DumpCmd_Run iter fuel order system img n) w out2).
Proof. exact dos_twins. Qed.
Print Assumptions C89_dos3_same_name_refuted.
(** On NakedOS disks with --short, for every file: ls shows [shown t f], its symbol or else its number; dump
    of that name prints the file to which the name resolves, or fails if that is none.  Whether
    that is the file listed depends on the symbols alone. *)
Theorem C89_short_exact : forall iter img order system c d o t f w,
  ProdosSpec.an_order iter -> seen_as img order c (s2b "nakedos") d o ->
  (system = s2b "auto" \/ system = s2b "nakedos") -> names_on d t -> input w img c -> w_outroom w = None ->
  legal f -> file_on d f <> [] ->
  eventually (fun fuel => shows_line (LsCmd_Run iter fuel order system true img []) w (shown t f)) /\
  ((exists g, resolves t (shown t f) g /\ file_on d g <> [] /\
      eventually (fun fuel => prints (DumpCmd_Run iter fuel order system img (shown t f)) w (file_on d g))) \/
   (~ (exists g, resolves t (shown t f) g /\ file_on d g <> []) /\
      eventually (fun fuel => fails_cleanly (DumpCmd_Run iter fuel order system img (shown t f)) w))).
Proof. exact short_exact. Qed.
Print Assumptions C89_short_exact.
(** In particular the claim holds when the symbols are unambiguous.  For all others, see the last
    theorem. *)
Theorem C89_short_names_partial : forall iter img order system c d o t f w,
  ProdosSpec.an_order iter -> seen_as img order c (s2b "nakedos") d o ->
  (system = s2b "auto" \/ system = s2b "nakedos") -> names_on d t -> input w img c -> w_outroom w = None ->
  legal f -> file_on d f <> [] ->
  (forall n, symbol_for t f = Some n -> n <> [] /\ (forall g, numeric n g -> g = f)) -> names_unique t ->
  eventually (fun fuel =>
    shows_line (LsCmd_Run iter fuel order system true img []) w (shown t f) /\
    prints (DumpCmd_Run iter fuel order system img (shown t f)) w (file_on d f)).
Proof. exact short_names. Qed.
Print Assumptions C89_short_names_partial.
(** Proved on DOS 3.3 disks for the first well-formed file of a name.  The others: see above. *)
Theorem C89_dos3_partial : forall iter img order system c d o l e n ls data start out w,
  ProdosSpec.an_order iter -> seen_as img order c (s2b "dos3") d o ->
  (system = s2b "auto" \/ system = s2b "dos3") -> bytes_ok d -> Dos3Spec.catalog d l -> input w img c -> w_outroom w = None ->
  Dos3Spec.lookup (Dos3Spec.entries d l) n e ->
  Dos3Spec.body d (znth 0 e 0, znth 0 e 1) ls data -> Dos3Spec.decoded (znth 0 e 2 mod 128) (zlen ls) data start out ->
  eventually (fun fuel =>
    (forall short, shows_line (LsCmd_Run iter fuel order system short img []) w n) /\
    prints (DumpCmd_Run iter fuel order system img n) w out).
Proof. exact dos_names. Qed.
Print Assumptions C89_dos3_partial.
(** A disk on which file 5 is called FHELLO; one on which it is called DF03; a DOS 3.3 disk with a
    file MEMO of type S; and one with a file LONG whose length is too great (whose other files are those
    of the example of C81). *)
Example C89_names_example : exists c d, seen_as (s2b "x.do") (s2b "auto") c (s2b "nakedos") d (s2b "do") /\ names_on d ex_table /\
  file_on d 5 <> [] /\ symbol_for ex_table 5 = Some (s2b "FHELLO") /\ names_unique ex_table /\
  (forall g, ~ numeric (s2b "FHELLO") g).
Proof. exact names_example. Qed.
Example C89_numeric_example : exists c d, seen_as (s2b "x.do") (s2b "auto") c (s2b "nakedos") d (s2b "do") /\ names_on d odd_table /\
  file_on d 5 <> [] /\ symbol_for odd_table 5 = Some (s2b "DF03") /\ numeric (s2b "DF03") 3 /\ file_on d 3 <> [].
Proof. exact odd_example. Qed.
Example C89_types_example : exists e, seen_as (s2b "x.dsk") (s2b "auto") ex_types_disk (s2b "dos3") ex_types_disk (s2b "do") /\
  bytes_ok ex_types_disk /\ Dos3Spec.catalog ex_types_disk [(17, 15); (17, 14)] /\
  Dos3Spec.lookup (Dos3Spec.entries ex_types_disk [(17, 15); (17, 14)]) (s2b "MEMO") e /\ znth 0 e 2 mod 128 = 8.
Proof. exact types_example. Qed.
Example C89_crash_example : exists e ls data,
  Dos3Spec.lookup (Dos3Spec.entries Dos3StmtProofs.ex_dos_disk [(17, 15); (17, 14)]) (s2b "LONG") e /\
  Dos3Spec.body Dos3StmtProofs.ex_dos_disk (znth 0 e 0, znth 0 e 1) ls data /\ Dos3Spec.fatal (znth 0 e 2 mod 128) (zlen ls) data.
Proof. exact fatal_example. Qed.
(** A NakedOS disk on which the files 3 and 5 are both called FHELLO, and a DOS 3.3 disk with two files
    called DATA. *)
Example C89_twin_symbol_example : exists c d, seen_as (s2b "x.do") (s2b "auto") c (s2b "nakedos") d (s2b "do") /\ names_on d twin_table /\
  file_on d 5 <> [] /\ shown twin_table 5 = s2b "FHELLO" /\ resolves twin_table (s2b "FHELLO") 3 /\ file_on d 3 <> [] /\ file_on d 3 <> file_on d 5.
Proof. exact twin_symbol_example. Qed.
Example C89_same_name_example : exists a e b e2 ls data start out ls2 data2 start2 out2,
  seen_as (s2b "x.dsk") (s2b "auto") ex_twin_disk (s2b "dos3") ex_twin_disk (s2b "do") /\ bytes_ok ex_twin_disk /\
  Dos3Spec.catalog ex_twin_disk [(17, 15); (17, 14)] /\
  Dos3Spec.entries ex_twin_disk [(17, 15); (17, 14)] = a ++ e :: b /\ Dos3Spec.is_live e = true /\ Dos3Spec.entry_name e (s2b "DATA") /\
  (forall x, In x a -> Dos3Spec.is_live x = true -> ~ Dos3Spec.entry_name x (s2b "DATA")) /\
  In e2 b /\ Dos3Spec.is_live e2 = true /\ Dos3Spec.entry_name e2 (s2b "DATA") /\
  Dos3Spec.body ex_twin_disk (znth 0 e 0, znth 0 e 1) ls data /\ Dos3Spec.decoded (znth 0 e 2 mod 128) (zlen ls) data start out /\
  Dos3Spec.body ex_twin_disk (znth 0 e2 0, znth 0 e2 1) ls2 data2 /\ Dos3Spec.decoded (znth 0 e2 2 mod 128) (zlen ls2) data2 start2 out2 /\ out2 <> out.
Proof. exact twin_dos_example. Qed.
