(** PropertiesNaked.v -- properties C68, C69, C76 and C77: put, rm, mkhello and dump on NakedOS images. *)
From Verif Require Import RmForceProofs.
From Verif Require Import GoBase TypesModel DiskSpec SupermonModel SupermonSpec SupermonTableSpec ProdosModel CmdModel CmdSpec NakedCmdSpec
  SupermonFinalProofs NakedCmdProofs NakedOpenProofs NakedExProofs NakedNameProofs DetectSpec ListSpec NakedSeenProofs.
From Verif Require ProdosSpec.

(** ** C68 *)
Theorem C68_mkhello_program : forall (iter : list (Z * Subdirectory) -> list (Z * Subdirectory)) fuel order img name address start0 w w',
  run (MkHelloCmd_Run iter fuel order img name address start0) w = (w', Ok tt) ->
  0 <= address < 65536 -> 0 <= start0 < 65536 ->
  let start := if start0 =? 0xFFFF then address else start0 in
  address mod 256 = 0 /\ address <= start /\
  exists c o d t d' new f,
    input w img c /\ naked_image c o d /\ opened_order img order o /\
    (ProdosSpec.an_order iter -> only_seen img order (s2b "auto") c o d) /\ names_on d t /\ target t name f /\ legal f /\
    output w w' img new /\ naked_image new o d' /\
    file_on d' 1 = [0x20; 0x40; 0x03; 0x6D; 0x01; 0xDC; 0x2C; f; 0xDF; 0x2C; 0; address / 256; 0xD8; 0x4C;
                    start mod 256; start / 256] ++ zeros 240 /\
    (forall g, legal g -> g <> 1 -> g <> 3 -> g <> 4 -> file_on d' g = file_on d g).
Proof. exact mkhello_run_seen. Qed.
Print Assumptions C68_mkhello_program.
Example C68_example : forall (iter : list (Z * Subdirectory) -> list (Z * Subdirectory)) fuel, exists w w',
  run (MkHelloCmd_Run iter fuel (s2b "auto") (s2b "x.do") (s2b "DF05") 0x2000 0xFFFF) w = (w', Ok tt).
Proof. exact mkhello_example. Qed.

(** ** C69 *)
(** The flag does not help when the name is not on the disk at all: Delete reports that as an
    error of its own. *)
Theorem C69_rm_force_refuted : forall (iter : list (Z * Subdirectory) -> list (Z * Subdirectory)) fuel, exists w img name c o d t,
  input w img c /\ naked_image c o d /\ names_on d t /\ (forall f, ~ resolves t name f) /\
  w_room w = None /\ w_outroom w = None /\ can_output w img true /\
  exists w', run (DeleteCmd_Run iter fuel (s2b "auto") (s2b "auto") true img name) w = (w', Err EFileNotFound) /\ same_files w w'.
Proof. exact rm_f_refuted. Qed.
Print Assumptions C69_rm_force_refuted.
(** Every name that means nothing on the disk is such an error, with or without the flag. *)
Theorem C69_unknown_name : forall (iter : list (Z * Subdirectory) -> list (Z * Subdirectory)) fuel order system force img name w c op o,
  input w img c ->
  DiskModel.OpenImage c (image_name img) order system (DiskOperatorFactories iter fuel) = Ok (ONaked op, o) ->
  (forall f, ~ resolves (st_of op) name f) ->
  exists w', run (DeleteCmd_Run iter fuel order system force img name) w = (w', Err EFileNotFound) /\ same_files w w'.
Proof. exact rm_unknown. Qed.
Print Assumptions C69_unknown_name.
(** A number that is not the spelling of a symbol: rm -f leaves the image as it was. *)
Theorem C69_rm_force_partial : forall (iter : list (Z * Subdirectory) -> list (Z * Subdirectory)) fuel order system img name w c op o f,
  input w img c ->
  DiskModel.OpenImage c (image_name img) order system (DiskOperatorFactories iter fuel) = Ok (ONaked op, o) ->
  numeric name f -> file_on (op_data op) f = [] ->
  (forall j, 0 <= j < zlen (st_of op) -> equal_fold name (nm (st_of op) j) = false) ->
  (exists w', run (DeleteCmd_Run iter fuel order system false img name) w =
     (w', Err (EOther "file not found (use -f to prevent this being an error)")) /\ same_files w w') /\
  (forall w' r, run (DeleteCmd_Run iter fuel order system true img name) w = (w', r) ->
     (r = Ok tt -> output w w' img c) /\
     (w_room w = None -> w_outroom w = None -> can_output w img true -> r = Ok tt)).
Proof. exact rm_absent. Qed.
Print Assumptions C69_rm_force_partial.
Example C69_example : forall (iter : list (Z * Subdirectory) -> list (Z * Subdirectory)) fuel, exists c op,
  DiskModel.OpenImage c (image_name (s2b "x.do")) (s2b "auto") (s2b "auto") (DiskOperatorFactories iter fuel) = Ok (ONaked op, s2b "do") /\
  numeric (s2b "DF20") 32 /\ file_on (op_data op) 32 = [] /\ st_of op = [].
Proof. exact rm_f_example. Qed.
(** A number or symbol for a file that does not exist: an error without the flag; with it, rm succeeds
    if the table can be written (the symbol is removed), and no file but the table's changes. *)
Theorem C69_rm_gone : forall (iter : list (Z * Subdirectory) -> list (Z * Subdirectory)) fuel order system img name w c op o f,
  input w img c ->
  DiskModel.OpenImage c (image_name img) order system (DiskOperatorFactories iter fuel) = Ok (ONaked op, o) ->
  resolves (st_of op) name f -> file_on (op_data op) f = [] ->
  (exists w' e, run (DeleteCmd_Run iter fuel order system false img name) w = (w', Err e) /\ same_files w w') /\
  (forall w' r, run (DeleteCmd_Run iter fuel order system true img name) w = (w', r) ->
     (r = Ok tt -> exists new d', output w w' img new /\ naked_image new o d' /\
        forall g, legal g -> g <> 3 -> g <> 4 -> file_on d' g = file_on (op_data op) g) /\
     (bytes_ok c -> Forall (fun s => valid_name (s_name s)) (st_of op) -> f <> 3 -> f <> 4 ->
      w_room w = None -> w_outroom w = None -> can_output w img true -> r = Ok tt)).
Proof. exact rm_gone. Qed.
Print Assumptions C69_rm_gone.
Example C69_gone_example : forall (iter : list (Z * Subdirectory) -> list (Z * Subdirectory)) fuel, exists c op,
  DiskModel.OpenImage c (image_name (s2b "x.do")) (s2b "auto") (s2b "auto") (DiskOperatorFactories iter fuel) = Ok (ONaked op, s2b "do") /\
  bytes_ok c /\ (forall g, ~ numeric (s2b "FHELLO") g) /\ resolves (st_of op) (s2b "FHELLO") 1 /\ file_on (op_data op) 1 = [] /\
  Forall (fun s => valid_name (s_name s)) (st_of op).
Proof. exact rm_gone_example. Qed.

(** ** C76 *)
Theorem C76_put_effect : forall (iter : list (Z * Subdirectory) -> list (Z * Subdirectory)) fuel order system ft ow addr img tgt src w w' s,
  run (PutCmd_Run iter fuel order system ft ow addr img tgt src) w = (w', Ok tt) ->
  input w src s -> s <> [] ->
  exists c o d t d' new f,
    input w img c /\ naked_image c o d /\ opened_order img order o /\
    (ProdosSpec.an_order iter -> only_seen img order system c o d) /\ names_on d t /\ output w w' img new /\ naked_image new o d' /\
    FiletypeForName ft = Ok FiletypeBinary /\ legal f /\
    (target t tgt f \/ (no_colon tgt /\ (forall g, ~ resolves t tgt g) /\ file_on d f = [])) /\
    (file_on d f <> [] -> ow = true) /\
    (f <> 3 -> f <> 4 -> file_on d' f = padded s) /\
    (forall g, legal g -> g <> f -> g <> 3 -> g <> 4 -> file_on d' g = file_on d g) /\
    (no_colon tgt -> resolves t tgt f -> file_on d' f = padded s /\ forall g, legal g -> g <> f -> file_on d' g = file_on d g).
Proof. exact put_run_seen. Qed.
Print Assumptions C76_put_effect.
Theorem C76_rm_effect : forall (iter : list (Z * Subdirectory) -> list (Z * Subdirectory)) fuel order system missingOk img name w w',
  run (DeleteCmd_Run iter fuel order system missingOk img name) w = (w', Ok tt) ->
  exists c o d t d' new f,
    input w img c /\ naked_image c o d /\ opened_order img order o /\
    (ProdosSpec.an_order iter -> only_seen img order system c o d) /\ names_on d t /\ output w w' img new /\ naked_image new o d' /\
    legal f /\ resolves t name f /\ (missingOk = false -> file_on d f <> []) /\
    (f <> 3 -> f <> 4 -> file_on d' f = []) /\
    (forall g, legal g -> g <> f -> g <> 3 -> g <> 4 -> file_on d' g = file_on d g).
Proof. exact rm_run_seen. Qed.
Print Assumptions C76_rm_effect.
Example C76_put_example : forall (iter : list (Z * Subdirectory) -> list (Z * Subdirectory)) fuel, exists w w' new,
  input w (s2b "f") (repeat 7 300) /\ numeric (s2b "DF06") 6 /\
  run (PutCmd_Run iter fuel (s2b "auto") (s2b "auto") (s2b "B") false 0 (s2b "x.do") (s2b "DF06") (s2b "f")) w = (w', Ok tt) /\
  output w w' (s2b "x.do") new /\ first_order (s2b "x.do") (s2b "auto") (s2b "do") /\ release_byte new <> 3.
Proof. exact put_dump_example. Qed.
Example C76_rm_example : forall (iter : list (Z * Subdirectory) -> list (Z * Subdirectory)) fuel, exists w w',
  run (DeleteCmd_Run iter fuel (s2b "auto") (s2b "auto") false (s2b "x.do") (s2b "DF05")) w = (w', Ok tt).
Proof. exact rm_example. Qed.

(** ** C77 *)
(** A file whose bytes look like a DOS 3.3 VTOC, stored in track 17 sector 0, turns the disk
    into a DOS 3.3 disk for every later command: the file is there but cannot be dumped. *)
Theorem C77_put_then_dump_refuted : forall (iter : list (Z * Subdirectory) -> list (Z * Subdirectory)) fuel, exists w img tgt src s w' new,
  input w src s /\ s <> [] /\ numeric tgt 6 /\
  run (PutCmd_Run iter (S fuel) (s2b "do") (s2b "auto") (s2b "B") false 0 img tgt src) w = (w', Ok tt) /\
  output w w' img new /\ exists o d', naked_image new o d' /\ file_on d' 6 = s /\
  forall w2, input w2 img new ->
    exists w3, run (DumpCmd_Run iter (S fuel) (s2b "do") (s2b "auto") img tgt) w2 = (w3, Err (EOther "filename not found")).
Proof. exact put_dump_refuted. Qed.
Print Assumptions C77_put_then_dump_refuted.
(** Missing: symbolic targets (next theorem; number:name in C90_put_named), and images whose
    order is not the one tried first (in C90_put_known, for every way in which the new image is seen). *)
Theorem C77_put_then_dump_partial : forall (iter : list (Z * Subdirectory) -> list (Z * Subdirectory)) fuel order ft ow addr img tgt src w w' s f,
  run (PutCmd_Run iter fuel order (s2b "auto") ft ow addr img tgt src) w = (w', Ok tt) ->
  input w src s -> s <> [] -> numeric tgt f ->
  exists o new, opened_order img order o /\ output w w' img new /\
    (first_order img order o -> release_byte new <> 3 ->
     forall w2, input w2 img new -> w_outroom w2 = None ->
     exists w3, run (DumpCmd_Run iter fuel order (s2b "auto") img tgt) w2 = (w3, Ok tt) /\ same_files w2 w3 /\
       w_stdout w3 = w_stdout w2 ++ padded s).
Proof. exact put_dump. Qed.
Print Assumptions C77_put_then_dump_partial.
Example C77_put_then_dump_example : forall (iter : list (Z * Subdirectory) -> list (Z * Subdirectory)) fuel, exists w w' new,
  input w (s2b "f") (repeat 7 300) /\ numeric (s2b "DF06") 6 /\
  run (PutCmd_Run iter fuel (s2b "auto") (s2b "auto") (s2b "B") false 0 (s2b "x.do") (s2b "DF06") (s2b "f")) w = (w', Ok tt) /\
  output w w' (s2b "x.do") new /\ first_order (s2b "x.do") (s2b "auto") (s2b "do") /\ release_byte new <> 3.
Proof. exact put_dump_example. Qed.

(** The same for symbolic names.  The name resolves on the written disk, to a file with the
    bytes put.  Missing: the names of the table's own files 3 and 4.  Tables with
    duplicate names or links to unused entries, names bound to something that is not a file,
    and images whose order is not the one tried first, are in C90_put_named. *)
Theorem C77_put_then_dump_symbolic_partial : forall (iter : list (Z * Subdirectory) -> list (Z * Subdirectory)) fuel order ft ow addr img tgt src w w' s,
  run (PutCmd_Run iter fuel order (s2b "auto") ft ow addr img tgt src) w = (w', Ok tt) ->
  input w src s -> s <> [] -> tgt <> [] -> valid_name tgt -> (forall g, ~ numeric tgt g) ->
  exists c o d d' new,
    input w img c /\ opened_order img order o /\ naked_image c o d /\ output w w' img new /\ naked_image new o d' /\
    forall t, bytes_ok c -> table_on d t -> names_unique t -> live_links t ->
      ~ symbol_file t tgt 3 -> ~ symbol_file t tgt 4 -> (ByName t tgt = 0 \/ exists g, symbol_file t tgt g) ->
      exists t' f, names_on d' t' /\ resolves t' tgt f /\ file_on d' f = padded s /\
        (first_order img order o -> release_byte new <> 3 ->
         forall w2, input w2 img new -> w_outroom w2 = None ->
         exists w3, run (DumpCmd_Run iter fuel order (s2b "auto") img tgt) w2 = (w3, Ok tt) /\ same_files w2 w3 /\
           w_stdout w3 = w_stdout w2 ++ padded s).
Proof. exact put_dump_symbolic. Qed.
Print Assumptions C77_put_then_dump_symbolic_partial.
Example C77_symbolic_example : forall (iter : list (Z * Subdirectory) -> list (Z * Subdirectory)) fuel, exists w w' c d new,
  input w (s2b "f") (repeat 7 300) /\ valid_name (s2b "NEWFILE") /\ (forall g, ~ numeric (s2b "NEWFILE") g) /\
  input w (s2b "x.do") c /\ bytes_ok c /\ naked_image c (s2b "do") d /\ table_on d ex_table /\
  names_unique ex_table /\ live_links ex_table /\ ByName ex_table (s2b "NEWFILE") = 0 /\
  run (PutCmd_Run iter fuel (s2b "auto") (s2b "auto") (s2b "B") false 0 (s2b "x.do") (s2b "NEWFILE") (s2b "f")) w = (w', Ok tt) /\
  output w w' (s2b "x.do") new /\ first_order (s2b "x.do") (s2b "auto") (s2b "do") /\ release_byte new <> 3.
Proof. exact put_dump_symbolic_example. Qed.
