(** PropertiesCrash.v -- property C93: commands come to an end with an exit status. *)
From Verif Require Import GoBase CmdModel CmdSpec DetectSpec MainModel CrashSpec CrashProofs CrashExProofs EmptyPutProofs.
From Verif Require ProdosSpec ProdosModel.

(** ** C93 *)
(** Status 2 stands for a panic; with every fuel, for a run that panics or does not end.  put of an
    empty file, dump of a DOS 3.3 file with an impossible length and decode of a program whose
    first line points to the byte before it panic; decode of a program whose first line points to
    itself and ls of a DOS 3.3 disk whose catalog sector points to itself do not end. *)
Theorem C93_crash_refuted : forall (iter : list (Z * ProdosModel.Subdirectory) -> list (Z * ProdosModel.Subdirectory)), ProdosSpec.an_order iter ->
  (exists w, input w (s2b "f") [] /\ forall fuel, exists w',
     main_run (PutCmd_Run iter fuel (s2b "auto") (s2b "auto") (s2b "B") false 0 (s2b "x.do") (s2b "DF07") (s2b "f")) w = (w', 2)) /\
  (exists w, eventually (fun fuel => exists w',
     main_run (DumpCmd_Run iter fuel (s2b "auto") (s2b "auto") (s2b "x.dsk") (s2b "LONG")) w = (w', 2))) /\
  (exists w, eventually (fun fuel => exists w', main_run (DecodeCmd_Run fuel (s2b "p") 0x801 false) w = (w', 2))) /\
  (exists w, forall fuel, exists w', main_run (DecodeCmd_Run fuel (s2b "p") 0x801 false) w = (w', 2)) /\
  (exists w, forall fuel, exists w',
     main_run (LsCmd_Run iter fuel (s2b "auto") (s2b "auto") true (s2b "x.dsk") []) w = (w', 2)).
Proof. exact refuted. Qed.
Print Assumptions C93_crash_refuted.
(** The first of these faults in general: when the file is empty, every put that would succeed with
    some contents panics; the image is not changed. *)
Theorem C93_empty_put_refuted : forall (iter : list (Z * ProdosModel.Subdirectory) -> list (Z * ProdosModel.Subdirectory)) fuel order system ft ow addr img tgt src w w' s,
  img <> s2b "-" ->
  run (PutCmd_Run iter fuel order system ft ow addr img tgt src) w = (w', Ok tt) -> input w src s -> s <> [] ->
  forall w2 src2, (forall c, input w img c -> input w2 img c) -> input w2 src2 [] ->
  exists w3, run (PutCmd_Run iter fuel order system ft ow addr img tgt src2) w2 = (w3, Panic) /\ same_files w2 w3.
Proof. exact put_empty_cmd. Qed.
Print Assumptions C93_empty_put_refuted.
Example C93_empty_example : forall (iter : list (Z * ProdosModel.Subdirectory) -> list (Z * ProdosModel.Subdirectory)) fuel, exists w w' w2,
  input w (s2b "f") (repeat 7 300) /\ run (PutCmd_Run iter fuel (s2b "auto") (s2b "auto") (s2b "B") false 0 (s2b "x.do") (s2b "DF06") (s2b "f")) w = (w', Ok tt) /\
  (forall c, input w (s2b "x.do") c -> input w2 (s2b "x.do") c) /\ input w2 (s2b "e") [].
Proof. exact put_empty_example. Qed.
(** Missing: the inputs with such faults. *)
Theorem C93_exit_status_partial : forall (iter : list (Z * ProdosModel.Subdirectory) -> list (Z * ProdosModel.Subdirectory)) w p,
  ProdosSpec.an_order iter -> safe iter w p -> eventually (fun k => ends (p k) w).
Proof. exact safe_ends. Qed.
Print Assumptions C93_exit_status_partial.
(** ls and rm on a DOS 3.3 disk. *)
Example C93_example : forall (iter : list (Z * ProdosModel.Subdirectory) -> list (Z * ProdosModel.Subdirectory)),
  let w := one_file (s2b "x.dsk") Dos3StmtProofs.ex_dos_disk None in
  safe iter w (fun k => LsCmd_Run iter k (s2b "auto") (s2b "auto") false (s2b "x.dsk") []) /\
  safe iter w (fun k => DeleteCmd_Run iter k (s2b "auto") (s2b "auto") true (s2b "x.dsk") (s2b "HELLO")).
Proof. exact safe_example. Qed.
