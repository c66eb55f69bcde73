(** PropertiesImage.v -- property C110: any file given as a disk image (disk/open.go, disk/disk.go,
    cmd/catalog.go, cmd/dump.go, cmd/put.go, cmd/delete.go, cmd/nakedos.go). *)
From Verif Require Import GoBase TypesModel DiskModel DiskSpec SupermonModel SupermonSpec SupermonTableSpec.
From Verif Require Dos3Spec Dos3StmtProofs ProdosSpec.
From Verif Require Import ProdosModel CmdModel CmdSpec MainModel NakedCmdSpec DetectSpec PrintProofs StatusSpec VolumeSpec VolumeExProofs ImageSpec ImageProofs ImageExProofs.

(** ** C110 *)
(** Every file, of every size and with every name, under all values of the flags --order and --system:
    opening comes to what [opening] says, which mentions only the bytes. *)
Theorem C110_opening : forall (iter : list (Z * Subdirectory) -> list (Z * Subdirectory)) img order system c,
  bytes_ok c -> ProdosSpec.an_order iter -> exists r, opening img order system c r /\
  match r with
  | Opened sys d o => eventually (fun k => exists op, OpenImage c (image_name img) order system (DiskOperatorFactories iter k) = Ok (op, o) /\ Op_Name op = sys /\ Op_GetBytes op = d)
  | Refused => eventually (fun k => exists e, OpenImage c (image_name img) order system (DiskOperatorFactories iter k) = Err e)
  | Stuck => eventually (fun k => OpenImage c (image_name img) order system (DiskOperatorFactories iter k) = Panic)
  end.
Proof. exact opening_total_lemma. Qed.
Print Assumptions C110_opening.
(** That is one thing only; except that the order in which the entries of a map are visited can decide
    between finding a ProDOS volume faulty and examining it for ever. *)
Theorem C110_one : forall img order system c r1 r2, bytes_ok c ->
  opening img order system c r1 -> opening img order system c r2 -> r1 = r2 \/ ((r1 = Stuck \/ r2 = Stuck) /\ unsettled c).
Proof. exact opening_one. Qed.
Print Assumptions C110_one.
(** ls of any directory of any file: the text printed, an error, or a crash; no file changes. *)
Theorem C110_ls : forall (iter : list (Z * Subdirectory) -> list (Z * Subdirectory)) img order system c short dir w,
  bytes_ok c -> ProdosSpec.an_order iter -> input w img c -> w_outroom w = None ->
  exists r e, opening img order system c r /\ afterwards r (ls_shows dir short) e /\
    ends_in (fun k => LsCmd_Run iter k order system short img dir) w e.
Proof. exact ls_exact. Qed.
Print Assumptions C110_ls.
(** dump. *)
Theorem C110_dump : forall (iter : list (Z * Subdirectory) -> list (Z * Subdirectory)) img order system c n w,
  bytes_ok c -> ProdosSpec.an_order iter -> input w img c -> w_outroom w = None ->
  exists r e, opening img order system c r /\ afterwards r (dump_shows n) e /\
    ends_in (fun k => DumpCmd_Run iter k order system img n) w e.
Proof. exact dump_exact. Qed.
Print Assumptions C110_dump.
(** rm, put and mkhello: the status, and no file changes unless it is 0. *)
Theorem C110_rm : forall (iter : list (Z * Subdirectory) -> list (Z * Subdirectory)) img order system c force name w,
  bytes_ok c -> ProdosSpec.an_order iter -> input w img c -> can_output w img true -> w_room w = None -> w_outroom w = None ->
  exists r n, opening img order system c r /\ edits (fun d t => rm_succeeds d t force name) (fun _ _ => False) r n /\
    eventually (fun k => exits (DeleteCmd_Run iter k order system force img name) w n).
Proof. exact rm_exact. Qed.
Print Assumptions C110_rm.
Theorem C110_put : forall (iter : list (Z * Subdirectory) -> list (Z * Subdirectory)) img order system c ft ow addr tgt src s w,
  bytes_ok c -> ProdosSpec.an_order iter -> input w img c -> input w src s -> ~ (img = s2b "-" /\ src = s2b "-") ->
  can_output w img true -> w_room w = None -> w_outroom w = None -> is_ascii tgt ->
  exists r n, opening img order system c r /\
    edits (fun d t => put_succeeds d t ft ow tgt s) (fun d t => put_crashes d t ft ow tgt s) r n /\
    eventually (fun k => exits (PutCmd_Run iter k order system ft ow addr img tgt src) w n).
Proof. exact put_exact. Qed.
Print Assumptions C110_put.
Theorem C110_mkhello : forall (iter : list (Z * Subdirectory) -> list (Z * Subdirectory)) img order c name address start w,
  bytes_ok c -> ProdosSpec.an_order iter -> input w img c -> can_output w img true -> w_room w = None -> w_outroom w = None ->
  exists r n, opening img order (s2b "auto") c r /\
    (~ hello_at address start /\ n = 1 \/
     hello_at address start /\ edits (fun d t => mkhello_succeeds d t name address start) (fun _ _ => False) r n) /\
    eventually (fun k => exits (MkHelloCmd_Run iter k order img name address start) w n).
Proof. exact mkhello_exact. Qed.
Print Assumptions C110_mkhello.
(** A blank disk that is said to be of DOS 3.3 is opened as such, and its listing fails; said to be of
    NakedOS it is refused. *)
Example C110_told_example :
  opening (s2b "x.do") (s2b "auto") (s2b "dos3") (zeros 143360) (Opened (s2b "dos3") (zeros 143360) (s2b "do")) /\
  ls_shows [] false (s2b "dos3") (zeros 143360) Errs /\
  opening (s2b "x.do") (s2b "auto") (s2b "nakedos") (zeros 143360) Refused.
Proof. exact told_blank. Qed.
(** A disk whose catalog is a cycle; noise. *)
Example C110_stuck_example : opening (s2b "x.dsk") (s2b "auto") (s2b "auto") Dos3StmtProofs.ex_cyclic_disk Stuck.
Proof. exact cyclic_stuck. Qed.
Example C110_refused_example : opening (s2b "x.dsk") (s2b "auto") (s2b "auto") ex_noise Refused.
Proof. exact noise_refused. Qed.
(** A DOS 3.3 disk is found, and dump of a file on it crashes. *)
Example C110_dos_example : exists e ls data,
  opening (s2b "x.dsk") (s2b "auto") (s2b "auto") Dos3StmtProofs.ex_dos_disk (Opened (s2b "dos3") Dos3StmtProofs.ex_dos_disk (s2b "do")) /\
  Dos3Spec.lookup (Dos3Spec.entries Dos3StmtProofs.ex_dos_disk [(17, 15); (17, 14)]) (s2b "LONG") e /\
  Dos3Spec.body Dos3StmtProofs.ex_dos_disk (znth 0 e 0, znth 0 e 1) ls data /\
  dump_shows (s2b "LONG") (s2b "dos3") Dos3StmtProofs.ex_dos_disk Crashes.
Proof. exact dos_opened. Qed.
(** An image of which opening may be refused or never end. *)
Example C110_unsettled_example :
  opening (s2b "x.po") (s2b "auto") (s2b "auto") ex_astray Refused /\ opening (s2b "x.po") (s2b "auto") (s2b "auto") ex_astray Stuck /\
  opening (s2b "x.po") (s2b "auto") (s2b "prodos") ex_astray (Opened (s2b "prodos") ex_astray (s2b "po")) /\
  ls_shows [] false (s2b "prodos") ex_astray Errs /\ ls_shows [] false (s2b "prodos") ex_astray Crashes.
Proof. exact astray_both. Qed.
