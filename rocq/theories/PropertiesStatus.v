(** PropertiesStatus.v -- property C108: exactly which put, rm, mkhello and dump on a NakedOS disk
    succeed, fail or crash (cmd/put.go, cmd/delete.go, cmd/nakedos.go, cmd/dump.go,
    supermon/supermon.go). *)
From Verif Require Import GoBase TypesModel SupermonModel SupermonSpec SupermonTableSpec NakedExProofs.
From Verif Require ProdosSpec.
From Verif Require Import ProdosModel CmdModel CmdSpec MainModel NakedCmdSpec DetectSpec SessionSpec StatusSpec StatusProofs StatusExProofs.

(** ** C108 *)
(** For every NakedOS image, every symbol table on it (also one whose names cannot be written back),
    every target, type, flag and contents: put ends with status 0, 1 or 2 exactly as [put_succeeds]
    and [put_crashes] say, and changes no file unless it succeeds. *)
Theorem C108_put_status : forall (iter : list (Z * Subdirectory) -> list (Z * Subdirectory))
    img order system c d o t ft ow addr tgt src s w,
  ProdosSpec.an_order iter -> seen_as img order c (s2b "nakedos") d o -> (system = s2b "auto" \/ system = s2b "nakedos") ->
  names_on d t -> input w img c -> input w src s -> ~ (img = s2b "-" /\ src = s2b "-") ->
  can_output w img true -> w_room w = None -> w_outroom w = None -> is_ascii tgt ->
  eventually (fun k => exits_by (put_succeeds d t ft ow tgt s) (put_crashes d t ft ow tgt s)
    (PutCmd_Run iter k order system ft ow addr img tgt src) w).
Proof. exact put_status. Qed.
Print Assumptions C108_put_status.
(** rm never crashes. *)
Theorem C108_rm_status : forall (iter : list (Z * Subdirectory) -> list (Z * Subdirectory))
    img order system c d o t force name w,
  ProdosSpec.an_order iter -> seen_as img order c (s2b "nakedos") d o -> (system = s2b "auto" \/ system = s2b "nakedos") ->
  names_on d t -> input w img c -> can_output w img true -> w_room w = None -> w_outroom w = None ->
  eventually (fun k => exits_by (rm_succeeds d t force name) False (DeleteCmd_Run iter k order system force img name) w).
Proof. exact rm_status. Qed.
Print Assumptions C108_rm_status.
(** Nor does mkhello. *)
Theorem C108_mkhello_status : forall (iter : list (Z * Subdirectory) -> list (Z * Subdirectory))
    img order c d o t name address start w,
  ProdosSpec.an_order iter -> seen_as img order c (s2b "nakedos") d o ->
  names_on d t -> input w img c -> can_output w img true -> w_room w = None -> w_outroom w = None ->
  eventually (fun k => exits_by (mkhello_succeeds d t name address start) False (MkHelloCmd_Run iter k order img name address start) w).
Proof. exact mkhello_status. Qed.
Print Assumptions C108_mkhello_status.
Theorem C108_dump_status : forall (iter : list (Z * Subdirectory) -> list (Z * Subdirectory)) img order system c d o t name w,
  ProdosSpec.an_order iter -> seen_as img order c (s2b "nakedos") d o -> (system = s2b "auto" \/ system = s2b "nakedos") ->
  names_on d t -> input w img c -> w_outroom w = None ->
  eventually (fun k => exits_by (exists f, resolves t name f /\ file_on d f <> []) False (DumpCmd_Run iter k order system img name) w).
Proof. exact dump_status. Qed.
Print Assumptions C108_dump_status.
(** A disk with a file 5 and none with number 1, on which FHELLO stands for file 1: puts that succeed,
    crash and fail, removals and hello programs that succeed and fail. *)
Example C108_example : exists c d,
  seen_as (s2b "x.do") (s2b "auto") c (s2b "nakedos") d (s2b "do") /\ names_on d hello_table /\
  put_succeeds d hello_table (s2b "B") false (s2b "FNEW") [1; 2; 3] /\ put_crashes d hello_table (s2b "B") false (s2b "FNEW") [] /\
  put_succeeds d hello_table (s2b "B") true (s2b "DF05:FNEW") [1] /\ ~ put_succeeds d hello_table (s2b "B") false (s2b "DF05") [1] /\
  ~ put_succeeds d hello_table (s2b "B") true (s2b "DF05:FX") [1] /\
  rm_succeeds d hello_table false (s2b "DF05") /\ ~ rm_succeeds d hello_table false (s2b "FHELLO") /\ rm_succeeds d hello_table true (s2b "FHELLO") /\
  ~ rm_succeeds d hello_table true (s2b "FNEW") /\
  mkhello_succeeds d hello_table (s2b "DF05") 0x2000 0xFFFF /\ ~ mkhello_succeeds d hello_table (s2b "DF05") 0x2001 0xFFFF /\
  ~ mkhello_succeeds d hello_table (s2b "FNEW") 0x2000 0xFFFF.
Proof. exact status_example. Qed.
