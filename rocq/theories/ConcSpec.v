(** ConcSpec.v -- which files the commands use, and jobs that keep out of each other's way. *)
From Verif Require Import GoBase CmdModel CmdSpec MainModel ConcModel.
From Verif Require ProdosModel.

(** "-" is no file. *)
Definition files (l : list bytes) : list bytes := filter (fun n => negb (beq n (s2b "-"))) l.
(** [uses iter fuel p R W]: the command [p] looks at the files [R] and writes the files [W]. *)
Inductive uses (iter : list (Z * ProdosModel.Subdirectory) -> list (Z * ProdosModel.Subdirectory)) (fuel : nat)
    : prog unit -> list bytes -> list bytes -> Prop :=
| us_ls order system short img dir : uses iter fuel (LsCmd_Run iter fuel order system short img dir) (files [img]) []
| us_dump order system img name : uses iter fuel (DumpCmd_Run iter fuel order system img name) (files [img]) []
| us_rm order system force img name : uses iter fuel (DeleteCmd_Run iter fuel order system force img name) (files [img]) (files [img])
| us_put order system ft ow addr img target source :
    uses iter fuel (PutCmd_Run iter fuel order system ft ow addr img target source) (files [img; source]) (files [img])
| us_mkhello order img name addr start : uses iter fuel (MkHelloCmd_Run iter fuel order img name addr start) (files [img]) (files [img])
| us_reorder a b ow img newImg : newImg <> [] -> uses iter fuel (ReorderCmd_Run a b ow img newImg) (files [img; newImg]) (files [newImg])
| us_reorder_in_place a b ow img : uses iter fuel (ReorderCmd_Run a b ow img []) (files [img]) (files [img])
| us_mksd order img bin addr start : uses iter fuel (SDCmd_Run order img bin addr start) (files [bin]) (files [img])
| us_decode file loc raw : uses iter fuel (DecodeCmd_Run fuel file loc raw) (files [file]) []
| us_filetypes all : uses iter fuel (FiletypesCmd_Run all) [] [].

(** A command to be run, with its standard input and the room on its standard output. *)
Record job := Job { j_prog : prog unit; j_reads : list bytes; j_writes : list bytes; j_stdin : option bytes; j_outroom : option Z }.
Definition launch (j : job) : process := started (j_prog j) (j_stdin j) (j_outroom j).
(** The job alone: what it leaves and its exit status. *)
Definition alone (j : job) (fs : fsystem) (room : option Z) : world * Z :=
  main_run (j_prog j) (World fs (j_stdin j) [] room (j_outroom j)).
(** No file that one job writes is looked at or written by another. *)
Definition apart (js : list job) : Prop := forall a b x y, nth_error js a = Some x -> nth_error js b = Some y -> a <> b ->
  forall n, In n (j_writes x) -> ~ In n (j_reads y) /\ ~ In n (j_writes y).

(** [in_place iter fuel p img]: [p] changes the image file [img]. *)
Inductive in_place (iter : list (Z * ProdosModel.Subdirectory) -> list (Z * ProdosModel.Subdirectory)) (fuel : nat) : prog unit -> bytes -> Prop :=
| ip_rm order system force img name : img <> s2b "-" -> in_place iter fuel (DeleteCmd_Run iter fuel order system force img name) img
| ip_put order system ft ow addr img target source : img <> s2b "-" -> source <> img ->
    in_place iter fuel (PutCmd_Run iter fuel order system ft ow addr img target source) img
| ip_mkhello order img name addr start : img <> s2b "-" -> in_place iter fuel (MkHelloCmd_Run iter fuel order img name addr start) img
| ip_reorder a b ow img : img <> s2b "-" -> in_place iter fuel (ReorderCmd_Run a b ow img []) img.
(** [looks iter fuel p img]: [p] shows something of the image file [img]. *)
Inductive looks (iter : list (Z * ProdosModel.Subdirectory) -> list (Z * ProdosModel.Subdirectory)) (fuel : nat) : prog unit -> bytes -> Prop :=
| lk_ls order system short img dir : img <> s2b "-" -> looks iter fuel (LsCmd_Run iter fuel order system short img dir) img
| lk_dump order system img name : img <> s2b "-" -> looks iter fuel (DumpCmd_Run iter fuel order system img name) img.

(** One of the processes takes one step. *)
Definition moves (room : option Z) (a b : fsystem * list process) : Prop :=
  exists l1 q l2 fs1 q1, snd a = l1 ++ q :: l2 /\ pstep room (fst a) q fs1 q1 /\ b = (fs1, l1 ++ q1 :: l2).
(** All have ended. *)
Definition all_ended (qs : list process) : Prop := Forall (fun q => exists s, ended q s) qs.
