(** LawsSpec.v -- vocabulary for the laws that relate runs of several commands. *)
From Verif Require Import GoBase CmdModel CmdSpec MainModel.
From Verif Require ProdosModel.

(** The commands that change a NakedOS disk. *)
Inductive edit :=
| EPut (filetype : bytes) (overwrite : bool) (address : Z) (name source : bytes)
| ERm (force : bool) (name : bytes)
| EHello (name : bytes) (address start : Z).
(** mkhello has no --system flag: the system is detected. *)
Definition edit_command (iter : list (Z * ProdosModel.Subdirectory) -> list (Z * ProdosModel.Subdirectory)) (fuel : nat)
    (order system img : bytes) (e : edit) : prog unit :=
  match e with
  | EPut ft ow addr n src => PutCmd_Run iter fuel order system ft ow addr img n src
  | ERm force n => DeleteCmd_Run iter fuel order system force img n
  | EHello n addr start => MkHelloCmd_Run iter fuel order img n addr start
  end.
(** The file to be put, if any, is the same in both worlds and not empty. *)
Definition same_source (e : edit) (w1 w2 : world) : Prop :=
  match e with
  | EPut _ _ _ _ src => src <> s2b "-" /\ w_fs w2 src = w_fs w1 src /\ forall r q, w_fs w1 src <> NFile [] r q
  | _ => True
  end.

(** The commands that only show something, reading a file and not the standard input. *)
Inductive peeks (iter : list (Z * ProdosModel.Subdirectory) -> list (Z * ProdosModel.Subdirectory)) (fuel : nat) : prog unit -> Prop :=
| pk_ls order system short img dir : img <> s2b "-" -> peeks iter fuel (LsCmd_Run iter fuel order system short img dir)
| pk_dump order system img name : img <> s2b "-" -> peeks iter fuel (DumpCmd_Run iter fuel order system img name)
| pk_decode file loc raw : file <> s2b "-" -> peeks iter fuel (DecodeCmd_Run fuel file loc raw)
| pk_filetypes all : peeks iter fuel (FiletypesCmd_Run all).
