(** RepeatSpec.v -- vocabulary for the outcome of a command that is run again. *)
From Verif Require Import GoBase CmdModel MainModel.
From Verif Require ProdosModel.

Notation visits := (list (Z * ProdosModel.Subdirectory) -> list (Z * ProdosModel.Subdirectory)) (only parsing).
(** Every command with its arguments, as a function of what is left open by the code: the order in
    which Go visits the entries of a map, and the bound on loops.  [dir]: whether ls is given a
    directory. *)
Inductive a_command (dir : bool) : (visits -> nat -> prog unit) -> Prop :=
| cm_ls order system short img d : (dir = false -> d = []) -> a_command dir (fun i k => LsCmd_Run i k order system short img d)
| cm_dump order system img n : a_command dir (fun i k => DumpCmd_Run i k order system img n)
| cm_rm order system miss img n : a_command dir (fun i k => DeleteCmd_Run i k order system miss img n)
| cm_put order system ft ow addr img tgt src : a_command dir (fun i k => PutCmd_Run i k order system ft ow addr img tgt src)
| cm_mkhello order img n addr start : a_command dir (fun i k => MkHelloCmd_Run i k order img n addr start)
| cm_reorder a b ow img newImg : a_command dir (fun _ _ => ReorderCmd_Run a b ow img newImg)
| cm_mksd order img bin addr start : a_command dir (fun _ _ => SDCmd_Run order img bin addr start)
| cm_decode file loc raw : a_command dir (fun _ k => DecodeCmd_Run k file loc raw)
| cm_filetypes all : a_command dir (fun _ _ => FiletypesCmd_Run all).

(** The command ends, with world [w'] and exit status 0 or 1, in every long enough run. *)
Definition outcome (p : nat -> prog unit) (w w' : world) (s : Z) : Prop :=
  (s = 0 \/ s = 1) /\ exists n, forall k, (n <= k)%nat -> main_run (p k) w = (w', s).
(** It never ends (or ends in a crash). *)
Definition hopeless (p : nat -> prog unit) (w : world) : Prop := forall k, snd (main_run (p k) w) = 2.

(** A world whose only file is the device image [d]; ls on it; two orders. *)
Definition hdv_world (d : bytes) : world := World (fun n => if beq n (s2b "x.hdv") then NFile d true true else NMissing) None [] None None.
Definition plain_ls (dir : bytes) : (list (Z * ProdosModel.Subdirectory) -> list (Z * ProdosModel.Subdirectory)) -> nat -> prog unit :=
  fun i k => LsCmd_Run i k (s2b "auto") (s2b "auto") true (s2b "x.hdv") dir.
Definition one_way : list (Z * ProdosModel.Subdirectory) -> list (Z * ProdosModel.Subdirectory) := fun m => m.
Definition other_way : list (Z * ProdosModel.Subdirectory) -> list (Z * ProdosModel.Subdirectory) := @rev _.
