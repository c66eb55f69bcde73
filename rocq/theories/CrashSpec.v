(** CrashSpec.v -- vocabulary for commands that come to an end. *)
From Verif Require Import GoBase DiskSpec CmdModel CmdSpec NakedCmdSpec DetectSpec MainModel.
From Verif Require Dos3Spec ProdosSpec ProdosModel BasicSpec.

(** The command ends: with exit status 0, having returned no error, or with exit status 1, having
    returned an error; then no file has changed if the medium has room. *)
Definition ends (p : prog unit) (w : world) : Prop :=
  exists w' s, main_run p w = (w', s) /\
    ((s = 0 /\ run p w = (w', Ok tt)) \/
     (s = 1 /\ (exists e, run p w = (w', Err e)) /\ (w_room w = None -> same_files w w'))).

(** [settles system c o]: the image [c], taken to be in order [o], is recognised as a disk of one
    of the systems, or at least has no chain of sectors or blocks that comes back to itself where
    a catalog may be. *)
Inductive settles (system c o : bytes) : Prop :=
| st_dos d : system = s2b "auto" \/ system = s2b "dos3" -> reordered c o (s2b "do") d -> dos_disk d -> settles system c o
| st_naked d0 d : system = s2b "auto" \/ system = s2b "nakedos" -> reordered c o (s2b "do") d0 -> not_dos d0 ->
    reordered c o (s2b "raw") d -> naked_disk d -> settles system c o
| st_ends d0 d : reordered c o (s2b "do") d0 -> ~ dos_cyclic d0 ->
    reordered c o (s2b "po") d -> ProdosSpec.acyclic d -> settles system c o.
(** An image, damaged or not, without such cycles. *)
Definition settled (system c : bytes) : Prop :=
  bytes_ok c /\
  (zlen c = 143360 -> settles system c (s2b "do") /\ settles system c (s2b "po")) /\
  (zlen c <> 143360 -> zlen c <= 65536 * 512 -> ProdosSpec.acyclic c).

(** No file called [n] on the DOS 3.3 disk, if [c] is one, has a length that its sectors do not
    bear out. *)
Definition no_fatal (c n : bytes) : Prop :=
  forall o d l e ls data, reordered c o (s2b "do") d -> Dos3Spec.catalog d l -> Dos3Spec.lookup (Dos3Spec.entries d l) n e ->
    Dos3Spec.body d (znth 0 e 0, znth 0 e 1) ls data -> ~ Dos3Spec.fatal (znth 0 e 2 mod 128) (zlen ls) data.
(** Following the lines of the program [f] leads neither in a circle nor to the byte before it. *)
Definition lines_end (f : bytes) (loc : Z) : Prop :=
  bytes_ok f /\ exists p, BasicSpec.body f p /\
    (forall ls a ls', BasicSpec.follows p loc loc ls a -> BasicSpec.follows p loc a ls' a -> ls' = []) /\
    (forall ls, ~ BasicSpec.follows p loc loc ls (loc - 1)).

(** Commands, as functions of the fuel, whose inputs have none of the faults above: cycles, a DOS
    3.3 file with an impossible length given to dump, an empty file given to put, a program
    without end given to decode.  reorder, mksd and filetypes need nothing (addresses are 16-bit
    numbers). *)
Inductive safe (iter : list (Z * ProdosModel.Subdirectory) -> list (Z * ProdosModel.Subdirectory)) (w : world)
    : (nat -> prog unit) -> Prop :=
| sf_ls order system short img dir : (forall c, input w img c -> settled system c) ->
    safe iter w (fun k => LsCmd_Run iter k order system short img dir)
| sf_dump order system img n : (forall c, input w img c -> settled system c /\ no_fatal c n) ->
    safe iter w (fun k => DumpCmd_Run iter k order system img n)
| sf_rm order system miss img n : (forall c, input w img c -> settled system c) ->
    safe iter w (fun k => DeleteCmd_Run iter k order system miss img n)
| sf_put order system ft ow addr img tgt src : (forall c, input w img c -> settled system c) -> ~ input w src [] ->
    safe iter w (fun k => PutCmd_Run iter k order system ft ow addr img tgt src)
| sf_mkhello order img n addr start : (forall c, input w img c -> settled (s2b "auto") c) ->
    safe iter w (fun k => MkHelloCmd_Run iter k order img n addr start)
| sf_reorder a b ow img newImg : safe iter w (fun _ => ReorderCmd_Run a b ow img newImg)
| sf_mksd order img bin addr start : order_flag order -> 0 <= addr < 65536 -> 0 <= start < 65536 ->
    safe iter w (fun _ => SDCmd_Run order img bin addr start)
| sf_decode file loc raw : 0 <= loc < 65536 -> (forall f, input w file f -> lines_end f loc) ->
    safe iter w (fun k => DecodeCmd_Run k file loc raw)
| sf_filetypes all : safe iter w (fun _ => FiletypesCmd_Run all).
