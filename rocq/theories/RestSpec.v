(** RestSpec.v -- what reorder, mksd and applesoft decode come to on any file, and every command
    when a file cannot be read or written. *)
From Verif Require Import GoBase DiskSpec CmdModel CmdSpec DetectSpec ListingSpec ImageSpec.
From Verif Require BasicModel BasicSpec ProdosModel.

(** ** applesoft decode *)
Inductive decode_shows (f : bytes) (loc : Z) (raw : bool) : ending -> Prop :=
| de_lines p ls a out : BasicSpec.body f p -> BasicSpec.follows p loc loc ls a -> BasicSpec.ends_at p loc a -> listing ls raw out ->
    decode_shows f loc raw (Prints out)
| de_cycle p ls a ls' : BasicSpec.body f p -> BasicSpec.follows p loc loc ls a -> ls' <> [] -> BasicSpec.follows p loc a ls' a ->
    decode_shows f loc raw Crashes
| de_before p ls : BasicSpec.body f p -> BasicSpec.follows p loc loc ls (loc - 1) -> loc - 1 <> 0 -> p <> [] -> decode_shows f loc raw Crashes
| de_lost p : BasicSpec.body f p -> (forall ls a, BasicSpec.follows p loc loc ls a -> ~ BasicSpec.ends_at p loc a) ->
    (forall ls a ls', BasicSpec.follows p loc loc ls a -> BasicSpec.follows p loc a ls' a -> ls' = []) ->
    (forall ls, BasicSpec.follows p loc loc ls (loc - 1) -> loc - 1 = 0 \/ p = []) -> decode_shows f loc raw Errs.

(** ** reorder *)
(** The orders in force. *)
Definition orders_in_force (img a new b f t : bytes) : Prop := exists x y, known img a new b x y /\ chosen x y f t.

(** ** Files that cannot be read or written *)
Definition unreadable (w : world) (name : bytes) : Prop := forall c, ~ input w name c.
(** The commands with the name of the (first) file they read. *)
Inductive takes (iter : list (Z * ProdosModel.Subdirectory) -> list (Z * ProdosModel.Subdirectory)) (fuel : nat)
    : prog unit -> bytes -> Prop :=
| tk_ls order system short img dir : takes iter fuel (LsCmd_Run iter fuel order system short img dir) img
| tk_dump order system img name : takes iter fuel (DumpCmd_Run iter fuel order system img name) img
| tk_rm order system f img name : takes iter fuel (DeleteCmd_Run iter fuel order system f img name) img
| tk_put order system ft ow addr img target source : takes iter fuel (PutCmd_Run iter fuel order system ft ow addr img target source) img
| tk_mkhello order img name addr start : takes iter fuel (MkHelloCmd_Run iter fuel order img name addr start) img
| tk_reorder a b ow img new : takes iter fuel (ReorderCmd_Run a b ow img new) img
| tk_mksd order img bin addr start : takes iter fuel (SDCmd_Run order img bin addr start) bin
| tk_decode name loc raw : takes iter fuel (DecodeCmd_Run fuel name loc raw) name.
(** In [w] the file [t] cannot be written; otherwise [w] is [w2], where it can. *)
Definition locked (w w2 : world) (t : bytes) : Prop :=
  t <> s2b "-" /\ ~ writable w t /\ writable w2 t /\
  w_fs w2 t = match w_fs w t with NFile c r _ => NFile c r true | _ => NMissing end /\ w_fs w t <> NOther /\
  same_files_but w w2 t /\ w_stdin w = w_stdin w2 /\ w_stdout w = w_stdout w2 /\ w_room w = w_room w2 /\ w_outroom w = w_outroom w2.
