(** CmdSpec.v -- vocabulary for the properties of the command layer: what a user can see of the
    world before and after a command. *)
From Verif Require Import GoBase DiskSpec CmdModel.

(** The file [name] exists and has these contents. *)
Definition holds (w : world) (name contents : bytes) : Prop :=
  exists r wr, w_fs w name = NFile contents r wr.
Definition file_exists (w : world) (name : bytes) : Prop :=
  w_fs w name <> NMissing /\ w_fs w name <> NUncreatable.
Definition readable (w : world) (name contents : bytes) : Prop :=
  exists wr, w_fs w name = NFile contents true wr.
(** The file can be created, or exists and can be written. *)
Definition writable (w : world) (name : bytes) : Prop :=
  w_fs w name = NMissing \/ exists c r, w_fs w name = NFile c r true.
(** No file differs; no file but [name] differs. *)
Definition same_files (w w' : world) : Prop := forall n, w_fs w' n = w_fs w n.
Definition same_files_but (w w' : world) (name : bytes) : Prop := forall n, n <> name -> w_fs w' n = w_fs w n.
Definition prefix (p c : bytes) : Prop := exists t, c = p ++ t.
(** The medium runs full during a write of [c]. *)
Definition runs_full (w : world) (c : bytes) : Prop := exists n, w_room w = Some n /\ n < zlen c.
Definition unlimited (w : world) : world := World (w_fs w) (w_stdin w) (w_stdout w) None None.

(** What a command reads from / writes to the place called [name], "-" being the standard
    streams. *)
Definition input (w : world) (name c : bytes) : Prop :=
  (name = s2b "-" /\ w_stdin w = Some c) \/ (name <> s2b "-" /\ readable w name c).
Definition output (w w' : world) (name c : bytes) : Prop :=
  (name = s2b "-" /\ same_files w w' /\ w_stdout w' = w_stdout w ++ c) \/
  (name <> s2b "-" /\ same_files_but w w' name /\ holds w' name c /\ w_stdout w' = w_stdout w).

(** [t] can receive output: always if it is the standard output; a file if it can be written
    and does not exist or may be overwritten. *)
Definition can_output (w : world) (t : bytes) (ow : bool) : Prop :=
  t = s2b "-" \/ (t <> s2b "-" /\ writable w t /\ (ow = true \/ ~ file_exists w t)).
(** A world with a single file. *)
Definition one_file (name c : bytes) (room : option Z) : world :=
  World (fun n => if beq n name then NFile c true true else NMissing) (Some []) [] room None.

(** The values kong admits for an order flag. *)
Inductive order_flag : bytes -> Prop :=
| of_auto : order_flag (s2b "auto")
| of_do : order_flag (s2b "do")
| of_po : order_flag (s2b "po").
Inductive other_order : bytes -> bytes -> Prop :=
| oo_do : other_order (s2b "do") (s2b "po")
| oo_po : other_order (s2b "po") (s2b "do").

(** The order a file name stands for, if any. *)
Inductive name_order (name : bytes) : option bytes -> Prop :=
| no_dsk : ext_is name (s2b "dsk") \/ ext_is name (s2b "do") -> name_order name (Some (s2b "do"))
| no_po : ext_is name (s2b "po") -> name_order name (Some (s2b "po"))
| no_none : ~ ext_is name (s2b "dsk") -> ~ ext_is name (s2b "do") -> ~ ext_is name (s2b "po") -> name_order name None.

(** What is known about an order: the flag if given; if no flag is given at all, what the
    file names say. *)
Inductive known (inName inFlag outName outFlag : bytes) : option bytes -> option bytes -> Prop :=
| k_flags a b : (inFlag <> s2b "auto" \/ outFlag <> s2b "auto") ->
    (inFlag = s2b "auto" -> a = None) -> (inFlag <> s2b "auto" -> a = Some inFlag) ->
    (outFlag = s2b "auto" -> b = None) -> (outFlag <> s2b "auto" -> b = Some outFlag) ->
    known inName inFlag outName outFlag a b
| k_names a b : inFlag = s2b "auto" -> outFlag = s2b "auto" ->
    name_order inName a -> name_order outName b -> known inName inFlag outName outFlag a b.
(** One known order determines the other one; two known ones must differ. *)
Inductive chosen : option bytes -> option bytes -> bytes -> bytes -> Prop :=
| ch_both a b : other_order a b -> chosen (Some a) (Some b) a b
| ch_in a b : other_order a b -> chosen (Some a) None a b
| ch_out a b : other_order a b -> chosen None (Some b) a b.

(** Where `reorder` writes: the second name, or the first if there is none. *)
Definition reorder_target (name newName : bytes) : bytes := match newName with [] => name | _ => newName end.

(** The commands that modify a disk image, with the name of the file they write. *)
Inductive modifies (iter : list (Z * ProdosModel.Subdirectory) -> list (Z * ProdosModel.Subdirectory)) (fuel : nat)
    : prog unit -> bytes -> Prop :=
| m_rm order system f img name : modifies iter fuel (DeleteCmd_Run iter fuel order system f img name) img
| m_put order system ft ow addr img target source :
    modifies iter fuel (PutCmd_Run iter fuel order system ft ow addr img target source) img
| m_mkhello order img name addr start : modifies iter fuel (MkHelloCmd_Run iter fuel order img name addr start) img
| m_reorder a b ow img newImg : modifies iter fuel (ReorderCmd_Run a b ow img newImg) (reorder_target img newImg)
| m_mksd order img bin addr start : modifies iter fuel (SDCmd_Run order img bin addr start) img.

(** The commands that only read. *)
Inductive reads (iter : list (Z * ProdosModel.Subdirectory) -> list (Z * ProdosModel.Subdirectory)) (fuel : nat)
    : prog unit -> Prop :=
| r_ls order system short img dir : reads iter fuel (LsCmd_Run iter fuel order system short img dir)
| r_dump order system img name : reads iter fuel (DumpCmd_Run iter fuel order system img name)
| r_decode name loc raw : reads iter fuel (DecodeCmd_Run fuel name loc raw).
