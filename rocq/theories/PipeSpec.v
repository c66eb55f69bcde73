(** PipeSpec.v -- the places in diskii commands where "-" may stand for a standard stream, and the
    files that a command is told about. *)
From Verif Require Import GoBase DiskSpec CmdModel CmdSpec MainModel.
From Verif Require ProdosModel.

(** A name of a file that tells as little about the image in it as "-". *)
Definition plain_image (n : bytes) : Prop := n <> s2b "-" /\ (ext_is n (s2b "dsk") \/ no_ext n).
(** Orders for reorder that are not guessed from the name [n]. *)
Definition orders_without (a b n : bytes) : Prop :=
  a <> s2b "auto" \/ b <> s2b "auto" \/ name_order n None.

(** [takes iter fuel P n]: commands with a place for a file that is read. *)
Inductive takes (iter : list (Z * ProdosModel.Subdirectory) -> list (Z * ProdosModel.Subdirectory)) (fuel : nat)
    : (bytes -> prog unit) -> bytes -> Prop :=
| tk_ls order system short dir n : plain_image n ->
    takes iter fuel (fun x => LsCmd_Run iter fuel order system short x dir) n
| tk_dump order system name n : plain_image n ->
    takes iter fuel (fun x => DumpCmd_Run iter fuel order system x name) n
| tk_decode loc raw n : n <> s2b "-" ->
    takes iter fuel (fun x => DecodeCmd_Run fuel x loc raw) n
| tk_put order system ft ow addr img target n : n <> s2b "-" -> img <> s2b "-" ->
    takes iter fuel (fun x => PutCmd_Run iter fuel order system ft ow addr img target x) n
| tk_mksd order img addr start n : n <> s2b "-" ->
    takes iter fuel (fun x => SDCmd_Run order img x addr start) n
| tk_reorder a b ow newImg n : n <> s2b "-" -> newImg <> [] -> orders_without a b n ->
    takes iter fuel (fun x => ReorderCmd_Run a b ow x newImg) n.

(** [gives iter fuel P n ow]: commands with a place for a file that is only written ([ow]: also if
    it exists). *)
Inductive gives (iter : list (Z * ProdosModel.Subdirectory) -> list (Z * ProdosModel.Subdirectory)) (fuel : nat)
    : (bytes -> prog unit) -> bytes -> bool -> Prop :=
| gv_mksd order bin addr start n : n <> s2b "-" -> order <> s2b "auto" \/ ~ ext_is n (s2b "po") ->
    gives iter fuel (fun x => SDCmd_Run order x bin addr start) n true
| gv_reorder a b ow img n : n <> s2b "-" -> n <> [] -> orders_without a b n ->
    gives iter fuel (fun x => ReorderCmd_Run a b ow img x) n ow.

(** [edits iter fuel P n]: commands with a place for an image that is read and written back. *)
Inductive edits (iter : list (Z * ProdosModel.Subdirectory) -> list (Z * ProdosModel.Subdirectory)) (fuel : nat)
    : (bytes -> prog unit) -> bytes -> Prop :=
| ed_rm order system force name n : plain_image n ->
    edits iter fuel (fun x => DeleteCmd_Run iter fuel order system force x name) n
| ed_put order system ft ow addr target source n : plain_image n -> source <> s2b "-" ->
    edits iter fuel (fun x => PutCmd_Run iter fuel order system ft ow addr x target source) n
| ed_mkhello order name addr start n : plain_image n ->
    edits iter fuel (fun x => MkHelloCmd_Run iter fuel order x name addr start) n
| ed_reorder a b ow n : n <> s2b "-" -> orders_without a b n ->
    edits iter fuel (fun x => ReorderCmd_Run a b ow x []) n.

(** [told iter fuel p l]: the command [p] has the file arguments [l]; "-" is a standard stream. *)
Inductive told (iter : list (Z * ProdosModel.Subdirectory) -> list (Z * ProdosModel.Subdirectory)) (fuel : nat)
    : prog unit -> list bytes -> Prop :=
| to_ls order system short img dir : told iter fuel (LsCmd_Run iter fuel order system short img dir) [img]
| to_dump order system img name : told iter fuel (DumpCmd_Run iter fuel order system img name) [img]
| to_rm order system force img name : told iter fuel (DeleteCmd_Run iter fuel order system force img name) [img]
| to_put order system ft ow addr img target source :
    told iter fuel (PutCmd_Run iter fuel order system ft ow addr img target source) [img; source]
| to_mkhello order img name addr start : told iter fuel (MkHelloCmd_Run iter fuel order img name addr start) [img]
| to_reorder a b ow img newImg : newImg <> [] -> told iter fuel (ReorderCmd_Run a b ow img newImg) [img; newImg]
| to_reorder_in_place a b ow img : told iter fuel (ReorderCmd_Run a b ow img []) [img]
| to_mksd order img bin addr start : told iter fuel (SDCmd_Run order img bin addr start) [img; bin]
| to_decode file loc raw : told iter fuel (DecodeCmd_Run fuel file loc raw) [file]
| to_filetypes all : told iter fuel (FiletypesCmd_Run all) [].
