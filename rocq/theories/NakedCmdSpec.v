(** NakedCmdSpec.v -- vocabulary for the commands that work on NakedOS disks. *)
From Verif Require Import GoBase DiskSpec SupermonModel SupermonSpec SupermonTableSpec CmdModel CmdSpec.

(** The image [c], read in order [o], is the NakedOS disk [d] (raw order). *)
Definition naked_image (c o d : bytes) : Prop :=
  reordered c o (s2b "raw") d /\ floppy d (stored_map d).
(** The contents of file [f] of a NakedOS disk; the sectors it uses; the free sectors. *)
Definition file_on (d : bytes) (f : Z) : bytes := content d (stored_map d) f.
Definition sectors_on (d : bytes) (f : Z) : Z := zlen (owned (stored_map d) f).
Definition free_on (d : bytes) : Z := zlen (owned (stored_map d) FREE).
(** The names on a disk: its symbol table, none if files 3 and 4 hold no readable table. *)
Definition names_on (d : bytes) (t : list Symbol) : Prop :=
  exists op, NewOperator d = Ok op /\ st_of op = t.
(** The disk has a readable symbol table, and it is [t]. *)
Definition table_on (d : bytes) (t : list Symbol) : Prop :=
  exists op, NewOperator d = Ok op /\ op_ST op = Some t.
(** What a name given to put or mkhello means: a number or symbol, or number:symbol. *)
Inductive target (t : list Symbol) : bytes -> Z -> Prop :=
| tg_plain n f : no_colon n -> resolves t n f -> target t n f
| tg_compound p q f : no_colon p -> no_colon q -> numeric p f -> (forall g, ~ numeric q g) -> target t (p ++ 58 :: q) f.
(** The name under which an image is opened: standard input is called /dev/stdin. *)
Definition image_name (img : bytes) : bytes := if beq img (s2b "-") then s2b "/dev/stdin" else img.
(** The order in which the image was opened is one the flag and the extension admit. *)
Definition opened_order (img order o : bytes) : Prop :=
  exists orders, candidates (image_name img) order orders /\ In o orders.
(** The order tried first: the one given by the flag or the extension; "do" if there are two. *)
Definition first_order (img order o : bytes) : Prop :=
  exists rest, candidates (image_name img) order (o :: rest).
(** Byte 3 of track 17 sector 0, the DOS release number of a DOS 3.3 disk; it is at the same
    place in every order. *)
Definition release_byte (d : bytes) : Z := znth 0 (sector d 17 0) 3.
