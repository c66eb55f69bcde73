(** HoldSpec.v -- two NakedOS images that hold the same files, wherever these are on them. *)
From Verif Require Import GoBase DiskSpec SupermonSpec CmdModel CmdSpec NakedCmdSpec SessionSpec ShelfSpec TwinSpec BackupSpec.

(** Two disks with the same files and as many free sectors.  Which sectors a file uses, which are free, which
    are reserved besides those of NakedOS, and what is in sectors of no file may differ. *)
Record same_holding (c c' o d d' : bytes) : Prop := {
  sh_first : naked_image c o d;
  sh_second : naked_image c' o d';
  sh_same : same_contents d d';
  sh_room : free_on d' = free_on d
}.
(** Every kind of work on one image: put (of another file), rm, mkhello, ls and dump; files may be saved
    meanwhile. *)
Inductive work_of (order img : bytes) : deed -> Prop :=
| wo_edit x : edit_of order img x -> work_of order img x
| wo_dump n : work_of order img (On order img (ADump n)).
