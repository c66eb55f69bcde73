(** UndoSpec.v -- taking back changes to the files of a NakedOS disk. *)
From Verif Require Import GoBase DiskSpec SupermonSpec SupermonTableSpec CmdModel CmdSpec MainModel NakedCmdSpec SessionSpec BackupSpec.

(** An action that changes no other files of the disk than those of [F]; [f] is the file that it means. *)
Definition kept_to (F : list Z) (a : action) (f : option Z) : Prop :=
  match a, f with
  | APut _ _ _ _ _, Some g | ARm _ _, Some g => In g F
  | _, _ => True
  end.
(** Removing the files [F], and putting back those of the list [l], as they were on the disk [d]. *)
Definition undo (ow : bool) (addr : Z) (d : bytes) (F : list Z) (l : list item) : list action :=
  map (fun f => ARm true (printed f)) F ++ restore ow addr d l.
