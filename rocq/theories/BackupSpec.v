(** BackupSpec.v -- files dumped from one NakedOS disk and put on another. *)
From Verif Require Import GoBase DiskSpec SupermonModel SupermonSpec SupermonTableSpec CmdModel CmdSpec MainModel NakedCmdSpec SessionSpec.

(** A file to be copied: its number, a name for the number, and the file of the computer by way of which
    it is copied. *)
Record item := Item { it_file : Z; it_name : bytes; it_way : bytes }.
(** Each of the files is saved from what dump prints, and put. *)
Definition restore (ow : bool) (addr : Z) (d : bytes) (l : list item) : list action :=
  flat_map (fun i => [ASave (it_way i) (file_on d (it_file i)); APut (s2b "B") ow addr (it_name i) (it_way i)]) l.
(** The number is meant by the name, and the file of the computer can be written and read. *)
Record good_item (img : bytes) (w : world) (i : item) : Prop := {
  gi_name : numeric (it_name i) (it_file i);
  gi_dash : it_way i <> s2b "-";
  gi_other : it_way i <> img;
  gi_way : w_fs w (it_way i) = NMissing \/ exists x, w_fs w (it_way i) = NFile x true true
}.
Definition total (d : bytes) (l : list item) : Z := fold_right (fun i n => sectors_on d (it_file i) + n) 0 l.

(** The disks hold the same files, wherever these are on them. *)
Definition same_contents (d d' : bytes) : Prop := forall f, legal f -> file_on d' f = file_on d f.
(** Two commands end with the same status, having printed the same text. *)
Definition both_show (p : prog unit) (w : world) (p' : prog unit) (w' : world) : Prop :=
  exists w1 w1' st text, main_run p w = (w1, st) /\ main_run p' w' = (w1', st) /\
    w_stdout w1 = w_stdout w ++ text /\ w_stdout w1' = w_stdout w' ++ text.
