(** ListSpec.v -- vocabulary for the properties that combine ls with other commands. *)
From Verif Require Import GoBase CmdModel CmdSpec DetectSpec.

(** The command prints whole lines, [line] is one of them, and no file changes. *)
Definition shows_line (p : prog unit) (w : world) (line : bytes) : Prop :=
  exists names text, all_lines names text /\ In line names /\ prints p w text.
(** Two commands, in two worlds, end in the same way and print the same; neither changes a file. *)
Definition same_outcome (p : prog unit) (w : world) (q : prog unit) (v : world) : Prop :=
  exists r out w' v', run p w = (w', r) /\ run q v = (v', r) /\
    w_stdout w' = w_stdout w ++ out /\ w_stdout v' = w_stdout v ++ out /\ same_files w w' /\ same_files v v'.

(** Whatever the image [c] is seen as, under the name and flags given, it is the NakedOS disk [d]
    in order [o]. *)
Definition only_seen (img order system c o d : bytes) : Prop :=
  forall sys d0 o0, seen_as img order c sys d0 o0 -> (system = s2b "auto" \/ system = sys) ->
    sys = s2b "nakedos" /\ o0 = o /\ d0 = d.
