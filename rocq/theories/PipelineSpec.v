(** PipelineSpec.v -- commands connected by pipes, each changing an image on its way. *)
From Verif Require Import GoBase CmdModel CmdSpec MainModel.

(** [P] run with "-" for the image: [c] is on its standard input, and nothing is on its standard output yet. *)
Definition stage (P : bytes -> prog unit) (w : world) (c : bytes) : world * Z :=
  main_run (P (s2b "-")) (World (w_fs w) (Some c) [] (w_room w) (w_outroom w)).
(** What each writes to its standard output is the standard input of the next.  The files afterwards,
    the exit statuses and what comes out at the end. *)
Fixpoint pipeline (Ps : list (bytes -> prog unit)) (w : world) (c : bytes) : world * list Z * bytes :=
  match Ps with
  | [] => (w, [], c)
  | P :: rest =>
      let '(w1, s) := stage P w c in
      let '(w2, l, out) := pipeline rest w1 (w_stdout w1) in (w2, s :: l, out)
  end.
(** The statuses in the pipe and those of commands run one after the other, which print nothing, are the
    same up to the first failure. *)
Inductive alike_to_failure : list Z -> list (Z * bytes) -> Prop :=
| af_nil : alike_to_failure [] []
| af_ok l m : alike_to_failure l m -> alike_to_failure (0 :: l) ((0, []) :: m)
| af_fail s l m : s <> 0 -> alike_to_failure (s :: l) ((s, []) :: m).
