(** PropertiesPipeline.v -- property C130: an image changed by several commands in a pipe
    (helpers/helpers.go, disk/open.go, cmd/put.go, cmd/delete.go, cmd/nakedos.go, cmd/reorder.go). *)
From Verif Require Import GoBase ProdosModel CmdModel CmdSpec MainModel SessionSpec PipeSpec PipeExProofs PipelineSpec PipelineProofs PipelineExProofs.

(** ** C130 *)
(** Any number of edits, with "-" for the image and connected by pipes, and the same edits one after the
    other on the file [n] with that image: the exit statuses are the same up to the first failure; the
    pipe changes no file, the others only [n]; if all succeed, what comes out of the pipe is what is in [n]
    afterwards; otherwise nothing comes out.  No edit puts the file [n] itself, which would not have
    changed in the pipe. *)
Theorem C130_pipeline : forall (iter : list (Z * Subdirectory) -> list (Z * Subdirectory)) fuel n Ps w c w1 outcomes w2 statuses out,
  Forall (fun P => edits iter fuel P n /\ exists l, told iter fuel (P (s2b "-")) l /\ ~ In n l) Ps ->
  w_room w = None -> w_outroom w = None -> w_fs w n = NFile c true true ->
  session (map (fun P => P n) Ps) w = (w1, outcomes) -> pipeline Ps w c = (w2, statuses, out) ->
  alike_to_failure statuses outcomes /\ same_files w w2 /\ same_files_but w w1 n /\
  (Forall (eq 0) statuses -> w_fs w1 n = NFile out true true) /\ (~ Forall (eq 0) statuses -> out = []).
Proof. exact pipeline_lemma. Qed.
Print Assumptions C130_pipeline.
(** A put and then a reorder; both succeed. *)
Example C130_example : forall iter fuel, exists c w2 out, let w := piped c in let Ps := [put_f iter fuel; turn] in
  Forall (fun P => edits iter fuel P (s2b "x.dsk") /\ exists l, told iter fuel (P (s2b "-")) l /\ ~ In (s2b "x.dsk") l) Ps /\
  w_room w = None /\ w_outroom w = None /\ w_fs w (s2b "x.dsk") = NFile c true true /\
  pipeline Ps w c = (w2, [0; 0], out) /\ zlen out = 143360.
Proof. exact pipeline_example. Qed.
