(** PropertiesPipe.v -- properties C96 and C97: "-" in place of a file name, and the files a
    command depends on (helpers/helpers.go, disk/open.go, cmd/*.go). *)
From Verif Require Import GoBase ProdosModel CmdModel CmdSpec MainModel PipeSpec PipeProofs PipeExProofs.

(** ** C96 *)
(** Input from a pipe: the same exit status, output and files as with the same bytes in a file. *)
Theorem C96_input : forall (iter : list (Z * Subdirectory) -> list (Z * Subdirectory)) fuel P n w c w1 s1 w2 s2,
  takes iter fuel P n -> w_stdin w = Some c -> readable w n c ->
  main_run (P (s2b "-")) w = (w1, s1) -> main_run (P n) w = (w2, s2) ->
  s1 = s2 /\ w_stdout w1 = w_stdout w2 /\ forall x, w_fs w1 x = w_fs w2 x.
Proof. exact C96_input_lemma. Qed.
Print Assumptions C96_input.
(** Output to a pipe: exactly the bytes that would be in the file, or nothing if it fails. *)
Theorem C96_output : forall (iter : list (Z * Subdirectory) -> list (Z * Subdirectory)) fuel P n ow w w1 s1 w2 s2,
  gives iter fuel P n ow -> w_room w = None -> w_outroom w = None -> can_output w n ow ->
  main_run (P (s2b "-")) w = (w1, s1) -> main_run (P n) w = (w2, s2) ->
  s1 = s2 /\ (s1 = 0 -> exists c', output w w1 (s2b "-") c' /\ output w w2 n c') /\
  (s1 <> 0 -> same_files w w1 /\ w_stdout w1 = w_stdout w /\ same_files w w2 /\ w_stdout w2 = w_stdout w).
Proof. exact C96_output_lemma. Qed.
Print Assumptions C96_output.
(** An image changed in a pipe: what comes out is what a file with the image would hold. *)
Theorem C96_in_place : forall (iter : list (Z * Subdirectory) -> list (Z * Subdirectory)) fuel P n w c w1 s1 w2 s2,
  edits iter fuel P n -> w_room w = None -> w_outroom w = None ->
  w_stdin w = Some c -> w_fs w n = NFile c true true ->
  main_run (P (s2b "-")) w = (w1, s1) -> main_run (P n) w = (w2, s2) ->
  s1 = s2 /\ (s1 = 0 -> exists c', output w w1 (s2b "-") c' /\ output w w2 n c') /\
  (s1 <> 0 -> same_files w w1 /\ w_stdout w1 = w_stdout w /\ same_files w w2 /\ w_stdout w2 = w_stdout w).
Proof. exact C96_in_place_lemma. Qed.
Print Assumptions C96_in_place.
(** Putting a file on a NakedOS disk: the file in a pipe, the disk in a pipe; a Standard Delivery
    disk to a pipe.  All succeed. *)
Example C96_input_example : forall iter fuel, exists w w1 w2, takes iter fuel (put_g iter fuel) (s2b "f") /\
  w_stdin w = Some (repeat 7 300) /\ readable w (s2b "f") (repeat 7 300) /\
  main_run (put_g iter fuel (s2b "-")) w = (w1, 0) /\ main_run (put_g iter fuel (s2b "f")) w = (w2, 0).
Proof. exact C96_input_ex. Qed.
Example C96_output_example : forall iter fuel, exists c w1 w2, let w := piped c in
  gives iter fuel mksd_f (s2b "x.dsk") true /\ can_output w (s2b "x.dsk") true /\
  main_run (mksd_f (s2b "-")) w = (w1, 0) /\ main_run (mksd_f (s2b "x.dsk")) w = (w2, 0).
Proof. exact C96_output_ex. Qed.
Example C96_in_place_example : forall iter fuel, exists c new w1 w2, let w := piped c in
  edits iter fuel (put_f iter fuel) (s2b "x.dsk") /\ w_stdin w = Some c /\ w_fs w (s2b "x.dsk") = NFile c true true /\
  main_run (put_f iter fuel (s2b "-")) w = (w1, 0) /\ main_run (put_f iter fuel (s2b "x.dsk")) w = (w2, 0) /\
  w_stdout w1 = new /\ holds w2 (s2b "x.dsk") new /\ zlen new = 143360.
Proof. exact C96_ex. Qed.

(** ** C97 *)
(** A command depends only on the files it is told about (and on standard input only if one of
    them is "-"), and changes no others. *)
Theorem C97_only_told : forall (iter : list (Z * Subdirectory) -> list (Z * Subdirectory)) fuel p l w v w' s v' s',
  told iter fuel p l ->
  (forall n, In n l -> w_fs w n = w_fs v n) -> (In (s2b "-") l -> w_stdin w = w_stdin v) ->
  w_room w = w_room v -> w_outroom w = w_outroom v ->
  main_run p w = (w', s) -> main_run p v = (v', s') ->
  s = s' /\ (exists o, w_stdout w' = w_stdout w ++ o /\ w_stdout v' = w_stdout v ++ o) /\
  (forall n, In n l -> w_fs w' n = w_fs v' n) /\
  (forall n, ~ In n l -> w_fs w' n = w_fs w n /\ w_fs v' n = w_fs v n).
Proof. exact C97_lemma. Qed.
Print Assumptions C97_only_told.
(** A put in two worlds that differ in another file and in standard input. *)
Example C97_example : forall iter fuel, exists c w w' v',
  told iter fuel (put_f iter fuel (s2b "x.dsk")) [s2b "x.dsk"; s2b "f"] /\
  (forall n, In n [s2b "x.dsk"; s2b "f"] -> w_fs w n = w_fs (piped c) n) /\
  w_fs w (s2b "f2") <> w_fs (piped c) (s2b "f2") /\ w_stdin w <> w_stdin (piped c) /\
  main_run (put_f iter fuel (s2b "x.dsk")) w = (w', 0) /\ main_run (put_f iter fuel (s2b "x.dsk")) (piped c) = (v', 0).
Proof. exact C97_ex. Qed.
