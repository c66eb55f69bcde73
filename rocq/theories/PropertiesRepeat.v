(** PropertiesRepeat.v -- what may change when a command is run again (C106). *)
From Verif Require Import GoBase CmdModel MainModel RepeatSpec RepeatProofs.
From Verif Require Import ProdosSpec.

(** C106: a command run on the same files and standard input ends the same way each time: the same
    files, the same output, the same exit status -- whatever the order in which Go visits the
    entries of a map and however many steps the run is allowed.  Without a directory argument to
    ls. *)
(** Missing: runs that crash, and ls of a directory; both refuted below. *)
Theorem C106_same_partial : forall p i1 i2 k1 k2 w w1 s1 w2 s2, a_command false p -> an_order i1 -> an_order i2 ->
  main_run (p i1 k1) w = (w1, s1) -> main_run (p i2 k2) w = (w2, s2) -> s1 <> 2 -> s2 <> 2 -> w1 = w2 /\ s1 = s2.
Proof. exact C106_same_lemma. Qed.
Print Assumptions C106_same_partial.
(** Two orders, and a volume listed the same under both. *)
Example C106_example : a_command false (plain_ls []) /\ an_order one_way /\ an_order other_way /\ one_way <> other_way /\
  exists d w1, w_stdout w1 = s2b "A" ++ [10] ++ s2b "A" ++ [10] /\ outcome (plain_ls [] one_way) (hdv_world d) w1 0 /\ outcome (plain_ls [] other_way) (hdv_world d) w1 0.
Proof. exact C106_example_lemma. Qed.

(** With one order, every command, also ls of a directory. *)
Theorem C106_one_order : forall p i k1 k2 w w1 s1 w2 s2, a_command true p -> an_order i ->
  main_run (p i k1) w = (w1, s1) -> main_run (p i k2) w = (w2, s2) -> s1 <> 2 -> s2 <> 2 -> w1 = w2 /\ s1 = s2.
Proof. exact C106_one_lemma. Qed.
Print Assumptions C106_one_order.

(** There is a volume whose listing crashes under one order and is refused under another. *)
Theorem C106_crash_refuted : exists d w', hopeless (plain_ls [] one_way) (hdv_world d) /\ outcome (plain_ls [] other_way) (hdv_world d) w' 1.
Proof. exact C106_crash_lemma. Qed.
Print Assumptions C106_crash_refuted.

(** There is a volume of which ls A prints ONE or TWO. *)
Theorem C106_directory_refuted : exists d w1 w2, w_stdout w1 = s2b "ONE" ++ [10] /\ w_stdout w2 = s2b "TWO" ++ [10] /\
  outcome (plain_ls (s2b "A") one_way) (hdv_world d) w1 0 /\ outcome (plain_ls (s2b "A") other_way) (hdv_world d) w2 0.
Proof. exact C106_twins_lemma. Qed.
Print Assumptions C106_directory_refuted.
