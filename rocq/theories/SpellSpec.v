(** SpellSpec.v -- when two targets of a put mean the same (C116). *)
From Verif Require Import GoBase SupermonModel SupermonSpec.

(** [q] and [q'] are the symbols in two targets that mean one file, [e] and [e'] whether they have yet
    to be given to it (see [put_meaning]).  A symbol that the file has already makes no difference, if
    it can be written at all; one it is to be given may be in other letters. *)
Definition same_meaning (q : bytes) (e : bool) (q' : bytes) (e' : bool) : Prop :=
  (e = false /\ e' = false /\ valid_name q /\ valid_name q') \/ (e = e' /\ upcase q = upcase q').
