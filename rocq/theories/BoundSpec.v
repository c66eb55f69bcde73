(** BoundSpec.v -- which file a put under a symbolic name is about. *)
From Verif Require Import GoBase SupermonModel SupermonSpec SupermonTableSpec SupermonStoreSpec CmdSpec NakedCmdSpec.

(** The target of put says: the symbol [q] alone, or a number and the symbol [q]. *)
Definition names_symbol (tgt q : bytes) : Prop := tgt = q \/ exists p f, numeric p f /\ tgt = p ++ 58 :: q.
(** The file it is about, on a disk [d] with symbol table [t]: the one of that number; else the one
    the symbol names; else the one of the least unused number. *)
Definition meant (d : bytes) (t : list Symbol) (tgt q : bytes) (f : Z) : Prop :=
  (exists p, numeric p f /\ tgt = p ++ 58 :: q) \/
  (tgt = q /\ symbol_file t q f) \/
  (tgt = q /\ (forall g, ~ symbol_file t q g) /\ file_on d f = [] /\ forall g, 1 <= g < f -> file_on d g <> []).
