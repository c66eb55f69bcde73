(** CycleSpec.v -- what a session leaves alone, for property C121: the loader of mkhello runs what was last
    put in the file it is for. *)
From Verif Require Import GoBase TypesModel SupermonModel SupermonSpec SupermonStoreSpec CmdModel SessionSpec NamesSpec ShelfSpec.

(** The deeds neither write nor remove file [g] of the disk [img], and put no other disk in its place. *)
Definition leaves_alone (g : Z) (img : bytes) (x : deed) (m : sense) (K : shelf) : Prop :=
  match x with
  | On _ i _ | Hello _ i _ _ _ => i = img -> file_touched x m K <> Some g
  | Reorder _ _ _ _ new => new <> img
  | Copy _ new => new <> img
  | Save _ _ => True
  end.
Fixpoint leaves (g : Z) (img : bytes) (h : list (deed * sense)) (K : shelf) : Prop :=
  match h with
  | [] => True
  | (x, m) :: rest => leaves_alone g img x m K /\ leaves g img rest (fst (do x m K))
  end.
