(** DiskOpenSpec.v -- what it means for an image to match, or not to match, an order and a
    file system (used by C07). *)
From Verif Require Import GoBase DiskModel DiskSpec.

(** Read in order [fst p], the image matches the file system [snd p], whose operator is [op]. *)
Definition matches_pair {Op} (img : bytes) (p : bytes * factory Op) (op : Op) : Prop :=
  exists d, reordered img (fst p) (f_order (snd p)) d /\
    f_seems (snd p) d = Some true /\ f_operator (snd p) d = Ok op.
(** The file system does not recognise the image, or does but cannot open it. *)
Definition fails_pair {Op} (img : bytes) (p : bytes * factory Op) : Prop :=
  exists d, reordered img (fst p) (f_order (snd p)) d /\
    (f_seems (snd p) d = Some false \/
     (f_seems (snd p) d = Some true /\ exists e, f_operator (snd p) d = Err e)).
