(** FlagsSpec.v -- vocabulary for the flag --system. *)
From Verif Require Import GoBase DiskSpec NakedCmdSpec DetectSpec.

(** [is_disk c o sys d]: the image [c], taken to be in order [o], is a disk of system [sys] that
    holds [d], whatever other systems make of it. *)
Inductive is_disk (c o : bytes) : bytes -> bytes -> Prop :=
| id_dos d : reordered c o (s2b "do") d -> dos_disk d -> is_disk c o (s2b "dos3") d
| id_naked d : reordered c o (s2b "raw") d -> naked_disk d -> is_disk c o (s2b "nakedos") d
| id_prodos d : reordered c o (s2b "po") d -> prodos_disk d -> is_disk c o (s2b "prodos") d.
(** ... is no disk of system [sys]. *)
Inductive is_no_disk (c o : bytes) : bytes -> Prop :=
| nd_dos d : reordered c o (s2b "do") d -> not_dos d -> is_no_disk c o (s2b "dos3")
| nd_naked d : reordered c o (s2b "raw") d -> ~ naked_disk d -> is_no_disk c o (s2b "nakedos")
| nd_prodos d : reordered c o (s2b "po") d -> prodos_broken d -> is_no_disk c o (s2b "prodos").
(** The order is the first of those that the flag and the name admit in which the image is a
    disk of the system. *)
Definition told_as (img order c sys d o : bytes) : Prop :=
  bytes_ok c /\ exists pre rest, candidates (image_name img) order (pre ++ o :: rest) /\
    Forall (fun o' => is_no_disk c o' sys) pre /\ is_disk c o sys d.
