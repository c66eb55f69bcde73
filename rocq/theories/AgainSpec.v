(** AgainSpec.v -- the images on which no visit of a map can matter. *)
From Verif Require Import GoBase DiskSpec VolumeSpec ImageSpec.

(** The bytes that can be taken for a ProDOS volume. *)
Definition as_volume (c d : bytes) : Prop := (zlen c <> 143360 /\ d = c) \/ exists o, reordered c o (s2b "po") d.
(** None of them can both be refused and hang. *)
Definition settled (c : bytes) : Prop := forall d, as_volume c d -> ~ (may d [] Fails /\ may d [] Hangs).
(** No two subdirectories have the name [p]; the volume directory has none. *)
Definition one_called (c p : bytes) : Prop := forall d ks k k', p <> [] -> as_volume c d -> in_order d ks ->
  In k ks -> In k' ks -> full_name d ks k p -> full_name d ks k' p -> k = k'.
