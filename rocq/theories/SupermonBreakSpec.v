(** SupermonBreakSpec.v -- which changes of a symbol table leave links that cannot be read. *)
From Verif Require Import GoBase TypesModel SupermonModel SupermonSpec SupermonTableSpec.

(** Entry [p] is the first unused one. *)
Definition first_unused (t : list Symbol) (p : Z) : Prop :=
  0 <= p < zlen t /\ ad t p = 0 /\ forall j, 0 <= j < p -> ad t j <> 0.
(** Of the entries other than [i], used or not, [j] is the first with a link to [i]. *)
Definition first_to (t : list Symbol) (i j : Z) : Prop :=
  0 <= j < zlen t /\ j <> i /\ lk t j = i /\ forall k, 0 <= k < j -> k <> i -> lk t k <> i.
(** An entry in use is linked to [i] and is not the first. *)
Definition strays (t : list Symbol) (i : Z) : Prop :=
  exists j, 0 <= j < zlen t /\ ad t j <> 0 /\ lk t j = i /\ ~ first_to t i j.
(** The first entry linked to [i] is in use, and [i] is linked to it. *)
Definition loops (t : list Symbol) (i : Z) : Prop := exists j, first_to t i j /\ ad t j <> 0 /\ lk t i = j.

(** Deleting the name of entry [i]. *)
Definition delete_breaks (t : list Symbol) (i : Z) : Prop := (strays t i /\ hash7 (ad t i) <> 0) \/ loops t i.
(** Giving the name [n] the address [a]. *)
Definition add_breaks (t : list Symbol) (n : bytes) (a : Z) : Prop :=
  (exists i, first_named t n i /\ hash7 (ad t i) <> hash7 a /\ (strays t i \/ loops t i)) \/
  ((forall i, 0 <= i < zlen t -> equal_fold n (nm t i) = false) /\ hash7 a <> 0 /\
   exists p j, first_unused t p /\ 0 <= j < zlen t /\ ad t j <> 0 /\ lk t j = p).

(** The names that are left when [name] is deleted from the table [t] on a disk: the first entry of that
    name is blank, or nothing can be read any more. *)
Definition left_after (t : list Symbol) (name : bytes) (t' : list Symbol) : Prop :=
  (t' = t /\ forall i, 0 <= i < zlen t -> equal_fold name (nm t i) = false) \/
  (exists i, first_named t name i /\ ((~ delete_breaks t i /\ t' = zset t i sym0) \/ (delete_breaks t i /\ t' = []))).
(** The entry that holds the name [n], or is to hold it: the first one of that name, or else the first
    unused one. *)
Definition place (t : list Symbol) (n : bytes) (i : Z) : Prop :=
  first_named t n i \/ ((forall j, 0 <= j < zlen t -> equal_fold n (nm t j) = false) /\ first_unused t i).
(** The names that are left when the name [n] is given the address [a] in the table [t] on a disk: its
    entry has name and address, or nothing can be read any more. *)
Definition bound_after (t : list Symbol) (n : bytes) (a : Z) (t' : list Symbol) : Prop :=
  (add_breaks t n a /\ t' = []) \/
  (~ add_breaks t n a /\ exists i, place t n i /\ t' = zset t i (Sym a (upcase n) 0)).
