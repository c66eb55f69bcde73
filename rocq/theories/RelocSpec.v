(** RelocSpec.v -- two DOS 3.3 disks with the same files, wherever these are on them. *)
From Verif Require Import GoBase DiskSpec TypesModel Dos3Model Dos3Spec.

(** The files at [p] on [d] and at [p'] on [d'] have the same data, in as many track/sector lists; or neither
    can be read. *)
Definition same_file (d : bytes) (p : Z * Z) (d' : bytes) (p' : Z * Z) : Prop :=
  forall n data, (exists l, body d p l data /\ zlen l = n) <-> (exists l, body d' p' l data /\ zlen l = n).
(** Two catalog entries that differ at most in where they say the file is (their first two bytes). *)
Definition same_entry (e e' : bytes) : Prop := sub e 2 35 = sub e' 2 35.
(** [same_dos_files d l d' l']: the catalogs, in the sectors [l] and [l'], list the same files in the same order. *)
Definition same_dos_files (d : bytes) (l : list (Z * Z)) (d' : bytes) (l' : list (Z * Z)) : Prop :=
  Forall2 (fun e e' => same_entry e e' /\ same_file d (znth 0 e 0, znth 0 e 1) d' (znth 0 e' 0, znth 0 e' 1))
    (filter is_live (entries d l)) (filter is_live (entries d' l')).
