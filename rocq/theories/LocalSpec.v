(** LocalSpec.v -- the part of a disk that ls and dump look at. *)
From Verif Require Import GoBase DiskSpec SupermonSpec SupermonTableSpec CmdModel CmdSpec MainModel NakedCmdSpec DetectSpec.
From Verif Require Dos3Spec ProdosSpec.

(** ** DOS 3.3 *)
Definition same_sector (d d' : bytes) (q : Z * Z) : Prop := sector d (fst q) (snd q) = sector d' (fst q) (snd q).
(** Following the links from [p] through good sectors, one comes to [q]. *)
Definition reaches (good : Z -> Z -> Prop) (d : bytes) (p q : Z * Z) : Prop := q <> (0, 0) /\ exists l, Dos3Spec.path good d p l q.
(** The catalog: the VTOC and, if it is one, the chain of catalog sectors it points to. *)
Definition dos_part (d : bytes) (q : Z * Z) : Prop :=
  q = (17, 0) \/
  (Dos3Spec.good_vtoc (Dos3Spec.vtoc d) /\ reaches (Dos3Spec.catalog_place d) d (Dos3Spec.catalog_start d) q).
(** The file called [n]: its track/sector lists, and the sectors these name. *)
Definition dos_file (d n : bytes) (q : Z * Z) : Prop :=
  exists l e, Dos3Spec.catalog d l /\ Dos3Spec.lookup (Dos3Spec.entries d l) n e /\
    (reaches (Dos3Spec.in_image d) d (znth 0 e 0, znth 0 e 1) q \/
     exists r, reaches (Dos3Spec.in_image d) d (znth 0 e 0, znth 0 e 1) r /\
       q <> (0, 0) /\ In q (Dos3Spec.pairs (sector d (fst r) (snd r)))).

(** ** NakedOS: the sector map and the two halves of the symbol table (files 3 and 4) *)
Definition naked_part (d : bytes) (k : Z) : Prop := In k (owned (stored_map d) 3) \/ In k (owned (stored_map d) 4).
Definition naked_file (d n : bytes) (k : Z) : Prop := exists t f, names_on d t /\ resolves t n f /\ In k (owned (stored_map d) f).

(** ** ProDOS: the blocks of the directories; [key] tells the key block of a directory from its
    later blocks. *)
Inductive prodos_part (d : bytes) : bool -> Z -> Prop :=
| pp_volume : prodos_part d true 2
| pp_next key b : prodos_part d key b -> ProdosSpec.in_dev d b -> ProdosSpec.next_block d b <> 0 ->
    prodos_part d false (ProdosSpec.next_block d b)
| pp_sub key b e : prodos_part d key b -> ProdosSpec.in_dev d b ->
    In e (if key then ProdosSpec.key_slots (ProdosSpec.blk d b) else ProdosSpec.later_slots (ProdosSpec.blk d b)) ->
    ProdosSpec.is_subdir e = true -> prodos_part d true (ProdosSpec.key_pointer e).
Definition same_directories (d d' : bytes) : Prop := forall key b, prodos_part d key b -> ProdosSpec.blk d b = ProdosSpec.blk d' b.

(** ** Two images of which all that is looked at to tell the system and to list the files is the
    same.  To tell a NakedOS disk, diskii first looks for a DOS 3.3 catalog; to tell a ProDOS
    disk, for that and for a NakedOS sector map. *)
Inductive agree (c c' o : bytes) : bytes -> bytes -> bytes -> Prop :=
| ag_dos d d' : reordered c o (s2b "do") d -> reordered c' o (s2b "do") d' ->
    (forall q, dos_part d q -> same_sector d d' q) -> agree c c' o (s2b "dos3") d d'
| ag_naked d0 d0' d d' : reordered c o (s2b "do") d0 -> reordered c' o (s2b "do") d0' ->
    (forall q, dos_part d0 q -> same_sector d0 d0' q) ->
    reordered c o (s2b "raw") d -> reordered c' o (s2b "raw") d' ->
    stored_map d = stored_map d' -> (forall k, naked_part d k -> sec d k = sec d' k) -> agree c c' o (s2b "nakedos") d d'
| ag_prodos d0 d0' d1 d1' d d' : reordered c o (s2b "do") d0 -> reordered c' o (s2b "do") d0' ->
    (forall q, dos_part d0 q -> same_sector d0 d0' q) ->
    reordered c o (s2b "raw") d1 -> reordered c' o (s2b "raw") d1' -> stored_map d1 = stored_map d1' ->
    reordered c o (s2b "po") d -> reordered c' o (s2b "po") d' -> same_directories d d' -> agree c c' o (s2b "prodos") d d'
| ag_device : zlen c <> 143360 -> zlen c' = zlen c -> same_directories c c' -> agree c c' o (s2b "prodos") c c'.
(** The file called [n] is the same on both disks. *)
Inductive same_file (d d' n : bytes) : bytes -> Prop :=
| sf_dos : (forall q, dos_file d n q -> same_sector d d' q) -> same_file d d' n (s2b "dos3")
| sf_naked : (forall k, naked_file d n k -> sec d k = sec d' k) -> same_file d d' n (s2b "nakedos")
| sf_prodos : same_file d d' n (s2b "prodos").

(** The command ends with the same status in both worlds, having printed the same text. *)
Definition same_show (p : prog unit) (w w' : world) : Prop :=
  exists w1 w1' st text, main_run p w = (w1, st) /\ main_run p w' = (w1', st) /\
    w_stdout w1 = w_stdout w ++ text /\ w_stdout w1' = w_stdout w' ++ text.
