(** DetectSpec.v -- vocabulary for the detection of the system of a disk image, and for what the
    commands print. *)
From Coq Require Sorted.
From Verif Require Import GoBase DiskSpec SupermonSpec CmdModel CmdSpec NakedCmdSpec.
From Verif Require Dos3Spec ProdosSpec.

(** What makes a floppy (in the order of the system) a disk of the system. *)
Definition dos_disk (d : bytes) : Prop := exists l, Dos3Spec.catalog d l.
Definition naked_disk (d : bytes) : Prop := floppy d (stored_map d).
Definition prodos_disk (d : bytes) : Prop := exists t, ProdosSpec.well_formed d t.
(** A DOS 3.3 disk whose catalog chain comes back to a sector. *)
Definition dos_cyclic (d : bytes) : Prop :=
  Dos3Spec.in_image d 17 0 /\ Dos3Spec.good_vtoc (Dos3Spec.vtoc d) /\
  Dos3Spec.cyclic (Dos3Spec.catalog_place d) d (Dos3Spec.catalog_start d).
Definition not_dos (d : bytes) : Prop := ~ dos_disk d /\ ~ dos_cyclic d.
(** The chain of volume directory blocks leads to a block that is not on the device. *)
Definition prodos_broken (d : bytes) : Prop :=
  exists l q, ProdosSpec.walk d (ProdosSpec.next_block d 2) l q /\ q <> 0 /\ ~ ProdosSpec.in_dev d q.

(** [reads_as c o sys d]: the image [c], taken to be in order [o], is a disk of system [sys] that
    holds the bytes [d] (in the order of that system); DOS 3.3 is preferred to NakedOS, and
    NakedOS to ProDOS. *)
Inductive reads_as (c o : bytes) : bytes -> bytes -> Prop :=
| ra_dos d : reordered c o (s2b "do") d -> dos_disk d -> reads_as c o (s2b "dos3") d
| ra_naked d0 d : reordered c o (s2b "do") d0 -> not_dos d0 ->
    reordered c o (s2b "raw") d -> naked_disk d -> reads_as c o (s2b "nakedos") d
| ra_prodos d0 d1 d : reordered c o (s2b "do") d0 -> not_dos d0 ->
    reordered c o (s2b "raw") d1 -> ~ naked_disk d1 ->
    reordered c o (s2b "po") d -> prodos_disk d -> reads_as c o (s2b "prodos") d.
(** [c] in order [o] is no disk of any system. *)
Inductive unreadable (c o : bytes) : Prop :=
| ur d0 d1 d : reordered c o (s2b "do") d0 -> not_dos d0 ->
    reordered c o (s2b "raw") d1 -> ~ naked_disk d1 ->
    reordered c o (s2b "po") d -> prodos_broken d -> unreadable c o.

(** [seen_as img order c sys d o]: the image file called [img] with contents [c], opened with
    the order flag [order], is a disk of system [sys] holding [d]; its order is [o].  The orders
    that the flag and the name admit are tried in turn.  A device image (.hdv) is ProDOS. *)
Inductive seen_as (img order c : bytes) : bytes -> bytes -> bytes -> Prop :=
| sa_floppy pre o rest sys d : zlen c = 143360 -> bytes_ok c ->
    candidates (image_name img) order (pre ++ o :: rest) -> Forall (unreadable c) pre -> reads_as c o sys d ->
    seen_as img order c sys d o
| sa_hdv : zlen c <> 143360 -> zlen c <> 116480 -> ext_is (image_name img) (s2b "hdv") ->
    zlen c mod 512 = 0 -> zlen c <= 65536 * 512 -> (order = s2b "auto" \/ order = s2b "po") ->
    seen_as img order c (s2b "prodos") c (s2b "po").

(** [all_lines names text]: the text has one line for each name, in order. *)
Inductive all_lines : list bytes -> bytes -> Prop :=
| al_nil : all_lines [] []
| al_cons n ns t : all_lines ns t -> all_lines (n :: ns) (n ++ 10 :: t).
(** A property of what happens with all large enough bounds on the loops. *)
Definition eventually (P : nat -> Prop) : Prop := exists n, forall k, (n <= k)%nat -> P k.

(** ** What a command leaves behind *)
Definition prints (p : prog unit) (w : world) (text : bytes) : Prop :=
  exists w', run p w = (w', Ok tt) /\ same_files w w' /\ w_stdout w' = w_stdout w ++ text.
(** It reports an error, and neither changes a file nor prints anything. *)
Definition fails_cleanly (p : prog unit) (w : world) : Prop :=
  exists w' e, run p w = (w', Err e) /\ same_files w w' /\ w_stdout w' = w_stdout w.

(** [files_on d fs]: [fs] are the numbers of the files on a NakedOS disk, in order. *)
Definition files_on (d : bytes) (fs : list Z) : Prop :=
  (forall f, In f fs <-> legal f /\ file_on d f <> []) /\ Sorted.StronglySorted Z.lt fs.
(** The name of a ProDOS directory entry. *)
Definition prodos_name_of (e : bytes) : bytes := sub e 1 (1 + znth 0 e 0 mod 16).
