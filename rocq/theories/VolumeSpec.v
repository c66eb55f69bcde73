(** VolumeSpec.v -- everything that listing a ProDOS volume can come to, whatever is on it. *)
From Verif Require Import GoBase TypesModel ProdosModel ProdosSpec.

(** ** Directories *)
Definition readable (d : bytes) (k : Z) : Prop := exists l, is_dir d k l.
(** The directory at [k] is off the device in part, or has no last block. *)
Definition leaves (d : bytes) (k : Z) : Prop := ~ in_dev d k \/ exists l q, walk d (next_block d k) l q /\ q <> 0 /\ ~ in_dev d q.
Definition loops (d : bytes) (k : Z) : Prop := in_dev d k /\ chain_cyclic d (next_block d k).
(** The key blocks of the subdirectories of a directory, in the order of their entries. *)
Definition subkeys (d : bytes) (k : Z) (l : list Z) : list Z := map key_pointer (filter is_subdir (dir_entries d k l)).

(** ** Levels of the tree of directories *)
(** [below d ks ks']: the directories at [ks] are readable, and [ks'] are all their subdirectories. *)
Inductive below (d : bytes) : list Z -> list Z -> Prop :=
| below_nil : below d [] []
| below_cons k l ks ks' : is_dir d k l -> below d ks ks' -> below d (k :: ks) (subkeys d k l ++ ks').
(** The subdirectories at one depth. *)
Inductive level (d : bytes) : nat -> list Z -> Prop :=
| level_0 l : is_dir d 2 l -> level d 0 (subkeys d 2 l)
| level_S n ks ks' : level d n ks -> below d ks ks' -> level d (S n) ks'.
(** The subdirectory at [k] is the first one, from the top, that is not readable. *)
Definition first_fault (d : bytes) (k : Z) : Prop :=
  exists n pre post, level d n (pre ++ k :: post) /\ (forall x, In x pre -> readable d x) /\ ~ readable d k.
(** The subdirectories at [ks] and those below them, level by level. *)
Inductive levels (d : bytes) : list Z -> list Z -> Prop :=
| levels_end : levels d [] []
| levels_next ks ks' rest : below d ks ks' -> levels d ks' rest -> levels d ks (ks ++ rest).
(** All directories of the volume are readable; [ks] are the subdirectories, level by level. *)
Definition in_order (d : bytes) (ks : list Z) : Prop := exists l, is_dir d 2 l /\ levels d (subkeys d 2 l) ks.
(** All are readable, but some directory is below itself. *)
Definition endless (d : bytes) : Prop :=
  readable d 2 /\ (forall k, steps (child d) 2 k -> readable d k) /\ exists k, steps (child d) 2 k /\ steps (child d) k k.

(** ** Names *)
(** The later block [b] of a directory; if it is one of several, that of the last. *)
Definition owner (d : bytes) (ks : list Z) (b k : Z) : Prop :=
  exists pre post l, 2 :: ks = pre ++ k :: post /\ is_dir d k l /\ In b l /\ forall k' l', In k' post -> is_dir d k' l' -> ~ In b l'.
(** The block is one of the volume directory, or of the subdirectory at [k]. *)
Definition at_root (d : bytes) (ks : list Z) (b : Z) : Prop := b = 2 \/ owner d ks b 2.
Definition dir_at (d : bytes) (ks : list Z) (b k : Z) : Prop :=
  ~ at_root d ks b /\ ((In b ks /\ k = b) \/ (~ In b ks /\ owner d ks b k)).
(** The path of the directory with the block [b]. *)
Inductive path_to (d : bytes) (ks : list Z) : Z -> bytes -> Prop :=
| path_root b : at_root d ks b -> path_to d ks b []
| path_up b k n : dir_at d ks b k -> path_to d ks (parent_pointer d k) n -> path_to d ks b (join n (header_name d k)).
Definition full_name (d : bytes) (ks : list Z) (k : Z) (n : bytes) : Prop :=
  exists m, path_to d ks (parent_pointer d k) m /\ n = join m (header_name d k).
Definition above (d : bytes) (ks : list Z) (k k' : Z) : Prop := dir_at d ks (parent_pointer d k) k'.
(** Going up from [k], a parent pointer is a block of no directory; or going up never ends. *)
Definition lost (d : bytes) (ks : list Z) (k : Z) : Prop :=
  exists z, (z = k \/ steps (above d ks) k z) /\ ~ at_root d ks (parent_pointer d z) /\ forall y, ~ above d ks z y.
Definition circular (d : bytes) (ks : list Z) (k : Z) : Prop :=
  exists z, (z = k \/ steps (above d ks) k z) /\ steps (above d ks) z z.

(** ** What listing [p] can come to *)
Inductive verdict := Lists (k : Z) (l : list Z) | Fails | Hangs.
Inductive may (d : bytes) (p : bytes) : verdict -> Prop :=
| may_key : ~ in_dev d 2 -> may d p Fails
| may_bitmap : in_dev d 2 -> ~ bitmap_on_device d -> may d p Fails
| may_leave k : bitmap_on_device d -> in_dev d 2 -> k = 2 \/ first_fault d k -> leaves d k -> may d p Fails
| may_loop k : bitmap_on_device d -> in_dev d 2 -> k = 2 \/ first_fault d k -> loops d k -> may d p Hangs
| may_endless : bitmap_on_device d -> endless d -> may d p Hangs
| may_lost ks k : bitmap_on_device d -> in_order d ks -> In k ks -> lost d ks k -> may d p Fails
| may_circular ks k : bitmap_on_device d -> in_order d ks -> In k ks -> circular d ks k -> may d p Hangs
| may_list ks k l : bitmap_on_device d -> in_order d ks -> (forall x, In x ks -> exists n, full_name d ks x n) ->
    (p = [] /\ k = 2) \/ (p <> [] /\ In k ks /\ full_name d ks k p) -> is_dir d k l -> may d p (Lists k l)
| may_missing ks : bitmap_on_device d -> in_order d ks -> (forall x, In x ks -> exists n, full_name d ks x n) ->
    p <> [] -> (forall x, In x ks -> ~ full_name d ks x p) -> may d p Fails.
Definition comes_to (d : bytes) (f : nat -> option (res (list Descriptor))) (v : verdict) : Prop :=
  match v with
  | Lists k l => returns f (lists d k l)
  | Fails => returns f (fun r => exists e, r = Err e)
  | Hangs => diverges f
  end.
