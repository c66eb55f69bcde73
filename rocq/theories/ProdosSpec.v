(** ProdosSpec.v -- independent vocabulary for the properties of package prodos.  Only the record
    types of ProdosModel are used, none of its functions. *)
From Verif Require Import GoBase DiskSpec TypesModel ProdosModel.
From Verif Require Dos3Spec.
From Coq Require Import Permutation.
Notation returns := Dos3Spec.returns.
Notation diverges := Dos3Spec.diverges.
Notation arr := Dos3Spec.arr.

(** ** Values of the Go struct types *)
Definition DT_wf (dt : DateTime) : Prop := arr 2 (dt_YMD dt) /\ arr 2 (dt_HM dt).
Record PFD_wf (fd : FileDescriptor) : Prop := {
  pf_b : Forall is_byte [f_TypeAndNameLength fd; f_FileType fd; f_Version fd; f_MinVersion fd; f_Access fd];
  pf_w : Forall is_u16 [f_KeyPointer fd; f_BlocksUsed fd; f_AuxType fd; f_HeaderPointer fd];
  pf_name : arr 15 (f_FileName fd);
  pf_eof : arr 3 (f_EOF fd);
  pf_dt : DT_wf (f_Creation fd) /\ DT_wf (f_LastMod fd)
}.
Record VDH_wf (h : VolumeDirectoryHeader) : Prop := {
  vhw_b : Forall is_byte [vh_TypeAndNameLength h; vh_Version h; vh_MinVersion h; vh_Access h; vh_EntryLength h; vh_EntriesPerBlock h];
  vhw_w : Forall is_u16 [vh_FileCount h; vh_BitMapPointer h; vh_TotalBlocks h];
  vhw_name : arr 15 (vh_VolumeName h);
  vhw_unused : arr 8 (vh_Unused1 h);
  vhw_dt : DT_wf (vh_Creation h)
}.
Record SH_wf (h : SubdirectoryHeader) : Prop := {
  shw_b : Forall is_byte [sh_TypeAndNameLength h; sh_SeventyFive h; sh_Version h; sh_MinVersion h; sh_Access h; sh_EntryLength h;
                          sh_EntriesPerBlock h; sh_ParentEntry h; sh_ParentEntryLength h];
  shw_w : Forall is_u16 [sh_FileCount h; sh_ParentPointer h];
  shw_name : arr 15 (sh_SubdirectoryName h);
  shw_unused : arr 7 (sh_Unused1 h);
  shw_dt : DT_wf (sh_Creation h)
}.
(** The common shape of directory blocks: links, [n] entries, a trailing byte. *)
Definition dirblock_wf (block prev next : Z) (descs : list FileDescriptor) (n extra : Z) : Prop :=
  Forall is_u16 [block; prev; next] /\ zlen descs = n /\ Forall PFD_wf descs /\ is_byte extra.
Definition VDKB_wf (v : VolumeDirectoryKeyBlock) : Prop :=
  VDH_wf (vk_Header v) /\ dirblock_wf (vk_block v) (vk_Prev v) (vk_Next v) (vk_Descriptors v) 12 (vk_Extra v).
Definition VDB_wf (v : VolumeDirectoryBlock) : Prop := dirblock_wf (vb_block v) (vb_Prev v) (vb_Next v) (vb_Descriptors v) 13 (vb_Extra v).
Definition SKB_wf (v : SubdirectoryKeyBlock) : Prop :=
  SH_wf (sk_Header v) /\ dirblock_wf (sk_block v) (sk_Prev v) (sk_Next v) (sk_Descriptors v) 12 (sk_Extra v).
Definition SB_wf (v : SubdirectoryBlock) : Prop := dirblock_wf (sb_block v) (sb_Prev v) (sb_Next v) (sb_Descriptors v) 13 (sb_Extra v).

(** The published layouts (ProDOS Technical Reference Manual, appendix B.2). *)
Definition word (b : bytes) (a : Z) : Z := znth 0 b a + 256 * znth 0 b (a + 1).
Definition DT_layout (b : bytes) (a : Z) (dt : DateTime) : Prop :=
  znth 0 b a = znth 0 (dt_YMD dt) 0 /\ znth 0 b (a + 1) = znth 0 (dt_YMD dt) 1 /\
  znth 0 b (a + 2) = znth 0 (dt_HM dt) 0 /\ znth 0 b (a + 3) = znth 0 (dt_HM dt) 1.
Record Entry_layout (b : bytes) (fd : FileDescriptor) : Prop := {
  el_type : znth 0 b 0 = f_TypeAndNameLength fd;
  el_name : forall j, 0 <= j < 15 -> znth 0 b (1 + j) = znth 0 (f_FileName fd) j;
  el_ftype : znth 0 b 0x10 = f_FileType fd;
  el_key : word b 0x11 = f_KeyPointer fd;
  el_blocks : word b 0x13 = f_BlocksUsed fd;
  el_eof : forall j, 0 <= j < 3 -> znth 0 b (0x15 + j) = znth 0 (f_EOF fd) j;
  el_creation : DT_layout b 0x18 (f_Creation fd);
  el_version : znth 0 b 0x1c = f_Version fd /\ znth 0 b 0x1d = f_MinVersion fd;
  el_access : znth 0 b 0x1e = f_Access fd;
  el_aux : word b 0x1f = f_AuxType fd;
  el_mod : DT_layout b 0x21 (f_LastMod fd);
  el_header : word b 0x25 = f_HeaderPointer fd
}.
Record VH_layout (b : bytes) (h : VolumeDirectoryHeader) : Prop := {
  vhl_type : znth 0 b 0 = vh_TypeAndNameLength h;
  vhl_name : forall j, 0 <= j < 15 -> znth 0 b (1 + j) = znth 0 (vh_VolumeName h) j;
  vhl_creation : DT_layout b 0x18 (vh_Creation h);
  vhl_version : znth 0 b 0x1c = vh_Version h /\ znth 0 b 0x1d = vh_MinVersion h;
  vhl_access : znth 0 b 0x1e = vh_Access h;
  vhl_entries : znth 0 b 0x1f = vh_EntryLength h /\ znth 0 b 0x20 = vh_EntriesPerBlock h;
  vhl_count : word b 0x21 = vh_FileCount h;
  vhl_bitmap : word b 0x23 = vh_BitMapPointer h;
  vhl_total : word b 0x25 = vh_TotalBlocks h
}.
Record SH_layout (b : bytes) (h : SubdirectoryHeader) : Prop := {
  shl_type : znth 0 b 0 = sh_TypeAndNameLength h;
  shl_name : forall j, 0 <= j < 15 -> znth 0 b (1 + j) = znth 0 (sh_SubdirectoryName h) j;
  shl_75 : znth 0 b 0x10 = sh_SeventyFive h;
  shl_creation : DT_layout b 0x18 (sh_Creation h);
  shl_version : znth 0 b 0x1c = sh_Version h /\ znth 0 b 0x1d = sh_MinVersion h;
  shl_access : znth 0 b 0x1e = sh_Access h;
  shl_entries : znth 0 b 0x1f = sh_EntryLength h /\ znth 0 b 0x20 = sh_EntriesPerBlock h;
  shl_count : word b 0x21 = sh_FileCount h;
  shl_parent : word b 0x23 = sh_ParentPointer h;
  shl_entry : znth 0 b 0x25 = sh_ParentEntry h /\ znth 0 b 0x26 = sh_ParentEntryLength h
}.
(** Entries of a block: 12 after the header of a key block, 13 in the others. *)
Definition header_of (b : bytes) : bytes := sub b 4 43.
Definition entry_at (b : bytes) (start i : Z) : bytes := sub b (start + 39 * i) (start + 39 * i + 39).
Definition key_slots (b : bytes) : list bytes := map (entry_at b 43) (zrange 12).
Definition later_slots (b : bytes) : list bytes := map (entry_at b 4) (zrange 13).
Definition Dir_layout (b : bytes) (slots : list bytes) (prev next : Z) (descs : list FileDescriptor) (extra : Z) : Prop :=
  word b 0 = prev /\ word b 2 = next /\ Forall2 Entry_layout slots descs /\ znth 0 b 511 = extra.

(** ** Volume bitmaps: one bit per block, most significant first *)
Definition vbm_wf (vbm : list bitmapPart) : Prop := Forall (fun p => arr 512 (bp_data p)) vbm.
Definition free_bit (data : bytes) (b : Z) : bool := Z.testbit (znth 0 data (b / 8)) (7 - b mod 8).

(** ** Directories *)
Definition blk (d : bytes) (n : Z) : bytes := sub d (512 * n) (512 * n + 512).
Definition in_dev (d : bytes) (n : Z) : Prop := 512 * n + 512 <= zlen d.
Definition next_block (d : bytes) (n : Z) : Z := word (blk d n) 2.
(** [bchain d n l]: following the next links from [n] visits exactly the blocks [l]. *)
Inductive bchain (d : bytes) : Z -> list Z -> Prop :=
| bchain_end : bchain d 0 []
| bchain_next n l : n <> 0 -> in_dev d n -> bchain d (next_block d n) l -> bchain d n (n :: l).
(** A directory: its key block and its later blocks. *)
Definition is_dir (d : bytes) (k : Z) (l : list Z) : Prop := in_dev d k /\ bchain d (next_block d k) l.
Definition dir_entries (d : bytes) (k : Z) (l : list Z) : list bytes :=
  key_slots (blk d k) ++ concat (map (fun b => later_slots (blk d b)) l).
Definition storage (e : bytes) : Z := znth 0 e 0 / 16.
Definition is_live (e : bytes) : bool := negb (storage e =? 0).
Definition is_subdir (e : bytes) : bool := storage e =? 13.
Definition key_pointer (e : bytes) : Z := word e 0x11.
Definition header_name (d : bytes) (k : Z) : bytes := sub (blk d k) 5 (5 + znth 0 (blk d k) 4 mod 16).
Definition parent_pointer (d : bytes) (k : Z) : Z := word (blk d k) 0x27.

(** ** Volumes: a tree of directories *)
Inductive tree := Node (k : Z) (l : list Z) (subs : list tree).
Definition root (t : tree) : Z := match t with Node k _ _ => k end.
(** [tree_ok d t]: every directory is readable; its subdirectory entries lead to its subtrees, in
    order; the parent pointer of each subdirectory is one of the blocks of its directory. *)
Inductive tree_ok (d : bytes) : tree -> Prop :=
| tree_node k l subs : is_dir d k l ->
    map key_pointer (filter is_subdir (dir_entries d k l)) = map root subs ->
    (forall s, In s subs -> In (parent_pointer d (root s)) (k :: l)) ->
    (forall s, In s subs -> tree_ok d s) ->
    tree_ok d (Node k l subs).
Fixpoint blocks (t : tree) : list Z := match t with Node k l subs => k :: l ++ flat_map blocks subs end.
Definition join (p n : bytes) : bytes := match p with [] => n | _ => p ++ s2b "/" ++ n end.
(** The directories of the volume with their paths; the volume directory has the empty path. *)
Fixpoint paths (d : bytes) (p : bytes) (t : tree) : list (bytes * (Z * list Z)) :=
  match t with Node k l subs => (p, (k, l)) :: flat_map (fun s => paths d (join p (header_name d (root s))) s) subs end.
(** The bitmap block (of a device with at least 4096 blocks) is on the device. *)
Definition bitmap_on_device (d : bytes) : Prop := 4096 * 512 <= zlen d -> in_dev d (word (blk d 2) 0x27).
Record well_formed (d : bytes) (t : tree) : Prop := {
  wf_bytes : bytes_ok d;
  wf_size : zlen d <= 65536 * 512;
  wf_bitmap : bitmap_on_device d;
  wf_root : root t = 2;
  wf_tree : tree_ok d t;
  wf_blocks : NoDup (blocks t)
}.
(** [iter] is a possible order for ranging over a map. *)
Definition an_order (iter : list (Z * Subdirectory) -> list (Z * Subdirectory)) : Prop := forall m, Permutation (iter m) m.

(** ** Descriptors *)
Record describes (e : bytes) (ds : Descriptor) : Prop := {
  ds_name : d_name ds = sub e 1 (1 + znth 0 e 0 mod 16);
  ds_full : d_fullname ds = [];
  ds_blocks : d_blocks ds = word e 0x13 /\ d_sectors ds = 0;
  ds_len : d_length ds = znth 0 e 0x15 + 256 * znth 0 e 0x16 + 65536 * znth 0 e 0x17;
  ds_locked : d_locked ds = false;
  ds_type : d_type ds = znth 0 e 0x10
}.
(** [lists d k l r]: [r] is the listing of the directory. *)
Definition lists (d : bytes) (k : Z) (l : list Z) (r : res (list Descriptor)) : Prop :=
  exists ds, r = Ok ds /\ Forall2 describes (filter is_live (dir_entries d k l)) ds.

(** ** Validation *)
Definition time_ok (dt : DateTime) : Prop := znth 0 (dt_HM dt) 0 < 24 /\ znth 0 (dt_HM dt) 1 < 60.
Definition times_ok (fd : FileDescriptor) : Prop := time_ok (f_Creation fd) /\ time_ok (f_LastMod fd).
(** The problems of a time, an entry and a block; [f] is the name of the field in the message. *)
Definition time_problem (dt : DateTime) (f : bytes) (e : verror) : Prop :=
  (24 <= znth 0 (dt_HM dt) 0 /\ e = VEHour f (znth 0 (dt_HM dt) 0)) \/ (60 <= znth 0 (dt_HM dt) 1 /\ e = VEMinute f (znth 0 (dt_HM dt) 1)).
Definition entry_name (fd : FileDescriptor) : bytes := sub (f_FileName fd) 0 (f_TypeAndNameLength fd mod 16).
Definition subdir_name (h : SubdirectoryHeader) : bytes := sub (sh_SubdirectoryName h) 0 (sh_TypeAndNameLength h mod 16).
Definition entry_problem (fd : FileDescriptor) (e : verror) : Prop :=
  time_problem (f_Creation fd) (s2b "creation date/time of FileDescriptor " ++ entry_name fd) e \/
  time_problem (f_LastMod fd) (s2b "last modification date/time of FileDescriptor " ++ entry_name fd) e.
Definition entries_problem (descs : list FileDescriptor) (extra : Z) (e : verror) : Prop :=
  (exists fd, In fd descs /\ entry_problem fd e) \/ (extra <> 0 /\ e = VEExtra extra).
Definition prev_problem (prev : Z) (e : verror) : Prop := prev <> 0 /\ e = VEPrev prev.

(** ** Termination *)
(** [walk d n l q]: the next links lead from [n] through the blocks [l], all on the device, to [q]. *)
Inductive walk (d : bytes) : Z -> list Z -> Z -> Prop :=
| walk_nil n : walk d n [] n
| walk_cons n l q : n <> 0 -> in_dev d n -> walk d (next_block d n) l q -> walk d n (n :: l) q.
(** The chain from [n] comes back to a block already visited. *)
Definition chain_cyclic (d : bytes) (n : Z) : Prop := exists l q, walk d n l q /\ In q l.
(** One or more steps of a relation. *)
Inductive steps (R : Z -> Z -> Prop) : Z -> Z -> Prop :=
| steps_1 x y : R x y -> steps R x y
| steps_S x y z : R x y -> steps R y z -> steps R x z.
(** [child d k k']: the readable directory at [k] has a subdirectory entry pointing to [k']. *)
Definition child (d : bytes) (k k' : Z) : Prop := exists l e, is_dir d k l /\ In e (dir_entries d k l) /\ is_subdir e = true /\ k' = key_pointer e.
(** [up d k k']: the parent pointer in the header of [k] is a block of the subdirectory at [k']. *)
Definition up (d : bytes) (k k' : Z) : Prop := exists l', steps (child d) 2 k' /\ is_dir d k' l' /\ In (parent_pointer d k) (k' :: l').
(** No cycle in the chains of blocks, the subdirectories or the parent pointers. *)
Record acyclic (d : bytes) : Prop := {
  ac_chains : forall k, k = 2 \/ steps (child d) 2 k -> ~ chain_cyclic d (next_block d k);
  ac_subdirs : forall k, steps (child d) 2 k -> ~ steps (child d) k k;
  ac_parents : forall k, steps (child d) 2 k -> ~ steps (up d) k k
}.
