(** PropertiesProdos.v -- properties C14, C15, C23, C47-C54 and C71 (package prodos; C23 also
    covers dos3).  Vocabulary: ProdosSpec.  Functions with an unbounded loop take fuel:
    [returns f P] says that with all large enough fuel [f] gives one result, which satisfies
    [P]; [diverges f] that no fuel is enough.  [iter] is the order in which maps are visited. *)
From Verif Require Import GoBase GoLemmas DiskModel DiskSpec TypesModel ProdosModel ProdosSpec ProdosCodecProofs ProdosStmtProofs ProdosTwinProofs TightProofs.
From Verif Require Dos3Model.
Local Opaque zrange zeros sub.

(** ** C14 *)
Theorem C14_VolumeDirectoryKeyBlock_codec : forall v0 v b,
  VDKB_wf v0 ->
  (zlen b = 512 -> bytes_ok b -> exists v', VDKB_FromBlock v0 b = Ok v' /\ VDKB_wf v' /\ vk_block v' = vk_block v0 /\ VH_layout (header_of b) (vk_Header v') /\
     Dir_layout b (key_slots b) (vk_Prev v') (vk_Next v') (vk_Descriptors v') (vk_Extra v') /\ VDKB_ToBlock v' = Ok b) /\
  (VDKB_wf v -> exists b', VDKB_ToBlock v = Ok b' /\ zlen b' = 512 /\ bytes_ok b' /\ VDKB_FromBlock v0 b' = Ok (VDKB_SetBlock (vk_block v0) v)).
Proof. exact VDKB_codec. Qed.
Print Assumptions C14_VolumeDirectoryKeyBlock_codec.
Theorem C14_VolumeDirectoryBlock_codec : forall v0 v b,
  VDB_wf v0 ->
  (zlen b = 512 -> bytes_ok b -> exists v', VDB_FromBlock v0 b = Ok v' /\ VDB_wf v' /\ vb_block v' = vb_block v0 /\
     Dir_layout b (later_slots b) (vb_Prev v') (vb_Next v') (vb_Descriptors v') (vb_Extra v') /\ VDB_ToBlock v' = Ok b) /\
  (VDB_wf v -> exists b', VDB_ToBlock v = Ok b' /\ zlen b' = 512 /\ bytes_ok b' /\ VDB_FromBlock v0 b' = Ok (VDB_SetBlock (vb_block v0) v)).
Proof. exact VDB_codec. Qed.
Print Assumptions C14_VolumeDirectoryBlock_codec.
Example C14_example : match VDKB_FromBlock zeroVDKB (blk ex_vol 2) with
  | Ok v => (vk_Next v, vh_BitMapPointer (vk_Header v), sub (vh_VolumeName (vk_Header v)) 0 4, map FD_Name (sub (vk_Descriptors v) 0 3)) | _ => (0, 0, [], []) end =
  (3, 6, s2b "DISK", [s2b "HELLO"; []; s2b "SUB"]).
Proof. vm_compute. reflexivity. Qed.

(** ** C15 *)
Theorem C15_SubdirectoryKeyBlock_codec : forall v0 v b,
  SKB_wf v0 ->
  (zlen b = 512 -> bytes_ok b -> exists v', SKB_FromBlock v0 b = Ok v' /\ SKB_wf v' /\ sk_block v' = sk_block v0 /\ SH_layout (header_of b) (sk_Header v') /\
     Dir_layout b (key_slots b) (sk_Prev v') (sk_Next v') (sk_Descriptors v') (sk_Extra v') /\ SKB_ToBlock v' = Ok b) /\
  (SKB_wf v -> exists b', SKB_ToBlock v = Ok b' /\ zlen b' = 512 /\ bytes_ok b' /\ SKB_FromBlock v0 b' = Ok (SKB_SetBlock (sk_block v0) v)).
Proof. exact SKB_codec. Qed.
Print Assumptions C15_SubdirectoryKeyBlock_codec.
Theorem C15_SubdirectoryBlock_codec : forall v0 v b,
  SB_wf v0 ->
  (zlen b = 512 -> bytes_ok b -> exists v', SB_FromBlock v0 b = Ok v' /\ SB_wf v' /\ sb_block v' = sb_block v0 /\
     Dir_layout b (later_slots b) (sb_Prev v') (sb_Next v') (sb_Descriptors v') (sb_Extra v') /\ SB_ToBlock v' = Ok b) /\
  (SB_wf v -> exists b', SB_ToBlock v = Ok b' /\ zlen b' = 512 /\ bytes_ok b' /\ SB_FromBlock v0 b' = Ok (SB_SetBlock (sb_block v0) v)).
Proof. exact SB_codec. Qed.
Print Assumptions C15_SubdirectoryBlock_codec.
Example C15_example : match SKB_FromBlock zeroSKB (blk ex_vol 9) with
  | Ok v => (sk_Prev v, sh_ParentPointer (sk_Header v), SH_Name (sk_Header v), sh_SeventyFive (sk_Header v)) | _ => (0, 0, [], 0) end = (0, 8, s2b "INNER", 0x75).
Proof. vm_compute. reflexivity. Qed.

(** ** C23 *)
Theorem C23_operators_read_only : forall d fi ow n,
    (exists e, Dos3Model.dos3_PutFile fi ow d = (d, Err e)) /\ (exists e, Dos3Model.dos3_Delete n d = (d, Err e)) /\
  (exists e, prodos_PutFile fi ow d = (d, Err e)) /\ (exists e, prodos_Delete n d = (d, Err e)) /\ (exists e, prodos_GetFile d n = Err e).
Proof. exact C23_lemma. Qed.
Print Assumptions C23_operators_read_only.

(** ** C47 *)
Theorem C47_bitmap_marks : forall vbm b,
  vbm_wf vbm -> 0 <= b -> (b / 4096 < zlen vbm ->
    (exists u, MarkUsed vbm b = Ok u /\ vbm_wf u /\ map bp_block u = map bp_block vbm /\
       IsFree u b = Ok false /\ forall c, 0 <= c -> c <> b -> IsFree u c = IsFree vbm c) /\
    (exists u, MarkUnused vbm b = Ok u /\ vbm_wf u /\ map bp_block u = map bp_block vbm /\
       IsFree u b = Ok true /\ forall c, 0 <= c -> c <> b -> IsFree u c = IsFree vbm c) /\
    IsFree vbm b = Ok (free_bit (bp_data (znth (mkBP 0 (zeros 512)) vbm (b / 4096))) (b mod 4096))) /\
  (zlen vbm <= b / 4096 -> MarkUsed vbm b = Panic /\ MarkUnused vbm b = Panic /\ IsFree vbm b = Panic).
Proof. exact C47_lemma. Qed.
Print Assumptions C47_bitmap_marks.
Example C47_example : vbm_wf [mkBP 6 (zeros 512)] /\ 300 / 4096 < zlen [mkBP 6 (zeros 512)].
Proof. split; [constructor; [split; [reflexivity | apply bytes_ok_zeros] | constructor] | reflexivity]. Qed.

(** ** C48: refuted for large volumes *)
(** The claim is for every [n] up to 65535; above 61440 the size computation wraps around and
    NewVolumeBitMap crashes. *)
Theorem C48_large_volumes_refuted : forall start n,
  is_u16 start -> 61440 < n <= 65535 -> NewVolumeBitMap start n = Panic.
Proof. exact C48_refuted_lemma. Qed.
Print Assumptions C48_large_volumes_refuted.
(** Missing for the full claim: [61440 < n]. *)
Theorem C48_NewVolumeBitMap_partial : forall start n,
  is_u16 start -> 0 <= n <= 61440 -> exists vbm, NewVolumeBitMap start n = Ok vbm /\ vbm_wf vbm /\
  zlen vbm = (n + 4095) / 4096 /\
  (forall i, 0 <= i < zlen vbm -> bp_block (znth (mkBP 0 (zeros 512)) vbm i) = (start + i) mod 65536) /\
  (forall c, 0 <= c < n -> IsFree vbm c = Ok true) /\ (forall c, n <= c < 4096 * zlen vbm -> IsFree vbm c = Ok false).
Proof. exact C48_partial_lemma. Qed.
Print Assumptions C48_NewVolumeBitMap_partial.
Example C48_example : match NewVolumeBitMap 6 280 with Ok [p] => (bp_block p, sub (bp_data p) 34 37) | _ => (0, []) end = (6, [255; 0; 0]).
Proof. vm_compute. reflexivity. Qed.

(** ** C49: refuted *)
(** The claim is that every block of the device can be looked up; on devices with fewer than
    4096 blocks the bitmap read is empty and every lookup crashes. *)
Theorem C49_small_devices_refuted : forall d start,
  is_u16 start -> zlen d < 4096 * 512 -> exists vbm, readVolumeBitMap d start = Ok vbm /\ forall b, 0 <= b -> IsFree vbm b = Panic.
Proof. exact C49_refuted_lemma. Qed.
Print Assumptions C49_small_devices_refuted.
(** What holds: on larger devices exactly the first 4096 blocks can be looked up. *)
Theorem C49_readVolumeBitMap_partial : forall d start,
  bytes_ok d -> is_u16 start -> 4096 * 512 <= zlen d <= 65536 * 512 -> 
  (in_dev d start -> exists vbm, readVolumeBitMap d start = Ok vbm /\ (forall b, 0 <= b < 4096 -> IsFree vbm b = Ok (free_bit (blk d start) b)) /\
     (forall b, 4096 <= b -> IsFree vbm b = Panic)) /\
  (~ in_dev d start -> exists e, readVolumeBitMap d start = Err e).
Proof. exact C49_partial_lemma. Qed.
Print Assumptions C49_readVolumeBitMap_partial.
Example C49_example : bytes_ok ex_big /\ 4096 * 512 <= zlen ex_big <= 65536 * 512 /\ in_dev ex_big 6 /\
  exists vbm, readVolumeBitMap ex_big 6 = Ok vbm /\ forall b, 0 <= b < 4096 -> IsFree vbm b = Ok (b mod 2 =? 0).
Proof. exact C49_example_lemma. Qed.

(** ** C50: refuted *)
(** The claim is that [Get] returns what [Set] stored; it never does unless it was there before. *)
Theorem C50_Set_refuted : forall i n b,
  arr 512 i -> 0 <= n < 256 -> is_u16 b -> IndexBlock_Get i n <> b -> IndexBlock_Get (IndexBlock_Set i n b) n <> b.
Proof. exact C50_refuted_lemma. Qed.
Print Assumptions C50_Set_refuted.
Theorem C50_Get_partial : forall i n,
  arr 512 i -> 0 <= n < 256 -> IndexBlock_Get i n = znth 0 i n + 256 * znth 0 i (256 + n).
Proof. exact C50_partial_lemma. Qed.
Print Assumptions C50_Get_partial.
(** Missing from the full statement: that the entry named is set (false). *)
Theorem C50_others_partial : forall i n b m,
  arr 512 i -> 0 <= n < 256 -> is_u16 b -> 0 <= m < 256 -> m <> n -> IndexBlock_Get (IndexBlock_Set i n b) m = IndexBlock_Get i m.
Proof. exact C50_others_lemma. Qed.
Print Assumptions C50_others_partial.
Example C50_example : IndexBlock_Get (IndexBlock_Set (zeros 512) 3 0x1234) 3 = 0 /\ IndexBlock_Get (upd (zeros 512) 3 [0x34] ++ []) 3 = 0x34.
Proof. split; vm_compute; reflexivity. Qed.

(** ** C51 *)
Theorem C51_volume_directory : forall d l subs iter,
  well_formed d (Node 2 l subs) -> an_order iter -> returns (fun k => Catalog iter k d []) (lists d 2 l).
Proof. exact C51_root_lemma. Qed.
Print Assumptions C51_volume_directory.
Theorem C51_subdirectory : forall d t iter p k l,
  well_formed d t -> an_order iter -> In (p, (k, l)) (paths d [] t) -> (forall x, In (p, x) (paths d [] t) -> x = (k, l)) ->
  returns (fun n => Catalog iter n d p) (lists d k l).
Proof. exact C51_one_lemma. Qed.
Print Assumptions C51_subdirectory.
Theorem C51_unknown_path : forall d t iter p,
  well_formed d t -> an_order iter -> ~ In p (map fst (paths d [] t)) ->
  returns (fun n => Catalog iter n d p) (fun r => exists e, r = Err e).
Proof. exact C51_missing_lemma. Qed.
Print Assumptions C51_unknown_path.
Example C51_example : well_formed ex_vol ex_tree /\ map fst (paths ex_vol [] ex_tree) = [[]; s2b "SUB"; s2b "SUB/INNER"] /\ NoDup (map fst (paths ex_vol [] ex_tree)) /\
  match Catalog (fun m => m) 10 ex_vol [] with Some (Ok l) => map (fun x => (d_name x, d_length x)) l | _ => [] end =
    [(s2b "HELLO", 0x134); (s2b "SUB", 0x400); (s2b "DATA", 0x10200)] /\
  match Catalog (fun m => m) 10 ex_vol (s2b "SUB/INNER") with Some (Ok l) => map d_name l | _ => [] end = [s2b "X"].
Proof. split; [exact ex_vol_ok|]. split; [apply ex_vol_paths|]. split; [apply ex_vol_paths|]. split; vm_compute; reflexivity. Qed.

(** ** C52: refuted *)
(** The claim is that Catalog returns on every image.  It does not when the chain of volume
    directory blocks is cyclic, when a directory contains itself, directly or not, or when a
    subdirectory is its own parent. *)
Theorem C52_block_cycle_refuted : forall d iter p,
  bytes_ok d -> zlen d <= 65536 * 512 -> bitmap_on_device d -> in_dev d 2 -> chain_cyclic d (next_block d 2) ->
  diverges (fun k => Catalog iter k d p).
Proof. exact C52_block_cycle_lemma. Qed.
Print Assumptions C52_block_cycle_refuted.
Theorem C52_subdirectory_cycle_refuted : forall d iter p,
  bytes_ok d -> zlen d <= 65536 * 512 -> bitmap_on_device d -> (exists l, is_dir d 2 l) ->
  (forall k, steps (child d) 2 k -> exists l, is_dir d k l) -> (exists k, steps (child d) 2 k /\ steps (child d) k k) ->
  diverges (fun k => Catalog iter k d p).
Proof. exact C52_subdir_cycle_lemma. Qed.
Print Assumptions C52_subdirectory_cycle_refuted.
Theorem C52_parent_cycle_refuted : exists d, bytes_ok d /\ zlen d = 143360 /\ forall iter p, an_order iter -> diverges (fun k => Catalog iter k d p).
Proof. exact C52_parent_cycle_lemma. Qed.
Print Assumptions C52_parent_cycle_refuted.
Example C52_block_cycle_example : bytes_ok ex_loop_block /\ zlen ex_loop_block = 143360 /\ bitmap_on_device ex_loop_block /\ in_dev ex_loop_block 2 /\
  chain_cyclic ex_loop_block (next_block ex_loop_block 2).
Proof. exact ex_loop_block_ok. Qed.
Example C52_subdirectory_cycle_example : bytes_ok ex_loop_sub /\ zlen ex_loop_sub = 143360 /\ bitmap_on_device ex_loop_sub /\ (exists l, is_dir ex_loop_sub 2 l) /\
  (forall k, steps (child ex_loop_sub) 2 k -> exists l, is_dir ex_loop_sub k l) /\ (exists k, steps (child ex_loop_sub) 2 k /\ steps (child ex_loop_sub) k k).
Proof. exact ex_loop_sub_ok. Qed.
(** What holds: it returns on every image without such cycles (so on every well-formed volume),
    and never panics. *)
Theorem C52_acyclic_partial : forall d iter p,
  bytes_ok d -> zlen d <= 65536 * 512 -> an_order iter -> acyclic d ->
  returns (fun k => Catalog iter k d p) (fun r => r <> Panic).
Proof. exact C52_partial_lemma. Qed.
Print Assumptions C52_acyclic_partial.
Theorem C52_well_formed_acyclic : forall d t,
  well_formed d t -> acyclic d.
Proof. exact well_formed_acyclic. Qed.
Print Assumptions C52_well_formed_acyclic.
Theorem C52_no_panic_partial : forall d iter p k,
  bytes_ok d -> zlen d <= 65536 * 512 -> Catalog iter k d p <> Some Panic.
Proof. exact C52_no_panic_lemma. Qed.
Print Assumptions C52_no_panic_partial.
Example C52_example : acyclic ex_vol.
Proof. exact (well_formed_acyclic ex_vol ex_tree ex_vol_ok). Qed.

(** ** C53: refuted *)
(** The claim is that no order of visiting the maps changes the result; with two subdirectories
    of the same name it decides which of them is listed. *)
Theorem C53_same_name_refuted : exists d t p i1 i2 r1 r2, well_formed d t /\ an_order i1 /\ an_order i2 /\ r1 <> r2 /\
  returns (fun k => Catalog i1 k d p) (eq (Ok r1)) /\ returns (fun k => Catalog i2 k d p) (eq (Ok r2)).
Proof. exact C53_refuted_lemma. Qed.
Print Assumptions C53_same_name_refuted.
(** What holds: the volume directory listing does not depend on it; nor the listing of a path that only one directory has. *)
Theorem C53_volume_directory_partial : forall d i1 i2 k r,
  an_order i1 -> an_order i2 -> Catalog i1 k d [] = Some (Ok r) -> Catalog i2 k d [] = Some (Ok r).
Proof. exact C53_root_lemma. Qed.
Print Assumptions C53_volume_directory_partial.
Theorem C53_distinct_names_partial : forall d t p,
  well_formed d t -> (forall x y, In (p, x) (paths d [] t) -> In (p, y) (paths d [] t) -> x = y) ->
  exists Q : res (list Descriptor) -> Prop, (forall r1 r2, Q r1 -> Q r2 -> r1 = r2 \/ exists e1 e2, r1 = Err e1 /\ r2 = Err e2) /\
  forall iter, an_order iter -> returns (fun k => Catalog iter k d p) Q.
Proof. exact C53_one_lemma. Qed.
Print Assumptions C53_distinct_names_partial.
(** In general: every order lists one of the directories of that path, and each of them is listed
    by some order.  (A path of no directory is an error in every order: C51_unknown_path.) *)
Theorem C53_exact : forall d t p, well_formed d t -> p <> [] -> In p (map fst (paths d [] t)) ->
  (forall iter, an_order iter -> exists k l, In (p, (k, l)) (paths d [] t) /\ returns (fun n => Catalog iter n d p) (lists d k l)) /\
  (forall k l, In (p, (k, l)) (paths d [] t) -> exists iter, an_order iter /\ returns (fun n => Catalog iter n d p) (lists d k l)).
Proof. exact C53_exact_lemma. Qed.
Print Assumptions C53_exact.
Example C53_example : well_formed ex_twins ex_twins_tree /\ map fst (paths ex_twins [] ex_twins_tree) = [[]; s2b "A"; s2b "A"].
Proof. split; [exact ex_twins_ok | vm_compute; reflexivity]. Qed.

(** ** C54 *)
Theorem C54_Validate :   (forall v, VDKB_Validate v = [] <-> vk_Prev v = 0 /\ time_ok (vh_Creation (vk_Header v)) /\ Forall times_ok (vk_Descriptors v) /\ vk_Extra v = 0) /\
  (forall v, VDB_Validate v = [] <-> Forall times_ok (vb_Descriptors v) /\ vb_Extra v = 0) /\
  (forall v, SKB_Validate v = [] <-> sk_Prev v = 0 /\ sh_SeventyFive (sk_Header v) = 0x75 /\ time_ok (sh_Creation (sk_Header v)) /\
     Forall times_ok (sk_Descriptors v) /\ sk_Extra v = 0) /\
  (forall v, SB_Validate v = [] <-> Forall times_ok (sb_Descriptors v) /\ sb_Extra v = 0).
Proof. exact C54_lemma. Qed.
Print Assumptions C54_Validate.
Theorem C54_reported_problems : forall e,
    (forall v, In e (VDKB_Validate v) <-> prev_problem (vk_Prev v) e \/
     time_problem (vh_Creation (vk_Header v)) (s2b "creation date/time of VolumeDirectoryHeader") e \/ entries_problem (vk_Descriptors v) (vk_Extra v) e) /\
  (forall v, In e (VDB_Validate v) <-> entries_problem (vb_Descriptors v) (vb_Extra v) e) /\
  (forall v, In e (SKB_Validate v) <-> prev_problem (sk_Prev v) e \/
     (sh_SeventyFive (sk_Header v) <> 0x75 /\ e = VESeventyFive (subdir_name (sk_Header v)) (sh_SeventyFive (sk_Header v))) \/
     time_problem (sh_Creation (sk_Header v)) (s2b "subdirectory " ++ subdir_name (sk_Header v) ++ s2b " header creation date/time") e \/
     entries_problem (sk_Descriptors v) (sk_Extra v) e) /\
  (forall v, In e (SB_Validate v) <-> entries_problem (sb_Descriptors v) (sb_Extra v) e).
Proof. exact C54_problems_lemma. Qed.
Print Assumptions C54_reported_problems.
Example C54_example : match VDB_FromBlock zeroVDB (repeat 24 512) with Ok v => VDB_Validate v | _ => [] end <> [] /\
  match SKB_FromBlock zeroSKB (blk ex_vol 7) with Ok v => SKB_Validate v | _ => [VEExtra 1] end = [].
Proof. split; [intros H; vm_compute in H; discriminate H | vm_compute; reflexivity]. Qed.

(** ** C71 *)
Theorem C71_bitmap_Write : forall vbm d,
  vbm_wf vbm -> Forall (fun p => is_u16 (bp_block p)) vbm ->
  (Forall (fun p => in_dev d (bp_block p)) vbm -> NoDup (map bp_block vbm) ->
    exists d', Write vbm d = (d', Ok tt) /\ zlen d' = zlen d /\
      (forall p, In p vbm -> blk d' (bp_block p) = bp_data p) /\
      (forall n, 0 <= n -> ~ In n (map bp_block vbm) -> blk d' n = blk d n)) /\
  (Exists (fun p => ~ in_dev d (bp_block p)) vbm -> exists d' e, Write vbm d = (d', Err e) /\ zlen d' = zlen d).
Proof. exact C71_lemma. Qed.
Print Assumptions C71_bitmap_Write.
(** What a failed Write leaves: the parts before the first one that is not on the device are written and
    every other block is as before. *)
Theorem C71_failed_Write : forall vbm d,
  vbm_wf vbm -> Forall (fun p => is_u16 (bp_block p)) vbm -> NoDup (map bp_block vbm) ->
  Exists (fun p => ~ in_dev d (bp_block p)) vbm ->
  exists d' e pre p post, vbm = pre ++ p :: post /\ Forall (fun q => in_dev d (bp_block q)) pre /\ ~ in_dev d (bp_block p) /\
    Write vbm d = (d', Err e) /\ zlen d' = zlen d /\
    (forall q, In q pre -> blk d' (bp_block q) = bp_data q) /\
    (forall n, 0 <= n -> ~ In n (map bp_block pre) -> blk d' n = blk d n).
Proof. exact (fun vbm d => Write_err_exact vbm d). Qed.
Print Assumptions C71_failed_Write.
Example C71_failed_example : let '(d, r) := Write [mkBP 6 (repeat 255 512); mkBP 280 (repeat 255 512); mkBP 7 (repeat 255 512)] ex_vol in
  (match r with Err _ => true | _ => false end, beq (blk d 6) (repeat 255 512), beq (blk d 7) (blk ex_vol 7)) = (true, true, true).
Proof. vm_compute. reflexivity. Qed.
Example C71_example : let '(d, r) := Write [mkBP 6 (repeat 255 512)] ex_vol in (r, znth 0 d (512 * 6 + 511), beq (blk d 5) (blk ex_vol 5), zlen d) = (Ok tt, 255, true, 143360).
Proof. vm_compute. reflexivity. Qed.

