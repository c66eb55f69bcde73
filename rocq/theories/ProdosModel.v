(** ProdosModel.v -- model of package prodos (prodos/prodos.go).

    Struct values are records, Go arrays are lists of the array's length.  [blockBase] (lines
    28-41) is the field [_block] of each record.  Maps are association lists with one entry
    per key.  Ranging over a map visits its entries in the order given by a function [iter];
    the properties quantify over every [iter] that permutes its argument.  Debug output and
    the text of error messages are not modelled.  copyBytes (835-842) is the same code as in
    package dos3, so [copyInto] of Dos3Model stands for it. *)
From Verif Require Import GoBase DiskModel TypesModel.
From Verif Require Dos3Model.
Notation copyInto := Dos3Model.copyInto.
Notation mapres := Dos3Model.mapres.

(** prodos/prodos.go:16-25 *)
Definition TypeDeleted : Z := 0.
Definition TypeSeedling : Z := 0x1.
Definition TypeSapling : Z := 0x2.
Definition TypeTree : Z := 0x3.
Definition TypeSubdirectory : Z := 0xD.
Definition TypeSubdirectoryHeader : Z := 0xE.
Definition TypeVolumeDirectoryHeader : Z := 0xF.

(** ** The volume bitmap: prodos/prodos.go:43-131 *)

(** prodos/prodos.go:43-47 *)
Record bitmapPart := mkBP { bp_block : Z; bp_data : bytes }.
(** prodos/prodos.go:52-56 *)
Definition bp_FromBlock (bp : bitmapPart) (block : bytes) : res bitmapPart := Ok (mkBP (bp_block bp) block).
(** prodos/prodos.go:58-61 *)
Definition bp_ToBlock (bp : bitmapPart) : res bytes := Ok (bp_data bp).
Definition bp_SetBlock (b : Z) (bp : bitmapPart) : bitmapPart := mkBP b (bp_data bp). (* prodos/prodos.go:38-41 *)
Definition zeroBP : bitmapPart := mkBP 0 (zeros 512).

(** prodos/prodos.go:88-98.  The slice is mutated in place: the result is its new contents. *)
Definition mark (vbm : list bitmapPart) (block : Z) (set : bool) : res (list bitmapPart) :=
  let byteIndex := block / 8 in
  let blockIndex := byteIndex / 512 in
  let blockByteIndex := byteIndex mod 512 in
  let bit := u8 (Z.shiftl 1 (7 - block mod 8)) in
  if (0 <=? blockIndex) && (blockIndex <? zlen vbm) then
    let part := znth zeroBP vbm blockIndex in
    let old := znth 0 (bp_data part) blockByteIndex in
    let new := if set then Z.lor old bit else Z.ldiff old bit in
    Ok (zset vbm blockIndex (mkBP (bp_block part) (zset (bp_data part) blockByteIndex new)))
  else Panic.
(** prodos/prodos.go:78-86 *)
Definition MarkUsed vbm block := mark vbm block false.
Definition MarkUnused vbm block := mark vbm block true.
(** prodos/prodos.go:102-108 *)
Definition IsFree (vbm : list bitmapPart) (block : Z) : res bool :=
  let byteIndex := block / 8 in
  let blockIndex := byteIndex / 512 in
  let blockByteIndex := byteIndex mod 512 in
  let bit := u8 (Z.shiftl 1 (7 - block mod 8)) in
  if (0 <=? blockIndex) && (blockIndex <? zlen vbm) then
    Ok (0 <? Z.land (znth 0 (bp_data (znth zeroBP vbm blockIndex)) blockByteIndex) bit)
  else Panic.

(** prodos/prodos.go:72-74 *)
Fixpoint markAllUnused (bs : list Z) (vbm : list bitmapPart) : res (list bitmapPart) :=
  match bs with
  | [] => Ok vbm
  | b :: rest => vbm <- MarkUnused vbm (u16 b) ;; markAllUnused rest vbm
  end.
(** prodos/prodos.go:67-76.  [blocks+(512*8)-1] is computed in uint16. *)
Definition NewVolumeBitMap (startBlock blocks : Z) : res (list bitmapPart) :=
  let n := u16 (u16 (blocks + 4096) - 1) / 4096 in
  let vbm := map (fun i => mkBP (u16 (startBlock + u16 i)) (zeros 512)) (zrange n) in
  markAllUnused (zrange blocks) vbm.

(** prodos/prodos.go:112-121 *)
Definition readVolumeBitMap (devicebytes : bytes) (startBlock : Z) : res (list bitmapPart) :=
  let blocks := u16 (zlen devicebytes / 512 / 4096) in
  vbm <- NewVolumeBitMap startBlock blocks ;;
  mapres (fun bp => UnmarshalBlock (bp_FromBlock bp) bp_SetBlock devicebytes (bp_block bp)) vbm.

(** prodos/prodos.go:124-131 *)
Fixpoint Write (vbm : list bitmapPart) : st bytes unit :=
  match vbm with
  | [] => sret tt
  | bp :: rest => _ <== MarshalBlock bp_ToBlock bp_block bp ;; Write rest
  end.

(** ** Date/time: prodos/prodos.go:133-164 *)
Record DateTime := mkDT { dt_YMD : bytes; dt_HM : bytes }.
(** prodos/prodos.go:140-142 *)
Definition DateTime_toBytes (dt : DateTime) : bytes :=
  [znth 0 (dt_YMD dt) 0; znth 0 (dt_YMD dt) 1; znth 0 (dt_HM dt) 0; znth 0 (dt_HM dt) 1].
(** prodos/prodos.go:145-153 *)
Definition DateTime_fromBytes (b : bytes) : res DateTime :=
  if negb (zlen b =? 4) then Panic
  else Ok (mkDT [znth 0 b 0; znth 0 b 1] [znth 0 b 2; znth 0 b 3]).

(** Errors of the Validate methods: which check failed.  [VEHour], [VEMinute]: lines 157-162;
    [VEPrev]: 208, 491; [VEExtra]: 215, 262, 498, 545; [VESeventyFive]: 612. *)
Inductive verror := VEHour (field : bytes) (got : Z) | VEMinute (field : bytes) (got : Z)
  | VEPrev (got : Z) | VEExtra (got : Z) | VESeventyFive (name : bytes) (got : Z).
(** prodos/prodos.go:156-164 *)
Definition DateTime_Validate (dt : DateTime) (field : bytes) : list verror :=
  (if 24 <=? znth 0 (dt_HM dt) 0 then [VEHour field (znth 0 (dt_HM dt) 0)] else []) ++
  (if 60 <=? znth 0 (dt_HM dt) 1 then [VEMinute field (znth 0 (dt_HM dt) 1)] else []).

(** ** File descriptors: prodos/prodos.go:343-432 *)
Record FileDescriptor := mkPFD {
  f_TypeAndNameLength : Z; f_FileName : bytes; f_FileType : Z; f_KeyPointer : Z; f_BlocksUsed : Z;
  f_EOF : bytes; f_Creation : DateTime; f_Version : Z; f_MinVersion : Z; f_Access : Z;
  f_AuxType : Z; f_LastMod : DateTime; f_HeaderPointer : Z
}.
(** prodos/prodos.go:379-381 *)
Definition FD_Name (fd : FileDescriptor) : bytes := sub (f_FileName fd) 0 (Z.land (f_TypeAndNameLength fd) 0xf).
(** prodos/prodos.go:384-386 *)
Definition FD_Type (fd : FileDescriptor) : Z := f_TypeAndNameLength fd / 16.
(** prodos/prodos.go:367-376 *)
Definition FD_descriptor (fd : FileDescriptor) : Descriptor :=
  {| d_name := FD_Name fd; d_fullname := []; d_sectors := 0; d_blocks := f_BlocksUsed fd;
     d_length := znth 0 (f_EOF fd) 0 + znth 0 (f_EOF fd) 1 * 256 + znth 0 (f_EOF fd) 2 * 65536;
     d_locked := false; d_type := f_FileType fd |}.
(** prodos/prodos.go:389-405 *)
Definition FD_toBytes (fd : FileDescriptor) : res bytes :=
  let buf := zeros 0x27 in
  let buf := zset buf 0 (f_TypeAndNameLength fd) in
  buf <- copyInto buf 1 0x10 (f_FileName fd) ;;
  let buf := zset buf 0x10 (f_FileType fd) in
  let buf := upd buf 0x11 (put16 (f_KeyPointer fd)) in
  let buf := upd buf 0x13 (put16 (f_BlocksUsed fd)) in
  buf <- copyInto buf 0x15 0x18 (f_EOF fd) ;;
  buf <- copyInto buf 0x18 0x1c (DateTime_toBytes (f_Creation fd)) ;;
  let buf := zset buf 0x1c (f_Version fd) in
  let buf := zset buf 0x1d (f_MinVersion fd) in
  let buf := zset buf 0x1e (f_Access fd) in
  let buf := upd buf 0x1f (put16 (f_AuxType fd)) in
  buf <- copyInto buf 0x21 0x25 (DateTime_toBytes (f_LastMod fd)) ;;
  Ok (upd buf 0x25 (put16 (f_HeaderPointer fd))).
(** prodos/prodos.go:408-425 *)
Definition FD_fromBytes (buf : bytes) : res FileDescriptor :=
  if negb (zlen buf =? 0x27) then Panic
  else
    creation <- DateTime_fromBytes (sub buf 0x18 0x1c) ;;
    lastMod <- DateTime_fromBytes (sub buf 0x21 0x25) ;;
    Ok (mkPFD (znth 0 buf 0) (sub buf 1 0x10) (znth 0 buf 0x10) (get16 buf 0x11) (get16 buf 0x13) (sub buf 0x15 0x18)
          creation (znth 0 buf 0x1c) (znth 0 buf 0x1d) (znth 0 buf 0x1e) (get16 buf 0x1f) lastMod (get16 buf 0x25)).
(** prodos/prodos.go:428-432 *)
Definition FD_Validate (fd : FileDescriptor) : list verror :=
  DateTime_Validate (f_Creation fd) (s2b "creation date/time of FileDescriptor " ++ FD_Name fd) ++
  DateTime_Validate (f_LastMod fd) (s2b "last modification date/time of FileDescriptor " ++ FD_Name fd).

(** ** Volume directory header: prodos/prodos.go:268-325 *)
Record VolumeDirectoryHeader := mkVDH {
  vh_TypeAndNameLength : Z; vh_VolumeName : bytes; vh_Unused1 : bytes; vh_Creation : DateTime;
  vh_Version : Z; vh_MinVersion : Z; vh_Access : Z; vh_EntryLength : Z; vh_EntriesPerBlock : Z;
  vh_FileCount : Z; vh_BitMapPointer : Z; vh_TotalBlocks : Z
}.
(** prodos/prodos.go:285-300 *)
Definition VDH_toBytes (h : VolumeDirectoryHeader) : res bytes :=
  let buf := zeros 0x27 in
  let buf := zset buf 0 (vh_TypeAndNameLength h) in
  buf <- copyInto buf 1 0x10 (vh_VolumeName h) ;;
  buf <- copyInto buf 0x10 0x18 (vh_Unused1 h) ;;
  buf <- copyInto buf 0x18 0x1c (DateTime_toBytes (vh_Creation h)) ;;
  let buf := zset buf 0x1c (vh_Version h) in
  let buf := zset buf 0x1d (vh_MinVersion h) in
  let buf := zset buf 0x1e (vh_Access h) in
  let buf := zset buf 0x1f (vh_EntryLength h) in
  let buf := zset buf 0x20 (vh_EntriesPerBlock h) in
  let buf := upd buf 0x21 (put16 (vh_FileCount h)) in
  let buf := upd buf 0x23 (put16 (vh_BitMapPointer h)) in
  Ok (upd buf 0x25 (put16 (vh_TotalBlocks h))).
(** prodos/prodos.go:303-319 *)
Definition VDH_fromBytes (buf : bytes) : res VolumeDirectoryHeader :=
  if negb (zlen buf =? 0x27) then Panic
  else
    creation <- DateTime_fromBytes (sub buf 0x18 0x1c) ;;
    Ok (mkVDH (znth 0 buf 0) (sub buf 1 0x10) (sub buf 0x10 0x18) creation (znth 0 buf 0x1c) (znth 0 buf 0x1d)
          (znth 0 buf 0x1e) (znth 0 buf 0x1f) (znth 0 buf 0x20) (get16 buf 0x21) (get16 buf 0x23) (get16 buf 0x25)).
(** prodos/prodos.go:322-325 *)
Definition VDH_Validate (h : VolumeDirectoryHeader) : list verror :=
  DateTime_Validate (vh_Creation h) (s2b "creation date/time of VolumeDirectoryHeader").

(** ** Subdirectory header: prodos/prodos.go:551-622 *)
Record SubdirectoryHeader := mkSH {
  sh_TypeAndNameLength : Z; sh_SubdirectoryName : bytes; sh_SeventyFive : Z; sh_Unused1 : bytes; sh_Creation : DateTime;
  sh_Version : Z; sh_MinVersion : Z; sh_Access : Z; sh_EntryLength : Z; sh_EntriesPerBlock : Z;
  sh_FileCount : Z; sh_ParentPointer : Z; sh_ParentEntry : Z; sh_ParentEntryLength : Z
}.
(** prodos/prodos.go:570-587 *)
Definition SH_toBytes (h : SubdirectoryHeader) : res bytes :=
  let buf := zeros 0x27 in
  let buf := zset buf 0 (sh_TypeAndNameLength h) in
  buf <- copyInto buf 1 0x10 (sh_SubdirectoryName h) ;;
  let buf := zset buf 0x10 (sh_SeventyFive h) in
  buf <- copyInto buf 0x11 0x18 (sh_Unused1 h) ;;
  buf <- copyInto buf 0x18 0x1c (DateTime_toBytes (sh_Creation h)) ;;
  let buf := zset buf 0x1c (sh_Version h) in
  let buf := zset buf 0x1d (sh_MinVersion h) in
  let buf := zset buf 0x1e (sh_Access h) in
  let buf := zset buf 0x1f (sh_EntryLength h) in
  let buf := zset buf 0x20 (sh_EntriesPerBlock h) in
  let buf := upd buf 0x21 (put16 (sh_FileCount h)) in
  let buf := upd buf 0x23 (put16 (sh_ParentPointer h)) in
  let buf := zset buf 0x25 (sh_ParentEntry h) in
  Ok (zset buf 0x26 (sh_ParentEntryLength h)).
(** prodos/prodos.go:590-608 *)
Definition SH_fromBytes (buf : bytes) : res SubdirectoryHeader :=
  if negb (zlen buf =? 0x27) then Panic
  else
    creation <- DateTime_fromBytes (sub buf 0x18 0x1c) ;;
    Ok (mkSH (znth 0 buf 0) (sub buf 1 0x10) (znth 0 buf 0x10) (sub buf 0x11 0x18) creation (znth 0 buf 0x1c) (znth 0 buf 0x1d)
          (znth 0 buf 0x1e) (znth 0 buf 0x1f) (znth 0 buf 0x20) (get16 buf 0x21) (get16 buf 0x23) (znth 0 buf 0x25) (znth 0 buf 0x26)).
(** prodos/prodos.go:620-622 *)
Definition SH_Name (h : SubdirectoryHeader) : bytes := sub (sh_SubdirectoryName h) 0 (Z.land (sh_TypeAndNameLength h) 0xf).
(** prodos/prodos.go:611-617 *)
Definition SH_Validate (h : SubdirectoryHeader) : list verror :=
  (if negb (sh_SeventyFive h =? 0x75) then [VESeventyFive (SH_Name h) (sh_SeventyFive h)] else []) ++
  DateTime_Validate (sh_Creation h) (s2b "subdirectory " ++ SH_Name h ++ s2b " header creation date/time").

(** ** Directory blocks *)

(** [for i, desc := range descs { copyBytes(block[start+i*0x27:start+(i+1)*0x27], desc.toBytes()) }] *)
Fixpoint copyDescs (start i : Z) (descs : list FileDescriptor) (block : bytes) : res bytes :=
  match descs with
  | [] => Ok block
  | desc :: rest =>
      b <- FD_toBytes desc ;;
      block <- copyInto block (start + i * 0x27) (start + (i + 1) * 0x27) b ;;
      copyDescs start (i + 1) rest block
  end.
(** [for i := range descs { descs[i].fromBytes(block[start+i*0x27 : start+(i+1)*0x27]) }] *)
Definition readDescs (start n : Z) (block : bytes) : res (list FileDescriptor) :=
  mapres (fun i => FD_fromBytes (sub block (start + i * 0x27) (start + (i + 1) * 0x27))) (zrange n).

(** prodos/prodos.go:168-175 *)
Record VolumeDirectoryKeyBlock := mkVDKB {
  vk_block : Z; vk_Prev : Z; vk_Next : Z; vk_Header : VolumeDirectoryHeader; vk_Descriptors : list FileDescriptor; vk_Extra : Z
}.
(** prodos/prodos.go:182-192 *)
Definition VDKB_ToBlock (v : VolumeDirectoryKeyBlock) : res bytes :=
  let block := zeros 512 in
  let block := upd block 0x0 (put16 (vk_Prev v)) in
  let block := upd block 0x2 (put16 (vk_Next v)) in
  h <- VDH_toBytes (vk_Header v) ;;
  block <- copyInto block 0x04 0x2b h ;;
  block <- copyDescs 0x2b 0 (vk_Descriptors v) block ;;
  Ok (zset block 511 (vk_Extra v)).
(** prodos/prodos.go:195-204.  [v0]: the receiver before the call. *)
Definition VDKB_FromBlock (v0 : VolumeDirectoryKeyBlock) (block : bytes) : res VolumeDirectoryKeyBlock :=
  h <- VDH_fromBytes (sub block 0x04 0x2b) ;;
  descs <- readDescs 0x2b 12 block ;;
  Ok (mkVDKB (vk_block v0) (get16 block 0x0) (get16 block 0x2) h descs (znth 0 block 511)).
Definition VDKB_SetBlock (b : Z) (v : VolumeDirectoryKeyBlock) : VolumeDirectoryKeyBlock :=
  mkVDKB b (vk_Prev v) (vk_Next v) (vk_Header v) (vk_Descriptors v) (vk_Extra v).
(** prodos/prodos.go:207-219 *)
Definition VDKB_Validate (v : VolumeDirectoryKeyBlock) : list verror :=
  (if negb (vk_Prev v =? 0) then [VEPrev (vk_Prev v)] else []) ++
  VDH_Validate (vk_Header v) ++ flat_map FD_Validate (vk_Descriptors v) ++
  (if negb (vk_Extra v =? 0) then [VEExtra (vk_Extra v)] else []).

(** prodos/prodos.go:222-228, 505-511: VolumeDirectoryBlock and SubdirectoryBlock have the same
    fields and the same methods (234-266, 518-549). *)
Record VolumeDirectoryBlock := mkVDB { vb_block : Z; vb_Prev : Z; vb_Next : Z; vb_Descriptors : list FileDescriptor; vb_Extra : Z }.
(** prodos/prodos.go:235-244 *)
Definition VDB_ToBlock (v : VolumeDirectoryBlock) : res bytes :=
  let block := zeros 512 in
  let block := upd block 0x0 (put16 (vb_Prev v)) in
  let block := upd block 0x2 (put16 (vb_Next v)) in
  block <- copyDescs 0x04 0 (vb_Descriptors v) block ;;
  Ok (zset block 511 (vb_Extra v)).
(** prodos/prodos.go:247-255 *)
Definition VDB_FromBlock (v0 : VolumeDirectoryBlock) (block : bytes) : res VolumeDirectoryBlock :=
  descs <- readDescs 0x4 13 block ;;
  Ok (mkVDB (vb_block v0) (get16 block 0x0) (get16 block 0x2) descs (znth 0 block 511)).
Definition VDB_SetBlock (b : Z) (v : VolumeDirectoryBlock) : VolumeDirectoryBlock :=
  mkVDB b (vb_Prev v) (vb_Next v) (vb_Descriptors v) (vb_Extra v).
(** prodos/prodos.go:258-266 *)
Definition VDB_Validate (v : VolumeDirectoryBlock) : list verror :=
  flat_map FD_Validate (vb_Descriptors v) ++ (if negb (vb_Extra v =? 0) then [VEExtra (vb_Extra v)] else []).

(** prodos/prodos.go:451-458 *)
Record SubdirectoryKeyBlock := mkSKB {
  sk_block : Z; sk_Prev : Z; sk_Next : Z; sk_Header : SubdirectoryHeader; sk_Descriptors : list FileDescriptor; sk_Extra : Z
}.
(** prodos/prodos.go:465-475 *)
Definition SKB_ToBlock (v : SubdirectoryKeyBlock) : res bytes :=
  let block := zeros 512 in
  let block := upd block 0x0 (put16 (sk_Prev v)) in
  let block := upd block 0x2 (put16 (sk_Next v)) in
  h <- SH_toBytes (sk_Header v) ;;
  block <- copyInto block 0x04 0x2b h ;;
  block <- copyDescs 0x2b 0 (sk_Descriptors v) block ;;
  Ok (zset block 511 (sk_Extra v)).
(** prodos/prodos.go:478-487 *)
Definition SKB_FromBlock (v0 : SubdirectoryKeyBlock) (block : bytes) : res SubdirectoryKeyBlock :=
  h <- SH_fromBytes (sub block 0x04 0x2b) ;;
  descs <- readDescs 0x2b 12 block ;;
  Ok (mkSKB (sk_block v0) (get16 block 0x0) (get16 block 0x2) h descs (znth 0 block 511)).
Definition SKB_SetBlock (b : Z) (v : SubdirectoryKeyBlock) : SubdirectoryKeyBlock :=
  mkSKB b (sk_Prev v) (sk_Next v) (sk_Header v) (sk_Descriptors v) (sk_Extra v).
(** prodos/prodos.go:490-502 *)
Definition SKB_Validate (v : SubdirectoryKeyBlock) : list verror :=
  (if negb (sk_Prev v =? 0) then [VEPrev (sk_Prev v)] else []) ++
  SH_Validate (sk_Header v) ++ flat_map FD_Validate (sk_Descriptors v) ++
  (if negb (sk_Extra v =? 0) then [VEExtra (sk_Extra v)] else []).

(** prodos/prodos.go:505-511 *)
Record SubdirectoryBlock := mkSB { sb_block : Z; sb_Prev : Z; sb_Next : Z; sb_Descriptors : list FileDescriptor; sb_Extra : Z }.
(** prodos/prodos.go:518-527 *)
Definition SB_ToBlock (v : SubdirectoryBlock) : res bytes :=
  let block := zeros 512 in
  let block := upd block 0x0 (put16 (sb_Prev v)) in
  let block := upd block 0x2 (put16 (sb_Next v)) in
  block <- copyDescs 0x04 0 (sb_Descriptors v) block ;;
  Ok (zset block 511 (sb_Extra v)).
(** prodos/prodos.go:530-538 *)
Definition SB_FromBlock (v0 : SubdirectoryBlock) (block : bytes) : res SubdirectoryBlock :=
  descs <- readDescs 0x4 13 block ;;
  Ok (mkSB (sb_block v0) (get16 block 0x0) (get16 block 0x2) descs (znth 0 block 511)).
Definition SB_SetBlock (b : Z) (v : SubdirectoryBlock) : SubdirectoryBlock :=
  mkSB b (sb_Prev v) (sb_Next v) (sb_Descriptors v) (sb_Extra v).
(** prodos/prodos.go:541-549 *)
Definition SB_Validate (v : SubdirectoryBlock) : list verror :=
  flat_map FD_Validate (sb_Descriptors v) ++ (if negb (sb_Extra v =? 0) then [VEExtra (sb_Extra v)] else []).

(** Zero values. *)
Definition zeroDT : DateTime := mkDT (zeros 2) (zeros 2).
Definition zeroPFD : FileDescriptor := mkPFD 0 (zeros 15) 0 0 0 (zeros 3) zeroDT 0 0 0 0 zeroDT 0.
Definition zeroVDKB : VolumeDirectoryKeyBlock :=
  mkVDKB 0 0 0 (mkVDH 0 (zeros 15) (zeros 8) zeroDT 0 0 0 0 0 0 0 0) (repeat zeroPFD 12) 0.
Definition zeroVDB : VolumeDirectoryBlock := mkVDB 0 0 0 (repeat zeroPFD 13) 0.
Definition zeroSKB : SubdirectoryKeyBlock :=
  mkSKB 0 0 0 (mkSH 0 (zeros 15) 0 (zeros 7) zeroDT 0 0 0 0 0 0 0 0 0) (repeat zeroPFD 12) 0.
Definition zeroSB : SubdirectoryBlock := mkSB 0 0 0 (repeat zeroPFD 13) 0.

(** ** Index blocks: prodos/prodos.go:434-447 *)
(** prodos/prodos.go:439-441 *)
Definition IndexBlock_Get (i : bytes) (blockNum : Z) : Z := u16 (znth 0 i blockNum + u16 (znth 0 i (256 + blockNum) * 256)).
(** prodos/prodos.go:444-447.  The receiver is a 512-byte array passed by value: the writes go
    to the method's copy; the result is the caller's array after the call. *)
Definition IndexBlock_Set (i : bytes) (blockNum block : Z) : bytes :=
  let copy := zset i blockNum (u8 block) in
  let copy := zset copy (256 + blockNum) (u8 (block / 256)) in
  i.

(** ** Volumes: prodos/prodos.go:624-833 *)
(** prodos/prodos.go:637-640 *)
Record Subdirectory := mkSub { sd_keyBlock : SubdirectoryKeyBlock; sd_blocks : list SubdirectoryBlock }.
(** prodos/prodos.go:763-771 *)
Definition sd_descriptors (s : Subdirectory) : list FileDescriptor :=
  sk_Descriptors (sd_keyBlock s) ++ flat_map sb_Descriptors (sd_blocks s).
(** prodos/prodos.go:775-784 *)
Definition isSubdir (fd : FileDescriptor) : bool := FD_Type fd =? TypeSubdirectory.
Definition sd_subdirDescriptors (s : Subdirectory) : list FileDescriptor := filter isSubdir (sd_descriptors s).

(** Maps with one entry per key. *)
Definition mput {K V} (eqk : K -> K -> bool) (k : K) (v : V) (m : list (K * V)) : list (K * V) :=
  (k, v) :: filter (fun e => negb (eqk (fst e) k)) m.
Definition mget {K V} (eqk : K -> K -> bool) (k : K) (m : list (K * V)) : option V :=
  match find (fun e => eqk (fst e) k) m with Some e => Some (snd e) | None => None end.

(** prodos/prodos.go:626-633 *)
Record Volume := mkVol {
  vol_keyBlock : VolumeDirectoryKeyBlock; vol_blocks : list VolumeDirectoryBlock; vol_bitmap : list bitmapPart;
  vol_subdirsByBlock : list (Z * Subdirectory); vol_subdirsByName : list (bytes * Subdirectory);
  vol_firstSubdirBlocks : list (Z * Z)
}.
(** prodos/prodos.go:644-652 *)
Definition vol_descriptors (v : Volume) : list FileDescriptor :=
  vk_Descriptors (vol_keyBlock v) ++ flat_map vb_Descriptors (vol_blocks v).
(** prodos/prodos.go:656-665 *)
Definition vol_subdirDescriptors (v : Volume) : list FileDescriptor := filter isSubdir (vol_descriptors v).

(** Loops that may not end take fuel; [None]: no result with this fuel. *)
Definition obind {A B} (m : option (res A)) (k : A -> option (res B)) : option (res B) :=
  match m with
  | None => None
  | Some (Ok x) => k x
  | Some (Err e) => Some (Err e)
  | Some Panic => Some Panic
  end.
Notation "x <~ m ;; k" := (obind m (fun x => k)) (at level 61, m at next level, right associativity).

(** prodos/prodos.go:824-830 *)
Fixpoint readSB (fuel : nat) (devicebytes : bytes) (block : Z) (blocks : list SubdirectoryBlock) : option (res (list SubdirectoryBlock)) :=
  match fuel with
  | O => None
  | S fuel =>
      if block =? 0 then Some (Ok blocks)
      else
        sdb <~ Some (UnmarshalBlock (SB_FromBlock zeroSB) SB_SetBlock devicebytes block) ;;
        readSB fuel devicebytes (sb_Next sdb) (blocks ++ [sdb])
  end.
(** prodos/prodos.go:815-833 *)
Definition readSubdirectory (fuel : nat) (devicebytes : bytes) (fd : FileDescriptor) : option (res Subdirectory) :=
  key <~ Some (UnmarshalBlock (SKB_FromBlock zeroSKB) SKB_SetBlock devicebytes (f_KeyPointer fd)) ;;
  blocks <~ readSB fuel devicebytes (sk_Next key) [] ;;
  Some (Ok (mkSub key blocks)).

(** prodos/prodos.go:787-811.  Go recurses; unbounded recursion is a stack overflow. *)
Fixpoint parentDirName (fuel : nat) (parentDirectoryBlock keyBlock : Z) (subdirMap : list (Z * Subdirectory))
    (firstSubdirBlockMap : list (Z * Z)) : option (res bytes) :=
  match fuel with
  | O => None
  | S fuel =>
      if (parentDirectoryBlock =? keyBlock) ||
         (match mget Z.eqb parentDirectoryBlock firstSubdirBlockMap with Some b => b | None => 0 end =? keyBlock)
      then Some (Ok [])
      else
        let sd := match mget Z.eqb parentDirectoryBlock subdirMap with
                  | Some sd => Some sd
                  | None => match mget Z.eqb parentDirectoryBlock firstSubdirBlockMap with
                            | Some parentFirstBlock => mget Z.eqb parentFirstBlock subdirMap
                            | None => None
                            end
                  end in
        match sd with
        | None => Some (Err (EOther "unable to find subdirectory for block"))
        | Some sd =>
            parentName <~ parentDirName fuel (sh_ParentPointer (sk_Header (sd_keyBlock sd))) keyBlock subdirMap firstSubdirBlockMap ;;
            if zlen parentName =? 0 then Some (Ok (SH_Name (sk_Header (sd_keyBlock sd))))
            else Some (Ok (parentName ++ s2b "/" ++ SH_Name (sk_Header (sd_keyBlock sd))))
        end
  end.

(** prodos/prodos.go:695-708 *)
Fixpoint readVDB (fuel : nat) (devicebytes : bytes) (keyBlock block : Z) (blocks : list VolumeDirectoryBlock) (first : list (Z * Z))
    : option (res (list VolumeDirectoryBlock * list (Z * Z))) :=
  match fuel with
  | O => None
  | S fuel =>
      if block =? 0 then Some (Ok (blocks, first))
      else
        vdb <~ Some (UnmarshalBlock (VDB_FromBlock zeroVDB) VDB_SetBlock devicebytes block) ;;
        readVDB fuel devicebytes keyBlock (vb_Next vdb) (blocks ++ [vdb]) (mput Z.eqb block keyBlock first)
  end.

(** prodos/prodos.go:726-731 *)
Definition recordBlocks (key : Z) (blocks : list SubdirectoryBlock) (first : list (Z * Z)) : list (Z * Z) :=
  fold_left (fun m b => mput Z.eqb (sb_block b) key m) blocks first.
(** prodos/prodos.go:715-732: the loop over the growing list of subdirectory descriptors; [sdds]
    is the part not yet visited. *)
Fixpoint readSubdirs (fuel : nat) (devicebytes : bytes) (sdds : list FileDescriptor) (byBlock : list (Z * Subdirectory)) (first : list (Z * Z))
    : option (res (list (Z * Subdirectory) * list (Z * Z))) :=
  match fuel with
  | O => None
  | S fuel' =>
      match sdds with
      | [] => Some (Ok (byBlock, first))
      | sdd :: rest =>
          sb <~ readSubdirectory fuel devicebytes sdd ;;
          readSubdirs fuel' devicebytes (rest ++ sd_subdirDescriptors sb)
            (mput Z.eqb (f_KeyPointer sdd) sb byBlock) (recordBlocks (f_KeyPointer sdd) (sd_blocks sb) first)
      end
  end.

(** prodos/prodos.go:737-751, over the entries of the map in the order of [sds]. *)
Fixpoint nameSubdirs (fuel : nat) (keyBlock : Z) (byBlock : list (Z * Subdirectory)) (first : list (Z * Z))
    (sds : list (Z * Subdirectory)) (byName : list (bytes * Subdirectory)) : option (res (list (bytes * Subdirectory))) :=
  match sds with
  | [] => Some (Ok byName)
  | (_, sd) :: rest =>
      let name := SH_Name (sk_Header (sd_keyBlock sd)) in
      parentName <~ parentDirName fuel (sh_ParentPointer (sk_Header (sd_keyBlock sd))) keyBlock byBlock first ;;
      let name := if negb (zlen parentName =? 0) then parentName ++ s2b "/" ++ name else name in
      nameSubdirs fuel keyBlock byBlock first rest (mput beq name sd byName)
  end.

(** prodos/prodos.go:669-759 *)
Definition readVolume (iter : list (Z * Subdirectory) -> list (Z * Subdirectory)) (fuel : nat) (devicebytes : bytes) (keyBlock : Z)
    : option (res Volume) :=
  key <~ Some (UnmarshalBlock (VDKB_FromBlock zeroVDKB) VDKB_SetBlock devicebytes keyBlock) ;;
  vbm <~ Some (readVolumeBitMap devicebytes (vh_BitMapPointer (vk_Header key))) ;;
  bf <~ readVDB fuel devicebytes keyBlock (vk_Next key) [] [] ;;
  let '(blocks, first) := bf in
  let v := mkVol key blocks vbm [] [] first in
  bf <~ readSubdirs fuel devicebytes (vol_subdirDescriptors v) [] first ;;
  let '(byBlock, first) := bf in
  byName <~ nameSubdirs fuel keyBlock byBlock first (iter byBlock) [] ;;
  Some (Ok (mkVol key blocks vbm byBlock byName first)).

(** ** The operator: prodos/prodos.go:844-956.  An operator is its image bytes. *)
Definition prodos_name : bytes := s2b "prodos". (* prodos/prodos.go:853-860 *)

(** prodos/prodos.go:882-886, 895-899 *)
Definition live_descs (descs : list FileDescriptor) : list Descriptor :=
  map FD_descriptor (filter (fun desc => negb (FD_Type desc =? TypeDeleted)) descs).
(** prodos/prodos.go:870-901 *)
Definition Catalog (iter : list (Z * Subdirectory) -> list (Z * Subdirectory)) (fuel : nat) (o : bytes) (subdir : bytes)
    : option (res (list Descriptor)) :=
  vol <~ readVolume iter fuel o 2 ;;
  if zlen subdir =? 0 then Some (Ok (live_descs (vol_descriptors vol)))
  else
    match mget beq subdir (vol_subdirsByName vol) with
    | None => Some (Err (EOther "subdirectory not found"))
    | Some sd => Some (Ok (live_descs (sd_descriptors sd)))
    end.

(** prodos/prodos.go:904-906 *)
Definition prodos_GetFile (o : bytes) (filename : bytes) : res FileInfo := Err (EOther "doesn't implement GetFile yet").
(** prodos/prodos.go:910-912 *)
Definition prodos_Delete (filename : bytes) : st bytes bool := fun o => (o, Err (EOther "doesn't implement Delete yet")).
(** prodos/prodos.go:917-919 *)
Definition prodos_PutFile (fileInfo : FileInfo) (overwrite : bool) : st bytes bool :=
  fun o => (o, Err (EOther "doesn't implement PutFile yet")).

(** prodos/prodos.go:942-946; [None]: the call does not return normally. *)
Definition prodos_SeemsToMatch (iter : list (Z * Subdirectory) -> list (Z * Subdirectory)) (fuel : nat) (devicebytes : bytes) : option bool :=
  match readVolume iter fuel devicebytes 2 with
  | None => None
  | Some Panic => None
  | Some (Err _) => Some false
  | Some (Ok _) => Some true
  end.
(** prodos/prodos.go:949-951 *)
Definition prodos_Operator (devicebytes : bytes) : res bytes := Ok devicebytes.
