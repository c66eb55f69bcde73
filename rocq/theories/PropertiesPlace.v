(** PropertiesPlace.v -- property C78: structures are written back where they were read.
    Vocabulary: PlaceSpec ([kept_in_place]), Dos3Spec, ProdosSpec. *)
From Verif Require Import GoBase GoLemmas DiskModel DiskSpec TypesModel Dos3Model Dos3Spec Dos3StmtProofs ProdosModel ProdosSpec
  PlaceModel PlaceSpec PlaceProofs.
Local Opaque zrange zeros sub.

(** ** C78 *)
Theorem C78_VTOC_in_place : forall v0, VTOC_wf v0 ->
  kept_in_place (fun d p => UnmarshalLogicalSector (VTOC_FromSector v0) VTOC_setTS d (fst p) (snd p)) (MarshalLogicalSector VTOC_ToSector VTOC_getTS)
    (fun v => (v_Track v, v_Sector v)) (fun p => offset (fst p) (snd p)) 256 (fun p => is_byte (fst p) /\ is_byte (snd p)) VTOC_wf VTOC_layout.
Proof. exact C78_vtoc_lemma. Qed.
Print Assumptions C78_VTOC_in_place.
Theorem C78_CatalogSector_in_place : forall v0, CS_wf v0 ->
  kept_in_place (fun d p => UnmarshalLogicalSector (CatalogSector_FromSector v0) CS_setTS d (fst p) (snd p)) (MarshalLogicalSector CatalogSector_ToSector CS_getTS)
    (fun v => (cs_Track v, cs_Sector v)) (fun p => offset (fst p) (snd p)) 256 (fun p => is_byte (fst p) /\ is_byte (snd p)) CS_wf
    (fun b cs => cs_NextTrack cs = znth 0 b 1 /\ cs_NextSector cs = znth 0 b 2 /\ Forall2 FD_layout (slots b) (cs_FileDescs cs)).
Proof. exact C78_cs_lemma. Qed.
Print Assumptions C78_CatalogSector_in_place.
Theorem C78_TrackSectorList_in_place : forall v0, TSL_wf v0 ->
  kept_in_place (fun d p => UnmarshalLogicalSector (TSL_FromSector v0) TSL_setTS d (fst p) (snd p)) (MarshalLogicalSector TSL_ToSector TSL_getTS)
    (fun v => (tsl_Track v, tsl_Sector v)) (fun p => offset (fst p) (snd p)) 256 (fun p => is_byte (fst p) /\ is_byte (snd p)) TSL_wf
    (fun b l => tsl_NextTrack l = znth 0 b 1 /\ tsl_NextSector l = znth 0 b 2 /\ tsl_SectorOffset l = Dos3Spec.word b 5 /\ tsl_TrackSectors l = pairs b).
Proof. exact C78_tsl_lemma. Qed.
Print Assumptions C78_TrackSectorList_in_place.
Theorem C78_VolumeDirectoryKeyBlock_in_place : forall v0, VDKB_wf v0 ->
  kept_in_place (UnmarshalBlock (VDKB_FromBlock v0) VDKB_SetBlock) (MarshalBlock VDKB_ToBlock vk_block) vk_block (fun n => 512 * n) 512 is_u16 VDKB_wf
    (fun b v => VH_layout (header_of b) (vk_Header v) /\ Dir_layout b (key_slots b) (vk_Prev v) (vk_Next v) (vk_Descriptors v) (vk_Extra v)).
Proof. exact C78_vdkb_lemma. Qed.
Print Assumptions C78_VolumeDirectoryKeyBlock_in_place.
Theorem C78_VolumeDirectoryBlock_in_place : forall v0, VDB_wf v0 ->
  kept_in_place (UnmarshalBlock (VDB_FromBlock v0) VDB_SetBlock) (MarshalBlock VDB_ToBlock vb_block) vb_block (fun n => 512 * n) 512 is_u16 VDB_wf
    (fun b v => Dir_layout b (later_slots b) (vb_Prev v) (vb_Next v) (vb_Descriptors v) (vb_Extra v)).
Proof. exact C78_vdb_lemma. Qed.
Print Assumptions C78_VolumeDirectoryBlock_in_place.
Theorem C78_SubdirectoryKeyBlock_in_place : forall v0, SKB_wf v0 ->
  kept_in_place (UnmarshalBlock (SKB_FromBlock v0) SKB_SetBlock) (MarshalBlock SKB_ToBlock sk_block) sk_block (fun n => 512 * n) 512 is_u16 SKB_wf
    (fun b v => SH_layout (header_of b) (sk_Header v) /\ Dir_layout b (key_slots b) (sk_Prev v) (sk_Next v) (sk_Descriptors v) (sk_Extra v)).
Proof. exact C78_skb_lemma. Qed.
Print Assumptions C78_SubdirectoryKeyBlock_in_place.
Theorem C78_SubdirectoryBlock_in_place : forall v0, SB_wf v0 ->
  kept_in_place (UnmarshalBlock (SB_FromBlock v0) SB_SetBlock) (MarshalBlock SB_ToBlock sb_block) sb_block (fun n => 512 * n) 512 is_u16 SB_wf
    (fun b v => Dir_layout b (later_slots b) (sb_Prev v) (sb_Next v) (sb_Descriptors v) (sb_Extra v)).
Proof. exact C78_sb_lemma. Qed.
Print Assumptions C78_SubdirectoryBlock_in_place.
Theorem C78_bitmapPart_in_place : forall v0, is_u16 (bp_block v0) /\ arr 512 (bp_data v0) ->
  kept_in_place (UnmarshalBlock (bp_FromBlock v0) bp_SetBlock) (MarshalBlock bp_ToBlock bp_block) bp_block (fun n => 512 * n) 512 is_u16
    (fun v => is_u16 (bp_block v) /\ arr 512 (bp_data v)) (fun b v => bp_data v = b).
Proof. exact C78_bitmap_lemma. Qed.
Print Assumptions C78_bitmapPart_in_place.
Example C78_example : match UnmarshalLogicalSector (CatalogSector_FromSector zeroCS) CS_setTS ex_dos_disk 17 15 with
  | Ok cs => match MarshalLogicalSector CatalogSector_ToSector CS_getTS (mkCS (cs_Track cs) (cs_Sector cs) 0 3 4 (cs_Unused2 cs) (cs_FileDescs cs)) ex_dos_disk with
             | (d', Ok tt) => (sub (sector d' 17 15) 0 3, beq (sector d' 17 0) (sector ex_dos_disk 17 0)) | _ => ([], false) end
  | _ => ([], false) end = ([0; 3; 4], true).
Proof. vm_compute. reflexivity. Qed.
