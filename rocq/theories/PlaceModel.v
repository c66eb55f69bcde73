(** PlaceModel.v -- where the sector and block structures say they came from: the getters that
    disk.MarshalLogicalSector and disk.MarshalBlock are used with.  Each VTOC, CatalogSector and
    TrackSectorList embeds a DiskSector, whose GetTrack and GetSector are dos3/dos3.go:30-33 and
    40-43; a pair stands for the two calls.  (For ProDOS, GetBlock, prodos/prodos.go:33-35, is the
    projection [vk_block], [vb_block], [sk_block], [sb_block], [bp_block] of the record.) *)
From Verif Require Import GoBase DiskModel Dos3Model.

(** dos3/dos3.go:30-33, 40-43, on the DiskSector embedded in VTOC, dos3/dos3.go:76-77 *)
Definition VTOC_getTS (v : VTOC) : Z * Z := (v_Track v, v_Sector v).
(** dos3/dos3.go:30-33, 40-43, on the DiskSector embedded in CatalogSector, dos3/dos3.go:216-217 *)
Definition CS_getTS (cs : CatalogSector) : Z * Z := (cs_Track cs, cs_Sector cs).
(** dos3/dos3.go:30-33, 40-43, on the DiskSector embedded in TrackSectorList, dos3/dos3.go:442-443 *)
Definition TSL_getTS (l : TrackSectorList) : Z * Z := (tsl_Track l, tsl_Sector l).
