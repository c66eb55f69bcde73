(** PropertiesDos3.v -- properties C11-C13 and C16-C23 (package dos3).  Vocabulary: Dos3Spec.
    Functions with an unbounded loop take fuel: [returns f P] says that with all large enough
    fuel [f] gives one result, which satisfies [P]; [diverges f] that no fuel is enough. *)
From Verif Require Import GoBase GoLemmas DiskModel DiskSpec TypesModel Dos3Model Dos3Spec Dos3StmtProofs.
Local Opaque zrange zeros sub.

(** ** C11 *)
Theorem C11_VTOC_codec : forall v0 v b, VTOC_wf v0 ->
  (zlen b <> 256 -> exists e, VTOC_FromSector v0 b = Err e) /\
  (zlen b = 256 -> bytes_ok b -> exists v', VTOC_FromSector v0 b = Ok v' /\ VTOC_wf v' /\ VTOC_layout b v' /\
     v_Track v' = v_Track v0 /\ v_Sector v' = v_Sector v0 /\ VTOC_ToSector v' = Ok b) /\
  (VTOC_wf v -> exists b', VTOC_ToSector v = Ok b' /\ zlen b' = 256 /\ bytes_ok b' /\ VTOC_layout b' v /\
     VTOC_FromSector v0 b' = Ok (VTOC_setTS (v_Track v0) (v_Sector v0) v)).
Proof. exact C11_lemma. Qed.
Print Assumptions C11_VTOC_codec.
Example C11_example : VTOC_wf DefaultVTOC /\ match VTOC_ToSector DefaultVTOC with Ok b => sub b 0 8 | _ => [] end = [0; 17; 15; 3; 0; 0; 1; 0].
Proof. split; [apply C22_lemma | vm_compute; reflexivity]. Qed.

(** ** C12 *)
Theorem C12_FileDesc_codec : forall fd b,
  (zlen b <> 35 -> FileDesc_FromBytes b = Panic) /\
  (zlen b = 35 -> bytes_ok b -> exists fd', FileDesc_FromBytes b = Ok fd' /\ FD_wf fd' /\ FD_layout b fd' /\ FileDesc_ToBytes fd' = Ok b) /\
  (FD_wf fd -> exists b', FileDesc_ToBytes fd = Ok b' /\ zlen b' = 35 /\ bytes_ok b' /\ FD_layout b' fd /\ FileDesc_FromBytes b' = Ok fd).
Proof. exact C12_fd_lemma. Qed.
Print Assumptions C12_FileDesc_codec.
Theorem C12_CatalogSector_codec : forall cs0 cs b, CS_wf cs0 ->
  (zlen b <> 256 -> exists e, CatalogSector_FromSector cs0 b = Err e) /\
  (zlen b = 256 -> bytes_ok b -> exists cs', CatalogSector_FromSector cs0 b = Ok cs' /\ CS_wf cs' /\
     cs_Track cs' = cs_Track cs0 /\ cs_Sector cs' = cs_Sector cs0 /\
     cs_NextTrack cs' = znth 0 b 1 /\ cs_NextSector cs' = znth 0 b 2 /\
     Forall2 FD_layout (slots b) (cs_FileDescs cs') /\ CatalogSector_ToSector cs' = Ok b) /\
  (CS_wf cs -> exists b', CatalogSector_ToSector cs = Ok b' /\ zlen b' = 256 /\ bytes_ok b' /\
     CatalogSector_FromSector cs0 b' = Ok (CS_setTS (cs_Track cs0) (cs_Sector cs0) cs)).
Proof. exact C12_cs_lemma. Qed.
Print Assumptions C12_CatalogSector_codec.
Example C12_example : FileDesc_FromBytes (ex_entry 18 15 0x82 (s2b "HELLO") 0x102) = Ok (mkFD 18 15 0x82 (ex_name (s2b "HELLO")) 0x102).
Proof. vm_compute. reflexivity. Qed.

(** ** C13 *)
Theorem C13_TrackSectorList_codec : forall l0 l b, TSL_wf l0 ->
  (zlen b <> 256 -> exists e, TSL_FromSector l0 b = Err e) /\
  (zlen b = 256 -> bytes_ok b -> exists l', TSL_FromSector l0 b = Ok l' /\ TSL_wf l' /\
     tsl_Track l' = tsl_Track l0 /\ tsl_Sector l' = tsl_Sector l0 /\
     tsl_NextTrack l' = znth 0 b 1 /\ tsl_NextSector l' = znth 0 b 2 /\ tsl_SectorOffset l' = word b 5 /\
     tsl_TrackSectors l' = pairs b /\ TSL_ToSector l' = Ok b) /\
  (TSL_wf l -> exists b', TSL_ToSector l = Ok b' /\ zlen b' = 256 /\ bytes_ok b' /\
     TSL_FromSector l0 b' = Ok (TSL_setTS (tsl_Track l0) (tsl_Sector l0) l)).
Proof. exact C13_lemma. Qed.
Print Assumptions C13_TrackSectorList_codec.
Example C13_example : match TSL_FromSector zeroTSL (sector ex_dos_disk 18 11) with
  | Ok l => (tsl_NextTrack l, tsl_NextSector l, znth (0, 0) (tsl_TrackSectors l) 0) | _ => (0, 0, (0, 0)) end = (18, 9, (18, 10)).
Proof. vm_compute. reflexivity. Qed.

(** ** C16 *)
Theorem C16_catalog : forall d l, bytes_ok d -> catalog d l ->
  returns (fun k => ReadCatalog k d) (fun r => exists files deleted, r = Ok (files, deleted) /\
    Forall2 (fun e fd => FD_layout e fd /\ FD_wf fd) (filter is_live (entries d l)) files /\
    Forall2 (fun e fd => FD_layout e fd /\ FD_wf fd) (filter is_deleted (entries d l)) deleted) /\
  returns (fun k => Catalog k d) (fun r => exists descs, r = Ok descs /\
    Forall2 (fun e ds => exists n, describes e n (-1) ds) (filter is_live (entries d l)) descs).
Proof. exact C16_lemma. Qed.
Print Assumptions C16_catalog.
Example C16_example : bytes_ok ex_dos_disk /\ catalog ex_dos_disk [(17, 15); (17, 14)] /\
  match Catalog 10 ex_dos_disk with Some (Ok l) => map d_name l | _ => [] end =
  [s2b "HELLO"; s2b "DATA"; s2b "NOTES"; s2b "ZEROS"; s2b "LONG"; s2b "MEMO"].
Proof. split; [exact ex_dos_disk_ok|]. split; [exact ex_catalog | vm_compute; reflexivity]. Qed.

(** ** C17: refuted *)
(** The claim is [forall d, bytes_ok d -> exists k r, ReadCatalog k d = Some r]; it fails because
    the set of visited sectors is never written. *)
Theorem C17_cyclic_catalog_refuted : exists d, bytes_ok d /\ zlen d = 143360 /\
  diverges (fun k => ReadCatalog k d) /\ diverges (fun k => dos3_SeemsToMatch k d).
Proof. exact C17_refuted_lemma. Qed.
Print Assumptions C17_cyclic_catalog_refuted.
(** What holds: it loops exactly on the disks whose catalog chain comes back to a sector; on all
    others it returns within 561 rounds, without panic, successfully iff the chain is good. *)
Theorem C17_ReadCatalog_partial : forall d, bytes_ok d ->
  (diverges (fun k => ReadCatalog k d) <->
     in_image d 17 0 /\ good_vtoc (vtoc d) /\ cyclic (catalog_place d) d (catalog_start d)) /\
  (~ diverges (fun k => ReadCatalog k d) ->
     exists r, (forall k, (561 <= k)%nat -> ReadCatalog k d = Some r) /\ r <> Panic /\
       ((exists x, r = Ok x) <-> exists l, catalog d l)).
Proof. exact C17_partial_lemma. Qed.
Print Assumptions C17_ReadCatalog_partial.
Example C17_example : bytes_ok ex_cyclic_disk /\ in_image ex_cyclic_disk 17 0 /\ good_vtoc (vtoc ex_cyclic_disk) /\
  cyclic (catalog_place ex_cyclic_disk) ex_cyclic_disk (catalog_start ex_cyclic_disk).
Proof. split; [exact ex_cyclic_disk_ok | exact ex_cyclic]. Qed.

(** ** C18 *)
Theorem C18_Contents : forall d fd, bytes_ok d -> FD_wf fd ->
  returns (fun k => Contents k fd d) (fun r => r <> Panic /\
    (forall data cap, r = Ok (data, cap) <-> exists l, body d (fd_Track fd, fd_Sector fd) l data /\ cap = 31232 * zlen l) /\
    (cyclic (in_image d) d (fd_Track fd, fd_Sector fd) -> exists e, r = Err e)).
Proof. exact C18_lemma. Qed.
Print Assumptions C18_Contents.
(** NOTES has two lists: sector 18/10, then 121 empty places, then a hole and 18/10 again. *)
Example C18_example : match Contents 10 (mkFD 18 11 0 (ex_name (s2b "NOTES")) 3) ex_dos_disk with
  | Some (Ok (data, cap)) => (zlen data, cap, znth 0 data 1, znth 0 data (123 * 256 + 1)) | _ => (0, 0, 0, 0) end =
  (124 * 256, 2 * 31232, 0xC2, 0xC2).
Proof. vm_compute. reflexivity. Qed.

(** ** C19 *)
Theorem C19_GetFile : forall d l n e, bytes_ok d -> catalog d l -> lookup (entries d l) n e ->
  (forall ls data start out, body d (znth 0 e 0, znth 0 e 1) ls data -> decoded (znth 0 e 2 mod 128) (zlen ls) data start out ->
     returns (fun k => GetFile k d n) (fun r => exists ds, r = Ok (FI ds out start) /\ describes e n (zlen out) ds)) /\
  (~ In (znth 0 e 2 mod 128) [0; 1; 2; 4] \/ (forall ls data, ~ body d (znth 0 e 0, znth 0 e 1) ls data) ->
     exists n0, forall k, (n0 <= k)%nat -> exists er, GetFile k d n = Some (Err er)).
Proof. exact C19_lemma. Qed.
Print Assumptions C19_GetFile.
Theorem C19_missing : forall d l n, bytes_ok d -> catalog d l ->
  (forall e, In e (entries d l) -> is_live e = true -> ~ entry_name e n) ->
  exists n0, forall k, (n0 <= k)%nat -> exists er, GetFile k d n = Some (Err er).
Proof. exact C19_missing_lemma. Qed.
Print Assumptions C19_missing.
Example C19_example :
  match GetFile 10 ex_dos_disk (s2b "HELLO") with Some (Ok f) => (fi_start f, fi_data f) | _ => (0, []) end = (0x801, [1; 2; 3; 4; 5]) /\
  match GetFile 10 ex_dos_disk (s2b "DATA") with Some (Ok f) => (fi_start f, fi_data f) | _ => (0, []) end = (0x2000, [0xA9; 1; 0x60]) /\
  match GetFile 10 ex_dos_disk (s2b "MEMO") with Some (Ok f) => fi_data f | _ => [] end = [0xC1; 0xC2] /\
  match GetFile 10 ex_dos_disk (s2b "GONE") with Some (Err _) => true | _ => false end = true.
Proof. split; [vm_compute; reflexivity|]. split; [vm_compute; reflexivity|]. split; vm_compute; reflexivity. Qed.

(** ** C20: refuted *)
(** The claim is [forall d n k, GetFile k d n <> Some Panic]; an all-zero text file and a binary
    file with too large a length both crash it. *)
Theorem C20_GetFile_panics_refuted : exists d n1 n2, bytes_ok d /\ zlen d = 143360 /\ (exists l, catalog d l) /\
  GetFile 10 d n1 = Some Panic /\ GetFile 10 d n2 = Some Panic.
Proof. exact C20_refuted_lemma. Qed.
Print Assumptions C20_GetFile_panics_refuted.
(** Exactly which files make it panic. *)
Theorem C20_GetFile_panics_partial : forall d n, bytes_ok d ->
  (exists k, GetFile k d n = Some Panic) <->
  exists l e ls data, catalog d l /\ lookup (entries d l) n e /\ body d (znth 0 e 0, znth 0 e 1) ls data /\
    fatal (znth 0 e 2 mod 128) (zlen ls) data.
Proof. exact C20_partial_lemma. Qed.
Print Assumptions C20_GetFile_panics_partial.

(** ** C21 *)
Theorem C21_names : forall fd, FD_wf fd ->
  trimmed (clear_high (if fd_Track fd =? 255 then sub (fd_Filename fd) 0 29 else fd_Filename fd)) (FilenameString fd) /\
  d_name (fd_descriptor fd) = FilenameString fd /\ d_fullname (fd_descriptor fd) = [] /\
  d_sectors (fd_descriptor fd) = fd_SectorCount fd /\ d_length (fd_descriptor fd) = -1 /\
  (d_locked (fd_descriptor fd) = true <-> 128 <= fd_Filetype fd) /\
  dos_type (fd_Filetype fd mod 128) (d_type (fd_descriptor fd)).
Proof. exact C21_lemma. Qed.
Print Assumptions C21_names.
Example C21_example : FilenameString (mkFD 18 15 0x82 (ex_name (s2b "A B")) 2) = s2b "A B" /\
  FilenameString (mkFD 255 15 0x82 (repeat 0xC1 29 ++ [18]) 2) = repeat 65 29 /\
  d_locked (fd_descriptor (mkFD 18 15 0x82 (ex_name (s2b "A B")) 2)) = true /\
  d_type (fd_descriptor (mkFD 18 15 0x82 (ex_name (s2b "A B")) 2)) = 0xFC.
Proof. repeat split; vm_compute; reflexivity. Qed.

(** ** C22 *)
Theorem C22_Validate_IsFree_Default :   (forall v, (Validate v = Ok tt <->
     (v_Volume v <> 255 /\ v_DOSRelease v = 3 /\ (v_TrackDirection v = 1 \/ v_TrackDirection v = -1) /\ v_NumTracks v = 35 /\
      (v_NumSectors v = 13 \/ v_NumSectors v = 16) /\ v_BytesPerSector v = 256 /\ v_TSLMaxSize v = 122 /\
      Forall (fun m => znth 0 m 2 = 0 /\ znth 0 m 3 = 0) (v_FreeSectors v))) /\
   (Validate v = Ok tt \/ exists e, Validate v = Err e)) /\
  (forall m s, bytes_ok m -> 0 <= s -> (IsFree m s = true <-> s < 16 /\ Z.testbit (256 * znth 0 m 0 + znth 0 m 1) s = true)) /\
  (Validate DefaultVTOC = Ok tt /\ VTOC_wf DefaultVTOC /\
   forall t s, 0 <= t < 50 -> 0 <= s -> (IsFree (znth [] (v_FreeSectors DefaultVTOC) t) s = true <-> t < 35 /\ s < 16)).
Proof. exact C22_lemma. Qed.
Print Assumptions C22_Validate_IsFree_Default.
Example C22_example : IsFree [0x01; 0x80; 0; 0] 8 = true /\ IsFree [0x01; 0x80; 0; 0] 7 = true /\ IsFree [0x01; 0x80; 0; 0] 0 = false.
Proof. repeat split; vm_compute; reflexivity. Qed.

