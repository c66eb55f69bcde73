(** Dos3Model.v -- model of package dos3 (dos3/dos3.go).

    Struct values are records; Go arrays are lists of the array's length (the [_wf]
    predicates in Dos3Spec.v say so).  Debug output is not modelled. *)
From Verif Require Import GoBase DiskModel TypesModel.

(** dos3/dos3.go:16-21 *)
Definition VTOCTrack : Z := 17.
Definition VTOCSector : Z := 0.

(** dos3/dos3.go:155-160: [copyBytes(buf[a:b], src)]; panics when the lengths differ. *)
Definition copyInto (buf : bytes) (a b : Z) (src : bytes) : res bytes :=
  if zlen src =? b - a then Ok (upd buf a src) else Panic.
(** [for i, m := range items { copyBytes(buf[start+width*i:start+width*i+width], m) }] *)
Fixpoint copyEach (start width i : Z) (items : list bytes) (buf : bytes) : res bytes :=
  match items with
  | [] => Ok buf
  | m :: rest =>
      buf <- copyInto buf (start + width * i) (start + width * i + width) m ;;
      copyEach start width (i + 1) rest buf
  end.

(** Go [int8(b)]. *)
Definition i8 (x : Z) : Z := (x + 128) mod 256 - 128.

(** ** Free sectors: dos3/dos3.go:50-72 *)

(** dos3/dos3.go:54-63 *)
Definition IsFree (t : bytes) (sector : Z) : bool :=
  if 16 <=? sector then false
  else
    let bits := u8 (Z.shiftl 1 (sector mod 8)) in
    if sector <? 8 then 0 <? Z.land (znth 0 t 1) bits
    else 0 <? Z.land (znth 0 t 0) bits.
(** dos3/dos3.go:67-69 *)
Definition UnusedClear (t : bytes) : bool := (znth 0 t 2 =? 0) && (znth 0 t 3 =? 0).

(** ** VTOC: dos3/dos3.go:76-95 *)
Record VTOC := mkVTOC {
  v_Track : Z; v_Sector : Z;
  v_Unused1 : Z; v_CatalogTrack : Z; v_CatalogSector : Z; v_DOSRelease : Z;
  v_Unused2 : bytes; v_Volume : Z; v_Unused3 : bytes; v_TSLMaxSize : Z;
  v_Unused4 : bytes; v_LastTrack : Z; v_TrackDirection : Z; v_Unused5 : bytes;
  v_NumTracks : Z; v_NumSectors : Z; v_BytesPerSector : Z; v_FreeSectors : list bytes
}.

(** dos3/dos3.go:99-127 *)
Definition Validate (v : VTOC) : res unit :=
  if v_Volume v =? 255 then Err (EOther "volume")
  else if negb (v_DOSRelease v =? 3) then Err (EOther "DOS release")
  else if negb (v_TrackDirection v =? 1) && negb (v_TrackDirection v =? -1) then Err (EOther "track direction")
  else if negb (v_NumTracks v =? 35) then Err (EOther "tracks")
  else if negb (v_NumSectors v =? 13) && negb (v_NumSectors v =? 16) then Err (EOther "sectors per track")
  else if negb (v_BytesPerSector v =? 256) then Err (EOther "bytes per sector")
  else if negb (v_TSLMaxSize v =? 122) then Err (EOther "track/sector pairs")
  else if forallb UnusedClear (v_FreeSectors v) then Ok tt
  else Err (EOther "unused bytes of free-sector list").

(** dos3/dos3.go:130-151 *)
Definition VTOC_ToSector (v : VTOC) : res bytes :=
  let buf := zeros 256 in
  let buf := zset buf 0x00 (v_Unused1 v) in
  let buf := zset buf 0x01 (v_CatalogTrack v) in
  let buf := zset buf 0x02 (v_CatalogSector v) in
  let buf := zset buf 0x03 (v_DOSRelease v) in
  buf <- copyInto buf 0x04 0x06 (v_Unused2 v) ;;
  let buf := zset buf 0x06 (v_Volume v) in
  buf <- copyInto buf 0x07 0x27 (v_Unused3 v) ;;
  let buf := zset buf 0x27 (v_TSLMaxSize v) in
  buf <- copyInto buf 0x28 0x30 (v_Unused4 v) ;;
  let buf := zset buf 0x30 (v_LastTrack v) in
  let buf := zset buf 0x31 (u8 (v_TrackDirection v)) in
  buf <- copyInto buf 0x32 0x34 (v_Unused5 v) ;;
  let buf := zset buf 0x34 (v_NumTracks v) in
  let buf := zset buf 0x35 (v_NumSectors v) in
  let buf := upd buf 0x36 (put16 (v_BytesPerSector v)) in
  copyEach 0x38 4 0 (v_FreeSectors v) buf.

(** dos3/dos3.go:164-188.  [v]: the receiver before the call (its DiskSector is kept). *)
Definition VTOC_FromSector (v : VTOC) (data : bytes) : res VTOC :=
  if negb (zlen data =? 256) then Err (EOther "VTOC.FromSector expects exactly 256 bytes")
  else Ok {|
    v_Track := v_Track v; v_Sector := v_Sector v;
    v_Unused1 := znth 0 data 0x00;
    v_CatalogTrack := znth 0 data 0x01;
    v_CatalogSector := znth 0 data 0x02;
    v_DOSRelease := znth 0 data 0x03;
    v_Unused2 := sub data 0x04 0x06;
    v_Volume := znth 0 data 0x06;
    v_Unused3 := sub data 0x07 0x27;
    v_TSLMaxSize := znth 0 data 0x27;
    v_Unused4 := sub data 0x28 0x30;
    v_LastTrack := znth 0 data 0x30;
    v_TrackDirection := i8 (znth 0 data 0x31);
    v_Unused5 := sub data 0x32 0x34;
    v_NumTracks := znth 0 data 0x34;
    v_NumSectors := znth 0 data 0x35;
    v_BytesPerSector := get16 data 0x36;
    v_FreeSectors := map (fun i => sub data (0x38 + 4 * i) (0x38 + 4 * i + 4)) (zrange 50) |}.

(** The zero value [VTOC{}]. *)
Definition zeroVTOC : VTOC :=
  mkVTOC 0 0 0 0 0 0 (zeros 2) 0 (zeros 32) 0 (zeros 8) 0 0 (zeros 2) 0 0 0 (repeat (zeros 4) 50).
Definition VTOC_setTS (t s : Z) (v : VTOC) : VTOC :=
  mkVTOC t s (v_Unused1 v) (v_CatalogTrack v) (v_CatalogSector v) (v_DOSRelease v) (v_Unused2 v)
    (v_Volume v) (v_Unused3 v) (v_TSLMaxSize v) (v_Unused4 v) (v_LastTrack v) (v_TrackDirection v)
    (v_Unused5 v) (v_NumTracks v) (v_NumSectors v) (v_BytesPerSector v) (v_FreeSectors v).

(** dos3/dos3.go:192-213 *)
Definition DefaultVTOC : VTOC :=
  mkVTOC 0 0 0 0x11 0x0f 0x03 (zeros 2) 0x01 (zeros 32) 122 (zeros 8) 0x00 1 (zeros 2) 0x23 0x10 0x100
    (map (fun i => if i <? 35 then [0xff; 0xff; 0x00; 0x00] else zeros 4) (zrange 50)).

(** ** File descriptors: dos3/dos3.go:257-388 *)

(** dos3/dos3.go:261-274 *)
Definition FtLocked : Z := 0x80.
Definition FtText : Z := 0x00.
Definition FtInteger : Z := 0x01.
Definition FtApplesoft : Z := 0x02.
Definition FtBinary : Z := 0x04.
Definition FtS : Z := 0x08.
Definition FtRelocatable : Z := 0x10.
Definition FtA : Z := 0x20.
Definition FtB : Z := 0x40.

(** dos3/dos3.go:276-283 *)
Inductive FileDescStatus := FileDescStatusNormal | FileDescStatusDeleted | FileDescStatusUnused.

(** dos3/dos3.go:287-303 *)
Record FileDesc := mkFD {
  fd_Track : Z; fd_Sector : Z; fd_Filetype : Z; fd_Filename : bytes; fd_SectorCount : Z
}.

(** dos3/dos3.go:306-315 *)
Definition FileDesc_ToBytes (fd : FileDesc) : res bytes :=
  let buf := zeros 35 in
  let buf := zset buf 0x00 (fd_Track fd) in
  let buf := zset buf 0x01 (fd_Sector fd) in
  let buf := zset buf 0x02 (fd_Filetype fd) in
  buf <- copyInto buf 0x03 0x21 (fd_Filename fd) ;;
  Ok (upd buf 0x21 (put16 (fd_SectorCount fd))).

(** dos3/dos3.go:319-329 *)
Definition FileDesc_FromBytes (data : bytes) : res FileDesc :=
  if negb (zlen data =? 35) then Panic
  else Ok (mkFD (znth 0 data 0x00) (znth 0 data 0x01) (znth 0 data 0x02) (sub data 0x03 0x21) (get16 data 0x21)).

(** dos3/dos3.go:333-342 *)
Definition Status (fd : FileDesc) : FileDescStatus :=
  if fd_Track fd =? 0 then FileDescStatusUnused
  else if fd_Track fd =? 0xff then FileDescStatusDeleted
  else FileDescStatusNormal.

(** [strings.TrimRight(s, " ")]: trailing bytes 20 are dropped. *)
Fixpoint trim_spaces_rev (r : bytes) : bytes :=
  match r with
  | [] => []
  | c :: r' => if c =? 32 then trim_spaces_rev r' else r
  end.
Definition TrimRightSpaces (s : bytes) : bytes := rev (trim_spaces_rev (rev s)).

(** dos3/dos3.go:346-357 *)
Definition FilenameString (fd : FileDesc) : bytes :=
  let slice := match Status fd with
               | FileDescStatusDeleted => sub (fd_Filename fd) 0 (zlen (fd_Filename fd) - 1)
               | _ => fd_Filename fd
               end in
  TrimRightSpaces (map (fun b => u8 (b - 0x80)) slice).

(** dos3/dos3.go:362-388.  An unlisted type leaves the zero value of desc.Type. *)
Definition fd_descriptor (fd : FileDesc) : Descriptor :=
  let low7 := Z.land (fd_Filetype fd) 0x7f in
  {| d_name := FilenameString fd; d_fullname := []; d_sectors := fd_SectorCount fd; d_blocks := 0;
     d_length := -1; d_locked := 0 <? Z.land (fd_Filetype fd) FtLocked;
     d_type := if low7 =? FtText then FiletypeASCIIText
               else if low7 =? FtInteger then FiletypeIntegerBASIC
               else if low7 =? FtApplesoft then FiletypeApplesoftBASIC
               else if low7 =? FtBinary then FiletypeBinary
               else if low7 =? FtS then FiletypeS
               else if low7 =? FtRelocatable then FiletypeRelocatable
               else if low7 =? FtA then FiletypeNewA
               else if low7 =? FtB then FiletypeNewB
               else 0 |}.

(** ** Catalog sectors: dos3/dos3.go:216-255 *)
Record CatalogSector := mkCS {
  cs_Track : Z; cs_Sector : Z;
  cs_Unused1 : Z; cs_NextTrack : Z; cs_NextSector : Z; cs_Unused2 : bytes; cs_FileDescs : list FileDesc
}.

(** dos3/dos3.go:232-235: the loop over FileDescs. *)
Fixpoint copyFileDescs (i : Z) (fds : list FileDesc) (buf : bytes) : res bytes :=
  match fds with
  | [] => Ok buf
  | fd :: rest =>
      fdBytes <- FileDesc_ToBytes fd ;;
      buf <- copyInto buf (0x0b + 35 * i) (0x0b + 35 * (i + 1)) fdBytes ;;
      copyFileDescs (i + 1) rest buf
  end.
(** dos3/dos3.go:226-237 *)
Definition CatalogSector_ToSector (cs : CatalogSector) : res bytes :=
  let buf := zeros 256 in
  let buf := zset buf 0x00 (cs_Unused1 cs) in
  let buf := zset buf 0x01 (cs_NextTrack cs) in
  let buf := zset buf 0x02 (cs_NextSector cs) in
  buf <- copyInto buf 0x03 0x0b (cs_Unused2 cs) ;;
  copyFileDescs 0 (cs_FileDescs cs) buf.

(** [for i := range a { a[i].FromBytes(...) }] *)
Fixpoint mapres {A B} (f : A -> res B) (l : list A) : res (list B) :=
  match l with
  | [] => Ok []
  | x :: l' => y <- f x ;; ys <- mapres f l' ;; Ok (y :: ys)
  end.
(** dos3/dos3.go:241-255 *)
Definition CatalogSector_FromSector (cs : CatalogSector) (data : bytes) : res CatalogSector :=
  if negb (zlen data =? 256) then Err (EOther "CatalogSector.FromSector expects exactly 256 bytes")
  else
    fds <- mapres (fun i => FileDesc_FromBytes (sub data (0x0b + 35 * i) (0x0b + 35 * (i + 1)))) (zrange 7) ;;
    Ok (mkCS (cs_Track cs) (cs_Sector cs) (znth 0 data 0x00) (znth 0 data 0x01) (znth 0 data 0x02)
          (sub data 0x03 0x0b) fds).
Definition zeroFD : FileDesc := mkFD 0 0 0 (zeros 30) 0.
Definition zeroCS : CatalogSector := mkCS 0 0 0 0 0 (zeros 8) (repeat zeroFD 7).
Definition CS_setTS (t s : Z) (cs : CatalogSector) : CatalogSector :=
  mkCS t s (cs_Unused1 cs) (cs_NextTrack cs) (cs_NextSector cs) (cs_Unused2 cs) (cs_FileDescs cs).

(** ** Track/sector lists: dos3/dos3.go:440-489 *)
Record TrackSectorList := mkTSL {
  tsl_Track : Z; tsl_Sector : Z;
  tsl_Unused1 : Z; tsl_NextTrack : Z; tsl_NextSector : Z; tsl_Unused2 : bytes;
  tsl_SectorOffset : Z; tsl_Unused3 : bytes; tsl_TrackSectors : list (Z * Z)
}.
(** dos3/dos3.go:463-466 *)
Fixpoint putTrackSectors (i : Z) (tss : list (Z * Z)) (buf : bytes) : bytes :=
  match tss with
  | [] => buf
  | ts :: rest =>
      putTrackSectors (i + 1) rest (zset (zset buf (0x0C + i * 2) (fst ts)) (0x0D + i * 2) (snd ts))
  end.
(** dos3/dos3.go:454-468 *)
Definition TSL_ToSector (tsl : TrackSectorList) : res bytes :=
  let buf := zeros 256 in
  let buf := zset buf 0x00 (tsl_Unused1 tsl) in
  let buf := zset buf 0x01 (tsl_NextTrack tsl) in
  let buf := zset buf 0x02 (tsl_NextSector tsl) in
  buf <- copyInto buf 0x03 0x05 (tsl_Unused2 tsl) ;;
  let buf := upd buf 0x05 (put16 (tsl_SectorOffset tsl)) in
  buf <- copyInto buf 0x07 0x0C (tsl_Unused3 tsl) ;;
  Ok (putTrackSectors 0 (tsl_TrackSectors tsl) buf).
(** dos3/dos3.go:472-489 *)
Definition TSL_FromSector (tsl : TrackSectorList) (data : bytes) : res TrackSectorList :=
  if negb (zlen data =? 256) then Err (EOther "TrackSectorList.FromSector expects exactly 256 bytes")
  else Ok (mkTSL (tsl_Track tsl) (tsl_Sector tsl) (znth 0 data 0x00) (znth 0 data 0x01) (znth 0 data 0x02)
             (sub data 0x03 0x05) (get16 data 0x05) (sub data 0x07 0x0C)
             (map (fun i => (znth 0 data (0x0C + i * 2), znth 0 data (0x0D + i * 2))) (zrange 122))).
Definition zeroTSL : TrackSectorList := mkTSL 0 0 0 0 0 (zeros 2) 0 (zeros 5) (repeat (0, 0) 122).
Definition TSL_setTS (t s : Z) (l : TrackSectorList) : TrackSectorList :=
  mkTSL t s (tsl_Unused1 l) (tsl_NextTrack l) (tsl_NextSector l) (tsl_Unused2 l) (tsl_SectorOffset l)
    (tsl_Unused3 l) (tsl_TrackSectors l).

(** ** Reading a file: dos3/dos3.go:390-438 *)

(** [seen[ts]] for a map used as a set of track/sector pairs. *)
Definition seen_in (t s : Z) (seen : list (Z * Z)) : bool :=
  existsb (fun ts => (fst ts =? t) && (snd ts =? s)) seen.

(** dos3/dos3.go:394-411: the loop that reads the track/sector lists. *)
Fixpoint readTSLs (fuel : nat) (diskbytes : bytes) (nextTrack nextSector : Z) (seen : list (Z * Z))
    (tsls : list TrackSectorList) : option (res (list TrackSectorList)) :=
  match fuel with
  | O => None
  | S fuel =>
      if negb (nextTrack =? 0) || negb (nextSector =? 0) then
        if seen_in nextTrack nextSector seen then Some (Err (EOther "reads TrackSector twice"))
        else
          match UnmarshalLogicalSector (TSL_FromSector zeroTSL) TSL_setTS diskbytes nextTrack nextSector with
          | Err e => Some (Err e)
          | Panic => Some Panic
          | Ok tsl => readTSLs fuel diskbytes (tsl_NextTrack tsl) (tsl_NextSector tsl)
                        ((nextTrack, nextSector) :: seen) (tsls ++ [tsl])
          end
      else Some (Ok tsls)
  end.

(** dos3/dos3.go:414-422: index of the last non-zero entry, [end] when there is none. *)
Fixpoint lastNonZero (j : Z) (tss : list (Z * Z)) (end_ : Z) : Z :=
  match tss with
  | [] => end_
  | ts :: rest =>
      lastNonZero (j + 1) rest (if negb (fst ts =? 0) || negb (snd ts =? 0) then j else end_)
  end.

(** dos3/dos3.go:423-435: the inner loop over the entries [j <= end]. *)
Fixpoint appendSectors (diskbytes : bytes) (tss : list (Z * Z)) (data : bytes) : res bytes :=
  match tss with
  | [] => Ok data
  | ts :: rest =>
      if (fst ts =? 0) && (snd ts =? 0) then appendSectors diskbytes rest (data ++ zeros 256)
      else
        contents <- ReadSector diskbytes (fst ts) (snd ts) ;;
        appendSectors diskbytes rest (data ++ contents)
  end.
(** dos3/dos3.go:413-436 *)
Fixpoint readLists (diskbytes : bytes) (tsls : list TrackSectorList) (data : bytes) : res bytes :=
  match tsls with
  | [] => Ok data
  | tsl :: rest =>
      let end_ := match rest with
                  | [] => lastNonZero 0 (tsl_TrackSectors tsl) 121
                  | _ => 121
                  end in
      data <- appendSectors diskbytes (sub (tsl_TrackSectors tsl) 0 (end_ + 1)) data ;;
      readLists diskbytes rest data
  end.

(** dos3/dos3.go:392-438.  The result is the data and the capacity of the returned slice
    (line 412); the loops append at most that many bytes, so it is never re-allocated. *)
Definition Contents (fuel : nat) (fd : FileDesc) (diskbytes : bytes) : option (res (bytes * Z)) :=
  match readTSLs fuel diskbytes (fd_Track fd) (fd_Sector fd) [] [] with
  | None => None
  | Some (Err e) => Some (Err e)
  | Some Panic => Some Panic
  | Some (Ok tsls) =>
      Some (data <- readLists diskbytes tsls [] ;; Ok (data, 256 * 122 * zlen tsls))
  end.

(** ** Catalog: dos3/dos3.go:491-551 *)

(** dos3/dos3.go:504-526.  [seen] is declared and tested but never written. *)
Fixpoint readCatalog_loop (fuel : nat) (diskbytes : bytes) (v : VTOC) (nextTrack nextSector : Z)
    (seen : list (Z * Z)) (css : list CatalogSector) : option (res (list CatalogSector)) :=
  match fuel with
  | O => None
  | S fuel =>
      if negb (nextTrack =? 0) || negb (nextSector =? 0) then
        if seen_in nextTrack nextSector seen then Some (Err (EOther "reads TrackSector twice"))
        else if v_NumTracks v <=? nextTrack then Some (Err (EOther "catalog track"))
        else if v_NumSectors v <=? nextSector then Some (Err (EOther "catalog sector"))
        else
          match UnmarshalLogicalSector (CatalogSector_FromSector zeroCS) CS_setTS diskbytes nextTrack nextSector with
          | Err e => Some (Err e)
          | Panic => Some Panic
          | Ok cs => readCatalog_loop fuel diskbytes v (cs_NextTrack cs) (cs_NextSector cs) seen (css ++ [cs])
          end
      else Some (Ok css)
  end.
(** dos3/dos3.go:493-528 *)
Definition readCatalogSectors (fuel : nat) (diskbytes : bytes) : option (res (list CatalogSector)) :=
  match UnmarshalLogicalSector (VTOC_FromSector zeroVTOC) VTOC_setTS diskbytes VTOCTrack VTOCSector with
  | Err e => Some (Err e)
  | Panic => Some Panic
  | Ok v =>
      match Validate v with
      | Err e => Some (Err (EOther "invalid VTOC sector"))
      | Panic => Some Panic
      | Ok _ => readCatalog_loop fuel diskbytes v (v_CatalogTrack v) (v_CatalogSector v) [] []
      end
  end.

(** dos3/dos3.go:537-549: files and deleted, in order of appearance. *)
Fixpoint splitDescs (fds : list FileDesc) : list FileDesc * list FileDesc :=
  match fds with
  | [] => ([], [])
  | fd :: rest =>
      let '(files, deleted) := splitDescs rest in
      match Status fd with
      | FileDescStatusUnused => (files, deleted)
      | FileDescStatusDeleted => (files, fd :: deleted)
      | FileDescStatusNormal => (fd :: files, deleted)
      end
  end.
(** dos3/dos3.go:531-551 *)
Definition ReadCatalog (fuel : nat) (diskbytes : bytes) : option (res (list FileDesc * list FileDesc)) :=
  match readCatalogSectors fuel diskbytes with
  | None => None
  | Some (Err e) => Some (Err e)
  | Some Panic => Some Panic
  | Some (Ok css) => Some (Ok (splitDescs (concat (map cs_FileDescs css))))
  end.

(** ** The operator: dos3/dos3.go:552-709.  An operator is its image bytes. *)
Definition dos3_name : bytes := s2b "dos3". (* dos3/dos3.go:563-568 *)

(** dos3/dos3.go:578-588 *)
Definition Catalog (fuel : nat) (o : bytes) : option (res (list Descriptor)) :=
  match ReadCatalog fuel o with
  | None => None
  | Some (Err e) => Some (Err e)
  | Some Panic => Some Panic
  | Some (Ok (fds, _)) => Some (Ok (map fd_descriptor fds))
  end.

(** dos3/dos3.go:592-603.  The error is a plain one, not a file-not-found. *)
Definition fileForFilename (fuel : nat) (o : bytes) (filename : bytes) : option (res FileDesc) :=
  match ReadCatalog fuel o with
  | None => None
  | Some (Err e) => Some (Err e)
  | Some Panic => Some Panic
  | Some (Ok (fds, _)) =>
      Some (match find (fun fd => beq (FilenameString fd) filename) fds with
            | Some fd => Ok fd
            | None => Err (EOther "filename not found")
            end)
  end.

(** dos3/dos3.go:625-627: [for data[len(data)-1] == 0 { data = data[:len(data)-1] }] on the
    reversed data. *)
Fixpoint trimZeros_rev (r : bytes) : res bytes :=
  match r with
  | [] => Panic
  | c :: r' => if c =? 0 then trimZeros_rev r' else Ok (rev r)
  end.

(** [data[a:b]] for a slice of capacity [cap] whose backing array is zero past its length
    (it was made with that capacity and never shrunk). *)
Definition slice_cap (data : bytes) (cap a b : Z) : res bytes :=
  if (0 <=? a) && (a <=? b) && (b <=? cap) then Ok (sub (data ++ zeros (cap - zlen data)) a b) else Panic.

(** dos3/dos3.go:632-647: Integer, Applesoft and binary files. *)
Definition getProgram (low7 : Z) (desc : Descriptor) (data : bytes) (cap : Z) : res FileInfo :=
  start_data_cap <-
    (if low7 =? FtApplesoft then Ok (0x801, data, cap)
     else if low7 =? FtInteger then Ok (0, data, cap)
     else
       d0 <- idx data 0 ;;
       d1 <- idx data 1 ;;
       data' <- slice data 2 (zlen data) ;;
       Ok (u16 (d0 + u16 (d1 * 256)), data', cap - 2)) ;;
  let '(start, data, cap) := start_data_cap in
  d0 <- idx data 0 ;;
  d1 <- idx data 1 ;;
  let length := d0 + d1 * 256 in
  data <- slice_cap data cap 2 (length + 2) ;;
  Ok (FI (Desc (d_name desc) (d_fullname desc) (d_sectors desc) (d_blocks desc) length (d_locked desc) (d_type desc))
        data start).

(** dos3/dos3.go:606-659 *)
Definition GetFile (fuel : nat) (o : bytes) (filename : bytes) : option (res FileInfo) :=
  match fileForFilename fuel o filename with
  | None => None
  | Some (Err e) => Some (Err e)
  | Some Panic => Some Panic
  | Some (Ok fd) =>
      let desc := fd_descriptor fd in
      match Contents fuel fd o with
      | None => None
      | Some (Err e) => Some (Err e)
      | Some Panic => Some Panic
      | Some (Ok (data, cap)) =>
          let low7 := Z.land (fd_Filetype fd) 0x7f in
          Some
            (if low7 =? FtText then
               data <- trimZeros_rev (rev data) ;;
               Ok (FI (Desc (d_name desc) (d_fullname desc) (d_sectors desc) (d_blocks desc) (zlen data)
                         (d_locked desc) (d_type desc)) data 0)
             else if (low7 =? FtInteger) || (low7 =? FtApplesoft) || (low7 =? FtBinary) then
               getProgram low7 desc data cap
             else Err (EOther "does not yet implement GetFile for filetype"))
      end
  end.

(** dos3/dos3.go:663-665 *)
Definition dos3_Delete (filename : bytes) : st bytes bool := fun o => (o, Err (EOther "does not implement Delete yet")).
(** dos3/dos3.go:670-672 *)
Definition dos3_PutFile (fileInfo : FileInfo) (overwrite : bool) : st bytes bool :=
  fun o => (o, Err (EOther "does not implement PutFile yet")).

(** dos3/dos3.go:685-709: the operator factory.  [fuel] bounds the catalog loop; [None] from
    SeemsToMatch: the call does not return. *)
Definition dos3_SeemsToMatch (fuel : nat) (diskbytes : bytes) : option bool :=
  match ReadCatalog fuel diskbytes with
  | None => None
  | Some Panic => None
  | Some (Err _) => Some false
  | Some (Ok _) => Some true
  end.
Definition dos3_Operator (diskbytes : bytes) : res bytes := Ok diskbytes.
