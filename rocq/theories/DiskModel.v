(** DiskModel.v -- model of package disk (disk/disk.go, disk/marshal.go, disk/open.go). *)
From Verif Require Import GoBase.

(** ** Constants: disk/disk.go:10-17 *)
Definition FloppyTracks : Z := 35.
Definition FloppySectors : Z := 16.
Definition FloppyDiskBytes : Z := 143360.
Definition FloppyTrackBytes : Z := 256 * FloppySectors.
Definition FloppyDiskBytes13Sector : Z := 35 * 13 * 256.

(** ** Disk orders: types/ops.go:20-34 *)
Notation DiskOrder := bytes (only parsing).
Definition DiskOrderDO : DiskOrder := s2b "do".
Definition DiskOrderPO : DiskOrder := s2b "po".
Definition DiskOrderRaw : DiskOrder := s2b "raw".
Definition DiskOrderAuto : DiskOrder := s2b "auto".
Definition DiskOrderUnknown : DiskOrder := [].

(** ** Sector maps: disk/disk.go:19-61 *)
(** disk/disk.go:21-24 *)
Definition Dos33LogicalToPhysicalSectorMap : list Z :=
  [0x00; 0x0D; 0x0B; 0x09; 0x07; 0x05; 0x03; 0x01;
   0x0E; 0x0C; 0x0A; 0x08; 0x06; 0x04; 0x02; 0x0F].
(** disk/disk.go:28-31 *)
Definition Dos33PhysicalToLogicalSectorMap : list Z :=
  [0x00; 0x07; 0x0E; 0x06; 0x0D; 0x05; 0x0C; 0x04;
   0x0B; 0x03; 0x0A; 0x02; 0x09; 0x01; 0x08; 0x0F].
(** disk/disk.go:35-38 *)
Definition ProDOSLogicalToPhysicalSectorMap : list Z :=
  [0x00; 0x02; 0x04; 0x06; 0x08; 0x0A; 0x0C; 0x0E;
   0x01; 0x03; 0x05; 0x07; 0x09; 0x0B; 0x0D; 0x0F].
(** disk/disk.go:42-45 *)
Definition ProDosPhysicalToLogicalSectorMap : list Z :=
  [0x00; 0x08; 0x01; 0x09; 0x02; 0x0A; 0x03; 0x0B;
   0x04; 0x0C; 0x05; 0x0D; 0x06; 0x0E; 0x07; 0x0F].
(** The literal of disk/disk.go:52,60 *)
Definition RawSectorMap : list Z :=
  [0x00; 0x01; 0x02; 0x03; 0x04; 0x05; 0x06; 0x07;
   0x08; 0x09; 0x0A; 0x0B; 0x0C; 0x0D; 0x0E; 0x0F].

(** disk/disk.go:49-53.  [None]: key not in the map. *)
Definition LogicalToPhysicalByName (o : DiskOrder) : option (list Z) :=
  if beq o DiskOrderDO then Some Dos33LogicalToPhysicalSectorMap
  else if beq o DiskOrderPO then Some ProDOSLogicalToPhysicalSectorMap
  else if beq o DiskOrderRaw then Some RawSectorMap
  else None.
(** disk/disk.go:57-61 *)
Definition PhysicalToLogicalByName (o : DiskOrder) : option (list Z) :=
  if beq o DiskOrderDO then Some Dos33PhysicalToLogicalSectorMap
  else if beq o DiskOrderPO then Some ProDosPhysicalToLogicalSectorMap
  else if beq o DiskOrderRaw then Some RawSectorMap
  else None.
(** Indexing a Go map with a missing key yields the nil slice. *)
Definition orNil (o : option (list Z)) : list Z := match o with Some l => l | None => [] end.

(** ** Sectors: disk/marshal.go *)

(** disk/marshal.go:50-59.  The result is a fresh copy. *)
Definition ReadSector (diskbytes : bytes) (track sector : Z) : res bytes :=
  let start := track * FloppyTrackBytes + sector * 256 in
  let end_ := start + 256 in
  if zlen diskbytes <? end_ then Err (EOther "cannot read track/sector")
  else Ok (sub diskbytes start end_).

(** disk/marshal.go:74-85.  State: the disk image. *)
Definition WriteSector (track sector : Z) (data : bytes) : st bytes unit := fun diskbytes =>
  if negb (zlen data =? 256) then (diskbytes, Err (EOther "writeSector length"))
  else
    let start := track * FloppyTrackBytes + sector * 256 in
    let end_ := start + 256 in
    if zlen diskbytes <? end_ then (diskbytes, Err (EOther "cannot write track/sector"))
    else (upd diskbytes start data, Ok tt).

(** disk/marshal.go:36-47, for a sink given by its FromSector and a function that sets
    track and sector. *)
Definition UnmarshalLogicalSector {T} (FromSector : bytes -> res T) (setTS : Z -> Z -> T -> T)
    (diskbytes : bytes) (track sector : Z) : res T :=
  b <- ReadSector diskbytes track sector ;;
  v <- FromSector b ;;
  Ok (setTS track sector v).

(** disk/marshal.go:63-71 *)
Definition MarshalLogicalSector {T} (ToSector : T -> res bytes) (getTS : T -> Z * Z) (ss : T)
    : st bytes unit :=
  let '(track, sector) := getTS ss in
  b <== lift (ToSector ss) ;;
  WriteSector track sector b.

(** ** Blocks: disk/marshal.go:104-135 *)

(** disk/marshal.go:106-119, for a sink given by its FromBlock and SetBlock. *)
Definition UnmarshalBlock {T} (FromBlock : bytes -> res T) (setBlock : Z -> T -> T)
    (diskbytes : bytes) (index : Z) : res T :=
  let start := index * 512 in
  let end_ := start + 512 in
  if zlen diskbytes <? end_ then Err (EOther "device too small to read block")
  else
    v <- FromBlock (sub diskbytes start end_) ;;
    Ok (setBlock index v).

(** disk/marshal.go:122-135 *)
Definition MarshalBlock {T} (ToBlock : T -> res bytes) (getBlock : T -> Z) (bs : T)
    : st bytes unit := fun diskbytes =>
  let index := getBlock bs in
  match ToBlock bs with
  | Err e => (diskbytes, Err e)
  | Panic => (diskbytes, Panic)
  | Ok block =>
      let start := index * 512 in
      let end_ := start + 512 in
      if zlen diskbytes <? end_ then (diskbytes, Err (EOther "device too small to write block"))
      else (upd diskbytes start block, Ok tt)
  end.

(** ** Swizzle: disk/open.go:151-194 *)

(** disk/open.go:184-192; [seen] is the map of mappings already met. *)
Fixpoint validateOrder_loop (order seen : list Z) : res unit :=
  match order with
  | [] => Ok tt
  | mapping :: rest =>
      if (mapping <? 0) || (15 <? mapping) then Err (EOther "mapping not in [0,15]")
      else if existsb (Z.eqb mapping) seen then Err (EOther "mapping is a repeat")
      else validateOrder_loop rest (mapping :: seen)
  end.
(** disk/open.go:179-194 *)
Definition validateOrder (order : list Z) : res unit :=
  if negb (zlen order =? FloppySectors) then Err (EOther "order length")
  else validateOrder_loop order [].

(** disk/open.go:163-172: the body of the loops. State: [result]. *)
Definition swizzle_one (diskimage : bytes) (order : list Z) (track sector : Z) : st bytes unit :=
  data <== lift (ReadSector diskimage (u8 track) (u8 sector)) ;;
  WriteSector (u8 track) (u8 (znth 0 order sector)) data.

(** disk/open.go:153-175 *)
Definition Swizzle (diskimage : bytes) (order : list Z) : res bytes :=
  if negb (zlen diskimage =? FloppyDiskBytes) then Err (EOther "reordering size")
  else
    _ <- validateOrder order ;;
    match for_ (zrange FloppyTracks) (fun track =>
            for_ (zrange FloppySectors) (fun sector => swizzle_one diskimage order track sector))
            (zeros FloppyDiskBytes) with
    | (result, Ok _) => Ok result
    | (_, Err e) => Err e
    | (_, Panic) => Panic
    end.

(** ** File names *)

(** Go path.Ext on the reversed name: the bytes up to and including the first '.' met
    before any '/' (path/path.go of the standard library). *)
Fixpoint ext_rev (r acc : bytes) : bytes :=
  match r with
  | [] => []
  | c :: r' => if c =? 47 then [] else if c =? 46 then c :: acc else ext_rev r' (c :: acc)
  end.
Definition path_Ext (filename : bytes) : bytes := ext_rev (rev filename) [].

(** disk/open.go:197-207 *)
Definition OrderFromFilename (filename : bytes) (defaultOrder : DiskOrder) : DiskOrder :=
  let ext := to_lower (path_Ext filename) in
  if beq ext (s2b ".dsk") || beq ext (s2b ".do") then DiskOrderDO
  else if beq ext (s2b ".po") then DiskOrderPO
  else defaultOrder.

(** ** Opening images: disk/open.go:40-149

    The registered operator factories are arbitrary: [factory] is types.OperatorFactory
    (types/ops.go:36-48) for operators of type [Op].  Outcome [Panic] of Operator
    and [None] of SeemsToMatch stand for "does not return normally".  Debug output is not modelled.  The methods are pure
    functions of the bytes: they get a private copy (openDoOrPo) and none of the three
    implementations modifies it. *)
Record factory (Op : Type) := Factory {
  f_name : bytes;
  f_order : DiskOrder;
  f_seems : bytes -> option bool;
  f_operator : bytes -> res Op
}.
Arguments Factory {Op}.
Arguments f_name {Op}.
Arguments f_order {Op}.
Arguments f_seems {Op}.
Arguments f_operator {Op}.

Section Open.
  Context {Op : Type}.

  (** disk/open.go:71-80 *)
  Fixpoint openHDV_loop (rawbytes : bytes) (facs : list (factory Op)) : res (Op * DiskOrder) :=
    match facs with
    | [] => Err (EOther "unable to find prodos module")
    | f :: rest =>
        if beq (f_name f) (s2b "prodos") then
          op <- f_operator f rawbytes ;; Ok (op, DiskOrderPO)
        else openHDV_loop rawbytes rest
    end.

  (** disk/open.go:57-81 *)
  Definition openHDV (rawbytes : bytes) (order : DiskOrder) (system : bytes)
      (facs : list (factory Op)) : res (Op * DiskOrder) :=
    let size := zlen rawbytes in
    if 0 <? size mod 512 then Err (EOther "hdv multiple of 512")
    else if 65536 <? size / 512 then Err (EOther "hdv up to 32MiB")
    else if negb (beq order (s2b "auto")) && negb (beq order DiskOrderPO)
         then Err (EOther "hdv order")
    else if negb (beq system (s2b "auto")) && negb (beq system (s2b "prodos"))
         then Err (EOther "hdv system")
    else openHDV_loop rawbytes facs.

  (** disk/open.go:117-146: the inner loop; [None] means: fall through to the next order. *)
  Fixpoint try_factories (swizzled : bytes) (single : bool) (system : bytes) (order : DiskOrder)
      (facs : list (factory Op)) : option (res (Op * DiskOrder)) :=
    match facs with
    | [] => None
    | f :: rest =>
        match Swizzle swizzled (orNil (PhysicalToLogicalByName (f_order f))) with
        | Err e => Some (Err e)
        | Panic => Some Panic
        | Ok diskbytes =>
            if single && negb (beq system (s2b "auto")) then
              Some (op <- f_operator f diskbytes ;; Ok (op, order))
            else
              match f_seems f diskbytes with
              | None => Some Panic
              | Some true =>
                  match f_operator f diskbytes with
                  | Ok op => Some (Ok (op, order))
                  | Err _ => try_factories swizzled single system order rest
                  | Panic => Some Panic
                  end
              | Some false => try_factories swizzled single system order rest
              end
        end
    end.

  (** disk/open.go:112-148: the outer loop. *)
  Fixpoint try_orders (rawbytes : bytes) (single : bool) (system : bytes)
      (facs : list (factory Op)) (orders : list DiskOrder) : res (Op * DiskOrder) :=
    match orders with
    | [] => Err (EOther "unable to open disk image")
    | order :: rest =>
        match Swizzle rawbytes (orNil (LogicalToPhysicalByName order)) with
        | Err e => Err e
        | Panic => Panic
        | Ok swizzled =>
            match try_factories swizzled single system order facs with
            | Some r => r
            | None => try_orders rawbytes single system facs rest
            end
        end
    end.

  (** disk/open.go:93-110 *)
  Definition candidate_orders (order : DiskOrder) (ext : bytes) : res (list DiskOrder) :=
    if beq order DiskOrderDO || beq order DiskOrderPO then Ok [order]
    else if beq order DiskOrderAuto then
      if beq ext (s2b ".po") then Ok [DiskOrderPO]
      else if beq ext (s2b ".do") then Ok [DiskOrderDO]
      else if beq ext (s2b ".dsk") || beq ext [] then Ok [DiskOrderDO; DiskOrderPO]
      else Err (EOther "unknown disk image extension")
    else Err (EOther "disk order invalid").

  (** disk/open.go:83-149 *)
  Definition openDoOrPo (rawbytes : bytes) (order : DiskOrder) (system ext : bytes)
      (operatorFactories : list (factory Op)) : res (Op * DiskOrder) :=
    let factories := filter (fun f => beq system (s2b "auto") || beq system (f_name f))
                            operatorFactories in
    if zlen factories =? 0 then Err (EOther "cannot find disk system")
    else
      orders <- candidate_orders order ext ;;
      try_orders rawbytes (zlen orders =? 1) system factories orders.

  (** disk/open.go:41-55 *)
  Definition OpenImage (filebytes filename : bytes) (order : DiskOrder) (system : bytes)
      (operatorFactories : list (factory Op)) : res (Op * DiskOrder) :=
    let ext := to_lower (path_Ext filename) in
    let size := zlen filebytes in
    if size =? FloppyDiskBytes then openDoOrPo filebytes order system ext operatorFactories
    else if size =? FloppyDiskBytes13Sector then Err (EOther "cannot open 13-sector")
    else if beq ext (s2b ".hdv") then openHDV filebytes order system operatorFactories
    else Err (EOther "can only open disk-sized images and .hdv files").

End Open.

(** disk/open.go:210-230 up to the call of WriteOutput: the bytes WriteBack hands to
    helpers.WriteOutput (for an operator with GetBytes = [logicalBytes] and
    DiskOrder = [opOrder]). *)
Definition WriteBackBytes (logicalBytes : bytes) (opOrder diskFileOrder : DiskOrder) : res bytes :=
  if negb (zlen logicalBytes =? FloppyDiskBytes) then Ok logicalBytes
  else
    physicalBytes <- Swizzle logicalBytes (orNil (LogicalToPhysicalByName opOrder)) ;;
    Swizzle physicalBytes (orNil (PhysicalToLogicalByName diskFileOrder)).
