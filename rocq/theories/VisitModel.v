(** VisitModel.v -- the commands that open a disk image, where Go may visit the entries of a map in a new
    order each time.  prodos.readVolume ranges over a map once (prodos/prodos.go:737).  It runs at most
    once for each candidate order while an image is opened (SeemsToMatch, prodos/prodos.go:942-946, is called
    once in each pass of the loop over the orders, disk/open.go:112-148), and once more for ls
    (prodos/prodos.go:874).  So the visits of one command are an order [vis o] for each candidate order
    [o], and an order [icat] for the listing.  CmdModel uses one order for all of them. *)
From Verif Require Import GoBase TypesModel DiskModel SupermonModel ProdosModel CmdModel.

(** The order in which the entries of a map are visited. *)
Definition visiting : Type := list (Z * Subdirectory) -> list (Z * Subdirectory).

Section Open.
  Context {Op : Type}.

  (** disk/open.go:112-148, the loop over the orders; the factories as they behave in the pass for each
      order. *)
  Fixpoint try_orders_v (rawbytes : bytes) (single : bool) (system : bytes)
      (facs : DiskOrder -> list (factory Op)) (orders : list DiskOrder) : res (Op * DiskOrder) :=
    match orders with
    | [] => Err (EOther "unable to open disk image")
    | order :: rest =>
        match Swizzle rawbytes (orNil (LogicalToPhysicalByName order)) with
        | Err e => Err e
        | Panic => Panic
        | Ok swizzled =>
            match try_factories swizzled single system order (facs order) with
            | Some r => r
            | None => try_orders_v rawbytes single system facs rest
            end
        end
    end.
  (** disk/open.go:83-149.  The names of the factories do not depend on the pass. *)
  Definition openDoOrPo_v (rawbytes : bytes) (order : DiskOrder) (system ext : bytes)
      (operatorFactories : DiskOrder -> list (factory Op)) : res (Op * DiskOrder) :=
    let factories o := filter (fun f => beq system (s2b "auto") || beq system (f_name f)) (operatorFactories o) in
    if zlen (factories DiskOrderPO) =? 0 then Err (EOther "cannot find disk system")
    else
      orders <- candidate_orders order ext ;;
      try_orders_v rawbytes (zlen orders =? 1) system factories orders.
  (** disk/open.go:41-55.  openHDV (disk/open.go:57-81) asks no factory whether the image seems to match. *)
  Definition OpenImage_v (filebytes filename : bytes) (order : DiskOrder) (system : bytes)
      (operatorFactories : DiskOrder -> list (factory Op)) : res (Op * DiskOrder) :=
    let ext := to_lower (path_Ext filename) in
    let size := zlen filebytes in
    if size =? FloppyDiskBytes then openDoOrPo_v filebytes order system ext operatorFactories
    else if size =? FloppyDiskBytes13Sector then Err (EOther "cannot open 13-sector")
    else if beq ext (s2b ".hdv") then openHDV filebytes order system (operatorFactories DiskOrderPO)
    else Err (EOther "can only open disk-sized images and .hdv files").
End Open.

Section Commands.
  Context (vis : DiskOrder -> visiting) (icat : visiting) (fuel : nat).

  (** disk/open.go:16-38 *)
  Definition OpenFilename_v (filename order system : bytes) : prog (AnyOp * DiskOrder) :=
    if beq filename dash then
      bb <<- PStdin PRet ;; plift (OpenImage_v bb (s2b "/dev/stdin") order system (fun o => DiskOperatorFactories (vis o) fuel))
    else
      bb <<- PRead filename PRet ;; plift (OpenImage_v bb filename order system (fun o => DiskOperatorFactories (vis o) fuel)).

  (** cmd/delete.go:30-44 *)
  Definition DeleteCmd_Run_v (order system : bytes) (missingOk : bool) (diskImage filename : bytes) : prog unit :=
    '(op, order) <<- OpenFilename_v diskImage order system ;;
    let '(op, r) := Op_Delete op filename in
    deleted <<- plift r ;;
    if negb deleted && negb missingOk then perr (EOther "file not found (use -f to prevent this being an error)")
    else WriteBack diskImage op order true.
  (** cmd/put.go:34-69 *)
  Definition PutCmd_Run_v (order system filetypeName : bytes) (overwrite : bool) (address : Z)
      (diskImage targetFilename sourceFilename : bytes) : prog unit :=
    if beq diskImage dash && beq sourceFilename dash
    then perr (EOther "cannot get both disk image and file contents from stdin")
    else
      '(op, order) <<- OpenFilename_v diskImage order system ;;
      contents <<- FileContentsOrStdIn sourceFilename ;;
      filetype <<- plift (FiletypeForName filetypeName) ;;
      let fileInfo := FI (Desc targetFilename [] 0 0 (zlen contents) false filetype) contents address in
      let '(op, r) := Op_PutFile op fileInfo overwrite in
      _ <<- plift r ;;
      WriteBack diskImage op order true.
  (** cmd/nakedos.go:51-110 *)
  Definition MkHelloCmd_Run_v (order : DiskOrder) (diskImage filename : bytes) (address start0 : Z) : prog unit :=
    let start := if start0 =? 0xFFFF then address else start0 in
    if negb (address mod 256 =? 0) then perr (EOther "address not on a page boundary")
    else if start <? address then perr (EOther "start address < load address")
    else
      '(op, order) <<- OpenFilename_v diskImage order (s2b "auto") ;;
      match op with
      | ONaked nakOp =>
          '(addr, symbolAddr, _) <<- plift (FilesForCompoundName (st_of nakOp) filename) ;;
          if (addr =? 0) && (symbolAddr =? 0) then perr (EOther "cannot parse as valid filename")
          else
            let toLoad := if addr =? 0 then symbolAddr else addr in
            let contents := hello_program toLoad address start in
            let fileInfo := FI (Desc (s2b "DF01:" ++ helloName) [] 0 0 (zlen contents) false FiletypeBinary)
                               contents 0 in
            let '(op, r) := Op_PutFile op fileInfo true in
            _ <<- plift r ;;
            WriteBack diskImage op order true
      | _ => perr (EOther "mkhello only works on disks of type nakedos")
      end.
  (** cmd/catalog.go:33-59 *)
  Definition LsCmd_Run_v (order system : bytes) (shortNames : bool) (image directory : bytes) : prog unit :=
    '(op, _) <<- OpenFilename_v image order system ;;
    if negb (beq directory []) && negb (Op_HasSubdirs op) then perr (EOther "disks of this type cannot have subdirectories")
    else
      fds <<- plift (Op_Catalog icat fuel op directory) ;;
      ls_lines shortNames fds.
  (** cmd/dump.go:29-44 *)
  Definition DumpCmd_Run_v (order system : bytes) (diskImage filename : bytes) : prog unit :=
    '(op, _) <<- OpenFilename_v diskImage order system ;;
    file <<- plift (Op_GetFile fuel op filename) ;;
    PStdout (fi_data file) PRet.
End Commands.
