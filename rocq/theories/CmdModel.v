(** CmdModel.v -- model of the command layer: helpers/helpers.go, the file-system half of
    disk/open.go, and the Run methods of cmd/*.go.

    A command is a [prog]: a tree of the system calls it makes, each with the continuation
    that receives its result.  [run] executes it on a [world]; [crash] gives every world that
    can be observed if the process is killed on the way.

    Not modelled: kong's parsing of the command line (the [enum] restrictions appear as
    hypotheses of the theorems that need them), stderr, debug output, permissions other than
    "readable"/"writable", links and alternative spellings of a path (filepath.Clean,
    disk/open.go:20, is the identity here: a file has one name).  Other processes: ConcModel.v. *)
From Verif Require Import GoBase TypesModel DiskModel SupermonModel Dos3Model ProdosModel BasicModel.

(** ** The world *)

(** What the file system has at a name.  [NMissing]: os.Stat reports fs.ErrNotExist and the
    file can be created; [NUncreatable]: os.Stat reports fs.ErrNotExist and creating it fails
    (missing or read-only directory); [NOther]: a directory, or a name for which os.Stat fails
    in another way; reading and writing it fail. *)
Inductive node :=
| NMissing
| NUncreatable
| NFile (contents : bytes) (readable writable : bool)
| NOther.

(** [w_room]: how many bytes one os.WriteFile call can store before it fails ([None]: no
    limit); [w_outroom]: the same for standard output.  [w_stdin = None]: reading fails. *)
Record world := World {
  w_fs : bytes -> node;
  w_stdin : option bytes;
  w_stdout : bytes;
  w_room : option Z;
  w_outroom : option Z
}.

Definition set_fs (w : world) (name : bytes) (n : node) : world :=
  World (fun x => if beq x name then n else w_fs w x) (w_stdin w) (w_stdout w) (w_room w) (w_outroom w).
Definition add_out (w : world) (s : bytes) : world :=
  World (w_fs w) (w_stdin w) (w_stdout w ++ s) (w_room w) (w_outroom w).
Definition no_stdin (w : world) : world :=
  World (w_fs w) (Some []) (w_stdout w) (w_room w) (w_outroom w).

(** ** Programs over system calls *)
Inductive prog (A : Type) : Type :=
| PRet (r : res A)
| PRead (name : bytes) (k : res bytes -> prog A)              (* os.ReadFile; os.Open, io.ReadAll, Close *)
| PStdin (k : res bytes -> prog A)                            (* io.ReadAll(os.Stdin) *)
| PStat (name : bytes) (k : bool -> prog A)                   (* errors.Is(err of os.Stat(name), fs.ErrNotExist) *)
| PWrite (name contents : bytes) (k : res unit -> prog A)     (* os.WriteFile(name, contents, 0600) *)
| PStdout (contents : bytes) (k : res unit -> prog A).        (* os.Stdout.Write(contents) *)
Arguments PRet {A}.
Arguments PRead {A}.
Arguments PStdin {A}.
Arguments PStat {A}.
Arguments PWrite {A}.
Arguments PStdout {A}.

(** Sequencing with early return of the error ([if err != nil { return err }]). *)
Fixpoint pbind {A B} (p : prog A) (f : A -> prog B) : prog B :=
  match p with
  | PRet (Ok a) => f a
  | PRet (Err e) => PRet (Err e)
  | PRet Panic => PRet Panic
  | PRead n k => PRead n (fun r => pbind (k r) f)
  | PStdin k => PStdin (fun r => pbind (k r) f)
  | PStat n k => PStat n (fun r => pbind (k r) f)
  | PWrite n c k => PWrite n c (fun r => pbind (k r) f)
  | PStdout c k => PStdout c (fun r => pbind (k r) f)
  end.
Notation "x <<- p ;; k" := (pbind p (fun x => k)) (at level 100, p at next level, right associativity).
Notation "' x <<- p ;; k" := (pbind p (fun x => k)) (at level 100, x pattern, p at next level, right associativity).

(** *** The system calls *)
Definition sys_read (n : node) : res bytes :=
  match n with NFile c true _ => Ok c | _ => Err (EOther "os.ReadFile") end.
Definition sys_notexist (n : node) : bool :=
  match n with NMissing => true | NUncreatable => true | _ => false end.

(** The file after a write of [contents] that was cut off after [n] bytes.  A file keeps its
    mode; a new one gets mode 0600. *)
Definition written (old : node) (contents : bytes) : node :=
  match old with
  | NFile _ r w => NFile contents r w
  | _ => NFile contents true true
  end.
Definition can_write (n : node) : bool :=
  match n with NMissing => true | NFile _ _ true => true | _ => false end.
Definition fits (room : option Z) (contents : bytes) : bool :=
  match room with None => true | Some n => zlen contents <=? n end.
Definition cut (room : option Z) (contents : bytes) : bytes :=
  match room with None => contents | Some n => sub contents 0 (Z.max 0 n) end.

(** os.WriteFile: opens with O_CREATE|O_TRUNC (after which the file is empty), then writes. *)
Definition sys_write (w : world) (name contents : bytes) : world * res unit :=
  let old := w_fs w name in
  if can_write old then
    if fits (w_room w) contents then (set_fs w name (written old contents), Ok tt)
    else (set_fs w name (written old (cut (w_room w) contents)), Err (EOther "os.WriteFile"))
  else (w, Err (EOther "os.WriteFile")).
Definition sys_stdout (w : world) (contents : bytes) : world * res unit :=
  if fits (w_outroom w) contents then (add_out w contents, Ok tt)
  else (add_out w (cut (w_outroom w) contents), Err (EOther "os.Stdout.Write")).
Definition sys_stdin (w : world) : world * res bytes :=
  match w_stdin w with
  | Some s => (no_stdin w, Ok s)
  | None => (w, Err (EOther "os.Stdin"))
  end.

Fixpoint run {A} (p : prog A) (w : world) : world * res A :=
  match p with
  | PRet r => (w, r)
  | PRead n k => run (k (sys_read (w_fs w n))) w
  | PStdin k => let '(w1, r) := sys_stdin w in run (k r) w1
  | PStat n k => run (k (sys_notexist (w_fs w n))) w
  | PWrite n c k => let '(w1, r) := sys_write w n c in run (k r) w1
  | PStdout c k => let '(w1, r) := sys_stdout w c in run (k r) w1
  end.

(** The worlds in which the process can be killed: before or after any call, and inside
    os.WriteFile (the file truncated and some prefix of the contents written) or a write to
    standard output (some prefix written). *)
Fixpoint crash {A} (p : prog A) (w w' : world) : Prop :=
  w' = w \/
  match p with
  | PRet r => False
  | PRead n k => crash (k (sys_read (w_fs w n))) w w'
  | PStdin k => let '(w1, r) := sys_stdin w in crash (k r) w1 w'
  | PStat n k => crash (k (sys_notexist (w_fs w n))) w w'
  | PWrite n c k =>
      (can_write (w_fs w n) = true /\
       exists m, 0 <= m <= zlen c /\ w' = set_fs w n (written (w_fs w n) (sub c 0 m))) \/
      (let '(w1, r) := sys_write w n c in crash (k r) w1 w')
  | PStdout c k =>
      (exists m, 0 <= m <= zlen c /\ w' = add_out w (sub c 0 m)) \/
      (let '(w1, r) := sys_stdout w c in crash (k r) w1 w')
  end.

Definition pret {A} (a : A) : prog A := PRet (Ok a).
Definition perr {A} (e : gerror) : prog A := PRet (Err e).
Definition plift {A} (r : res A) : prog A := PRet r.

(** ** helpers/helpers.go *)
Definition dash : bytes := s2b "-".

(** helpers/helpers.go:17-22 *)
Definition FileContentsOrStdIn (s : bytes) : prog bytes :=
  if beq s dash then PStdin PRet else PRead s PRet.

(** helpers/helpers.go:25-36 *)
Definition WriteOutput (filename contents : bytes) (force : bool) : prog unit :=
  if beq filename dash then PStdout contents PRet
  else
    let write := PWrite filename contents PRet in
    if force then write
    else PStat filename (fun notexist =>
           if negb notexist then perr (EOther "cannot overwrite file without --force") else write).

(** ** Operators: types/ops.go:52-73 and its three implementations *)
Inductive AnyOp :=
| ODos3 (data : bytes)          (* dos3/dos3.go:553-557 *)
| ONaked (o : Operator)         (* supermon/supermon.go:645-650 *)
| OProdos (data : bytes).       (* prodos/prodos.go:844-848 *)

(** dos3/dos3.go:566-568, supermon/supermon.go:659-661, prodos/prodos.go:858-860 *)
Definition Op_Name (o : AnyOp) : bytes :=
  match o with ODos3 _ => dos3_name | ONaked _ => operatorName | OProdos _ => prodos_name end.
(** dos3/dos3.go:675-677, supermon/supermon.go:789-791, prodos/prodos.go:922-924 *)
Definition Op_DiskOrder (o : AnyOp) : DiskOrder :=
  match o with ODos3 _ => DiskOrderDO | ONaked _ => DiskOrderRaw | OProdos _ => DiskOrderPO end.
(** dos3/dos3.go:572-574, supermon/supermon.go:665-667, prodos/prodos.go:864-866 *)
Definition Op_HasSubdirs (o : AnyOp) : bool :=
  match o with OProdos _ => true | _ => false end.
(** dos3/dos3.go:680-682, supermon/supermon.go:794-796, prodos/prodos.go:927-929 *)
Definition Op_GetBytes (o : AnyOp) : bytes :=
  match o with ODos3 d => d | ONaked o => op_data o | OProdos d => d end.

(** [None] (the call does not return with this fuel) as an outcome. *)
Definition returned {A} (r : option (res A)) : res A := match r with Some r => r | None => Panic end.

Section Commands.
  (** The iteration order of Go maps, and the bound on the loops over the image; see
      ProdosModel.v and Dos3Model.v.  A [Panic] outcome means: does not return normally. *)
  Context (iter : list (Z * Subdirectory) -> list (Z * Subdirectory)) (fuel : nat).

  Definition Op_Catalog (o : AnyOp) (subdir : bytes) : res (list Descriptor) :=
    match o with
    | ODos3 d => returned (Dos3Model.Catalog fuel d)                    (* dos3/dos3.go:578-588 *)
    | ONaked o => SupermonModel.Catalog o                               (* supermon/supermon.go:671-689 *)
    | OProdos d => returned (ProdosModel.Catalog iter fuel d subdir)    (* prodos/prodos.go:870-901 *)
    end.
  Definition Op_GetFile (o : AnyOp) (filename : bytes) : res FileInfo :=
    match o with
    | ODos3 d => returned (Dos3Model.GetFile fuel d filename)           (* dos3/dos3.go:606-659 *)
    | ONaked o => SupermonModel.GetFile o filename                      (* supermon/supermon.go:692-719 *)
    | OProdos d => prodos_GetFile d filename                            (* prodos/prodos.go:904-906 *)
    end.
  (** The operator after the call: the methods change the bytes in place. *)
  Definition lift_op {S A} (inj : S -> AnyOp) (r : S * res A) : AnyOp * res A := let '(s, a) := r in (inj s, a).
  Definition Op_Delete (o : AnyOp) (filename : bytes) : AnyOp * res bool :=
    match o with
    | ODos3 d => lift_op ODos3 (dos3_Delete filename d)                 (* dos3/dos3.go:663-665 *)
    | ONaked o => lift_op ONaked (SupermonModel.Delete filename o)      (* supermon/supermon.go:723-742 *)
    | OProdos d => lift_op OProdos (prodos_Delete filename d)           (* prodos/prodos.go:910-912 *)
    end.
  Definition Op_PutFile (o : AnyOp) (fileInfo : FileInfo) (overwrite : bool) : AnyOp * res bool :=
    match o with
    | ODos3 d => lift_op ODos3 (dos3_PutFile fileInfo overwrite d)              (* dos3/dos3.go:670-672 *)
    | ONaked o => lift_op ONaked (SupermonModel.PutFile fileInfo overwrite o)   (* supermon/supermon.go:747-786 *)
    | OProdos d => lift_op OProdos (prodos_PutFile fileInfo overwrite d)        (* prodos/prodos.go:917-919 *)
    end.

  Definition rmap {A B} (f : A -> B) (r : res A) : res B := x <- r ;; Ok (f x).

  (** main.go:49-53: the registered factories, in order (dos3/dos3.go:685-709,
      supermon/supermon.go:799-844, prodos/prodos.go:932-956). *)
  Definition dos3_factory : factory AnyOp :=
    {| f_name := dos3_name; f_order := DiskOrderDO;
       f_seems := dos3_SeemsToMatch fuel; f_operator := fun d => rmap ODos3 (dos3_Operator d) |}.
  Definition nakedos_factory : factory AnyOp :=
    {| f_name := f_name supermon_factory; f_order := f_order supermon_factory;
       f_seems := f_seems supermon_factory; f_operator := fun d => rmap ONaked (f_operator supermon_factory d) |}.
  Definition prodos_factory : factory AnyOp :=
    {| f_name := prodos_name; f_order := DiskOrderPO;
       f_seems := prodos_SeemsToMatch iter fuel; f_operator := fun d => rmap OProdos (prodos_Operator d) |}.
  Definition DiskOperatorFactories : list (factory AnyOp) := [dos3_factory; nakedos_factory; prodos_factory].

  (** ** disk/open.go *)

  (** disk/open.go:16-38: OpenFilename and OpenFile.  The name of os.Stdin is "/dev/stdin". *)
  Definition OpenFilename (filename order system : bytes) : prog (AnyOp * DiskOrder) :=
    if beq filename dash then
      bb <<- PStdin PRet ;; plift (OpenImage bb (s2b "/dev/stdin") order system DiskOperatorFactories)
    else
      bb <<- PRead filename PRet ;; plift (OpenImage bb filename order system DiskOperatorFactories).

  (** disk/open.go:210-230 *)
  Definition WriteBack (filename : bytes) (op : AnyOp) (diskFileOrder : DiskOrder) (overwrite : bool) : prog unit :=
    diskBytes <<- plift (WriteBackBytes (Op_GetBytes op) (Op_DiskOrder op) diskFileOrder) ;;
    WriteOutput filename diskBytes overwrite.

  (** ** cmd/delete.go:30-44 *)
  Definition DeleteCmd_Run (order system : bytes) (missingOk : bool) (diskImage filename : bytes) : prog unit :=
    '(op, order) <<- OpenFilename diskImage order system ;;
    let '(op, r) := Op_Delete op filename in
    deleted <<- plift r ;;
    if negb deleted && negb missingOk then perr (EOther "file not found (use -f to prevent this being an error)")
    else WriteBack diskImage op order true.

  (** ** cmd/put.go:34-69 *)
  Definition PutCmd_Run (order system filetypeName : bytes) (overwrite : bool) (address : Z)
      (diskImage targetFilename sourceFilename : bytes) : prog unit :=
    if beq diskImage dash && beq sourceFilename dash
    then perr (EOther "cannot get both disk image and file contents from stdin")
    else
      '(op, order) <<- OpenFilename diskImage order system ;;
      contents <<- FileContentsOrStdIn sourceFilename ;;
      filetype <<- plift (FiletypeForName filetypeName) ;;
      let fileInfo := FI (Desc targetFilename [] 0 0 (zlen contents) false filetype) contents address in
      let '(op, r) := Op_PutFile op fileInfo overwrite in
      _ <<- plift r ;;
      WriteBack diskImage op order true.

  (** ** cmd/reorder.go:90-95 *)
  Definition oppositeOrder (order : DiskOrder) : DiskOrder :=
    if beq order DiskOrderDO then DiskOrderPO else DiskOrderDO.

  (** cmd/reorder.go:58-87 *)
  Definition getOrders (inFilename : bytes) (inOrder : DiskOrder) (outFilename : bytes) (outOrder : DiskOrder)
      : res (DiskOrder * DiskOrder) :=
    if beq inOrder DiskOrderAuto && negb (beq outOrder DiskOrderAuto) then Ok (oppositeOrder outOrder, outOrder)
    else if beq outOrder DiskOrderAuto && negb (beq inOrder DiskOrderAuto) then Ok (inOrder, oppositeOrder inOrder)
    else if negb (beq inOrder outOrder) then Ok (inOrder, outOrder)
    else if negb (beq inOrder DiskOrderAuto) then Err (EOther "identical order and new-order")
    else
      let inGuess := OrderFromFilename inFilename DiskOrderUnknown in
      let outGuess := OrderFromFilename outFilename DiskOrderUnknown in
      if beq inGuess outGuess then
        if beq inGuess DiskOrderUnknown then Err (EOther "cannot determine input or output order from file extensions")
        else Err (EOther "guessed order is the same as guessed order")
      else if beq inGuess DiskOrderUnknown then Ok (oppositeOrder outGuess, outGuess)
      else if beq outGuess DiskOrderUnknown then Ok (inGuess, oppositeOrder inGuess)
      else Ok (inGuess, outGuess).

  (** cmd/reorder.go:22-55 *)
  Definition ReorderCmd_Run (order newOrder : DiskOrder) (overwrite : bool) (diskImage newDiskImage : bytes) : prog unit :=
    '(fromOrderName, toOrderName) <<- plift (getOrders diskImage order newDiskImage newOrder) ;;
    frombytes <<- FileContentsOrStdIn diskImage ;;
    match LogicalToPhysicalByName fromOrderName with
    | None => perr (EOther "internal error: disk order not found")
    | Some fromOrder =>
        match PhysicalToLogicalByName toOrderName with
        | None => perr (EOther "internal error: disk order not found")
        | Some toOrder =>
            rawbytes <<- plift (Swizzle frombytes fromOrder) ;;
            tobytes <<- plift (Swizzle rawbytes toOrder) ;;
            if beq newDiskImage [] then WriteOutput diskImage tobytes true
            else WriteOutput newDiskImage tobytes overwrite
        end
    end.

  (** ** cmd/sd.go *)

  (** cmd/sd.go:70-76: the 77 fixed bytes of the loader; the start address follows. *)
  Definition sd_code : bytes :=
    [0x01; 0xa8; 0xee; 0x06; 0x08; 0xad; 0x4e; 0x08; 0xc9; 0xc0; 0xf0; 0x40; 0x85; 0x27; 0xc8;
     0xc0; 0x10; 0x90; 0x09; 0xf0; 0x05; 0x20; 0x2f; 0x08; 0xa8; 0x2c; 0xa0; 0x01; 0x84; 0x3d;
     0xc8; 0xa5; 0x27; 0xf0; 0xdf; 0x8a; 0x4a; 0x4a; 0x4a; 0x4a; 0x09; 0xc0; 0x48; 0xa9; 0x5b;
     0x48; 0x60; 0xe6; 0x41; 0x06; 0x40; 0x20; 0x37; 0x08; 0x18; 0x20; 0x3c; 0x08; 0xe6; 0x40;
     0xa5; 0x40; 0x29; 0x03; 0x2a; 0x05; 0x2b; 0xa8; 0xb9; 0x80; 0xc0; 0xa9; 0x30; 0x4c; 0xa8;
     0xfc; 0x4c].

  (** [x[:k]] extended with zeros to a multiple of [256] (cmd/sd.go:83-85). *)
  Definition padTo256 (l : bytes) : bytes := l ++ zeros ((- zlen l) mod 256).

  (** cmd/sd.go:89-107: the loop over the pages [i/256 = n, n+1, ...]; [track] and [sector] are
      Go bytes. *)
  Fixpoint sd_loop (pages : list Z) (contents : bytes) (address track sector : Z) (loader diskbytes : bytes)
      : res (bytes * bytes) :=
    match pages with
    | [] => Ok (loader, diskbytes)
    | n :: rest =>
        let i := 256 * n in
        let sector := u8 (sector + 2) in
        let next :=
          if FloppySectors <=? sector then
            let sector := u8 (FloppySectors + 1 - sector) in
            if sector =? 0 then
              let track := u8 (track + 1) in
              if FloppyTracks <=? track then None else Some (track, sector)
            else Some (track, sector)
          else Some (track, sector) in
        match next with
        | None => Err (EOther "ran out of tracks")
        | Some (track, sector) =>
          let addr := address + i in
          let loader := loader ++ [u8 (addr / 256)] in
          page <- slice contents i (i + 256) ;;
          match WriteSector track sector page diskbytes with
          | (diskbytes, Ok _) => sd_loop rest contents address track sector loader diskbytes
          | (_, Err e) => Err e
          | (_, Panic) => Panic
          end
        end
    end.

  (** cmd/sd.go:41-43, 49-126 between reading the binary and WriteOutput. *)
  Definition sd_image (order : DiskOrder) (diskImage contents : bytes) (address start0 : Z) : res bytes :=
    let start := if start0 =? 0xFFFF then address else start0 in
    if negb (address mod 256 =? 0) then Err (EOther "address not on a page boundary")
    else if start <? address then Err (EOther "start address < load address")
    else if address + zlen contents <=? start then Err (EOther "start address is beyond load address + file length")
    else if 0xC000 <? start + zlen contents then Err (EOther "we can't load past page 0xBF00")
    else
      let sectors := (zlen contents + 255) / 256 in
      let loader := sd_code ++ [u8 start; u8 (start / 256)] in
      if 256 <? zlen loader + sectors + 1 then Err (EOther "file too long")
      else
        let contents := padTo256 contents in
        match sd_loop (zrange (zlen contents / 256)) contents address 0 0 loader (zeros FloppyDiskBytes) with
        | Err e => Err e
        | Panic => Panic
        | Ok (loader, diskbytes) =>
            let loader := loader ++ [0xC0] in
            let loader := loader ++ zeros (256 - zlen loader) in
            match WriteSector 0 0 loader diskbytes with
            | (_, Err e) => Err e
            | (_, Panic) => Panic
            | (diskbytes, Ok _) =>
                let order := if beq order DiskOrderAuto then OrderFromFilename diskImage DiskOrderDO else order in
                Swizzle diskbytes (orNil (PhysicalToLogicalByName order))
            end
        end.

  (** cmd/sd.go:40-127.  The binary is opened by kong ([os.File]); "-" is standard input. *)
  Definition SDCmd_Run (order : DiskOrder) (diskImage binary : bytes) (address start : Z) : prog unit :=
    contents <<- FileContentsOrStdIn binary ;;
    rawBytes <<- plift (sd_image order diskImage contents address start) ;;
    WriteOutput diskImage rawBytes true.

  (** ** cmd/nakedos.go *)
  Definition helloName : bytes := s2b "FHELLO". (* cmd/nakedos.go:13 *)

  (** cmd/nakedos.go:86-92 *)
  Definition hello_program (toLoad address start : Z) : bytes :=
    [0x20; 0x40; 0x03; 0x6D; 0x01; 0xDC; 0x2C; toLoad; 0xDF; 0x2C; 0x00; u8 (address / 256); 0xD8; 0x4C;
     u8 start; u8 (start / 256)].

  (** cmd/nakedos.go:51-110 *)
  Definition MkHelloCmd_Run (order : DiskOrder) (diskImage filename : bytes) (address start0 : Z) : prog unit :=
    let start := if start0 =? 0xFFFF then address else start0 in
    if negb (address mod 256 =? 0) then perr (EOther "address not on a page boundary")
    else if start <? address then perr (EOther "start address < load address")
    else
      '(op, order) <<- OpenFilename diskImage order (s2b "auto") ;;
      match op with
      | ONaked nakOp =>
          '(addr, symbolAddr, _) <<- plift (FilesForCompoundName (st_of nakOp) filename) ;;
          if (addr =? 0) && (symbolAddr =? 0) then perr (EOther "cannot parse as valid filename")
          else
            let toLoad := if addr =? 0 then symbolAddr else addr in
            let contents := hello_program toLoad address start in
            let fileInfo := FI (Desc (s2b "DF01:" ++ helloName) [] 0 0 (zlen contents) false FiletypeBinary)
                               contents 0 in
            let '(op, r) := Op_PutFile op fileInfo true in
            _ <<- plift r ;;
            WriteBack diskImage op order true
      | _ => perr (EOther "mkhello only works on disks of type nakedos")
      end.

  (** ** cmd/catalog.go:33-59.  The image is opened by kong; fmt.Println ignores errors. *)
  Definition ls_line (shortNames : bool) (fd : Descriptor) : bytes :=
    (if negb shortNames && negb (beq (d_fullname fd) []) then d_fullname fd else d_name fd) ++ [10].
  Fixpoint ls_lines (shortNames : bool) (fds : list Descriptor) : prog unit :=
    match fds with
    | [] => pret tt
    | fd :: rest => PStdout (ls_line shortNames fd) (fun _ => ls_lines shortNames rest)
    end.
  Definition LsCmd_Run (order system : bytes) (shortNames : bool) (image directory : bytes) : prog unit :=
    '(op, _) <<- OpenFilename image order system ;;
    if negb (beq directory []) && negb (Op_HasSubdirs op) then perr (EOther "disks of this type cannot have subdirectories")
    else
      fds <<- plift (Op_Catalog op directory) ;;
      ls_lines shortNames fds.

  (** ** cmd/dump.go:29-44 *)
  Definition DumpCmd_Run (order system : bytes) (diskImage filename : bytes) : prog unit :=
    '(op, _) <<- OpenFilename diskImage order system ;;
    file <<- plift (Op_GetFile op filename) ;;
    PStdout (fi_data file) PRet.

  (** ** cmd/applesoft.go:35-50 *)
  Definition DecodeCmd_Run (filename : bytes) (location : Z) (raw : bool) : prog unit :=
    contents <<- FileContentsOrStdIn filename ;;
    listing <<- plift (returned (applesoft_Decode fuel contents location)) ;;
    PStdout (if raw then applesoft_String listing else ChevronControlCodes (applesoft_String listing))
      (fun _ => pret tt).

End Commands.
