(** SupermonModel.v -- model of package supermon (supermon/supermon.go). *)
From Verif Require Import GoBase DiskModel TypesModel.

(** ** Constants: supermon/supermon.go:18-25 *)
Definition FileIllegal : Z := 0.
Definition FileFree : Z := 0xff.
Definition FileReserved : Z := 0xfe.

(** ** Sector map: supermon/supermon.go:27-229

    A SectorMap is always 560 bytes (line 27-29); LoadSectorMap is the only constructor.
    Constant-index accesses below are in range for such maps. *)

(** The order in which the nested loops
    [for track := 0; track < 35 { for sector := 0; sector < 16 {...} }] visit the disk. *)
Definition all_ts : list (Z * Z) := list_prod (zrange FloppyTracks) (zrange FloppySectors).

(** supermon/supermon.go:32-50 *)
Definition LoadSectorMap (diskbytes : bytes) : res bytes :=
  sector09 <- ReadSector diskbytes 0 9 ;;
  sector0A <- ReadSector diskbytes 0 0xA ;;
  sector0B <- ReadSector diskbytes 0 0xB ;;
  let sm := zeros 560 in
  let sm := upd sm 0 (sub sector09 0xd0 256) in
  let sm := upd sm 0x30 sector0A in
  let sm := upd sm 0x130 sector0B in
  Ok sm.

(** supermon/supermon.go:114-122 *)
Definition FileForSector (sm : bytes) (track sector : Z) : Z :=
  if 35 <=? track then FileIllegal
  else if 16 <=? sector then FileIllegal
  else znth 0 sm (track * 16 + sector).

(** supermon/supermon.go:126-138.  State: the sector map. *)
Definition SetFileForSector (track sector file : Z) : st bytes unit := fun sm =>
  if 35 <=? track then (sm, Err (EOther "track >34"))
  else if 16 <=? sector then (sm, Err (EOther "sector >15"))
  else if (file =? FileIllegal) || (file =? FileFree) || (file =? FileReserved)
       then (sm, Err (EOther "illegal file number"))
  else (zset sm (track * 16 + sector) file, Ok tt).

(** supermon/supermon.go:142-152 *)
Definition SectorsForFile (sm : bytes) (file : Z) : list (Z * Z) :=
  filter (fun ts => file =? FileForSector sm (fst ts) (snd ts)) all_ts.

(** supermon/supermon.go:54-62.  The loop over file = 01, 02, ...; [n] bounds the remaining
    iterations (file < FE). *)
Fixpoint FirstFreeFile_loop (sm : bytes) (files : list Z) : Z :=
  match files with
  | [] => 0
  | file :: rest =>
      if zlen (SectorsForFile sm file) =? 0 then file else FirstFreeFile_loop sm rest
  end.
(** File numbers 01..FD: [for file := byte(0x01); file < 0xfe; file++]. *)
Definition file_numbers : list Z := zseq 1 253.
Definition FirstFreeFile (sm : bytes) : Z := FirstFreeFile_loop sm file_numbers.

(** supermon/supermon.go:66-79.  State: the disk image. *)
Definition Persist (sm : bytes) : st bytes unit := fun diskbytes =>
  match ReadSector diskbytes 0 9 with
  | Err e => (diskbytes, Err e)
  | Panic => (diskbytes, Panic)
  | Ok sector09 =>
      (_ <== WriteSector 0 9 (upd sector09 0xd0 (sub sm 0 0x30)) ;;
       _ <== WriteSector 0 0xA (sub sm 0x30 0x130) ;;
       WriteSector 0 0xB (sub sm 0x130 0x230)) diskbytes
  end.

(** supermon/supermon.go:82-90 *)
Definition FreeSectors (sm : bytes) : Z := zlen (filter (fun file => file =? FileFree) sm).

(** supermon/supermon.go:93-110 *)
Definition Verify (sm : bytes) : res unit :=
  if existsb (fun sector => negb (FileForSector sm 0 sector =? FileReserved)) (zrange 0xC)
  then Err (EOther "expected track 0, sectors 0-C to be reserved")
  else if existsb (fun ts => FileForSector sm (fst ts) (snd ts) =? FileIllegal) all_ts
  then Err (EOther "found illegal sector map value")
  else Ok tt.

(** supermon/supermon.go:155-164: the map file -> sectors, as a function (absent files map
    to the nil slice). *)
Definition SectorsByFile (sm : bytes) (file : Z) : list (Z * Z) :=
  if existsb (Z.eqb file) file_numbers then SectorsForFile sm file else [].

(** supermon/supermon.go:167-177 *)
Fixpoint ReadFile_loop (diskbytes : bytes) (tss : list (Z * Z)) (result : bytes) : res bytes :=
  match tss with
  | [] => Ok result
  | (t, s) :: rest =>
      b <- ReadSector diskbytes t s ;;
      ReadFile_loop diskbytes rest (result ++ b)
  end.
Definition ReadFile (sm diskbytes : bytes) (file : Z) : res bytes :=
  ReadFile_loop diskbytes (SectorsForFile sm file) [].

(** supermon/supermon.go:180-186 *)
Definition SMDelete (sm : bytes) (file : Z) : bytes :=
  map (fun f => if f =? file then FileFree else f) sm.

(** supermon/supermon.go:207-224: the write loop.  State: (disk image, sector map). *)
Fixpoint WriteFile_loop (file sectorsNeeded : Z) (cts : bytes) (tss : list (Z * Z)) (i : Z)
    : st (bytes * bytes) unit := fun s =>
  match tss with
  | [] => (s, Ok tt)
  | (track, sector) :: rest =>
      let '(diskbytes, sm) := s in
      if FileForSector sm track sector =? FileFree then
        match slice cts (i * 256) ((i + 1) * 256) with
        | Ok chunk =>
            match WriteSector track sector chunk diskbytes with
            | (diskbytes', Ok _) =>
                match SetFileForSector track sector file sm with
                | (sm', Ok _) =>
                    let i' := i + 1 in
                    if i' =? sectorsNeeded then ((diskbytes', sm'), Ok tt)
                    else WriteFile_loop file sectorsNeeded cts rest i' (diskbytes', sm')
                | (sm', Err e) => ((diskbytes', sm'), Err e)
                | (sm', Panic) => ((diskbytes', sm'), Panic)
                end
            | (diskbytes', Err e) => ((diskbytes', sm), Err e)
            | (diskbytes', Panic) => ((diskbytes', sm), Panic)
            end
        | Err e => (s, Err e)
        | Panic => (s, Panic)
        end
      else WriteFile_loop file sectorsNeeded cts rest i s
  end.

(** supermon/supermon.go:190-229.  State: (disk image, sector map).  The boolean returned
    next to an error is not modelled. *)
Definition WriteFile (file : Z) (contents : bytes) (overwrite : bool)
    : st (bytes * bytes) bool := fun s =>
  let '(diskbytes, sm) := s in
  let sectorsNeeded := (zlen contents + 255) / 256 in
  let cts := upd (zeros (256 * sectorsNeeded)) 0 contents in
  let existing := zlen (SectorsForFile sm file) in
  let existed := 0 <? existing in
  let free := FreeSectors sm + existing in
  if free <? sectorsNeeded then (s, Err EOutOfSpace)
  else if existed && negb overwrite then (s, Err EFileExists)
  else
    let sm1 := if existed then SMDelete sm file else sm in
    match WriteFile_loop file sectorsNeeded cts all_ts 0 (diskbytes, sm1) with
    | ((d2, sm2), Ok _) =>
        match Persist sm2 d2 with
        | (d3, Ok _) => ((d3, sm2), Ok existed)
        | (d3, Err e) => ((d3, sm2), Err e)
        | (d3, Panic) => ((d3, sm2), Panic)
        end
    | (s2, Err e) => (s2, Err e)
    | (s2, Panic) => (s2, Panic)
    end.

(** ** Symbols: supermon/supermon.go:231-308 *)

(** supermon/supermon.go:232-241 *)
Record Symbol := Sym { s_addr : Z; s_name : bytes; s_link : Z }.
(** The zero value [Symbol{}]. *)
Definition sym0 : Symbol := Sym 0 [] 0.

(** supermon/supermon.go:252-264: [for value&0x1f > 0 {...}].  [value] is a uint64 and is
    divided by 32 or 64 in every iteration, so 13 iterations always suffice (64 bits);
    [fuel] is only the recursion measure. *)
Fixpoint decode_loop (fuel : nat) (value : Z) (result : bytes) : bytes :=
  match fuel with
  | O => result
  | S fuel' =>
      let low5 := value mod 32 in
      if 0 <? low5 then
        if low5 <? 27 then decode_loop fuel' (value / 32) (result ++ [low5 + 64])
        else if (value / 32) mod 2 =? 0
             then decode_loop fuel' (value / 64) (result ++ [low5 - 0x1b + 48])
             else decode_loop fuel' (value / 64) (result ++ [low5 - 0x1b + 53])
      else result
  end.
(** supermon/supermon.go:249-266 *)
Definition decodeSymbol (five : bytes) (extra : Z) : bytes :=
  let value := u64 (znth 0 five 0 + znth 0 five 1 * 2 ^ 8 + znth 0 five 2 * 2 ^ 16
                    + znth 0 five 3 * 2 ^ 24 + znth 0 five 4 * 2 ^ 32 + extra * 2 ^ 40) in
  decode_loop 13 value [].

(** supermon/supermon.go:286-302, over the reversed name. [None]: too long. *)
Fixpoint encode_loop (rnm : bytes) (value bits : Z) : option Z :=
  match rnm with
  | [] => Some value
  | ch :: rest =>
      let '(value', bits') :=
        if (65 <=? ch) && (ch <=? 90) then (u64 (value * 32 + (ch - 64)), bits + 5)
        else if (48 <=? ch) && (ch <=? 52) then (u64 (value * 64 + 0x1b + (ch - 48)), bits + 6)
        else if (53 <=? ch) && (ch <=? 57) then (u64 (value * 64 + 0x3b + (ch - 53)), bits + 6)
        else (value, bits) in
      if 48 <? bits' then None else encode_loop rest value' bits'
  end.
(** The first six bytes of binary.LittleEndian.PutUint64. *)
Definition six_bytes (v : Z) : bytes :=
  [v mod 256; (v / 2 ^ 8) mod 256; (v / 2 ^ 16) mod 256; (v / 2 ^ 24) mod 256;
   (v / 2 ^ 32) mod 256; (v / 2 ^ 40) mod 256].
(** supermon/supermon.go:272-308 *)
Definition encodeSymbol (name : bytes) : res bytes :=
  if beq name [] then Ok (zeros 6)
  else if 9 <? zlen name then Err (EOther "invalid Super-Mon symbol: too long")
  else if zlen name <? 3 then Err (EOther "invalid Super-Mon symbol: too short")
  else
    match encode_loop (rev (to_upper name)) 0 0 with
    | None => Err (EOther "invalid Super-Mon symbol: too long")
    | Some value => Ok (six_bytes value)
    end.

(** ** Symbol tables: supermon/supermon.go:310-506 *)
Notation SymbolTable := (list Symbol) (only parsing).

(** supermon/supermon.go:410-412 *)
Definition addrHash (addr : Z) : Z := Z.land (Z.lxor (u8 addr) (u8 (addr / 256))) 0x7f.

(** supermon/supermon.go:335-361, one entry (i = 5*k). *)
Definition read_entry (symtbl1 symtbl2 : bytes) (i : Z) : res Symbol :=
  let address := le16 (znth 0 symtbl1 i) (znth 0 symtbl1 (i + 1)) in
  if address =? 0 then Ok sym0
  else
    let linkAddr := le16 (znth 0 symtbl1 (i + 2)) (znth 0 symtbl1 (i + 3)) in
    link <- (if linkAddr =? 0 then Ok (-1)
             else if (linkAddr <? 0xD000) || (0xDFFF <=? linkAddr)
                  then Err (EOther "expected symbol table link address between 0xD000 and 0xDFFE")
             else if negb ((linkAddr - 0xD000) mod 5 =? 0)
                  then Err (EOther "expected symbol table link address to 0xD000+5x")
             else Ok ((linkAddr - 0xD000) / 5)) ;;
    let extra := znth 0 symtbl1 (i + 4) in
    Ok (Sym address (decodeSymbol (sub symtbl2 i (i + 5)) extra) link).
Fixpoint read_entries (symtbl1 symtbl2 : bytes) (ks : list Z) : res SymbolTable :=
  match ks with
  | [] => Ok []
  | k :: rest =>
      s <- read_entry symtbl1 symtbl2 (5 * k) ;;
      t <- read_entries symtbl1 symtbl2 rest ;;
      Ok (s :: t)
  end.
(** supermon/supermon.go:363-374 *)
Fixpoint check_links (table : SymbolTable) (i : Z) (rest : SymbolTable) : res unit :=
  match rest with
  | [] => Ok tt
  | sym :: rest' =>
      if negb (s_addr sym =? 0) && negb (s_link sym =? -1) then
        if s_link sym =? i then Err (EOther "Symbol links to itself")
        else if (s_link sym <? 0) || (zlen table <=? s_link sym) then Panic
        else if negb (addrHash (s_addr sym) =? addrHash (s_addr (znth sym0 table (s_link sym))))
             then Err (EOther "Symbol links to symbol with other hash")
        else check_links table (i + 1) rest'
      else check_links table (i + 1) rest'
  end.
(** The part of ReadSymbolTable after the two files are read (lines 334-376). *)
Definition parseSymbolTable (symtbl1 symtbl2 : bytes) : res SymbolTable :=
  table <- read_entries symtbl1 symtbl2 (zrange 819) ;;
  _ <- check_links table 0 table ;;
  Ok table.
(** supermon/supermon.go:317-377 *)
Definition ReadSymbolTable (sm diskbytes : bytes) : res SymbolTable :=
  symtbl1 <- ReadFile sm diskbytes 3 ;;
  if negb (zlen symtbl1 =? 0x1000) then Err (EOther "expected file FSYMTBL1 to be 0x1000 bytes long")
  else
    symtbl2 <- ReadFile sm diskbytes 4 ;;
    if negb (zlen symtbl2 =? 0x1000) then Err (EOther "expected file FSYMTBL2 to be 0x1000 bytes long")
    else parseSymbolTable symtbl1 symtbl2.

(** supermon/supermon.go:383-399: fill the two buffers.  An entry past the end of the
    4096-byte buffers panics. *)
Fixpoint fill_tables (syms : SymbolTable) (i : Z) (symtbl1 symtbl2 : bytes) : res (bytes * bytes) :=
  match syms with
  | [] => Ok (symtbl1, symtbl2)
  | sym :: rest =>
      let offset := i * 5 in
      six <- encodeSymbol (s_name sym) ;;
      let linkAddr := if negb (s_link sym =? -1) then s_link sym * 5 + 0xD000 else 0 in
      if 4096 <? offset + 5 then Panic
      else
        fill_tables rest (i + 1)
          (upd symtbl1 offset [s_addr sym mod 256; s_addr sym / 256; linkAddr mod 256;
                               u8 (linkAddr / 256); znth 0 six 5])
          (upd symtbl2 offset (sub six 0 5))
  end.
(** supermon/supermon.go:380-407.  State: (disk image, sector map).  Errors of WriteFile are
    re-wrapped with %v and lose their tag. *)
Definition untag {A} (r : res A) : res A :=
  match r with
  | Err _ => Err (EOther "unable to write half of symbol table")
  | r => r
  end.
Definition WriteSymbolTable (syms : SymbolTable) : st (bytes * bytes) unit := fun s =>
  match fill_tables syms 0 (zeros 0x1000) (zeros 0x1000) with
  | Err e => (s, Err e)
  | Panic => (s, Panic)
  | Ok (symtbl1, symtbl2) =>
      (_ <== (fun s => let '(s', r) := WriteFile 3 symtbl1 true s in (s', untag r)) ;;
       _ <== (fun s => let '(s', r) := WriteFile 4 symtbl2 true s in (s', untag r)) ;;
       sret tt) s
  end.

(** supermon/supermon.go:426-434 *)
Definition SymbolsForAddress (syms : SymbolTable) (address : Z) : SymbolTable :=
  filter (fun s => s_addr s =? address) syms.
(** supermon/supermon.go:415-423: the map address -> symbols, as a function. *)
Definition SymbolsByAddress (syms : SymbolTable) (address : Z) : SymbolTable :=
  filter (fun s => negb (s_addr s =? 0) && (s_addr s =? address)) syms.

(** supermon/supermon.go:438-445 *)
Fixpoint ByName (syms : SymbolTable) (name : bytes) : Z :=
  match syms with
  | [] => 0
  | s :: rest => if equal_fold name (s_name s) then s_addr s else ByName rest name
  end.

(** Index of the first symbol whose name equals [name] up to case: the position at which the
    loops of DeleteSymbol and AddSymbol stop. *)
Fixpoint find_name (syms : SymbolTable) (name : bytes) (i : Z) : option Z :=
  match syms with
  | [] => None
  | s :: rest => if equal_fold name (s_name s) then Some i else find_name rest name (i + 1)
  end.
Definition set_link (s : Symbol) (l : Z) : Symbol := Sym (s_addr s) (s_name s) l.
Definition set_addr (s : Symbol) (a : Z) : Symbol := Sym a (s_name s) (s_link s).
(** supermon/supermon.go:454-462: redirect the first link to [i] (other than entry [i]). *)
Fixpoint unlink (syms : SymbolTable) (j i newLink : Z) : SymbolTable :=
  match syms with
  | [] => []
  | s :: rest =>
      if i =? j then s :: unlink rest (j + 1) i newLink
      else if s_link s =? i then set_link s newLink :: rest
      else s :: unlink rest (j + 1) i newLink
  end.
(** supermon/supermon.go:449-468.  Returns the updated table. *)
Definition DeleteSymbol (syms : SymbolTable) (name : bytes) : SymbolTable * bool :=
  match find_name syms name 0 with
  | None => (syms, false)
  | Some i =>
      let sym := znth sym0 syms i in
      let syms1 := unlink syms 0 i (s_link sym) in
      (zset syms1 i (Sym 0 [] (s_link sym)), true)
  end.

(** supermon/supermon.go:478-492: the first loop of AddSymbol. *)
Inductive add_found :=
| AddUpdate (j : Z)      (* line 481-484 *)
| AddReplace (j : Z)     (* line 485-487 *)
| AddAt (pos : Z).       (* loop ended; -1 if no free entry *)
Fixpoint add_scan (syms : SymbolTable) (j pos : Z) (name : bytes) (hash : Z) : add_found :=
  match syms with
  | [] => AddAt pos
  | s :: rest =>
      if equal_fold name (s_name s) then
        if addrHash (s_addr s) =? hash then AddUpdate j else AddReplace j
      else
        add_scan rest (j + 1) (if (pos =? -1) && (s_addr s =? 0) then j else pos) name hash
  end.
(** supermon/supermon.go:496-501 *)
Fixpoint link_end (syms : SymbolTable) (hash pos : Z) : SymbolTable :=
  match syms with
  | [] => []
  | s :: rest =>
      if (addrHash (s_addr s) =? hash) && (s_link s =? -1) then set_link s pos :: rest
      else s :: link_end rest hash pos
  end.
(** supermon/supermon.go:493-505 *)
Definition add_at (syms : SymbolTable) (pos : Z) (name : bytes) (address hash : Z)
    : SymbolTable * res unit :=
  if pos =? -1 then (syms, Err (EOther "symbol table full"))
  else (zset (link_end syms hash pos) pos (Sym address name (-1)), Ok tt).
(** supermon/supermon.go:472-506 *)
Definition AddSymbol (syms : SymbolTable) (name : bytes) (address : Z) : SymbolTable * res unit :=
  if address =? 0 then (syms, Err (EOther "cannot set symbol to address 0"))
  else
    let hash := addrHash address in
    match add_scan syms 0 (-1) name hash with
    | AddUpdate j => (zset syms j (set_addr (znth sym0 syms j) address), Ok tt)
    | AddReplace j => add_at (fst (DeleteSymbol syms name)) j name address hash
    | AddAt pos => add_at syms pos name address hash
    end.

(** ** Names: supermon/supermon.go:508-641 *)

(** supermon/supermon.go:510-516 *)
Definition NameForFile (file : Z) (syms : SymbolTable) : bytes :=
  match SymbolsForAddress syms (0xDF00 + file) with
  | s :: _ => s_name s
  | [] => s2b "DF" ++ hex2 file
  end.
(** supermon/supermon.go:520-526 *)
Definition FullnameForFile (file : Z) (syms : SymbolTable) : bytes :=
  match SymbolsForAddress syms (0xDF00 + file) with
  | s :: _ => s2b "DF" ++ hex2 file ++ s2b ":" ++ s_name s
  | [] => s2b "DF" ++ hex2 file
  end.

(** supermon/supermon.go:530-540 *)
Definition parseAddressFilename (filename : bytes) : Z :=
  match parse_uint16_hex filename with
  | Some addr =>
      if (0xDF00 <? addr) && (addr <? 0xDFFE) then u8 (addr - 0xDF00)
      else if (0x00 <? addr) && (addr <? 0xFE) then u8 addr
      else 0
  | None => 0
  end.

(** supermon/supermon.go:550-557 *)
Fixpoint FileForName_loop (syms : SymbolTable) (filename : bytes) : option Z :=
  match syms with
  | [] => None
  | s :: rest =>
      if equal_fold (s_name s) filename then
        if (0xDF00 <? s_addr s) && (s_addr s <? 0xDFFE) then Some (u8 (s_addr s - 0xDF00)) else None
      else FileForName_loop rest filename
  end.
(** supermon/supermon.go:545-560 *)
Definition FileForName (syms : SymbolTable) (filename : bytes) : res Z :=
  let addr := parseAddressFilename filename in
  if negb (addr =? 0) then Ok addr
  else match FileForName_loop syms filename with
       | Some f => Ok f
       | None => Err EFileNotFound
       end.

(** supermon/supermon.go:564-605: (address, symAddress, symbol). *)
Definition ParseCompoundSymbol (syms : SymbolTable) (name : bytes) : res (Z * Z * bytes) :=
  if beq name [] then Err (EOther "expected symbol name")
  else
    match split_colon name with
    | [_] =>
        let addr := ByName syms name in
        if negb (addr =? 0) then Ok (0, addr, name)
        else
          match parse_uint16_hex name with
          | Some addr => Ok (addr, 0, [])
          | None =>
              match encodeSymbol name with
              | Err _ => Ok (0, 0, name)
              | Ok _ => Err (EOther "not a valid symbol name or address")
              | Panic => Panic
              end
          end
    | [p0; p1] =>
        if beq p0 [] then Err (EOther "empty address part")
        else if beq p1 [] then Err (EOther "empty symbol part")
        else
          match parse_uint16_hex p0 with
          | None => Err (EOther "error parsing address part")
          | Some addr =>
              match encodeSymbol p1 with
              | Err e => Err e
              | Ok _ => Ok (addr, ByName syms p1, p1)
              | Panic => Panic
              end
          end
    | _ => Err (EOther "more than one colon")
    end.

(** supermon/supermon.go:611-641: (numFile, namedFile, symbol). *)
Definition FilesForCompoundName (syms : SymbolTable) (filename : bytes) : res (Z * Z * bytes) :=
  match split_colon filename with
  | [_] =>
      let numFile := parseAddressFilename filename in
      if negb (numFile =? 0) then Ok (numFile, 0, [])
      else match FileForName syms filename with
           | Ok file => Ok (file, file, filename)
           | Err _ => Ok (0, 0, filename)
           | Panic => Panic
           end
  | [p0; p1] =>
      let numFile := parseAddressFilename p0 in
      if numFile =? 0 then Err (EOther "invalid file number")
      else if negb (parseAddressFilename p1 =? 0) then Err (EOther "cannot use valid file number as a filename")
      else match FileForName syms p1 with
           | Ok namedFile => Ok (numFile, namedFile, p1)
           | Err _ => Ok (numFile, 0, p1)
           | Panic => Panic
           end
  | _ => Err (EOther "more than one colon in compound filename")
  end.

(** ** Operator: supermon/supermon.go:643-844 *)

(** supermon/supermon.go:645-650 ([debug] omitted).  SM, ST and data are slices shared by
    all copies of the struct; they are the mutable state.  [op_ST = None]: nil. *)
Record Operator := Op { op_data : bytes; op_SM : bytes; op_ST : option SymbolTable }.
Definition st_of (o : Operator) : SymbolTable := match op_ST o with Some t => t | None => [] end.
Definition operatorName : bytes := s2b "nakedos". (* supermon/supermon.go:656 *)

(** Run a (disk image, sector map) computation on the operator. *)
Definition on_disk {A} (m : st (bytes * bytes) A) : st Operator A := fun o =>
  let '((d, sm), r) := m (op_data o, op_SM o) in (Op d sm (op_ST o), r).

(** supermon/supermon.go:671-689 *)
Definition Catalog (o : Operator) : res (list Descriptor) :=
  Ok (flat_map (fun file =>
        let l := zlen (SectorsByFile (op_SM o) file) in
        if l =? 0 then []
        else [Desc (NameForFile file (st_of o)) (FullnameForFile file (st_of o)) l 0 (l * 256)
                   false FiletypeBinary])
      file_numbers).

(** supermon/supermon.go:692-719 *)
Definition GetFile (o : Operator) (filename : bytes) : res FileInfo :=
  file <- FileForName (st_of o) filename ;;
  match ReadFile (op_SM o) (op_data o) file with
  | Err _ => Err (EOther "error reading file")
  | Panic => Panic
  | Ok data =>
      if zlen data =? 0 then Err (EOther "file not fount")
      else Ok (FI (Desc (NameForFile file (st_of o)) [] (zlen data / 256) 0 (zlen data) false FiletypeBinary)
                  data (if file =? 1 then 0x1800 else 0))
  end.

(** supermon/supermon.go:723-742.  The boolean next to an error is not modelled. *)
Definition Delete (filename : bytes) : st Operator bool := fun o =>
  match FileForName (st_of o) filename with
  | Err e => (o, Err e)
  | Panic => (o, Panic)
  | Ok file =>
      let existed := 0 <? zlen (SectorsForFile (op_SM o) file) in
      let sm1 := SMDelete (op_SM o) file in
      match Persist sm1 (op_data o) with
      | (d1, Err e) => (Op d1 sm1 (op_ST o), Err e)
      | (d1, Panic) => (Op d1 sm1 (op_ST o), Panic)
      | (d1, Ok _) =>
          match op_ST o with
          | None => (Op d1 sm1 None, Ok existed)
          | Some table =>
              let '(table1, changed) := DeleteSymbol table filename in
              if changed then
                (_ <== on_disk (WriteSymbolTable table1) ;; sret existed) (Op d1 sm1 (Some table1))
              else (Op d1 sm1 (Some table1), Ok existed)
          end
      end
  end.

(** supermon/supermon.go:747-786.  The boolean next to an error is not modelled. *)
Definition PutFile (fileInfo : FileInfo) (overwrite : bool) : st Operator bool := fun o =>
  let desc := fi_desc_ fileInfo in
  let data := fi_data fileInfo in
  if negb (d_type desc =? FiletypeBinary) then (o, Err (EOther "only binary file type supported"))
  else if negb (d_length desc =? zlen data) then (o, Err (EOther "mismatch between lengths"))
  else
    match FilesForCompoundName (st_of o) (d_name desc) with
    | Err e => (o, Err e)
    | Panic => (o, Panic)
    | Ok (numFile0, namedFile, symbol) =>
        let symcheck :=
          if beq symbol [] then Ok tt
          else match op_ST o with
               | None => Err (EOther "cannot use symbolic names on disks without valid symbol tables")
               | Some _ => _ <- encodeSymbol symbol ;; Ok tt
               end in
        match symcheck with
        | Err e => (o, Err e)
        | Panic => (o, Panic)
        | Ok _ =>
            let numFile := if numFile0 =? 0 then FirstFreeFile (op_SM o) else numFile0 in
            if numFile =? 0 then (o, Err (EOther "all files already used"))
            else
              (existed <== on_disk (WriteFile numFile data overwrite) ;;
               if negb (namedFile =? numFile) && negb (beq symbol []) then
                 fun o1 =>
                   let '(table1, r) := AddSymbol (st_of o1) symbol (u16 (0xDF00 + numFile)) in
                   let o2 := Op (op_data o1) (op_SM o1) (Some table1) in
                   match r with
                   | Err e => (o2, Err e)
                   | Panic => (o2, Panic)
                   | Ok _ => (_ <== on_disk (WriteSymbolTable table1) ;; sret existed) o2
                   end
               else sret existed) o
        end
    end.

(** supermon/supermon.go:809-819 *)
Definition SeemsToMatch (diskbytes : bytes) : bool :=
  match LoadSectorMap diskbytes with
  | Ok sm => match Verify sm with Ok _ => true | _ => false end
  | _ => false
  end.

(** supermon/supermon.go:822-839 *)
Definition NewOperator (diskbytes : bytes) : res Operator :=
  sm <- LoadSectorMap diskbytes ;;
  _ <- Verify sm ;;
  match ReadSymbolTable sm diskbytes with
  | Ok table => Ok (Op diskbytes sm (Some table))
  | Err _ => Ok (Op diskbytes sm None)
  | Panic => Panic
  end.

(** supermon/supermon.go:789-791, 803-805, 842-844 *)
Definition supermon_factory : factory Operator :=
  {| f_name := operatorName; f_order := DiskOrderRaw;
     f_seems := fun d => Some (SeemsToMatch d); f_operator := NewOperator |}.
