(** TypesModel.v -- model of package types (types/ops.go, types/filetype.go) and of the
    error tags (errors/errors.go). *)
From Verif Require Import GoBase.

(** ** File types: types/filetype.go:12-59.  Filetype is an int. *)
Definition FiletypeTypeless : Z := 0x00. (* types/filetype.go:16 *)
Definition FiletypeBadBlocks : Z := 0x01. (* types/filetype.go:17 *)
Definition FiletypeSOSPascalCode : Z := 0x02. (* types/filetype.go:18 *)
Definition FiletypeSOSPascalText : Z := 0x03. (* types/filetype.go:19 *)
Definition FiletypeASCIIText : Z := 0x04. (* types/filetype.go:20 *)
Definition FiletypeSOSPascalText2 : Z := 0x05. (* types/filetype.go:21 *)
Definition FiletypeBinary : Z := 0x06. (* types/filetype.go:22 *)
Definition FiletypeFont : Z := 0x07. (* types/filetype.go:23 *)
Definition FiletypeGraphicsScreen : Z := 0x08. (* types/filetype.go:24 *)
Definition FiletypeBusinessBASIC : Z := 0x09. (* types/filetype.go:25 *)
Definition FiletypeBusinessBASICData : Z := 0x0A. (* types/filetype.go:26 *)
Definition FiletypeSOSWordProcessor : Z := 0x0B. (* types/filetype.go:27 *)
Definition FiletypeSOSSystem : Z := 0x0C. (* types/filetype.go:28 *)
Definition FiletypeDirectory : Z := 0x0F. (* types/filetype.go:29 *)
Definition FiletypeRPSData : Z := 0x10. (* types/filetype.go:30 *)
Definition FiletypeRPSIndex : Z := 0x11. (* types/filetype.go:31 *)
Definition FiletypeAppleWorksDatabase : Z := 0x19. (* types/filetype.go:32 *)
Definition FiletypeAppleWorksWordProcessor : Z := 0x1A. (* types/filetype.go:33 *)
Definition FiletypeAppleWorksSpreadsheet : Z := 0x1B. (* types/filetype.go:34 *)
Definition FiletypePascal : Z := 0xEF. (* types/filetype.go:35 *)
Definition FiletypeCommand : Z := 0xF0. (* types/filetype.go:36 *)
Definition FiletypeUserDefinedF1 : Z := 0xF1. (* types/filetype.go:37 *)
Definition FiletypeUserDefinedF2 : Z := 0xF2. (* types/filetype.go:38 *)
Definition FiletypeUserDefinedF3 : Z := 0xF3. (* types/filetype.go:39 *)
Definition FiletypeUserDefinedF4 : Z := 0xF4. (* types/filetype.go:40 *)
Definition FiletypeUserDefinedF5 : Z := 0xF5. (* types/filetype.go:41 *)
Definition FiletypeUserDefinedF6 : Z := 0xF6. (* types/filetype.go:42 *)
Definition FiletypeUserDefinedF7 : Z := 0xF7. (* types/filetype.go:43 *)
Definition FiletypeUserDefinedF8 : Z := 0xF8. (* types/filetype.go:44 *)
Definition FiletypeIntegerBASIC : Z := 0xFA. (* types/filetype.go:45 *)
Definition FiletypeIntegerBASICVariables : Z := 0xFB. (* types/filetype.go:46 *)
Definition FiletypeApplesoftBASIC : Z := 0xFC. (* types/filetype.go:47 *)
Definition FiletypeApplesoftBASICVariables : Z := 0xFD. (* types/filetype.go:48 *)
Definition FiletypeRelocatable : Z := 0xFE. (* types/filetype.go:49 *)
Definition FiletypeSystem : Z := 0xFF. (* types/filetype.go:50 *)
Definition FiletypeS : Z := 0x100. (* types/filetype.go:51 *)
Definition FiletypeNewA : Z := 0x101. (* types/filetype.go:52 *)
Definition FiletypeNewB : Z := 0x102. (* types/filetype.go:53 *)

(** types/filetype.go:62-72 (the two generated strings are computed by [infoNames] and
    [infoStringified] below). *)
Record FiletypeInfo := FTI {
  fi_type : Z; fi_name : bytes; fi_three : bytes; fi_one : bytes; fi_desc : bytes; fi_extra : bool
}.

(** types/filetype.go:75-114 *)
Definition filetypeInfos0 : list FiletypeInfo := [
  FTI FiletypeTypeless (s2b "Typeless") (s2b "") (s2b "") (s2b "Typeless file") false;
  FTI FiletypeBadBlocks (s2b "BadBlocks") (s2b "") (s2b "") (s2b "Bad blocks file") false;
  FTI FiletypeSOSPascalCode (s2b "SOSPascalCode") (s2b "") (s2b "") (s2b "PASCAL code file") true;
  FTI FiletypeSOSPascalText (s2b "SOSPascalText") (s2b "") (s2b "") (s2b "PASCAL text file") true;
  FTI FiletypeASCIIText (s2b "ASCIIText") (s2b "TXT") (s2b "T") (s2b "ASCII text file") false;
  FTI FiletypeSOSPascalText2 (s2b "SOSPascalText2") (s2b "") (s2b "") (s2b "PASCAL text file") true;
  FTI FiletypeBinary (s2b "Binary") (s2b "BIN") (s2b "B") (s2b "Binary file") false;
  FTI FiletypeFont (s2b "Font") (s2b "") (s2b "") (s2b "Font file") true;
  FTI FiletypeGraphicsScreen (s2b "GraphicsScreen") (s2b "") (s2b "") (s2b "Graphics screen file") true;
  FTI FiletypeBusinessBASIC (s2b "BusinessBASIC") (s2b "") (s2b "") (s2b "Business BASIC program file") true;
  FTI FiletypeBusinessBASICData (s2b "BusinessBASICData") (s2b "") (s2b "") (s2b "Business BASIC data file") true;
  FTI FiletypeSOSWordProcessor (s2b "SOSWordProcessor") (s2b "") (s2b "") (s2b "Word processor file") true;
  FTI FiletypeSOSSystem (s2b "SOSSystem") (s2b "") (s2b "") (s2b "SOS system file") true;
  FTI FiletypeDirectory (s2b "Directory") (s2b "DIR") (s2b "D") (s2b "Directory file") false;
  FTI FiletypeRPSData (s2b "RPSData") (s2b "") (s2b "") (s2b "RPS data file") true;
  FTI FiletypeRPSIndex (s2b "RPSIndex") (s2b "") (s2b "") (s2b "RPS index file") true;
  FTI FiletypeAppleWorksDatabase (s2b "AppleWorksDatabase") (s2b "ADB") (s2b "") (s2b "AppleWorks data base file") false;
  FTI FiletypeAppleWorksWordProcessor (s2b "AppleWorksWordProcessor") (s2b "AWP") (s2b "") (s2b "AppleWorks word processing file") false;
  FTI FiletypeAppleWorksSpreadsheet (s2b "AppleWorksSpreadsheet") (s2b "ASP") (s2b "") (s2b "AppleWorks spreadsheet file") false;
  FTI FiletypePascal (s2b "Pascal") (s2b "PAS") (s2b "") (s2b "ProDOS PASCAL file") false;
  FTI FiletypeCommand (s2b "Command") (s2b "CMD") (s2b "") (s2b "Added command file") false;
  FTI FiletypeUserDefinedF1 (s2b "UserDefinedF1") (s2b "") (s2b "") (s2b "ProDOS user defined file type F1") true;
  FTI FiletypeUserDefinedF2 (s2b "UserDefinedF2") (s2b "") (s2b "") (s2b "ProDOS user defined file type F2") true;
  FTI FiletypeUserDefinedF3 (s2b "UserDefinedF3") (s2b "") (s2b "") (s2b "ProDOS user defined file type F3") true;
  FTI FiletypeUserDefinedF4 (s2b "UserDefinedF4") (s2b "") (s2b "") (s2b "ProDOS user defined file type F4") true;
  FTI FiletypeUserDefinedF5 (s2b "UserDefinedF5") (s2b "") (s2b "") (s2b "ProDOS user defined file type F5") true;
  FTI FiletypeUserDefinedF6 (s2b "UserDefinedF6") (s2b "") (s2b "") (s2b "ProDOS user defined file type F6") true;
  FTI FiletypeUserDefinedF7 (s2b "UserDefinedF7") (s2b "") (s2b "") (s2b "ProDOS user defined file type F7") true;
  FTI FiletypeUserDefinedF8 (s2b "UserDefinedF8") (s2b "") (s2b "") (s2b "ProDOS user defined file type F8") true;
  FTI FiletypeIntegerBASIC (s2b "IntegerBASIC") (s2b "INT") (s2b "I") (s2b "Integer BASIC program file") false;
  FTI FiletypeIntegerBASICVariables (s2b "IntegerBASICVariables") (s2b "IVR") (s2b "") (s2b "Integer BASIC variables file") false;
  FTI FiletypeApplesoftBASIC (s2b "ApplesoftBASIC") (s2b "BAS") (s2b "A") (s2b "Applesoft BASIC program file") false;
  FTI FiletypeApplesoftBASICVariables (s2b "ApplesoftBASICVariables") (s2b "VAR") (s2b "") (s2b "Applesoft BASIC variables file") false;
  FTI FiletypeRelocatable (s2b "Relocatable") (s2b "REL") (s2b "R") (s2b "EDASM relocatable object module file") false;
  FTI FiletypeSystem (s2b "System") (s2b "SYS") (s2b "") (s2b "System file") false;
  FTI FiletypeS (s2b "S") (s2b "") (s2b "S") (s2b "DOS 3.3 Type ""S""") false;
  FTI FiletypeNewA (s2b "NewA") (s2b "") (s2b "A") (s2b "DOS 3.3 Type ""new A""") false;
  FTI FiletypeNewB (s2b "NewB") (s2b "") (s2b "B") (s2b "DOS 3.3 Type ""new B""") false
].

(** types/filetype.go:119-122 *)
Definition sosReserved : list Z :=
  [0x0D; 0x0E; 0x12; 0x13; 0x14; 0x15; 0x16; 0x17; 0x18] ++ map (fun i => 0x1C + i) (zrange (0xC0 - 0x1C)).
(** types/filetype.go:123-126 *)
Definition prodosReserved : list Z := map (fun i => 0xC0 + i) (zrange (0xEF - 0xC0)).

(** types/filetype.go:127-148 *)
Definition reservedInfo (name desc : bytes) (typ : Z) : FiletypeInfo :=
  FTI typ (name ++ hex2 typ) [] [] (desc ++ hex2 typ) true.
Definition filetypeInfos : list FiletypeInfo :=
  filetypeInfos0
  ++ map (reservedInfo (s2b "SOSReserved") (s2b "SOS reserved for future use ")) sosReserved
  ++ map (reservedInfo (s2b "ProDOSReserved") (s2b "ProDOS reserved for future use ")) prodosReserved.

(** types/filetype.go:150-169: the loop that computes NamesString and Stringified, threading
    the set [seen] of abbreviations. *)
Definition inb (x : bytes) (l : list bytes) : bool := existsb (beq x) l.
Fixpoint annotate (seen : list bytes) (l : list FiletypeInfo) : list (FiletypeInfo * bytes * bytes) :=
  match l with
  | [] => []
  | info :: rest =>
      let str0 := fi_desc info ++ s2b " (" ++ fi_name info in
      let names0 := fi_name info in
      let use3 := negb (beq (fi_three info) []) && negb (inb (fi_three info) seen) in
      let str1 := if use3 then str0 ++ s2b "|" ++ fi_three info else str0 in
      let names1 := if use3 then names0 ++ s2b "|" ++ fi_three info else names0 in
      let seen1 := if use3 then fi_three info :: seen else seen in
      let use1 := negb (beq (fi_one info) []) && negb (beq (fi_one info) (fi_name info))
                  && negb (inb (fi_one info) seen1) in
      let str2 := if use1 then str1 ++ s2b "|" ++ fi_one info else str1 in
      let names2 := if use1 then names1 ++ s2b "|" ++ fi_one info else names1 in
      let seen2 := if use1 then fi_one info :: seen1 else seen1 in
      (info, names2, str2 ++ s2b ")") :: annotate seen2 rest
  end.

(** types/filetype.go:168,173: filetypeInfosMap; a later entry of the same type would
    overwrite an earlier one. *)
Definition filetypeInfosMap (f : Z) : option (FiletypeInfo * bytes * bytes) :=
  find (fun e => fi_type (fst (fst e)) =? f) (rev (annotate [] filetypeInfos)).

(** types/filetype.go:172-177; [None]: "Invalid/unknown filetype". *)
Definition Filetype_String (f : Z) : option bytes :=
  match filetypeInfosMap f with Some (_, _, s) => Some s | None => None end.

(** types/filetype.go:181-188 *)
Fixpoint FiletypeForName_loop (l : list FiletypeInfo) (name : bytes) : res Z :=
  match l with
  | [] => Err (EOther "unknown Filetype")
  | info :: rest =>
      if beq (fi_name info) name || beq (fi_three info) name || beq (fi_one info) name
      then Ok (fi_type info)
      else FiletypeForName_loop rest name
  end.
Definition FiletypeForName (name : bytes) : res Z := FiletypeForName_loop filetypeInfos name.

(** types/filetype.go:191-202 *)
Definition FiletypeInfos (all : bool) : list FiletypeInfo :=
  if all then filetypeInfos else filter (fun i => negb (fi_extra i)) filetypeInfos.

(** ** types/ops.go:10-18, 76-80 *)
Record Descriptor := Desc {
  d_name : bytes; d_fullname : bytes; d_sectors : Z; d_blocks : Z; d_length : Z;
  d_locked : bool; d_type : Z
}.
Record FileInfo := FI { fi_desc_ : Descriptor; fi_data : bytes; fi_start : Z }.

(** ** errors/errors.go: the tag predicates on [gerror].

    OutOfSpacef / FileExistsf / FileNotFoundf (errors/errors.go:41-43, 74-76, 107-109) build
    the constructors [EOutOfSpace], [EFileExists], [EFileNotFound]; wrapping with
    fmt.Errorf("%v") or "%w" gives an untagged error ([EOther]). *)
Definition IsOutOfSpace (e : gerror) : bool := match e with EOutOfSpace => true | _ => false end. (* errors/errors.go:46-49 *)
Definition IsFileExists (e : gerror) : bool := match e with EFileExists => true | _ => false end. (* errors/errors.go:79-82 *)
Definition IsFileNotFound (e : gerror) : bool := match e with EFileNotFound => true | _ => false end. (* errors/errors.go:112-115 *)
