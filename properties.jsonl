{"id": "C01", "title": "ReadSector returns exactly the addressed 256 bytes", "statement": "disk.ReadSector(img, t, s) succeeds exactly when the image has at least t*4096+s*256+256 bytes, and then returns the 256 bytes starting at offset t*4096+s*256; otherwise it returns an error. It never panics.", "quantifier": "every image of every length and content, every track byte and sector byte", "why_tests_cant": "the claim ranges over every image length and content; a table of cases fixes a few lengths and cannot show that no other combination reads outside its sector or panics", "anchors": ["disk/marshal.go:ReadSector"]}
{"id": "C02", "title": "WriteSector changes exactly one sector", "statement": "disk.WriteSector(img, t, s, d) with 256-byte d and a long enough image leaves the image length unchanged, replaces exactly bytes [t*4096+s*256, +256) by d and changes no other byte; with a wrong-size d or too short an image it returns an error and changes nothing. Reading the same sector back returns d; reading any sector at a different offset returns what it did before.", "quantifier": "every image, track, sector and data", "why_tests_cant": "the frame condition is about every byte that is not written, in every image; a test compares the images it happens to build", "anchors": ["disk/marshal.go:WriteSector", "disk/marshal.go:ReadSector"]}
{"id": "C03", "title": "Swizzle permutes sectors within tracks and nothing else", "statement": "disk.Swizzle(img, order) succeeds exactly when img is 143360 bytes and order is a permutation of 0..15; then the result is 143360 bytes and, for every track, sector order[s] of the result equals sector s of img.", "quantifier": "every image and every order slice (any length, any ints)", "why_tests_cant": "there are 16! orders and 2^(8*143360) images, and the rejection half is about every slice of ints of every length", "anchors": ["disk/open.go:Swizzle", "disk/open.go:validateOrder"]}
{"id": "C04", "title": "Logical-to-physical and physical-to-logical tables are inverse", "statement": "For each supported sector order (do, po, raw), converting an image logical-to-physical and then physical-to-logical, or the reverse, with disk.Swizzle returns a byte-identical image.", "quantifier": "every 143360-byte image, each of the three named orders", "why_tests_cant": "a test can round-trip some images; that no image content is altered is a statement about all of them", "anchors": ["disk/disk.go:LogicalToPhysicalByName", "disk/disk.go:PhysicalToLogicalByName", "disk/open.go:Swizzle"]}
{"id": "C05", "title": "Open followed by write-back is the identity on the image file", "statement": "If OpenImage succeeds on a file's bytes and the operator's bytes are not modified, WriteBack with the order OpenImage returned writes exactly the original bytes.", "quantifier": "every file content, file name, order flag, system flag and set of registered operator factories", "why_tests_cant": "composes detection with two swizzles each way and depends on which operator accepted the bytes, so the result has to hold for every image and every set of registered systems", "anchors": ["disk/open.go:OpenImage", "disk/open.go:openDoOrPo", "disk/open.go:openHDV", "disk/open.go:WriteBack"]}
{"id": "C06", "title": "Reordering there and back restores the image; both readings see the same sectors", "statement": "`reorder` from do to po followed by `reorder` from po to do (or po-do-po) yields the original file bytes; and the sector that a DOS-order reading of the input finds at (t,s) is found by a ProDOS-order reading of the output at the place given by the published interleave tables.", "quantifier": "every 143360-byte image", "why_tests_cant": "a round trip on sample images leaves open whether some content, or some sector of it, is displaced; the claim is about every byte of every image", "anchors": ["cmd/reorder.go:ReorderCmd.Run", "disk/open.go:Swizzle"]}
{"id": "C07", "title": "OpenImage chooses the first matching (order, system) pair", "statement": "For a 143360-byte image OpenImage tries the candidate orders in order (explicit flag; else by extension; else do then po) and inside each the registered systems in registration order (filtered by the system flag), and returns the operator and order of the first pair that matches; if order and system are both pinned it skips the matching test; if no pair matches it returns an error. The operator's bytes are the image re-ordered from the file order to the operator's own order.", "quantifier": "every image, extension, order/system flag and list of factories", "why_tests_cant": "the list of systems is open to registration and the images are arbitrary; each test fixes one list and one image", "anchors": ["disk/open.go:openDoOrPo"]}
{"id": "C08", "title": "OpenImage gates on size and extension", "statement": "OpenImage returns an error for every image that is neither 143360 bytes nor named .hdv, for every 13-sector-size image, and for .hdv images that are not a multiple of 512, exceed 65536 blocks, or are requested with a non-po order or non-prodos system; an accepted non-floppy .hdv is opened with the prodos operator on its unmodified bytes in po order.", "quantifier": "every file content, name, flags", "why_tests_cant": "the accepted and rejected sizes are unbounded sets; each test opens an image of one size", "anchors": ["disk/open.go:OpenImage", "disk/open.go:openHDV"]}
{"id": "C09", "title": "Block marshal/unmarshal read and write exactly one 512-byte block", "statement": "disk.UnmarshalBlock reads exactly bytes [512*i, 512*i+512) or errors when the device is too small; disk.MarshalBlock replaces exactly those bytes by the marshalled block, changes nothing else, and errors without change when the device is too small.", "quantifier": "every device image, every block index, every block struct", "why_tests_cant": "the frame is about every other byte of a device of any size and every block number", "anchors": ["disk/marshal.go:UnmarshalBlock", "disk/marshal.go:MarshalBlock"]}
{"id": "C10", "title": "Disk order guessed from the file name", "statement": "disk.OrderFromFilename returns do for names whose last extension is .dsk or .do and po for .po, in any ASCII case, and the supplied default for every other name; a dot in a directory component never counts.", "quantifier": "every file name", "why_tests_cant": "file names are unbounded strings; upper/lower case and dots in directories multiply the cases", "anchors": ["disk/open.go:OrderFromFilename"]}
{"id": "C11", "title": "DOS 3.3 VTOC codec is lossless", "statement": "VTOC.FromSector accepts exactly 256-byte input; ToSector(FromSector(b)) = b for every 256-byte b, and FromSector(ToSector(v)) = v for every VTOC value.", "quantifier": "every 256-byte sector; every VTOC struct value", "why_tests_cant": "there are 2^2048 sectors, and the repository tests one random vector; the loss of a single bit of one field needs the right sector to show", "anchors": ["dos3/dos3.go:VTOC.ToSector", "dos3/dos3.go:VTOC.FromSector"]}
{"id": "C12", "title": "DOS 3.3 catalog-sector and file-descriptor codecs are lossless", "statement": "CatalogSector.FromSector/ToSector and FileDesc.FromBytes/ToBytes are mutually inverse on 256-byte (resp. 35-byte) inputs and on every struct value.", "quantifier": "every sector / every struct value", "why_tests_cant": "a codec that drops or swaps one field is found only by a vector that has different values there; the statement is about all 2^2048 sectors and all struct values", "anchors": ["dos3/dos3.go:CatalogSector", "dos3/dos3.go:FileDesc.ToBytes", "dos3/dos3.go:FileDesc.FromBytes"]}
{"id": "C13", "title": "DOS 3.3 track/sector-list codec is lossless", "statement": "TrackSectorList.FromSector/ToSector are mutually inverse on every 256-byte input and every struct value.", "quantifier": "every sector / every struct value", "why_tests_cant": "both directions have to hold for every sector, including bytes no DOS writes; a vector shows one", "anchors": ["dos3/dos3.go:TrackSectorList"]}
{"id": "C14", "title": "ProDOS volume-directory block codecs are lossless", "statement": "VolumeDirectoryKeyBlock and VolumeDirectoryBlock FromBlock/ToBlock are mutually inverse on every 512-byte block and every struct value.", "quantifier": "every block / every struct value", "why_tests_cant": "there are 2^4096 blocks; nibble- and bit-packed fields of the header lose information only for particular values, and one random vector is tested", "anchors": ["prodos/prodos.go:VolumeDirectoryKeyBlock", "prodos/prodos.go:VolumeDirectoryBlock", "prodos/prodos.go:VolumeDirectoryHeader", "prodos/prodos.go:FileDescriptor"]}
{"id": "C15", "title": "ProDOS subdirectory block codecs are lossless", "statement": "SubdirectoryKeyBlock and SubdirectoryBlock FromBlock/ToBlock are mutually inverse on every 512-byte block and every struct value.", "quantifier": "every block / every struct value", "why_tests_cant": "as for the volume directory: packed fields lose information only for particular values among 2^4096 blocks", "anchors": ["prodos/prodos.go:SubdirectoryKeyBlock", "prodos/prodos.go:SubdirectoryBlock", "prodos/prodos.go:SubdirectoryHeader"]}
{"id": "C16", "title": "DOS 3.3 catalog lists every entry of the chain in order", "statement": "On a disk with a valid VTOC whose catalog chain is finite and inside the disk, dos3.ReadCatalog returns the live entries (first byte neither 00 nor FF) and the deleted entries (FF) of the chain's sectors, each in chain order then slot order, and nothing else; the dos3 operator's Catalog lists exactly the live ones.", "quantifier": "every disk image, every chain length", "why_tests_cant": "chains have any length and any contents; a test disk has one chain", "anchors": ["dos3/dos3.go:ReadCatalog", "dos3/dos3.go:readCatalogSectors", "dos3/dos3.go:operator.Catalog"]}
{"id": "C17", "title": "Reading a DOS 3.3 catalog always terminates", "statement": "dos3.ReadCatalog (hence `ls`, auto-detection of any floppy image, dump) terminates on every disk image, returning an error for a catalog chain that revisits a sector.", "quantifier": "every disk image", "why_tests_cant": "non-termination cannot be observed by a terminating test; cyclic chains are one in astronomically many images", "anchors": ["dos3/dos3.go:readCatalogSectors"]}
{"id": "C18", "title": "Reading a DOS 3.3 file body always terminates and is the listed sectors in order", "statement": "FileDesc.Contents terminates on every image and descriptor without panic; on success the bytes are, for each track/sector list in the chain, its 122 entries (the last list cut after its last non-zero entry) expanded to the referenced sector or 256 zeros for a 0/0 hole; a chain that revisits a list sector is an error.", "quantifier": "every image, every descriptor, every chain", "why_tests_cant": "chains can be of any length, cyclic, or leave the disk; termination is not observable by a test that terminates", "anchors": ["dos3/dos3.go:FileDesc.Contents"]}
{"id": "C19", "title": "DOS 3.3 GetFile returns the file's own bytes", "statement": "dos3 GetFile returns for a text file the body without trailing zero bytes; for Applesoft and Integer files the length-prefixed program; for a binary file the load address and the length-prefixed body (a length beyond the stored sectors is filled with zeros up to 122 sectors per track/sector list); for other types an error. The name looked up is the first live catalog entry whose decoded name is equal.", "quantifier": "every image and filename", "why_tests_cant": "ranges over all bodies, stored lengths and file types, including lengths that disagree with the number of sectors", "anchors": ["dos3/dos3.go:operator.GetFile", "dos3/dos3.go:operator.fileForFilename"]}
{"id": "C20", "title": "DOS 3.3 GetFile never crashes", "statement": "dos3 GetFile returns a file or an error, and never panics, on every disk image and name.", "quantifier": "every image and filename", "why_tests_cant": "panics live at particular contents (all-zero text bodies, over-long length headers)", "anchors": ["dos3/dos3.go:operator.GetFile"]}
{"id": "C21", "title": "DOS 3.3 file names decode by clearing the high bit and trimming spaces", "statement": "FileDesc.FilenameString is the 30 name bytes (29 for a deleted entry) each minus 0x80 modulo 256, with trailing spaces removed; the Catalog descriptor carries that name, the sector count, the locked flag = bit 7 of the type byte, and the type given by the low 7 bits.", "quantifier": "every directory entry", "why_tests_cant": "an entry has 2^280 values; subtraction modulo 256 and trimming matter for names DOS itself would not write", "anchors": ["dos3/dos3.go:FileDesc.FilenameString", "dos3/dos3.go:FileDesc.descriptor"]}
{"id": "C22", "title": "VTOC validation accepts exactly the documented values; the default VTOC is valid and empty", "statement": "VTOC.Validate succeeds iff volume != 255, DOS release = 3, track direction is +1/-1, 35 tracks, 13 or 16 sectors, 256 bytes per sector, 122 pairs per list, and all unused free-map bytes are zero; DefaultVTOC validates and marks exactly tracks 0-34, sectors 0-15 free; IsFree(s) reads bit s of the 16-bit map and is false for s>15.", "quantifier": "every VTOC value, every track and sector", "why_tests_cant": "acceptance is an equivalence over every value of the structure; a test gives one accepted and a few rejected values", "anchors": ["dos3/dos3.go:VTOC.Validate", "dos3/dos3.go:DefaultVTOC", "dos3/dos3.go:TrackFreeSectors.IsFree"]}
{"id": "C23", "title": "DOS 3.3 and ProDOS operators never modify an image", "statement": "Delete and PutFile of the dos3 and prodos operators return an error and leave the image bytes unchanged, as do Catalog and GetFile.", "quantifier": "every image, name, contents", "why_tests_cant": "the claim is that no argument and no image leads to a change, including the error paths of both operators", "anchors": ["dos3/dos3.go:operator.Delete", "dos3/dos3.go:operator.PutFile", "prodos/prodos.go:operator.Delete", "prodos/prodos.go:operator.PutFile", "prodos/prodos.go:operator.GetFile"]}
{"id": "C24", "title": "NakedOS sector map persists faithfully", "statement": "SectorMap.Persist writes the 560-byte map into track 0 sectors 9 (from offset D0), A and B and changes no other byte of the image; LoadSectorMap of the result returns the same map; both fail exactly on images shorter than 3072 bytes.", "quantifier": "every image and every 560-byte map", "why_tests_cant": "the frame is about every other byte of every floppy; the map itself has 256^560 values", "anchors": ["supermon/supermon.go:LoadSectorMap", "supermon/supermon.go:SectorMap.Persist"]}
{"id": "C25", "title": "NakedOS verification accepts exactly well-formed maps", "statement": "SectorMap.Verify succeeds iff track 0 sectors 0-B are all reserved (FE) and no entry of the map is 00.", "quantifier": "every sector map", "why_tests_cant": "an equivalence over 256^560 maps", "anchors": ["supermon/supermon.go:SectorMap.Verify"]}
{"id": "C26", "title": "NakedOS write-then-read returns the written data padded to sectors", "statement": "On a verified NakedOS floppy, a successful WriteFile of non-empty contents followed by ReadFile of the same file returns the contents followed by zeros up to the next multiple of 256, and WriteFile reports whether the file existed before.", "quantifier": "every image, map, legal file number, contents, overwrite flag", "why_tests_cant": "the sectors written depend on the fragmentation of the disk, which is any of 256^560 maps, and on any length of contents", "anchors": ["supermon/supermon.go:SectorMap.WriteFile", "supermon/supermon.go:SectorMap.ReadFile"]}
{"id": "C27", "title": "NakedOS write leaves every other file and the reserved area intact", "statement": "A successful WriteFile(f) leaves the sector list and contents of every other file unchanged, changes no reserved sector except the three sector-map sectors, and keeps the map verified and persisted.", "quantifier": "every image, map, file number, contents", "why_tests_cant": "the frame is over every other file of every map; a test checks the files of one disk", "anchors": ["supermon/supermon.go:SectorMap.WriteFile"]}
{"id": "C28", "title": "NakedOS write fails cleanly and for the right reason", "statement": "WriteFile of n>0 bytes to a legal file number returns an out-of-space error iff ceil(n/256) exceeds free sectors plus the file's own sectors, otherwise a file-exists error iff the file exists and overwrite is false, otherwise succeeds; on error neither the image nor the map changes.", "quantifier": "every image, map, file number, contents, flag", "why_tests_cant": "which of the errors is returned depends on the fragmentation, the size and the flags together; the equivalence has to hold on the boundary for every disk", "anchors": ["supermon/supermon.go:SectorMap.WriteFile", "errors/errors.go"]}
{"id": "C29", "title": "NakedOS space accounting is exact", "statement": "After a successful WriteFile of n>0 bytes the number of free sectors is the old number plus the file's old sectors minus ceil(n/256), and the file owns exactly ceil(n/256) sectors; after Delete it owns none and its sectors are free.", "quantifier": "every map, file, contents", "why_tests_cant": "counting statements over all maps, sizes and previous owners", "anchors": ["supermon/supermon.go:SectorMap.FreeSectors", "supermon/supermon.go:SectorMap.WriteFile", "supermon/supermon.go:SectorMap.Delete"]}
{"id": "C30", "title": "NakedOS delete removes one file and touches no other", "statement": "SectorMap.Delete(f) frees exactly the sectors owned by f, and leaves the sector lists of all other files unchanged.", "quantifier": "every map and file number", "why_tests_cant": "whether another file loses a sector depends on the map; the claim is about every file of every map", "anchors": ["supermon/supermon.go:SectorMap.Delete"]}
{"id": "C31", "title": "NakedOS writing never crashes", "statement": "PutFile/WriteFile on an opened NakedOS disk never panics, whatever the contents (including empty contents).", "quantifier": "every image, name, contents", "why_tests_cant": "a panic needs one particular size of contents on one particular kind of disk; absence of panics is about all of them", "anchors": ["supermon/supermon.go:SectorMap.WriteFile", "supermon/supermon.go:Operator.PutFile"]}
{"id": "C32", "title": "First free file number is the least unused one", "statement": "SectorMap.FirstFreeFile returns the smallest number in 01..FD owning no sector, and 0 iff all of them own one.", "quantifier": "every map", "why_tests_cant": "minimality is a statement about every smaller number in every map, and the zero result about all 253 at once", "anchors": ["supermon/supermon.go:SectorMap.FirstFreeFile"]}
{"id": "C33", "title": "Super-Mon symbol names survive encoding", "statement": "For every name that is empty, or 3 to 9 letters/digits whose encoded size (5 bits per letter, 6 per digit) is at most 48 bits, encodeSymbol succeeds and decoding yields the upper-cased name; every other letter/digit name is rejected with an error.", "quantifier": "every ASCII name", "why_tests_cant": "there are about 63^9 names and the encoding packs 5- and 6-bit fields across byte boundaries in an order that depends on the name", "anchors": ["supermon/supermon.go:encodeSymbol", "supermon/supermon.go:decodeSymbol"]}
{"id": "C34", "title": "Every accepted symbol name survives encoding", "statement": "Whenever encodeSymbol accepts a name, decoding the result gives back that name (upper-cased).", "quantifier": "every string", "why_tests_cant": "characters outside letters/digits are not sampled by tests", "anchors": ["supermon/supermon.go:encodeSymbol"]}
{"id": "C35", "title": "Symbol table write-then-read is faithful", "statement": "Writing a well-formed 819-entry symbol table to a verified disk with symbol-table files present and reading it back yields the same symbols (names upper-cased, cleared entries blank), and leaves all files other than 3 and 4 unchanged.", "quantifier": "every table and disk", "why_tests_cant": "the table has 819 entries with names, addresses and links of any value, and the two files are written through the allocator", "anchors": ["supermon/supermon.go:SectorMap.WriteSymbolTable", "supermon/supermon.go:SectorMap.ReadSymbolTable"]}
{"id": "C36", "title": "Symbol table behaves as a case-insensitive map under AddSymbol", "statement": "On a table with pairwise distinct names, a successful AddSymbol(n,a) makes ByName(n)=a, changes ByName of no other name, keeps names distinct and fails only for address 0 or a full table.", "quantifier": "every table, name, address; histories of additions and deletions", "why_tests_cant": "the behaviour depends on the whole history of the table: which slots are blank and how chains collide", "anchors": ["supermon/supermon.go:SymbolTable.AddSymbol", "supermon/supermon.go:SymbolTable.ByName"]}
{"id": "C37", "title": "Symbol table behaves as a case-insensitive map under DeleteSymbol", "statement": "DeleteSymbol(n) returns whether n was present; afterwards n is absent and ByName of every other name is unchanged.", "quantifier": "every table and name", "why_tests_cant": "a lost or resurrected name needs a particular collision of hashes and slots; the claim is about every other name of every table", "anchors": ["supermon/supermon.go:SymbolTable.DeleteSymbol"]}
{"id": "C38", "title": "Symbol hash chains stay readable after AddSymbol and DeleteSymbol", "statement": "If a symbol table was readable (every link targets another entry with the same address hash), it is still readable after AddSymbol or DeleteSymbol are applied and the table is written and re-read.", "quantifier": "every table, every history of add/delete", "why_tests_cant": "needs particular collision patterns over histories", "anchors": ["supermon/supermon.go:SymbolTable.DeleteSymbol", "supermon/supermon.go:SymbolTable.AddSymbol", "supermon/supermon.go:SectorMap.ReadSymbolTable"]}
{"id": "C39", "title": "Numeric NakedOS file names are parsed exactly", "statement": "FileForName accepts a hexadecimal name meaning 01..FD or DF01..DFFD as that file number; any other name is resolved through the symbol table to DF01..DFFD addresses, else a file-not-found error. The names printed by Catalog for files without symbols (DFxx) resolve to that file.", "quantifier": "every string, table and file number", "why_tests_cant": "names are unbounded strings, and hexadecimal names overlap with symbols such as FACE", "anchors": ["supermon/supermon.go:SymbolTable.FileForName", "supermon/supermon.go:parseAddressFilename", "supermon/supermon.go:NameForFile"]}
{"id": "C40", "title": "Compound NakedOS file names are parsed exactly", "statement": "FilesForCompoundName accepts DFxx, NAME, DFxx:NAME, returns the number before the colon, the number NAME resolves to and NAME; two or more colons, a bad number before the colon, or a number after it are errors.", "quantifier": "every string and table", "why_tests_cant": "names are unbounded strings with any number of colons, and each part may be a number, a symbol or both", "anchors": ["supermon/supermon.go:SymbolTable.FilesForCompoundName"]}
{"id": "C41", "title": "NakedOS operator refines a map from file numbers to contents", "statement": "For every history of PutFile/Delete/GetFile/Catalog calls using numeric names on an opened NakedOS floppy, every returned value and error equals that of an abstract store mapping file numbers to sector-padded contents with a fixed sector budget.", "quantifier": "every opened image and every finite history of operations (non-empty contents)", "why_tests_cant": "a refinement over arbitrary histories of operations with arbitrary contents; a test runs one history", "anchors": ["supermon/supermon.go:Operator.PutFile", "supermon/supermon.go:Operator.Delete", "supermon/supermon.go:Operator.GetFile", "supermon/supermon.go:Operator.Catalog"]}
{"id": "C42", "title": "NakedOS changes survive re-opening", "statement": "After any such history, opening the operator's bytes again gives an operator with the same files and contents: nothing lives only in memory.", "quantifier": "every history", "why_tests_cant": "a difference between memory and image appears only after the history that causes it; histories are unbounded", "anchors": ["supermon/supermon.go:OperatorFactory.Operator", "supermon/supermon.go:SectorMap.Persist"]}
{"id": "C43", "title": "NakedOS catalog lists exactly the existing files", "statement": "Operator.Catalog lists, in increasing file-number order, exactly the files 01..FD that own a sector, with their sector count and 256 times it as length, under DFxx or the first symbol for DFxx.", "quantifier": "every map and symbol table", "why_tests_cant": "exactness in both directions over all maps: no file missing, none invented, the order and every size right", "anchors": ["supermon/supermon.go:Operator.Catalog", "supermon/supermon.go:FullnameForFile"]}
{"id": "C44", "title": "Named NakedOS files can be put and fetched by name", "statement": "After a successful PutFile under a symbolic name on a disk with a symbol table, GetFile under that name returns the contents padded to sectors, also after re-opening the image.", "quantifier": "every disk, valid name, contents", "why_tests_cant": "combines the allocator, the numbering of files and the encoding of names; each disk, table and name is another case", "anchors": ["supermon/supermon.go:Operator.PutFile", "supermon/supermon.go:Operator.GetFile"]}
{"id": "C45", "title": "Deleting a NakedOS file by name removes it", "statement": "After a successful Delete(name) the file that name resolved to owns no sectors and every other file is unchanged.", "quantifier": "every disk and name", "why_tests_cant": "includes the symbol-table files themselves and names that are also numbers; every other file has to be unchanged", "anchors": ["supermon/supermon.go:Operator.Delete"]}
{"id": "C46", "title": "A new, valid symbol name is accepted by ParseCompoundSymbol", "statement": "ParseCompoundSymbol(name) for a valid symbol name that is neither in the table nor a hexadecimal number returns that name without error, and rejects strings that are neither address nor valid symbol.", "quantifier": "every string and table", "why_tests_cant": "names are unbounded strings; the valid ones that also read as hexadecimal numbers are the hard cases", "anchors": ["supermon/supermon.go:SymbolTable.ParseCompoundSymbol"]}
{"id": "C47", "title": "ProDOS volume bitmap marks are independent bits", "statement": "On a bitmap that covers block b, MarkUsed(b) makes IsFree(b) false, MarkUnused(b) makes it true, and neither changes IsFree of any other block.", "quantifier": "every bitmap and pair of blocks", "why_tests_cant": "independence is about every pair of blocks in bitmaps of every size", "anchors": ["prodos/prodos.go:VolumeBitMap.mark", "prodos/prodos.go:VolumeBitMap.IsFree"]}
{"id": "C48", "title": "A new ProDOS volume bitmap is entirely free and correctly placed", "statement": "NewVolumeBitMap(start, n) has ceil(n/4096) parts at consecutive block numbers from start, with blocks 0..n-1 free and all padding bits used, for every n.", "quantifier": "every start and n in 0..65535", "why_tests_cant": "the overflow appears only above 61440 blocks, which no test allocates; the placement has to hold for every size", "anchors": ["prodos/prodos.go:NewVolumeBitMap"]}
{"id": "C49", "title": "The ProDOS bitmap read from a device covers every block", "statement": "The volume bitmap read for a device of n blocks reports IsFree for every block number below n as stored on the device.", "quantifier": "every device", "why_tests_cant": "what is read depends on the size of the device: small and large ones fail differently, and a test uses one size", "anchors": ["prodos/prodos.go:readVolumeBitMap"]}
{"id": "C50", "title": "ProDOS index blocks: Get reads the split 16-bit entries and Set stores them", "statement": "IndexBlock.Get(i) is byte i plus 256 times byte 256+i; after Set(i,b), Get(i)=b and other entries are unchanged.", "quantifier": "every index block, index and value", "why_tests_cant": "value-receiver semantics visible only if Set is exercised", "anchors": ["prodos/prodos.go:IndexBlock.Get", "prodos/prodos.go:IndexBlock.Set"]}
{"id": "C51", "title": "ProDOS catalog lists exactly the live entries of the directory", "statement": "On a well-formed volume, Catalog(\"\") lists the non-deleted entries of the volume directory chain in order, and Catalog(path) those of the subdirectory reached by path, with name, block count, 24-bit length and type as stored; an unknown path is an error.", "quantifier": "every well-formed volume and path", "why_tests_cant": "directories are trees of any depth, width and fragmentation; a test disk is one tree", "anchors": ["prodos/prodos.go:readVolume", "prodos/prodos.go:operator.Catalog", "prodos/prodos.go:parentDirName"]}
{"id": "C52", "title": "Reading a ProDOS volume always terminates", "statement": "Opening/cataloguing any image with the prodos operator terminates with a catalog or an error.", "quantifier": "every image", "why_tests_cant": "cyclic directory chains, subdirectory cycles and parent-pointer cycles", "anchors": ["prodos/prodos.go:readVolume", "prodos/prodos.go:readSubdirectory", "prodos/prodos.go:parentDirName"]}
{"id": "C53", "title": "ProDOS catalog does not depend on map iteration order", "statement": "The result of Catalog on a given image is the same for every iteration order of the Go maps used while reading.", "quantifier": "every image and every iteration order", "why_tests_cant": "Go randomises map order; tests see a few", "anchors": ["prodos/prodos.go:readVolume"]}
{"id": "C54", "title": "ProDOS structure validation reports exactly the documented problems", "statement": "Validate on the four directory block types reports no error iff every hour is below 24, every minute below 60, key blocks have Prev=0, subdirectory headers have 0x75 and the trailing byte is 0.", "quantifier": "every struct value", "why_tests_cant": "the errors reported are a function of every entry of every block; an equivalence over all values of four structures", "anchors": ["prodos/prodos.go:DateTime.Validate", "prodos/prodos.go:SubdirectoryHeader.Validate", "prodos/prodos.go:VolumeDirectoryKeyBlock.Validate"]}
{"id": "C55", "title": "Applesoft programs decode to the lines they encode", "statement": "For every Applesoft program (line numbers, token/ASCII bytes) laid out at any location, with or without the two-byte DOS length header and with or without the trailing DOS byte, Decode returns exactly its lines.", "quantifier": "every program and location", "why_tests_cant": "programs are unbounded, and whether the two-byte header is guessed depends on an accident of the program's length and first pointer", "anchors": ["basic/applesoft/applesoft.go:Decode"]}
{"id": "C56", "title": "Applesoft decoding terminates and never crashes", "statement": "applesoft.Decode returns a listing or an error on every input, without panic or endless loop.", "quantifier": "every byte string and location", "why_tests_cant": "cyclic next-line pointers; pointer one below the start", "anchors": ["basic/applesoft/applesoft.go:Decode"]}
{"id": "C57", "title": "Integer BASIC programs decode to the lines they encode", "statement": "For every Integer BASIC program, with or without the DOS length header, Decode returns exactly its lines.", "quantifier": "every program", "why_tests_cant": "programs are unbounded, and whether the header is guessed depends on an accident of length and first bytes", "anchors": ["basic/integer/integer.go:Decode"]}
{"id": "C58", "title": "Integer BASIC decoding terminates and never crashes", "statement": "integer.Decode returns a listing or an error on every input, without panic or endless loop.", "quantifier": "every byte string", "why_tests_cant": "panics at line sizes 0-3", "anchors": ["basic/integer/integer.go:Decode"]}
{"id": "C59", "title": "BASIC listings print every line and every byte", "statement": "The Applesoft listing text is, per line in order, the decimal line number, a space, each ASCII byte as is and each token as its keyword surrounded by spaces, then a newline.", "quantifier": "every listing", "why_tests_cant": "lines have any length and mix all 256 byte values; a swallowed or doubled byte needs the right neighbour", "anchors": ["basic/applesoft/applesoft.go:Line.String", "basic/applesoft/applesoft.go:Listing.String"]}
{"id": "C60", "title": "Chevron escaping removes all control characters and nothing else", "statement": "ChevronControlCodes output contains no byte below 0x20 except newline and tab, copies every other byte unchanged and in order, replaces each control byte by its documented code, and is idempotent.", "quantifier": "every string", "why_tests_cant": "strings are unbounded; idempotence and exactness are about all of them", "anchors": ["basic/basic.go:ChevronControlCodes"]}
{"id": "C61", "title": "File type names resolve uniquely", "statement": "FiletypeForName maps each full, three-letter and one-letter name to the first type carrying it; full names are unique so every listed type is reachable by its full name; every byte value except F9 has an entry; unknown names are errors.", "quantifier": "every name string and filetype value", "why_tests_cant": "names are unbounded strings, and uniqueness is about all pairs of rows of the table", "anchors": ["types/filetype.go:FiletypeForName", "types/filetype.go:filetypeInfos"]}
{"id": "C62", "title": "Error classification is exact", "statement": "An error made by OutOfSpacef/FileExistsf/FileNotFoundf is recognised by exactly its own predicate and by no other.", "quantifier": "every error", "why_tests_cant": "each predicate has to accept every error of its own kind, whatever its message, and reject every error of every other kind, wrapped ones included", "anchors": ["errors/errors.go"]}
{"id": "C63", "title": "Output never overwrites an existing file without force", "statement": "helpers.WriteOutput without force changes nothing and errors if the target exists; otherwise the target has exactly the given contents; no other file changes; `-` writes to stdout and touches no file.", "quantifier": "every file system state, name, contents, flag", "why_tests_cant": "the frame is over the whole file system, for any state of it, on every error path", "anchors": ["helpers/helpers.go:WriteOutput"]}
{"id": "C64", "title": "A failing disk command leaves the disk image untouched", "statement": "put, rm, mkhello and reorder change no file when they return an error; when they succeed only the image (or the named output) changes.", "quantifier": "every file system state and arguments", "why_tests_cant": "every error path of four commands, at any state of the file system; a test provokes a few of them", "anchors": ["cmd/put.go:PutCmd.Run", "cmd/delete.go:DeleteCmd.Run", "cmd/nakedos.go:MkHelloCmd.Run", "cmd/reorder.go:ReorderCmd.Run"]}
{"id": "C65", "title": "An interrupted in-place write leaves the old or the new image", "statement": "If the process is killed while put/rm/mkhello/reorder write the image back, the file contains either the old or the new image.", "quantifier": "every crash point", "why_tests_cant": "crash points are not reachable from tests", "anchors": ["disk/open.go:WriteBack", "helpers/helpers.go:WriteOutput"]}
{"id": "C66", "title": "reorder picks consistent, different orders", "statement": "reorder uses explicit flags where given, infers the missing one as the opposite, else guesses from the two file names; whenever it succeeds from and to are different orders among do/po and any flag or recognised extension it used is respected; identical or undeterminable orders are errors.", "quantifier": "every pair of flags and file names", "why_tests_cant": "two optional flags and two unbounded file names combine; consistency is about all combinations", "anchors": ["cmd/reorder.go:getOrders", "cmd/reorder.go:oppositeOrder"]}
{"id": "C67", "title": "Standard Delivery disks hold the whole binary", "statement": "mksd succeeds iff the address is page aligned, address <= start < address+len, start+len <= C000 and the page list fits; then the image, read in its order, has in track 0 sector 0 a 256-byte loader ending in the page numbers of the binary followed by C0, the i-th page of the zero-padded binary at the i-th sector of the interleave 2,4,..14,1,3,..15,0(next track).., and zeros elsewhere; all listed pages are below C0.", "quantifier": "every binary, address, start, order", "why_tests_cant": "the number of pages, the sector order and the loader's table depend on the size and address of the binary; every byte of the binary has to be on the disk for all of them", "anchors": ["cmd/sd.go:SDCmd.Run"]}
{"id": "C68", "title": "mkhello writes a loader for the requested file", "statement": "A successful mkhello leaves file DF01 holding the 16-byte program that loads the requested file at the given page and jumps to the start address, padded with zeros, and every other file except the symbol table unchanged.", "quantifier": "every disk, filename, address, start", "why_tests_cant": "the page, start address and file number are free, the disk is arbitrary, and the frame covers every other file", "anchors": ["cmd/nakedos.go:MkHelloCmd.Run"]}
{"id": "C69", "title": "rm with -f succeeds on a missing file", "statement": "rm -f on a NakedOS image with a name that does not exist succeeds and leaves the image contents unchanged.", "quantifier": "every image and missing name", "why_tests_cant": "names are unbounded strings, and whether a name is a number, a symbol or neither decides the path taken", "anchors": ["cmd/delete.go:DeleteCmd.Run", "supermon/supermon.go:Operator.Delete"]}
{"id": "C70", "title": "A symbol table that can be read can be written back", "statement": "If ReadSymbolTable accepts the table on a disk with its two table files in place, WriteSymbolTable of that table succeeds, so files can be added or renamed by symbol.", "quantifier": "every disk", "why_tests_cant": "needs symbol encodings the tests do not contain", "anchors": ["supermon/supermon.go:decodeSymbol", "supermon/supermon.go:encodeSymbol", "supermon/supermon.go:WriteSymbolTable"]}
{"id": "C71", "title": "Writing a ProDOS volume bitmap changes exactly its blocks", "statement": "VolumeBitMap.Write on a device that contains all its blocks stores each part in its block, changes no other block and does not resize the device; if a block lies beyond the end it returns an error.", "quantifier": "every bitmap and device", "why_tests_cant": "bitmaps of any size at any block number of a device of any size, with a frame over all other blocks", "anchors": ["prodos/prodos.go:VolumeBitMap.Write", "disk/marshal.go:MarshalBlock"]}
{"id": "C72", "title": "Integer BASIC listings print every part of a line", "statement": "The text of an Integer BASIC line made of keywords, characters of names and strings, numbers (a digit mark and two bytes) and a final remark is the line number right-aligned in five places, a space, and the text of each part in order: keywords followed by a space if longer than one character, characters as ASCII, numbers in decimal, REM and the remark.", "quantifier": "every line made of such parts", "why_tests_cant": "unbounded lines; the meaning of a digit depends on what precedes it", "anchors": ["basic/integer/integer.go:Line.String"]}
{"id": "C73", "title": "Printed file type names resolve to the type they name", "statement": "Every name printed for a file type - by Filetype.String and by the filetypes command - resolves by FiletypeForName (the parser of put --file-type) to that type.", "quantifier": "every file type", "why_tests_cant": "the tables interact: an earlier row may shadow a name", "anchors": ["types/filetype.go:Filetype.String", "types/filetype.go:FiletypeForName", "cmd/filetypes.go:FiletypesCmd.Run"]}
{"id": "C74", "title": "Commands that only read never change a file", "statement": "ls, dump and applesoft decode change no file, whatever the image or file contains, whether they succeed, fail, crash or are killed.", "quantifier": "every file system state, arguments and interruption point", "why_tests_cant": "universal frame over all executions", "anchors": ["cmd/catalog.go:LsCmd.Run", "cmd/dump.go:DumpCmd.Run", "cmd/applesoft.go:DecodeCmd.Run"]}
{"id": "C75", "title": "mksd accepts every binary that fits below C000", "statement": "mksd writes a disk for every binary that is loaded on a page boundary, contains its start address and ends below C000; it refuses every other one.", "quantifier": "every binary, load address and start address", "why_tests_cant": "an equivalence over all sizes and addresses; the error shows only when the start lies away from the load address", "anchors": ["cmd/sd.go:SDCmd.Run"]}
{"id": "C76", "title": "put and rm change exactly the file they name", "statement": "A successful put or rm replaces the image by one in the same order in which the named file holds the new data padded to whole sectors (put) or is empty (rm), and every other file except the two symbol-table files is as before; an existing file is only replaced with --overwrite, and rm without -f only succeeds if the file was there.", "quantifier": "every image, order, name, data and flags", "why_tests_cant": "relates the contents of all files before and after for unboundedly many images, through re-ordering, sector map and symbol table", "anchors": ["cmd/put.go:PutCmd.Run", "cmd/delete.go:DeleteCmd.Run", "disk/open.go:WriteBack", "supermon/supermon.go:Operator.PutFile", "supermon/supermon.go:Operator.Delete"]}
{"id": "C77", "title": "dump after put prints what was put", "statement": "After a successful put of non-empty data, dump of the same name from the same image with the same flags prints the data padded to whole sectors.", "quantifier": "every image, name and data", "why_tests_cant": "the image is written and detected again; whether detection still finds NakedOS depends on the data put", "anchors": ["cmd/put.go:PutCmd.Run", "cmd/dump.go:DumpCmd.Run", "disk/open.go:OpenImage", "dos3/dos3.go:SeemsToMatch"]}
{"id": "C78", "title": "Structures are written back where they were read", "statement": "VTOC, catalog sector, track/sector list, the ProDOS directory blocks and bitmap blocks: reading one from a place shows the bytes at that place and remembers the place; writing it stores it at the remembered place, so that reading gives it back, and changes no other byte of the image; writing back what was read changes nothing; places off the image give an error and no change.", "quantifier": "every image, place and structure", "why_tests_cant": "a frame condition over every byte of every image, for every value of each structure and every place it may be read from", "anchors": ["disk/marshal.go:UnmarshalLogicalSector", "disk/marshal.go:MarshalLogicalSector", "disk/marshal.go:UnmarshalBlock", "disk/marshal.go:MarshalBlock"]}
{"id": "C79", "title": "ls prints the catalog of the disk in the image", "statement": "For an image that holds a DOS 3.3, ProDOS or NakedOS disk, in whatever order its sectors are stored, ls prints one line for each live catalog entry (of the directory named, for ProDOS), in catalog order, and nothing else; a directory that does not exist, or any directory on a system without them, is an error that prints nothing.", "quantifier": "every image, order, file name, directory and catalog", "why_tests_cant": "catalogs and directory trees are unbounded, and the path from bytes of the file to printed lines passes detection, re-ordering and decoding; tests use a few sample disks", "anchors": ["cmd/catalog.go:LsCmd.Run", "disk/open.go:OpenImage", "dos3/dos3.go:ReadCatalog", "prodos/prodos.go:readVolume", "supermon/supermon.go:Operator.Catalog"]}
{"id": "C80", "title": "applesoft decode prints the listing of the program in the file", "statement": "For a file with an Applesoft program, with or without the two-byte length in front, decode prints for each line its number in decimal, a space, the characters and keywords of the line and a newline, escaped unless --raw.", "quantifier": "every program, load address and flags", "why_tests_cant": "programs are unbounded; whether the two leading bytes are a length is guessed from the contents of the file", "anchors": ["cmd/applesoft.go:DecodeCmd.Run", "basic/applesoft/applesoft.go:Decode", "basic/basic.go:ChevronControlCodes"]}
{"id": "C81", "title": "dump prints the contents of the named file", "statement": "For an image that holds a DOS 3.3 or NakedOS disk, dump of a file on it prints exactly the bytes stored under that name; a name that is not on the disk is an error that prints nothing.  (ProDOS files cannot be dumped: an error.)", "quantifier": "every image, order, file name and contents", "why_tests_cant": "relates the bytes of the image, through re-ordering, catalog and sector lists of any length, to the output", "anchors": ["cmd/dump.go:DumpCmd.Run", "dos3/dos3.go:operator.GetFile", "supermon/supermon.go:Operator.GetFile", "prodos/prodos.go:operator.GetFile"]}
{"id": "C82", "title": "Changing a disk of a system that cannot be changed fails and leaves it alone", "statement": "put, rm and mkhello on a DOS 3.3 or ProDOS image return an error, print nothing and change no file, whatever their arguments.", "quantifier": "every image, order, name, data and flags", "why_tests_cant": "the claim is that no argument whatever leads to a change or to output; universal over images and arguments", "anchors": ["cmd/put.go:PutCmd.Run", "cmd/delete.go:DeleteCmd.Run", "cmd/nakedos.go:MkHelloCmd.Run", "dos3/dos3.go:operator.PutFile", "prodos/prodos.go:operator.Delete"]}
{"id": "C83", "title": "An image is opened as what it is", "statement": "With system and order left to be detected, an image with a DOS 3.3, ProDOS or NakedOS disk, in whatever order its sectors are stored, is opened as a disk of that system with its sectors in the system's order; every other image is refused.", "quantifier": "every image of floppy size and every file name", "why_tests_cant": "there are 2^1146880 images; what the detection of one system makes of a disk of another system depends on its contents", "anchors": ["disk/open.go:OpenImage", "disk/open.go:openDoOrPo", "dos3/dos3.go:OperatorFactory.SeemsToMatch", "prodos/prodos.go:OperatorFactory.SeemsToMatch", "supermon/supermon.go:OperatorFactory.SeemsToMatch"]}
{"id": "C84", "title": "Listings show the words of the language", "statement": "An Applesoft or Integer BASIC token is shown in a listing as the word that the interpreter's LIST shows for it, blanks apart.", "quantifier": "every line of every program, every token", "why_tests_cant": "the tests compare a few programs; the table has to be right for every token in every line", "anchors": ["basic/applesoft/applesoft.go:TokensByCode", "basic/applesoft/applesoft.go:Line.String", "basic/integer/integer.go:TokensByCode", "basic/integer/integer.go:Line.String"]}
{"id": "C85", "title": "Address arguments are read as the number they denote", "statement": "The argument of --address, --start and --location is accepted exactly if it is an unsigned Go integer literal (decimal, 0x, 0b, 0o or leading-zero octal, single underscores between digits) of value at most 65535, and is read as that value; everything else is refused, never wrapped.", "quantifier": "every string", "why_tests_cant": "unboundedly many strings, including ones whose value overflows 64 bits", "anchors": ["main.go:hexUint16Mapper.Decode", "cmd/put.go:PutCmd", "cmd/sd.go:SDCmd", "cmd/nakedos.go:MkHelloCmd", "cmd/applesoft.go:DecodeCmd"]}
{"id": "C86", "title": "filetypes prints an aligned table of all file types", "statement": "filetypes prints two header lines and one line for each type of the table (without --all: those with an abbreviation, typeless files and bad blocks), in columns each one blank wider than its widest cell; every name that put --file-type accepts stands in a row of the type it resolves to.", "quantifier": "both flag values and every name", "why_tests_cant": "alignment depends on all rows at once; every name of the table has to be accounted for", "anchors": ["cmd/filetypes.go:FiletypesCmd.Run", "types/filetype.go:FiletypeInfos", "types/filetype.go:FiletypeForName"]}
{"id": "C87", "title": "Success means everything was written", "statement": "A command that reports success has written all of its output, to a file or to standard output: no failed or short write goes unreported.", "quantifier": "every command, arguments, file system and point of failure", "why_tests_cant": "full disks and closed pipes are not reproduced in tests; the claim is about every write of every run", "anchors": ["helpers/helpers.go:WriteOutput", "cmd/catalog.go:LsCmd.Run", "cmd/dump.go:DumpCmd.Run", "cmd/applesoft.go:DecodeCmd.Run", "cmd/filetypes.go:FiletypesCmd.Run", "cmd/put.go:PutCmd.Run", "cmd/reorder.go:ReorderCmd.Run", "cmd/sd.go:SDCmd.Run"]}
{"id": "C88", "title": "A Standard Delivery disk boots into the binary", "statement": "Whenever mksd succeeds, a machine started from the disk it wrote (in any slot, with any memory contents) reaches the start address with every byte of the binary at its place in memory.", "quantifier": "every binary, load and start address, image order, slot and initial state of the machine; all executions", "why_tests_cant": "tests compare the bytes of the boot sector; what its 77 bytes of 6502 code do for each of up to 176 pages and 12 tracks, from every machine state, is not observed by any Go test", "anchors": ["cmd/sd.go:SDCmd.Run"]}
{"id": "C89", "title": "The name that ls prints is a name for dump", "statement": "Every line that ls prints for a file is a name that, given to dump, prints that file.", "quantifier": "every image, system, order and file, with and without --short", "why_tests_cant": "relates what three commands make of the same image; which names are ambiguous depends on the whole symbol table or catalog", "anchors": ["cmd/catalog.go:LsCmd.Run", "cmd/dump.go:DumpCmd.Run", "cmd/delete.go:DeleteCmd.Run", "supermon/supermon.go:Operator.Catalog", "supermon/supermon.go:SymbolTable.FileForName", "supermon/supermon.go:NameForFile", "dos3/dos3.go:operator.GetFile"]}
{"id": "C90", "title": "After put, ls and dump show the new file", "statement": "After a successful put, ls lists the files it listed before and the new one, under the name it was given, and dump of that name prints the new contents.", "quantifier": "every image, order, name, data and flags", "why_tests_cant": "relates three runs of the program over the same image; which name is shown depends on the whole symbol table, including entries of files removed long ago", "anchors": ["cmd/put.go:PutCmd.Run", "cmd/catalog.go:LsCmd.Run", "cmd/dump.go:DumpCmd.Run", "supermon/supermon.go:Operator.PutFile", "supermon/supermon.go:SymbolTable.AddSymbol", "supermon/supermon.go:NameForFile"]}
{"id": "C91", "title": "After rm, ls shows the other files as before and dump of the removed file fails", "statement": "After a successful rm, ls lists exactly the files it listed before without the one removed, under the same names, and dump of the removed name is an error that prints nothing.", "quantifier": "every image, order, name and flags", "why_tests_cant": "relates three runs of the program; whether the names of the other files survive depends on the chains of the symbol table", "anchors": ["cmd/delete.go:DeleteCmd.Run", "cmd/catalog.go:LsCmd.Run", "cmd/dump.go:DumpCmd.Run", "supermon/supermon.go:Operator.Delete", "supermon/supermon.go:SymbolTable.DeleteSymbol"]}
{"id": "C92", "title": "A reordered image shows the same disk", "statement": "After a successful reorder, ls and dump print the same (or fail alike) for the new image as for the old one, whatever the system of the disk.", "quantifier": "every image of a DOS 3.3, ProDOS or NakedOS disk, all orders, file names, directories and files", "why_tests_cant": "composes the re-ordering of all 560 sectors with detection, catalogs and file contents of every possible disk", "anchors": ["cmd/reorder.go:ReorderCmd.Run", "cmd/catalog.go:LsCmd.Run", "cmd/dump.go:DumpCmd.Run", "disk/open.go:OpenImage"]}
{"id": "C93", "title": "Commands end with an exit status, never with a crash", "statement": "Whatever the image and the arguments, a command comes to an end and exits with status 0 if it succeeded and 1 after an error, in which case no file has changed; it never crashes or hangs.", "quantifier": "every command, arguments, image (damaged or not) and file system", "why_tests_cant": "the inputs that make a loop endless or an index go out of range are particular arrangements of links and lengths; that there are no others is a claim about all images", "anchors": ["main.go:run", "main.go:main", "cmd/put.go:PutCmd.Run", "cmd/dump.go:DumpCmd.Run", "cmd/catalog.go:LsCmd.Run", "cmd/applesoft.go:DecodeCmd.Run", "dos3/dos3.go:ReadCatalog", "dos3/dos3.go:operator.GetFile", "supermon/supermon.go:SectorMap.WriteFile"]}
{"id": "C94", "title": "Symbols with the same hash stay on one chain", "statement": "The symbols of a Super-Mon table whose addresses have the same hash key form one chain through their links; a symbol that is added or moved becomes the last of its chain and a deleted one leaves it, so that after any sequence of additions, moves and deletions on a disk the table can be read, every key has one chain and every name has the address last given to it.", "quantifier": "every table with one chain for each hash key, every sequence of edits, all names and addresses", "why_tests_cant": "an invariant of linked lists kept in a table of 819 entries, through unbounded histories that read and write the disk between edits; a link that goes wrong shows many edits later", "anchors": ["supermon/supermon.go:SymbolTable.AddSymbol", "supermon/supermon.go:SymbolTable.DeleteSymbol", "supermon/supermon.go:SectorMap.ReadSymbolTable", "supermon/supermon.go:SectorMap.WriteSymbolTable"]}
{"id": "C95", "title": "A session on a NakedOS image is a store of files", "statement": "Running put, rm, dump and ls one after the other on a NakedOS image (with the default --system auto, and as long as no command finds on it the mark of DOS 3.3, C77; none does if none is there at the start and no file is put that has the byte 3 at an offset 256j+3), each as a program of its own that reads the image from its file and writes it back, where put and rm address files other than the symbol table's by number (put also by a symbol on the disk), gives the exit statuses and the output of a store of numbered files with a fixed number of sectors: put stores the sector-padded contents of the source file, refuses to overwrite without the flag and when the sectors do not suffice; rm frees the sectors; dump prints exactly what was stored; ls lists exactly the files stored, under their names; no other file changes, and a command that fails (or crashes, as put of an empty file does) changes nothing.", "quantifier": "every image and order, every sequence of commands with any flags, names and source files, with other files saved in between", "why_tests_cant": "a refinement over unbounded sequences of program runs; what one command leaves in the image file is the input of all later ones", "anchors": ["cmd/put.go:PutCmd.Run", "cmd/delete.go:DeleteCmd.Run", "cmd/dump.go:DumpCmd.Run", "cmd/catalog.go:LsCmd.Run", "supermon/supermon.go:Operator.PutFile", "supermon/supermon.go:Operator.Delete", "disk/open.go:OpenFilename", "disk/open.go:WriteBack"]}
{"id": "C96", "title": "\"-\" works like a file", "statement": "Wherever a command takes the name of a file, \"-\" stands for standard input or output: with the same bytes on standard input as in a file, the exit status and all other effects are the same, and what would be written to the file goes to standard output, nothing else; when the command fails nothing comes out. For an image this is meant for a file whose name has the extension .dsk or none; for the orders of reorder and mksd, for orders that are not guessed from the name.", "quantifier": "every command and place of a file name, all arguments, inputs and file systems (with room)", "why_tests_cant": "relates two runs of every command on all inputs; a stray byte on standard output or a difference in how a stream is opened spoils the image at the other end of the pipe", "anchors": ["helpers/helpers.go:FileContentsOrStdIn", "helpers/helpers.go:WriteOutput", "disk/open.go:OpenFilename", "disk/open.go:OpenFile", "disk/open.go:WriteBack", "cmd/put.go:PutCmd.Run", "cmd/reorder.go:ReorderCmd.Run", "cmd/sd.go:SDCmd.Run"]}
{"id": "C97", "title": "A command depends only on the files it is given", "statement": "The exit status and the output of a command, and what it leaves in the files named on its command line, are determined by these files (and standard input, if \"-\" is one of them); files that are not named are neither looked at nor changed.", "quantifier": "every command with all arguments, any two file systems that agree on the named files, a full medium included", "why_tests_cant": "that no other file is read is a statement about pairs of executions on all file systems; a test has one file system", "anchors": ["helpers/helpers.go:FileContentsOrStdIn", "helpers/helpers.go:WriteOutput", "disk/open.go:OpenFilename", "disk/open.go:WriteBack", "cmd/put.go:PutCmd.Run", "cmd/delete.go:DeleteCmd.Run", "cmd/reorder.go:ReorderCmd.Run", "cmd/sd.go:SDCmd.Run", "cmd/nakedos.go:MkHelloCmd.Run"]}
{"id": "C98", "title": "A session that names files keeps files and names together", "statement": "Running put, rm, dump and ls one after the other on a NakedOS image whose symbol table is well formed (with the default --system auto, and as long as no command finds on it the mark of DOS 3.3, C77; none does if none is there at the start and track 17 sector 0 belongs to a file that the session leaves alone) gives the exit statuses and the output of a store of numbered files with a row of name cards: put by a symbol on the disk stores under the file it names; put by a new name (or by a name that stands for an address that is no file) takes the least number not in use and gives it the name; put by number and name stores under the number and moves the name there if it named something else; rm by name frees the file and takes the name (and no other) away; rm by number leaves the names; a name that means nothing, or that cannot be a symbol, is refused and changes nothing; ls shows each file in use under the first card with its number. After the session the disk holds these files and these names, and its symbol table is again well formed. This is meant for sessions that leave the first symbol of the table and the files 3 and 4 (the table) alone and move no symbol that is there to the files 95 and 223.", "quantifier": "every such image and order, every sequence of commands with any flags, names and source files, with other files saved in between", "why_tests_cant": "a refinement over unbounded sequences of program runs in which names and files change together and are kept in different places of the disk; a table damaged by one run may show only in a much later one", "anchors": ["cmd/put.go:PutCmd.Run", "cmd/delete.go:DeleteCmd.Run", "cmd/dump.go:DumpCmd.Run", "cmd/catalog.go:LsCmd.Run", "supermon/supermon.go:Operator.PutFile", "supermon/supermon.go:Operator.Delete", "supermon/supermon.go:Operator.GetFile", "supermon/supermon.go:SymbolTable.AddSymbol", "supermon/supermon.go:SymbolTable.DeleteSymbol", "supermon/supermon.go:SectorMap.FirstFreeFile", "supermon/supermon.go:SectorMap.WriteSymbolTable"]}
{"id": "C99", "title": "--system says which system to use", "statement": "A disk can be of several systems at once (a NakedOS file may look like a DOS 3.3 VTOC). The flag --system settles it: a command that is told a system uses the disk as a disk of that system, in the first order in which it is one, whichever other systems recognise it; so a file that ls lists when told the system can be dumped, overwritten and removed.", "quantifier": "every image, name, order and system", "why_tests_cant": "for a disk that two systems claim, what counts is the tests that are made before the intended one; that no admitted value of the flags reaches a file is a statement about all of them", "anchors": ["disk/open.go:openDoOrPo", "disk/open.go:OpenImage", "cmd/catalog.go:LsCmd", "cmd/dump.go:DumpCmd", "cmd/put.go:PutCmd", "cmd/delete.go:DeleteCmd", "cmd/nakedos.go:MkHelloCmd"]}
{"id": "C100", "title": "Commands that run at the same time end as if run one after the other", "statement": "Several diskii commands may run at the same time (in two windows, from a script that starts jobs in the background). Whatever the interleaving of their system calls, each that ends has an exit status, output and files as if the commands had been run one after the other: changes to an image are not lost, a listing shows an image as it was at some time, and commands on different files do not disturb each other.", "quantifier": "any number of processes, every command and every interleaving of opening, reading and writing piece by piece", "why_tests_cant": "a test runs one interleaving; the ones that lose data need another process to run in a window of microseconds", "anchors": ["helpers/helpers.go:FileContentsOrStdIn", "helpers/helpers.go:WriteOutput", "disk/open.go:OpenFilename", "disk/open.go:WriteBack", "cmd/put.go:PutCmd.Run", "cmd/delete.go:DeleteCmd.Run", "cmd/dump.go:DumpCmd.Run", "cmd/catalog.go:LsCmd.Run", "cmd/reorder.go:ReorderCmd.Run", "cmd/nakedos.go:MkHelloCmd.Run"]}
{"id": "C101", "title": "A put may be repeated", "statement": "A put that has succeeded can be repeated with --overwrite (after a crash of the script, say, or by make): it succeeds, and the image has byte for byte the content it had after the first, whichever sectors the file came to use.", "quantifier": "every NakedOS image, order, system, name, content and place of the image, from files and from standard input", "why_tests_cant": "byte equality of two images after allocation has run twice, the second time over the sectors freed by itself; depends on the free sectors of all disks", "anchors": ["cmd/put.go:PutCmd.Run", "supermon/supermon.go:Operator.PutFile", "supermon/supermon.go:SectorMap.WriteFile", "supermon/supermon.go:SectorMap.Delete", "disk/open.go:WriteBack"]}
{"id": "C102", "title": "Looking changes nothing", "statement": "The commands that only show something (ls, dump, decode, filetypes) can be put into a session of any commands at any place or be left out: every other command has the same exit status and output, and all files are the same at the end.", "quantifier": "every session of any length of any commands in any world, every place in it and every such command, whether it succeeds or fails", "why_tests_cant": "a non-interference statement over all sessions", "anchors": ["cmd/catalog.go:LsCmd.Run", "cmd/dump.go:DumpCmd.Run", "cmd/applesoft.go:DecodeCmd.Run", "cmd/filetypes.go:FiletypesCmd.Run"]}
{"id": "C103", "title": "Changing a disk does not depend on the order of its sectors in the image", "statement": "The same NakedOS disk in a DOS-order and in a ProDOS-order image: put, rm and mkhello have the same result on both; after a success the images hold the same disk in the two orders, after a failure nothing is changed. Reordering and changing therefore commute.", "quantifier": "every NakedOS disk, two orders, two systems, every put, rm and mkhello, every name and content", "why_tests_cant": "an equality between two runs on images that differ almost everywhere", "anchors": ["cmd/put.go:PutCmd.Run", "cmd/delete.go:DeleteCmd.Run", "cmd/nakedos.go:MkHelloCmd.Run", "cmd/reorder.go:ReorderCmd.Run", "disk/open.go:openDoOrPo", "disk/open.go:WriteBack", "disk/open.go:Swizzle"]}
{"id": "C104", "title": "rm undoes put", "statement": "A put of a file whose number was not in use, followed by rm of that number, gives the disk back: the same sector map, the same names and the same bytes in all sectors that were in use.", "quantifier": "every NakedOS image, number in every spelling, content and symbol table", "why_tests_cant": "an inverse law over all disks; leaks of sectors and damage to other files show only after many rounds", "anchors": ["cmd/put.go:PutCmd.Run", "cmd/delete.go:DeleteCmd.Run", "supermon/supermon.go:Operator.PutFile", "supermon/supermon.go:Operator.Delete", "supermon/supermon.go:SectorMap.WriteFile", "supermon/supermon.go:SectorMap.Delete"]}
{"id": "C105", "title": "A file copied between disks is the same on both", "statement": "The output of dump of a file of one NakedOS disk, put as a file of another disk (or of the same): dump prints the same bytes from both, though put fills the last sector with zeros.", "quantifier": "every two NakedOS images in any orders, every file and name", "why_tests_cant": "two images, two orders and the padding of put are involved; a test has one content length", "anchors": ["cmd/dump.go:DumpCmd.Run", "cmd/put.go:PutCmd.Run", "supermon/supermon.go:SectorMap.ReadFile", "supermon/supermon.go:SectorMap.WriteFile", "supermon/supermon.go:Operator.GetFile", "supermon/supermon.go:Operator.PutFile"]}
{"id": "C106", "title": "A command does the same when it is run again", "statement": "Run on the same files and standard input, a command leaves the same files, prints the same and exits with the same status, whichever order the Go runtime picks when the program ranges over a map of ProDOS subdirectories.", "quantifier": "all commands with all arguments, worlds, orders of visiting the map, bounds on the run", "why_tests_cant": "A test sees the order the runtime happens to pick; on a volume where it matters the same test passes on one day and fails on another, and on one where it does not, passing says nothing about the other orders.", "anchors": ["prodos/prodos.go:readVolume", "prodos/prodos.go:parentDirName", "prodos/prodos.go:Catalog", "cmd/catalog.go:LsCmd.Run", "disk/open.go:OpenFilename"]}
{"id": "C107", "title": "A program on a disk is listed as it is", "statement": "diskii dump DISK NAME | diskii applesoft decode - (the example in the help text) prints the LISTing of the Applesoft program NAME on a DOS 3.3 disk; both commands succeed and no file changes.", "quantifier": "all DOS 3.3 disks, Applesoft programs on them, orders and flags, with and without -r", "why_tests_cant": "Whether decode mistakes the start of a program for its length depends on the sizes of the first line and of the whole; a test program is very unlikely to have such sizes.", "anchors": ["cmd/applesoft.go:DecodeCmd.Help", "cmd/applesoft.go:DecodeCmd.Run", "cmd/dump.go:DumpCmd.Run", "basic/applesoft/applesoft.go:Decode", "dos3/dos3.go:GetFile"]}
{"id": "C108", "title": "Exactly which edits of a NakedOS disk succeed, fail or crash", "statement": "put, rm, mkhello and dump on a NakedOS image end with status 0, 1 or 2 as the image and the arguments say: put succeeds iff the type is binary, the target means a file (a number, a symbol, the first unused file for a new symbol, or number:symbol), the symbol can be written and there is a symbol table for it, the contents fit, nothing is overwritten unasked, and, if a symbol has to be given, the table has an entry for it and all its names can be written; it crashes iff all is well so far but the contents are empty and there is room. rm succeeds iff the name means a file which exists (or -f) and, if the name is a symbol, all other names can be written. mkhello likewise. No file changes unless the command succeeds.", "quantifier": "all NakedOS images, symbol tables (well-formed or not), targets, contents, types, flags, orders, worlds with room", "why_tests_cant": "An equivalence over images, tables, names and contents: a test shows that one put succeeds, not that no other condition makes one fail.", "anchors": ["cmd/put.go:PutCmd.Run", "cmd/delete.go:DeleteCmd.Run", "cmd/nakedos.go:MkHelloCmd.Run", "cmd/dump.go:DumpCmd.Run", "supermon/supermon.go:Operator.PutFile", "supermon/supermon.go:Operator.Delete", "supermon/supermon.go:SymbolTable.FilesForCompoundName", "supermon/supermon.go:SectorMap.WriteFile", "supermon/supermon.go:SectorMap.WriteSymbolTable"]}
{"id": "C109", "title": "Listing a damaged ProDOS volume: everything that can happen", "statement": "Listing a directory of a ProDOS image prints the entries of one directory, reports an error, or never ends, and which of these follows from the image alone by simple rules: the first directory (level by level) that is off the device or has no last block; a directory below itself; a parent pointer to no directory or around in a circle; else the directories whose chain of parent pointers spells the path. Every outcome the rules allow happens for some order in which Go visits the map of subdirectories, and no other. An image is recognised as ProDOS exactly if the volume directory can be listed.", "quantifier": "all images of up to 65536 blocks (not only well-formed ones), all paths, all map iteration orders", "why_tests_cant": "Damaged volumes have no list of cases: the claim is an equivalence over all images and all iteration orders, and one of the outcomes is a run without end.", "anchors": ["prodos/prodos.go:readVolume", "prodos/prodos.go:readSubdirectory", "prodos/prodos.go:parentDirName", "prodos/prodos.go:operator.Catalog", "prodos/prodos.go:OperatorFactory.SeemsToMatch"]}
{"id": "C110", "title": "Any file as a disk image: everything that can happen", "statement": "Whatever file is given as a disk image, under whatever name and flags --order and --system, opening it has exactly one of three outcomes, given by rules about its bytes: it is opened as a disk of a certain system with certain bytes in a certain order, it is refused, or opening never ends; only for certain damaged ProDOS volumes can the map iteration order decide between the last two. ls and dump then print exactly the text the bytes determine, report an error or crash; rm, put and mkhello end with exactly the status the bytes determine, and change no file unless it is 0.", "quantifier": "all files (of any size and content), names, flags, directories, file names, and map iteration orders; put with an ASCII target", "why_tests_cant": "The claim is a complete case analysis over all contents of a file; tests sample a few well-formed images.", "anchors": ["disk/open.go:OpenImage", "disk/open.go:openDoOrPo", "disk/open.go:openHDV", "cmd/catalog.go:LsCmd.Run", "cmd/dump.go:DumpCmd.Run", "cmd/delete.go:DeleteCmd.Run", "cmd/put.go:PutCmd.Run", "cmd/nakedos.go:MkHelloCmd.Run"]}
{"id": "C111", "title": "reorder, mksd and decode on any file; files that cannot be read or written", "statement": "reorder either writes the image in the other order, byte for byte as the published tables say, or reports an error without a trace; it succeeds exactly if the image can be read and is a floppy image, the orders are determined and differ, and the target can be written (and does not exist, or may be overwritten). mksd likewise, for exactly the accepted binaries and addresses. applesoft decode prints the listing, reports an error or crashes exactly as following the line addresses in the file says. A command whose input cannot be read reports an error, changes nothing and prints nothing; one whose target cannot be written fails where it would have succeeded, and changes and prints nothing.", "quantifier": "all files of any size, all names, flags, addresses and states of the file system (with room on the medium)", "why_tests_cant": "The claims are complete case analyses over all file contents, names, flags and file-system states; a test provokes a few of the errors.", "anchors": ["cmd/reorder.go:ReorderCmd.Run", "cmd/sd.go:SDCmd.Run", "cmd/applesoft.go:DecodeCmd.Run", "helpers/helpers.go:FileContentsOrStdIn", "helpers/helpers.go:WriteOutput", "disk/open.go:WriteBack", "disk/open.go:OpenFilename"]}
{"id": "C112", "title": "Maps may be visited in a new order every time", "statement": "Go may visit the entries of a map in a new order each time. However the visits made while an image is opened and while it is listed are ordered, and whether or not two of them agree, opening the image and running ls, dump, rm, put and mkhello comes to something that the rules about its bytes allow (C110); and each outcome that the rules allow for opening and for each of these commands does happen for some orders of the visits, so the rules leave out nothing that can happen and allow nothing that cannot.", "quantifier": "all files, names, flags, directories and file names, all orders of each single visit", "why_tests_cant": "The order of a map is random in each run; a test sees a few of them and cannot choose them.", "anchors": ["prodos/prodos.go:readVolume", "prodos/prodos.go:Catalog", "prodos/prodos.go:SeemsToMatch", "disk/open.go:OpenImage", "disk/open.go:openDoOrPo", "cmd/catalog.go:LsCmd.Run", "cmd/dump.go:DumpCmd.Run", "cmd/delete.go:DeleteCmd.Run", "cmd/put.go:PutCmd.Run", "cmd/nakedos.go:MkHelloCmd.Run"]}
{"id": "C113", "title": "A NakedOS edit changes exactly these bytes", "statement": "Every byte of a NakedOS disk after a successful put, mkhello or rm is determined. The file goes, in order, into the lowest sectors that are free or its own; those sectors hold its contents padded with zeros, the map gives them to the file, and what the file held besides is marked free with its data left in place. If a symbol has yet to be given to the file, files 3 and 4 are then rewritten with the table to which it has been added, in the documented layout of 819 entries (address, link, name as a number); rm frees the file and, if its name is in the table, rewrites files 3 and 4 without it. Each entry of the new table is determined too: which entry the symbol gets and which link is redirected. No other byte of the disk changes, in free sectors or anywhere else.", "quantifier": "all NakedOS images in any of the orders, all tables, all targets of ASCII characters, all non-empty contents, all maps", "why_tests_cant": "The claim is about each of 143360 bytes, in every image, for every state of the map; a test compares a few files of a few images and does not look at the free sectors.", "anchors": ["supermon/supermon.go:WriteFile", "supermon/supermon.go:Delete", "supermon/supermon.go:PutFile", "supermon/supermon.go:WriteSymbolTable", "supermon/supermon.go:encodeSymbol", "supermon/supermon.go:AddSymbol", "supermon/supermon.go:DeleteSymbol", "cmd/put.go:PutCmd.Run", "cmd/delete.go:DeleteCmd.Run", "cmd/nakedos.go:MkHelloCmd.Run"]}
{"id": "C114", "title": "Repeating an edit on its own result changes nothing", "statement": "A successful NakedOS put, repeated with --overwrite on the image it wrote, with the same contents and target, succeeds and leaves every byte of that image as it is; so does mkhello repeated for the same file, however the file is named. The image may be renamed in between and the other flags may differ. With the empty target the contrary holds: every put takes another file and keeps the one written before.", "quantifier": "all NakedOS images in any of the orders, all ASCII targets, all non-empty contents, all maps and tables; without symbols given to files 3 and 4 and without table edits that damage the table (C38, C94)", "why_tests_cant": "That nothing moves the second time depends on which sectors were free, which the file held and how the table entry was chosen the first time, over all maps and tables; a test repeats one command on one image.", "anchors": ["supermon/supermon.go:WriteFile", "supermon/supermon.go:PutFile", "supermon/supermon.go:ParseCompoundSymbol", "supermon/supermon.go:AddSymbol", "cmd/put.go:PutCmd.Run", "cmd/nakedos.go:MkHelloCmd.Run"]}
{"id": "C115", "title": "Edits of different files may be made in any order", "statement": "Take any set of NakedOS puts and removals, each of a different file, given by number or (for put) by a symbol on the disk, and carry it out in two orders on the same image. If every command succeeds both times, the two images hold the same files, the same symbols and the same number of free sectors: each file put holds its contents, each file removed is gone, all others are as they were. If there are only puts and none makes a file smaller, success in one order means success in every order. (With removals it does not: on a full disk the removal has to come first.)", "quantifier": "all NakedOS images, all batches of any length and all their permutations", "why_tests_cant": "The number of orders grows as the factorial of the number of edits, and where files are placed differs between them; a test tries one or two orders of a few files.", "anchors": ["cmd/put.go:PutCmd.Run", "cmd/delete.go:DeleteCmd.Run", "supermon/supermon.go:WriteFile", "supermon/supermon.go:Delete", "supermon/supermon.go:FreeSectors"]}
{"id": "C116", "title": "A file may be called by any of its names, in any letters", "statement": "put, rm and mkhello do exactly the same for two names that differ only in upper and lower case: same exit status, same image and other files, whatever the image is. On a NakedOS image the same holds for dump, and further: dump does the same for every name of a file (number, DFnn, symbol); put depends on its target only through the file it means and the symbol the file is to be given, so nn, DFnn, NAME and nn:NAME are the same for a file that is called NAME, and NAME and nn:NAME are for a new one when nn is the lowest unused number; rm does the same for every number of a file; mkhello does the same for every name. mkhello itself does what put --overwrite of the sixteen bytes of its loader as DF01:FHELLO does.", "quantifier": "all images, flags and worlds; all NakedOS disks, symbol tables and names", "why_tests_cant": "The spellings of one name are many (two to the number of its letters) and pass through number parsing, case folding, table search and encoding, which have to agree on every table; a test compares a few spellings on one disk.", "anchors": ["supermon/supermon.go:FileForName", "supermon/supermon.go:FilesForCompoundName", "supermon/supermon.go:PutFile", "supermon/supermon.go:AddSymbol", "supermon/supermon.go:DeleteSymbol", "supermon/supermon.go:encodeSymbol", "cmd/put.go:PutCmd.Run", "cmd/delete.go:DeleteCmd.Run", "cmd/dump.go:DumpCmd.Run", "cmd/nakedos.go:MkHelloCmd.Run"]}
{"id": "C117", "title": "A session on several images is a shelf of disks", "statement": "Take any number of NakedOS images, in whichever sector orders, with well-formed symbol tables, and any sequence of put, rm, dump, ls, mkhello and reorder on them, images being copied and other files saved in between. Every exit status and everything printed is what a shelf of disks gives, where each disk is a store of numbered files with a row of name cards: a command changes only the disk it is given; reorder into another file (new, or an image overwritten with --overwrite) puts a copy of the disk in the other sector order under the other name, which from then on is changed separately; reorder in place turns the disk into the other order and changes nothing else on it; mkhello puts its loader as file 1 under the name FHELLO. Afterwards every image holds exactly the files and names of its disk, in a well-formed table, and all other files are what they were saved as.", "quantifier": "all shelves of NakedOS images, all sequences of commands of any length, all names, orders and contents", "why_tests_cant": "The claim is about interleavings of any length of six commands over any number of images in two sector orders; a test runs one command on one image, and an error that leaks from one image to another or survives a reorder shows only in a longer session.", "anchors": ["cmd/put.go:PutCmd.Run", "cmd/delete.go:DeleteCmd.Run", "cmd/dump.go:DumpCmd.Run", "cmd/catalog.go:LsCmd.Run", "cmd/nakedos.go:MkHelloCmd.Run", "cmd/reorder.go:ReorderCmd.Run", "disk/open.go:OpenFilename", "disk/open.go:WriteBack", "supermon/supermon.go:PutFile"]}
{"id": "C118", "title": "Edits of different files under different names may be made in any order", "statement": "Take any set of NakedOS puts and removals in which no two are of the same file and no two give or take the same symbol (in whatever letters), some giving a file a new symbol, some moving a symbol from another file or from a routine, some removing a file with its symbol. Carry it out in two orders on the same disk with a well-formed symbol table, what each name amounts to being the same when its turn comes. If every command succeeds both times, the two images hold the same files (each file put its contents, each file removed nothing, all others what they held), have the same number of free sectors, and every name has the same address on both (each symbol given that of its file, each symbol taken none, all others what they had), although sectors and table entries may lie in different places.", "quantifier": "all NakedOS images with well-formed symbol tables, all batches of any length and all their permutations", "why_tests_cant": "The number of orders grows as the factorial of the number of edits, and both the places of the files and the entries and hash chains of the symbol table differ between them; a test tries one or two orders of a few edits.", "anchors": ["cmd/put.go:PutCmd.Run", "cmd/delete.go:DeleteCmd.Run", "supermon/supermon.go:PutFile", "supermon/supermon.go:Delete", "supermon/supermon.go:AddSymbol", "supermon/supermon.go:DeleteSymbol", "supermon/supermon.go:WriteSymbolTable"]}
{"id": "C119", "title": "Exactly when there is room for a batch of edits", "statement": "Take any list of NakedOS puts and removals of different files, given by number or, for put, by a symbol on the disk, none with an empty source, and let a put need as many sectors as its contents fill (256 bytes each) less those the file has, and a removal minus those the file has. Carried out one after the other, all of them succeed if and only if each is possible apart from room (a put is of type B, its source can be read, and the file is new or --overwrite is given; a removal is of an existing file or has --force) and for no beginning of the list the sectors needed add up to more than were free at first. With the edits that free sectors first only the total counts, so edits that succeed in any order succeed in such an order. Afterwards the free sectors are those at first less those needed in all.", "quantifier": "all NakedOS images, all batches of any length and all their permutations", "why_tests_cant": "The claim says of every list of edits on every disk whether it fits, to the sector, including those that reuse what earlier ones freed; a test fills one disk in one way.", "anchors": ["cmd/put.go:PutCmd.Run", "cmd/delete.go:DeleteCmd.Run", "supermon/supermon.go:PutFile", "supermon/supermon.go:WriteFile", "supermon/supermon.go:Delete", "supermon/supermon.go:FreeSectors"]}
{"id": "C120", "title": "NakedOS running the loader of mkhello runs the program", "statement": "After mkhello has succeeded for a file of the disk, let NakedOS read file 1 of the new image to anywhere between pages 4 and BF and start it (a 6502, and the NakedOS call NKRDFILE that reads a file to a page). If the file named is there, is not file 1, 3 or 4, fits between the load address (page 4 or above) and C000, and does not lie over the loader, the machine comes to the start address, by default the load address, with the contents of the file as they were before mkhello in memory from the load address on.", "quantifier": "all images, file names, addresses, places of the loader and states of the machine", "why_tests_cant": "The claim is about what the sixteen bytes do on another machine, for every file, address and place of the loader; a test of diskii can only compare the bytes with some it expects.", "anchors": ["cmd/nakedos.go:MkHelloCmd.Run", "supermon/supermon.go:FilesForCompoundName", "supermon/supermon.go:PutFile"]}
{"id": "C121", "title": "The loader of mkhello runs the version that was put last", "statement": "In any session of puts, removals, dumps, listings, mkhello, reorder and copies on any number of NakedOS images (as in the property about the shelf of disks), let mkhello succeed for a file of one image, and later a put into that file. If nothing else writes or removes file 1 of that image after the mkhello, nor that file after the put, and no other image is copied over it, NakedOS running file 1 of the image at the end comes to the start address that mkhello was given with the put contents in memory from the load address on: those the source had when the put was given, padded with zeros to a multiple of 256, if they fit between page 4 and C000. mkhello need not be given again for a new version. The same holds for every copy and every reordered image whose file 1 is a loader, with what that image has in the file.", "quantifier": "all sessions of any length on any number of images, all addresses, contents, places of the loader and states of the machine", "why_tests_cant": "The claim is about what a machine does with the disk after every history of edits between mkhello, put and the end; a test has one history and no machine.", "anchors": ["cmd/nakedos.go:MkHelloCmd.Run", "cmd/put.go:PutCmd.Run", "cmd/delete.go:DeleteCmd.Run", "cmd/reorder.go:ReorderCmd.Run", "supermon/supermon.go:PutFile", "supermon/supermon.go:WriteFile"]}
{"id": "C122", "title": "Damage to the rest of a disk does not change what ls and dump show", "statement": "Take an image that diskii tells to be a DOS 3.3, NakedOS or ProDOS disk, and overwrite any part of it other than what says so and lists the files: for DOS 3.3, the VTOC and the catalog sectors it leads to; for NakedOS, the sector map and the sectors of files 3 and 4, and the VTOC sector, with the catalog it leads to if it is one; for ProDOS, the directory blocks, and what would make it one of the other two. The damaged image is told to be a disk of the same system. ls prints the same lines and ends with the same status, with any option; dump of a file of which the own sectors are undamaged (for DOS 3.3, the track/sector lists and the sectors listed in them; for NakedOS, the sectors that the map gives to it) prints the same bytes and ends with the same status, also when the file does not exist or cannot be read.", "quantifier": "all pairs of images that agree on that part, all file names, options and directories, every order of listing ProDOS subdirectories; the disk is told by the first order that the name of the image and --order allow", "why_tests_cant": "What code does not read shows only when all other bytes are varied: there are 2^(8*143360) images, and a test compares a few of them.", "anchors": ["cmd/catalog.go:LsCmd.Run", "cmd/dump.go:DumpCmd.Run", "disk/open.go:OpenImage", "dos3/dos3.go:ReadCatalog", "dos3/dos3.go:GetFile", "supermon/supermon.go:OperatorFactory.Operator", "supermon/supermon.go:Operator.GetFile", "prodos/prodos.go:operator.Catalog"]}
{"id": "C123", "title": "Edits of a NakedOS disk do not depend on what its files hold", "statement": "Take two images of NakedOS disks with the same sector map and symbol table, but with any differences in the contents of the other files, the free sectors and the system tracks, on two computers that are otherwise the same. The same session of puts, removals, mkhellos and listings ends with the same exit statuses and prints the same on both. Afterwards the two disks again have the same sector map and symbol table, and each byte of the disk is either the same on both or, on both, as it was before the session. So whether an edit succeeds does not depend on what the files hold, damage to a file does not spread, and no contents are copied to another place.", "quantifier": "all pairs of NakedOS images that agree on the map and the table, in either sector order, all sessions of put, rm, mkhello, ls and saving of other files, whether the commands succeed or fail", "why_tests_cant": "What code does not use shows only when everything else is varied, over all sessions; a test compares a few images after a few commands.", "anchors": ["cmd/put.go:PutCmd.Run", "cmd/delete.go:DeleteCmd.Run", "cmd/nakedos.go:MkHelloCmd.Run", "cmd/catalog.go:LsCmd.Run", "supermon/supermon.go:WriteFile", "supermon/supermon.go:WriteSymbolTable", "supermon/supermon.go:Persist", "supermon/supermon.go:Operator.PutFile", "supermon/supermon.go:Operator.Delete"]}
{"id": "C124", "title": "The files of a NakedOS disk, dumped and put on another disk, give a disk that looks the same", "statement": "Dump files of a NakedOS disk by number into files of the computer and put these, by the same numbers, on another NakedOS disk that has none of them and has as many free sectors as they take: every command succeeds and prints nothing; afterwards the second disk holds these files with the same contents, its other files are as before, its free sectors are fewer by exactly as many as the files take on the first disk, and no other file of the computer is changed. If all files of the first disk are copied, the files 3 and 4 with the symbol table among them, to a disk without files, then ls prints the same lines for both disks, and dump prints the same bytes with the same status for every name, also for names that mean nothing. The files of any disk fit on a disk without files.", "quantifier": "all NakedOS disks and contents, in either sector order, all lists of files in any order, any way of writing the numbers, with and without overwriting, all names asked for afterwards", "why_tests_cant": "A copy of one disk, or of a few, says nothing of disks where the files are scattered, the symbol table is half restored while the rest is put, or the target is nearly full; the claim compares everything ls and dump can show.", "anchors": ["cmd/dump.go:DumpCmd.Run", "cmd/put.go:PutCmd.Run", "cmd/catalog.go:LsCmd.Run", "supermon/supermon.go:WriteFile", "supermon/supermon.go:Operator.PutFile", "supermon/supermon.go:Operator.GetFile", "supermon/supermon.go:Operator.Catalog"]}
{"id": "C125", "title": "Other commands leave a Standard Delivery disk alone", "statement": "The image that mksd writes in ProDOS order is the boot sector, the binary as it is, and zeros; in the other order it is what reorder makes of that one. No such disk is ever taken for a DOS 3.3 disk. put, rm and mkhello, with any flags, names and arguments, fail on it, change no file and print nothing. With a binary of at most three pages the disk is taken for an empty ProDOS volume: ls prints nothing and reports success, and dump fails.", "quantifier": "all binaries, addresses, start addresses, orders, flags, names and worlds", "why_tests_cant": "Which system a disk is taken for depends on bytes of the binary that happen to be where a system keeps its marks; whether some binary among all makes a disk that is taken for another system's is found by looking for one, not by trying a few.", "anchors": ["cmd/sd.go:SDCmd.Run", "cmd/reorder.go:ReorderCmd.Run", "disk/open.go:OpenImage", "cmd/put.go:PutCmd.Run", "cmd/delete.go:DeleteCmd.Run", "cmd/nakedos.go:MkHelloCmd.Run", "cmd/catalog.go:LsCmd.Run", "cmd/dump.go:DumpCmd.Run", "supermon/supermon.go:OperatorFactory.SeemsToMatch"]}
{"id": "C126", "title": "Where the files lie on a NakedOS disk does not matter", "statement": "Take two images of NakedOS disks that hold the same files, the symbol table among them, and have as many free sectors, on two computers that are otherwise the same; which sectors the files use, which are free or reserved, and what is in the other sectors may differ. Every session of puts, removals, mkhellos, listings and dumps ends with the same exit statuses and prints the same on both, and afterwards the two disks hold the same files and have as many free sectors again. Conversely, if two disks differ in a file or in the number of free sectors, there is such a session that prints something else or ends otherwise on one than on the other. In particular, all files of a disk put on a disk without files that has as many sectors not reserved give a disk on which every session goes as on the first.", "quantifier": "all pairs of NakedOS images in either sector order, all sessions of put, rm, mkhello, ls, dump and saving of other files, whether the commands succeed or fail", "why_tests_cant": "That a disk with fragmented files behaves as one without is about every placement and every session; a test compares two placements for a few commands. The converse says that nothing less than the files and the free room is shown.", "anchors": ["cmd/put.go:PutCmd.Run", "cmd/delete.go:DeleteCmd.Run", "cmd/nakedos.go:MkHelloCmd.Run", "cmd/catalog.go:LsCmd.Run", "cmd/dump.go:DumpCmd.Run", "supermon/supermon.go:WriteFile", "supermon/supermon.go:ReadFile", "supermon/supermon.go:Operator.PutFile", "supermon/supermon.go:Operator.Delete", "supermon/supermon.go:Operator.GetFile", "supermon/supermon.go:Operator.Catalog"]}
{"id": "C127", "title": "Changes to the files of a NakedOS disk can be taken back with what dump printed before", "statement": "Take a NakedOS disk and any session of puts, removals, listings and dumps of which the puts and removals are of certain files only; they may succeed or fail, fill the disk, and make new files. Afterwards remove these files with rm -f, and put those of them that were on the disk at first again, from what dump printed of them before the session: each of these commands succeeds, whatever the session did. The disk then holds the same files as at first and has as many free sectors, and every later session of puts, removals, mkhellos, listings and dumps prints the same and ends the same as on the first image.", "quantifier": "all NakedOS images in either sector order, all sessions and all sets of files they change, all later sessions", "why_tests_cant": "That nothing is lost or leaked by any sequence of changes, so that there is always room to put the files back, is about all sequences; a test undoes the few it makes.", "anchors": ["cmd/put.go:PutCmd.Run", "cmd/delete.go:DeleteCmd.Run", "cmd/dump.go:DumpCmd.Run", "supermon/supermon.go:WriteFile", "supermon/supermon.go:SectorMap.Delete", "supermon/supermon.go:SectorMap.FreeSectors", "supermon/supermon.go:Operator.PutFile", "supermon/supermon.go:Operator.Delete"]}
{"id": "C128", "title": "Where the files lie on a DOS 3.3 disk does not matter to ls and dump", "statement": "Take two DOS 3.3 images whose catalogs list the same files in the same order (names, types, locks and sector counts), each file with the same data in as many track/sector lists, or unreadable on both. Catalog sectors, lists and data may lie in other sectors, the images may have other names and sector orders, and deleted entries, free sectors and the rest of the disk may differ. Then ls (long or short, with any folder) and dump (of any name, present or not) end with the same exit status and print the same on both.", "quantifier": "all pairs of DOS 3.3 images with such catalogs, in all sector orders and under all names; all names to dump; all worlds", "why_tests_cant": "A test compares a few layouts; that no layout, of all those with the same files, changes what is printed is about all of them.", "anchors": ["dos3/dos3.go:ReadCatalog", "dos3/dos3.go:readCatalogSectors", "dos3/dos3.go:operator.fileForFilename", "dos3/dos3.go:operator.GetFile", "dos3/dos3.go:operator.Catalog", "dos3/dos3.go:FileDesc.Contents", "dos3/dos3.go:FileDesc.descriptor", "cmd/catalog.go:LsCmd.Run", "cmd/dump.go:DumpCmd.Run"]}
{"id": "C129", "title": "Where the folders of a ProDOS volume lie does not matter, and folders and names are all that ls shows", "statement": "Take two ProDOS volumes with the same folders and the same names in each of them, in the same order, no two folders of a volume having the same path. They may be floppies in different sector orders or hard disk images of different sizes; directories may be in other blocks or have deleted entries in between, and types, sizes, dates and everything else may differ. Then ls of every path prints the same on both or fails on both, in whatever order the code visits its map of folders, and so does dump. Conversely, if the listings of all paths are alike, the two volumes have the same folders with the same names in the same order, as long as no name has a line end in it.", "quantifier": "all pairs of well-formed ProDOS volumes of all sizes and orders, all paths, all visiting orders", "why_tests_cant": "A test lists a few volumes; that no layout of the same folders is listed otherwise, and that different folders are never listed alike, is about all pairs.", "anchors": ["prodos/prodos.go:operator.Catalog", "prodos/prodos.go:readVolume", "cmd/catalog.go:LsCmd.Run", "cmd/dump.go:DumpCmd.Run"]}
{"id": "C130", "title": "Edits connected by pipes do what the same edits do to a file", "statement": "Run any number of put, rm, mkhello and reorder commands with - for the image, the output of each being the input of the next, the image coming in at the front; and run the same commands one after the other on a file holding the image. The exit statuses are the same up to the first failure. The pipe changes no file, and the commands on the file change no other file. If all succeed, what comes out of the pipe is what the file holds afterwards; if any fails, nothing comes out of the pipe, so a half-edited image is never passed on. The file is to have the extension .dsk or none, unless only reorder with stated orders is run, and no put may have the image or standard input as its source.", "quantifier": "all sequences of edits of any length, all images, all contents of other files", "why_tests_cant": "A test pipes two or three commands through a few images; that no sequence differs from the edits in place, and that a failure anywhere leaves nothing at the end, is about all sequences and images.", "anchors": ["helpers/helpers.go:WriteOutput", "helpers/helpers.go:FileContentsOrStdIn", "disk/open.go:OpenFilename", "disk/open.go:OpenFile", "disk/open.go:WriteBack", "cmd/put.go:PutCmd.Run", "cmd/delete.go:DeleteCmd.Run", "cmd/nakedos.go:MkHelloCmd.Run", "cmd/reorder.go:ReorderCmd.Run"]}
