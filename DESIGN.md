# Formal model of zellyn/diskii in Rocq (Coq 8.16.1)

## 1. Conventions of the model

* Go `byte`, `uint16`, `uint64`, `int` are `Z`; every conversion or operation that can
  wrap is written with an explicit wrap (`u8`, `u16`, `u64` = `mod 2^k`).  Byte slices
  and Go strings are `list Z`; `is_byte` / `bytes_ok` say that the elements are in
  0..255.
* A Go function that returns `(T, error)` is a function into `res T`
  (`Ok`, `Err`, `Panic`): run-time panics (index or slice out of range) are an explicit
  outcome, never hidden by a default.  Where a function mutates its arguments also on
  an error path, the model returns the new state next to the outcome.
* A loop that need not terminate is a fuelled recursion returning `None` when the fuel
  is exhausted.  "Terminates with r" is `exists fuel, f fuel x = Some r`,
  "never terminates" is `forall fuel, f fuel x = None`.
* Error values keep their class (out of space / file exists / file not found / other);
  message texts are not modelled beyond a short tag.
* File layout (`/verif/rocq/theories`):
  `GoBase.v` (bytes, slices, strings), `*Model.v` (the model, no proofs),
  `Spec.v` (small independent specifications), `*Proofs.v`, and `Properties*.v`
  (only property theorems, closed by `exact`, with non-vacuity examples and
  `Print Assumptions`).

## 2. Plan, property by property

| property | modelled | proof |
|---|---|---|
| C01, C02 | `ReadSector`, `WriteSector` | list slicing arithmetic |
| C03, C04, C06 | `Swizzle`, `validateOrder`, the six tables | induction over the 560 sector copies; tables by computation |
| C05, C07, C08 | `OpenImage`, `openDoOrPo`, `openHDV`, `WriteBack` over an arbitrary factory list | induction over candidate list; C04 |
| C09 | `UnmarshalBlock`, `MarshalBlock` | slicing |
| C10 | `path.Ext`, `strings.ToLower`, `OrderFromFilename` | string lemmas |
| C11-C15 | all `FromSector/ToSector/FromBytes/ToBytes/FromBlock/ToBlock` | list reconstruction lemmas |
| C16-C20 | `readCatalogSectors`, `ReadCatalog`, `Contents`, `GetFile` (with slice capacity) | fuel relation; measure on unseen sectors; refutations by computed witness |
| C21, C22 | `FilenameString`, `descriptor`, `Validate`, `DefaultVTOC`, `IsFree` | case analysis |
| C23 | dos3/prodos operators | direct |
| C24-C32 | `SectorMap` methods | induction over the 560 sectors |
| C33, C34 | `encodeSymbol`, `decodeSymbol` (uint64 arithmetic) | induction on the name, base-32/64 digits; refutation by witness |
| C35-C38 | `SymbolTable` methods, `ReadSymbolTable`, `WriteSymbolTable` | list induction; refutation by witness history; for C38 also the exact condition, from which link each entry has after an edit (SupermonBreakProofs.v) |
| C39, C40, C46 | `parseAddressFilename` (`strconv.ParseUint` base 16), `FileForName`, `FilesForCompoundName`, `ParseCompoundSymbol` | string lemmas |
| C41-C45 | supermon `Operator`/`OperatorFactory` | refinement to an abstract store, induction over histories |
| C47-C50 | `VolumeBitMap`, `IndexBlock` | bit lemmas; refutations by witness |
| C51-C53 | `readVolume`, `readSubdirectory`, `parentDirName`, `Catalog`; map iteration order is a universally quantified permutation | well-formed directory trees; refutations by witness |
| C54 | `Validate` methods | direct |
| C55-C60 | `applesoft`, `integer`, `basic` packages | induction over lines; refutations by witness |
| C61, C62 | `filetype.go`, `errors.go` | computation over the finite table lifted to all names |
| C63-C66, C74, C87 | `helpers`, `cmd` as programs over a world (files, stdin, stdout, room left); crash points of `os.WriteFile` as truncate + prefix writes | induction over programs (`run`, `crash`), plus the theorems above |
| C67, C75 | `SDCmd.Run` (mksd) | arithmetic on the page list and sector order |
| C68, C69, C76, C77 | `put`, `rm`, `mkhello`, `dump` on NakedOS images | C41-C45 lifted through opening and writing back |
| C70, C71 | rewriting a read symbol table; `VolumeBitMap.Write` | list reconstruction |
| C72, C84 | Integer BASIC listing; the two keyword tables | induction over lines; tables by computation |
| C73, C86 | `filetypes` command, `text/tabwriter` for a rectangular table | computation over the finite table |
| C78 | every `UnmarshalX`/`MarshalX` pair at a place in an image | C09 and C11-C15 composed |
| C79-C83 | `ls`, `dump`, `applesoft decode`, `integer decode`, detection by `OpenImage` with the three registered factories | `eventually` (all large enough fuels) composed over open, catalog, print |
| C88 | the disk written by mksd, on a machine (`BootSpec.v`): 6502 instructions, the Monitor's WAIT, Disk II head and PROM | symbolic execution of the loader, induction over the sectors read |
| C89 | `ls`, `dump`, `rm` on one image | C79-C81 combined with the name resolution of C39 |
| C90-C92 | `put`, `rm`, `reorder` followed by `ls` and `dump` | C76, C79, C81 composed; `AddSymbol` as `bind` on the cards of C98 (BoundProofs.v); exact condition for C38; fuel monotonicity of `OpenImage` |
| C93 | exit status of every command, for inputs without cycles and impossible lengths | one totality lemma per operation (C17, C20, C31, C52, C56), composed through `OpenImage` and `run` |
| C94 | chains of the symbol table through histories of edits on a disk | explicit chains as lists of entries; one lemma per kind of edit; induction over the history; hypotheses checked on the 156 symbols of chacha20.dsk |
| C95 | sessions of `put`, `rm`, `dump`, `ls` on one image | refinement of a store of files; one lemma per command, induction over the session; `MarkProofs` follows the byte that `--system auto` takes for DOS 3.3 |
| C96 | `-` in place of a file name, for every command | relation between two runs; the rest of the program after the input is the same and asks for no more input |
| C97 | the files a command depends on | two-run theorem by induction over the program: only calls on the named files |
| C98 | sessions that name files | refinement of a store with a row of cards; the symbol table of C94 as invariant (`holds`, `on_board`), induction over the session |
| C99 | the flag `--system` | detection with one factory selected; a disk that is both DOS 3.3 and NakedOS |
| C100 | commands that run at the same time | small steps (open, read or write a piece, close) of any number of processes; an invariant for those that keep apart, constructed interleavings for those that do not; an invariant that says which mixture of the old and the new image a reader holds; a well-founded measure on system states for the end |
| C101 | put again with --overwrite | exact characterisation of the sectors WriteFile takes (the first free ones), and that freeing and taking again gives the same list; then bytes of the disk |
| C102 | looking changes nothing | programs without write or stdin nodes leave the world alone but for the output; induction on the session |
| C103 | edits in any order of the image | both runs factored through the same opened operator; reordering is a bijection |
| C104 | rm undoes put | the sector map after put and delete pointwise; names by files 3 and 4 |
| C105 | copies between disks | contents are whole sectors, so padding is the identity; C81 and C90 on the two sides |
| C106 | running a command again | two programs that make the same system calls up to crashes and the text of errors; readVolume under two orders (C53), every fuelled loop by monotonicity; where neither refusal nor hanging is left to the order (C109, C112), also for crashes and directories |
| C107 | dump piped into decode | C81 and C55 composed over the handed-over text; a size bound on programs that can be mistaken |
| C108 | exit status of every `put`, `rm`, `mkhello`, `dump` on a NakedOS image | the meaning of a target name as a relation shown to be a function; `PutFile` and `Delete` decided case by case, the symbol table by which names encode |
| C109 | listing any ProDOS image, well-formed or not | directories as chains that end, leave the device or return (decided); levels of the tree by a pigeonhole on 65536 blocks; names by induction on the chain of parent pointers; each outcome realised by an order that puts the wanted entry first or last |
| C110 | any file as a disk image | totality of each system's test (C17, C109), then induction on the list of pairs (order, system); each command by the outcome of opening and of the one operator call (C16, C19, C20, C108, C109) |
| C111 | reorder, mksd, decode on any file; unreadable and unwritable files | composition of C66, C67, C56, C63; uniqueness of decimal numerals and of the escaping; induction on the command as a tree of system calls |
| C112 | every visit of a map in an order of its own (`VisitModel.v`) | the loop over the candidate orders with a visit for each; naming the order that was found reduces each command to C110; each outcome by choosing the visit of each test (C109), and for dump and the edits because what was opened decides the rest |
| C113 | every byte after `put`, `mkhello`, `rm` on a NakedOS disk | the sectors WriteFile takes as a filter of the map (C101), then each byte by its sector; names as numbers by induction on the name; the image by bytes of the 819 entries |
| C114 | `put` and `mkhello` on their own result change nothing | the file already lies in the lowest sectors free or its own, so placing it again is the identity; the symbol, once given, is found; then C108 and C113's uniqueness |
| C115 | edits of different files in any order | C95 gives the store after each session; on the store, the result of a batch by induction on the list in terms of the set of edits and a sum, which a permutation does not change |
| C116 | the spellings of a name; mkhello as a put | names alike letter by letter give the same number, table search and code; the tables in memory differ in case only and are written as the same bytes; put as a function of its target's meaning (C108) |
| C117 | sessions on several images as a shelf of disks | C98 for each command with the other images as files; reorder copies the sectors into the other order (C65); mkhello as a put of its loader; induction over the session |
| C118 | batches of edits that give and take symbols | C98 for each order; the files as in C115; the address of a name after a batch as a function of the one edit that has the symbol |
| C119 | when a batch of edits fits, to the sector | C95 for the statuses; a put on the store succeeds exactly if it fits; by induction every beginning of the batch has to; with those that free sectors first the last one is the tightest |
| C120 | the loader of mkhello on a machine with NakedOS (`HelloSpec.v`) | C68 for the bytes; symbolic execution of the four instructions and the call |
| C121 | the loader of mkhello at the end of a session | C117 for the files of every disk; what the deeds after mkhello and after the put leave alone, by induction; C120 for the machine |
| C122 | damage elsewhere does not change what ls and dump show | the readers of the two disks run in step: each sector, file or block read is one of the part that is the same, by induction on the chain, the loop or the fuel; detection likewise |
| C123 | edits do not depend on what the files hold | the two operators run in lockstep: every write is the same on both, every test is of the map or the table; sectors that change owner get the same contents; then the commands, and induction on the session |
| C124 | dumping and putting all files copies a disk | each save and put as one step of an invariant (image, room, files restored so far), induction on the list of files; ls and dump of two operators over disks with equal files agree |
| C125 | Standard Delivery disks and the other commands | the disk of C67 as one sequence; which sectors of it each system looks at in each order; which parts of a binary may be taken for a sector map, and a binary that is |
| C126 | where files lie does not matter | two operators over disks with equal files and room: every write, removal and look at the table keeps them equal (by what each does to the store); then the commands, and induction on the session; conversely dump tells files apart, and one put of the right size tells the room |
| C127 | changes can be taken back | on the store, free sectors plus those of the changed files stay the same in every session that changes only these; so the files fit again after rm -f (C124_restore); C126 for the later sessions |
| C128 | where the files of a DOS 3.3 disk lie | the live entries match one by one (Forall2), so find hits matching entries; Contents_body on both; `same_dos_files` asks for the data and the number of lists, not for sectors |
| C129 | where the folders of a ProDOS volume lie | `same_tree` relates the trees of directories; by induction on it the paths match one by one; C79 on both; conversely a text splits into lines in one way |
| C130 | edits connected by pipes | `pipeline` (PipelineSpec.v) runs the stages one after the other, which is what running at once does, no stage writing a file; by induction on the stages with the single stage of PipeSpec.v; a stage with empty input fails and writes nothing |
| C85 | `hexUint16Mapper.Decode`, `strconv.ParseUint` base 0, 16 bits | digit induction |

## 3. Trusted base

1. **Coq's kernel** (8.16.1), and `vm_compute` as part of it.
2. **Axioms.**  `Print Assumptions` beneath every property theorem answers
   "Closed under the global context": no theorem uses an axiom.  The build does load
   standard-library files (ssreflect's `Under_rel`, via the `Zify` plugin files) that
   declare module-type parameters which coqchk lists as axioms of the *loaded libraries*;
   nothing in the proofs depends on them.
3. **The model is the code.**  Each definition in `*Model.v` cites the file and lines of
   /repo it transcribes.  That the transcription is faithful is the reader's to check; it was
   written by reading the Go text (the Go code was not run).  As a check, and no part of the
   proofs, `conformance/check.py` evaluates the model on the disk images in /repo: it gives
   the listings, file contents and symbols that supermon_test.go, dos3_test.go and
   applesoft_test.go expect, dumps all files of dos33test.dsk as an independent reader of the
   image finds them, and lists the ProDOS images' directories.  The same images were used to
   see that hypotheses of the theorems are met by real disks (the symbol tables of both
   Super-Mon disks are `table_ok`, `map_table` and `chained`; the ProDOS disks are
   `well_formed`).
4. **The Go standard library** where it is modelled from its documentation and source:
   `strconv.ParseUint`, `strconv.Itoa`, `strings.ToLower/ToUpper/EqualFold/Split/TrimRight`
   (on bytes; see "simplifications"), `path.Ext`, `encoding/binary`'s little endian,
   `text/tabwriter` (rectangular tables of ASCII cells), `os.ReadFile`, `os.Stat`,
   `os.WriteFile` (open with O_TRUNC, then writes that may stop anywhere), `io.ReadAll`, and
   the `fmt.Printf` verbs used by the listings.
5. **The specifications** (`*Spec.v`): small, separate from the model; e.g. the table of
   Applesoft keywords in `KeywordSpec.v` was written from the published token tables, not
   from the code.  `BootSpec.v` (C88) describes the machine that boots a disk: 28 instructions
   of the 6502 (MOS manual), WAIT of the Monitor ROM, the stepper magnets, and the Disk II
   boot PROM from Cn5C on as one step that reads a sector.  Timing is not part of it: WAIT is
   taken to be long enough for the head to settle, a sector is always found.  `HelloSpec.v` (C120)
   adds one call of NakedOS, reading a file to a page, in the form that the comments in
   cmd/nakedos.go give it.

### Modelled

| package | modelled | file |
|---|---|---|
| disk | all of disk.go, open.go, marshal.go | DiskModel.v, PlaceModel.v |
| dos3 | all (codecs, catalog, GetFile, operator, factory) | Dos3Model.v |
| prodos | all (codecs, bitmap, directories, operator, factory) | ProdosModel.v |
| supermon | all (sector map, symbols, operator, factory) | SupermonModel.v |
| basic, applesoft, integer | all | BasicModel.v |
| types, errors | all | TypesModel.v, ErrorsModel.v |
| helpers, cmd | all commands | CmdModel.v, MainModel.v; map orders that change within a command: VisitModel.v; several processes at once: ConcModel.v |
| main | exit status, the address mapper | MainModel.v |

### Not modelled

* kong: splitting the command line, help texts.  The enum tags of `--order` and `--system`
  are modelled (`order_enum`, `system_enum`); that kong enforces them appears as a hypothesis
  on the values where it matters (C99).
* data/data.go: two embedded images, not used by any modelled function.
* Debug output on stderr; the text of error messages beyond a tag.
* I/O errors other than: missing or unreadable file, a file that cannot be created, a medium
  that runs full, a process killed while writing, a closed or full standard output.

### Simplifications

* Strings are byte lists.  `strings.EqualFold` is exact when one of its arguments
  is ASCII, as every name read from a disk is; `ToUpper`/`ToLower` are exact on ASCII, and
  statements say so where it matters (C10, C34).
* The boolean that accompanies an error (`Delete`, `PutFile`) is not modelled.
* Fuel stands for time: divergence is `None` for every fuel.  A hang of a `SeemsToMatch` is
  `None`, which makes opening hang.
* The iteration order of Go maps is a universally quantified permutation (prodos).  In CmdModel it
  is a function of the map: a command that visits the same map twice sees the same order twice.
  VisitModel has an order for each visit (C112).
* Slices share storage in Go; the model copies, and where sharing or capacity is observable
  (`GetFile` re-slicing beyond the length, `Swizzle`, in-place `WriteSector`) it is modelled
  explicitly.

* Processes that run at the same time (ConcModel.v): reading standard input and writing standard
  output is one step each; the permissions and the kind of a file change only by diskii itself.

## 4. Status

130 properties; see MANIFEST.json for the theorem names.  "partial" always comes with a
theorem `_refuted` (the claim as stated is false, with a witness) or a comment `Missing:`.

Places where the code disagrees with what users rely on, each proved as a `_refuted`
theorem (file:line in /repo):

| property | disagreement |
|---|---|
| C17 | a catalog chain that returns to a sector it has visited loops forever: the `seen` map is never written (dos3.go `readCatalogSectors`) |
| C20 | `GetFile` panics on an all-zero text body and on a length header beyond the buffer |
| C31 | `put` of an empty file panics (supermon `WriteFile` indexes sector 0 of none) |
| C34 | `encodeSymbol` accepts "A.BC" and stores "ABC" |
| C38 | deleting a symbol can leave a link that makes the written table unreadable (the first entry, linked to from behind an unused entry) |
| C44, C45 | the symbol table's own files: putting to them is overwritten by the table; deleting FSYMTBL1 re-creates it |
| C46 | `ParseCompoundSymbol` has its validity check inverted |
| C48 | volume bitmap of more than 61440 blocks: uint16 overflow, panic |
| C49 | `readVolumeBitMap` divides by 4096 twice: small devices get an empty bitmap, large ones the first 4096 blocks |
| C50 | `IndexBlock.Set` has a value receiver and stores nothing |
| C52 | cycles of directory blocks, of subdirectories, or of parent pointers hang |
| C53 | two subdirectories with one full name: map order decides which one is listed |
| C55-C58, C80 | Applesoft/Integer decoders guess a length header (a program whose first two bytes happen to be the length of the rest loses them); crash or loop on damaged files |
| C64, C65 | the image is truncated before it is rewritten: a full disk or a kill loses it |
| C69 | `rm -f` of a name that means nothing on the disk fails; of a symbol whose file does not exist it succeeds and removes the symbol |
| C70 | names of one, two or ten and more characters can be read but not written back |
| C73 | the names "A", "B" in the filetypes table do not name the types they stand beside |
| C75 | mksd adds the length to the start address instead of the load address |
| C77 | data that looks like a VTOC, put in track 17 sector 0, turns the disk into a DOS 3.3 disk |
| C99 | `--system` of dump, put and rm admits only `auto` and `dos3`: a NakedOS disk that also looks like DOS 3.3 can be listed but not used; put and rm told `dos3` always fail |
| C100 | nothing locks an image: of two commands that change it at the same time one may be lost though both report success; a reader beside a writer may find the image empty, or half old and half new |
| C106 | the order in which Go visits a map decides whether ls of a damaged ProDOS volume reports an error or overflows the stack |
| C107 | the pipeline in the help of `applesoft decode` fails for programs whose first two bytes equal their size minus 2 or 3, and for empty programs |
| C125 | a disk made by mksd with a binary of more than nine pages can be taken for a NakedOS disk, and put writes over it; with at most three pages it is listed as an empty ProDOS volume |
| C83 | an image of zeros opens as ProDOS |
| C84 | Applesoft `^` is listed as `;`, `DEF` as `DEF FN`, `TAB(` as `TAB` |
| C87 | `ls`, `decode` and `filetypes` exit 0 when their output could not be written |
| C88 | mksd accepts binaries for page 8, where its loader runs, for page 0, which the loader skips, and for page 1 and up, over the stack it uses |
| C89 | the NakedOS names that `ls` prints by default (`DF05:NAME`) are refused by `dump` and `rm`; a symbol such as `DF03` hides the file it belongs to; DOS 3.3 files of type S, R, a, b are listed but cannot be dumped; of several files of one name only the first can be dumped |
| C90 | a put that moves a symbol (`put 1:GAME`) can damage the symbol table in the same way as `rm` (C38, C91) |
| C90 | a file removed by number leaves its symbol behind: a later `put NEWNAME` that gets this number is listed under the old name |
| C91 | `rm NAME` can damage the symbol table (C38): `ls` then shows no names at all |
| C91 | `rm FSYMTBL1` reports success and the file is still there; `rm DF03` removes it, and with it every symbol |
| C93 | `put` of an empty file (every one that would succeed with some contents), `dump` of a DOS 3.3 file with an impossible length and `decode` of some programs crash; cyclic catalogs and programs make commands run forever |
| C94 | a symbol moved to an address with hash 0 is linked to itself for a moment and then to none: two symbols with hash 0 end up on no common chain (supermon.go `AddSymbol`, after `DeleteSymbol` has set the address to 0) |

Further observations, not stated as properties: `FiletypeForName("")` is Typeless; `--system`
of rm/put/dump admits only auto and dos3 although dos3 implements neither put nor rm; a
143360-byte `.hdv` image with automatic order is refused as an unknown extension; mksd's
"ran out of tracks" branch is unreachable; an explicit `--start 0xFFFF` means "same as
address".

## 5. Testing the theorems

`seeded/LOG.jsonl` records wrong programs: one edit of a model definition each, with the
theorems that stopped proving.  An edit after which everything still proved led to a tighter
or additional theorem, named in the line.
