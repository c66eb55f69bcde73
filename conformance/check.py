#!/usr/bin/env python3
"""Evaluates the model on the disk images and expectations of the repository's own tests.

Usage: check.py [REPO] [THEORIES] (after the theories have been built).  Writes Coq files to a
temporary directory and evaluates them with vm_compute; nothing here is part of the proofs.  The
expected values are those of supermon_test.go, dos3_test.go and applesoft_test.go and, for the
ProDOS images, the names read from the directory blocks by the few lines below.
"""
import os, re, subprocess, sys, tempfile

REPO = sys.argv[1] if len(sys.argv) > 1 else "/repo"
THEORIES = sys.argv[2] if len(sys.argv) > 2 else os.path.join(os.path.dirname(os.path.abspath(__file__)), "../rocq/theories")
TMP = tempfile.mkdtemp()
IMAGES = {
    "ChaCha": "supermon/testdata/chacha20.dsk",
    "Dos33test": "dos3/testdata/dos33test.dsk",
    "ProDOS242": "data/disks/ProDOS_2_4_2.po",
    "SuperMon2": "data/disks/Super-Mon-2.0.dsk",
    "Users": "data/disks/prodos-users-disk.dsk",
}

def coqc(name):
    r = subprocess.run(["coqc", "-Q", THEORIES, "Verif", "-Q", TMP, "Conf", f"{TMP}/{name}.v"], capture_output=True, text=True)
    if r.returncode:
        sys.exit(r.stdout + r.stderr)
    return r.stdout

def image(name, path):
    b = open(f"{REPO}/{path}", "rb").read()
    secs = [b[i:i + 256][::-1].hex().lstrip("0") for i in range(0, len(b), 256)]
    with open(f"{TMP}/{name}.v", "w") as f:
        f.write("From Verif Require Import GoBase.\n")
        f.write("Fixpoint unpack (n : nat) (z : Z) : list Z := match n with O => [] | S n => Z.land z 255 :: unpack n (Z.shiftr z 8) end.\n")
        f.write("Definition img : bytes := concat (map (unpack 256) [" + ";\n".join("0x" + s if s else "0" for s in secs) + "]).\n")
    coqc(name)

PRELUDE = """From Verif Require Import GoBase TypesModel DiskModel CmdModel CmdSpec.
From Verif Require Dos3Model SupermonModel ProdosModel BasicModel.
From Coq Require Import String Ascii.
Definition show (l : bytes) : string := fold_right (fun c s => String (ascii_of_nat (Z.to_nat c)) s) EmptyString l.
Definition ident (x : list (Z * ProdosModel.Subdirectory)) := x.
Definition outcome (p : prog unit) (w : world) := let '(w', r) := run p w in (w_stdout w', match r with Ok _ => 0 | Err _ => 1 | Panic => 2 end).
"""
def coqlist(b): return "[" + "; ".join(str(x) for x in b) + "]"
def names(*l): return "".join(x + "\n" for x in l).encode()
BAD = []
def check(what, name, body, goal):
    """goal is a boolean; it must evaluate to true."""
    with open(f"{TMP}/check.v", "w") as f:
        f.write(PRELUDE + (f"From Conf Require Import {name}.\n" if name else "") + body + f"\nEval vm_compute in ({goal}).\n")
    out = coqc("check")
    ok = "= true" in out
    print(("ok    " if ok else "FAIL  ") + what, flush=True)
    if not ok:
        BAD.append(what); print(out)

for n, p in IMAGES.items():
    image(n, p)

def listing(name, ext, want):
    check(f"ls {IMAGES[name]}", name, f"Definition want : bytes := {coqlist(want)}.",
          f'let o := outcome (LsCmd_Run ident 600 (s2b "auto") (s2b "auto") false (s2b "x.{ext}") []) (one_file (s2b "x.{ext}") img None) in beq (fst o) want && (snd o =? 0)')

# supermon_test.go
files = [(1, 2, "FHELLO"), (2, 0x17, "FSUPERMON"), (3, 0x10, "FSYMTBL1"), (4, 0x10, "FSYMTBL2"), (5, 0x1E, "FMONHELP"), (6, 8, "FSHORTSUP"),
         (7, 0x1F, "FSHRTHELP"), (8, 4, "FSHORT"), (9, 0x60, "FCHACHA"), (10, 1, "FTOBE")]
src = open(f"{REPO}/supermon/supermon_test.go").read()
hamlet = re.search(r"const hamlet = `([^`]*)`", src).group(1).encode()
cities = re.search(r"const cities = `([^`]*)`", src).group(1).encode()
OPEN = """Import SupermonModel.
Definition opened := match Swizzle img (orNil (LogicalToPhysicalByName (s2b "do"))) with Ok d => NewOperator d | _ => Panic end.
"""
check("supermon TestReadSectorMap, TestReadSymbolTable, TestGetFile", "ChaCha", OPEN + f"Definition want : bytes := {coqlist(hamlet)}.",
      "match opened with Ok op => " +
      " && ".join(f'(zlen (SectorsByFile (op_SM op) {n}) =? {l}) && match SymbolsByAddress (st_of op) {0xDF00 + n} with [s] => beq (s_name s) (s2b "{nm}") | _ => false end' for n, l, nm in files) +
      ' && match GetFile op (s2b "FTOBE") with Ok f => beq (fi_data f) want | _ => false end | _ => false end')
check("supermon TestReadWriteSymbolTable", "ChaCha", OPEN +
      "Definition same (a b : Symbol) : bool := (s_addr a =? s_addr b) && beq (s_name a) (s_name b) && (s_link a =? s_link b).",
      "match opened with Ok op => match WriteSymbolTable (st_of op) (op_data op, op_SM op) with ((d, sm), Ok _) => match ReadSymbolTable sm d with Ok t => "
      "(zlen t =? 819) && forallb (fun p => same (fst p) (snd p)) (combine t (st_of op)) | _ => false end | _ => false end | _ => false end")
check("supermon TestPutFile", "ChaCha", OPEN + f"Definition cities : bytes := {coqlist(cities)}.",
      'match opened with Ok op => match PutFile (FI (Desc (s2b "FNEWFILE") [] 0 0 (zlen cities) false FiletypeBinary) cities 0) false op with (op2, Ok e) => negb e && '
      'match Catalog op2 with Ok l => match rev l with d :: _ => beq (d_fullname d) (s2b "DF0B:FNEWFILE") | _ => false end | _ => false end | _ => false end | _ => false end')
sym = [("", 1), ("ABC", 1), ("abc", 1), ("ABCDEFGHI", 1), ("abcdefghi", 1), ("ABCDEF123", 1), ("abcdef123", 1), ("AB", 0), ("ab", 0), ("ABCDE1234", 0), ("abcde1234", 0)]
check("supermon TestEncodeDecode", None, "Import SupermonModel.", " && ".join(
      (f'match encodeSymbol (s2b "{s}") with Ok b => beq (decodeSymbol (sub b 0 5) (znth 0 b 5)) (s2b "{s.upper()}") | _ => false end' if v else
       f'match encodeSymbol (s2b "{s}") with Err _ => true | _ => false end') for s, v in sym))
listing("ChaCha", "dsk", names(*[f"DF{n:02X}:{nm}" for n, _, nm in files]))
listing("SuperMon2", "dsk", names(*[f"DF{n:02X}:{nm}" for n, _, nm in files[:8]]))
# dos3_test.go
src = open(f"{REPO}/dos3/dos3_test.go").read()
live = [m[1] for m in re.findall(r'\{(true|false), "[A-Z]", \d+, "([^"]*)"\}', src.split("deletedWant :=")[0])]
dead = [m[1] for m in re.findall(r'\{(true|false), "[A-Z]", \d+, "([^"]*)"\}', src.split("deletedWant :=")[1])]
check("dos3 TestReadCatalog", "Dos33test", "", "match Dos3Model.ReadCatalog 600 img with Some (Ok (a, b)) => "
      f"beq (List.concat (map (fun f => Dos3Model.FilenameString f ++ [10]) a)) {coqlist(names(*live))} && "
      f"beq (List.concat (map (fun f => Dos3Model.FilenameString f ++ [10]) b)) {coqlist(names(*dead))} | _ => false end")
listing("Dos33test", "dsk", names(*live))
# the files of that disk, read here from the published layout: sector lists, then 2 bytes of length
# (I, A) or 2 of address and 2 of length (B)
def dos_files(path):
    b = open(f"{REPO}/{path}", "rb").read()
    sec = lambda t, s: b[(t * 16 + s) * 256:(t * 16 + s) * 256 + 256]
    t, s, out = sec(17, 0)[1], sec(17, 0)[2], []
    while (t, s) != (0, 0):
        c = sec(t, s)
        for i in range(7):
            e = c[11 + 35 * i:46 + 35 * i]
            if e[0] in (0, 255):
                continue
            lt, ls, data = e[0], e[1], b""
            while (lt, ls) != (0, 0):
                l = sec(lt, ls)
                for j in range(12, 256, 2):
                    if l[j]:
                        data += sec(l[j], l[j + 1])
                lt, ls = l[1], l[2]
            if e[2] & 127 == 4:
                data = data[2:]
            out.append((bytes(x & 127 for x in e[3:33]).decode().rstrip(), data[2:2 + data[0] + 256 * data[1]]))
        t, s = c[1], c[2]
    return out
for name, data in dos_files(IMAGES["Dos33test"]):
    check(f"dump {name}", "Dos33test", f"Definition want : bytes := {coqlist(data)}.",
          f'match Dos3Model.GetFile 600 img (s2b "{name}") with Some (Ok f) => beq (fi_data f) want | _ => false end')
# applesoft_test.go
src = open(f"{REPO}/basic/applesoft/applesoft_test.go").read()
prog = [int(x, 16) for x in re.findall(r"0x([0-9A-Fa-f]{2})\b", src.split("helloListing is")[0])]
text = re.search(r"var helloListing = `([^`]*)`", src).group(1).encode()
check("applesoft TestParse", None, f"Definition prog := {coqlist(prog)}. Definition want := {coqlist(text)}.",
      "match BasicModel.applesoft_Decode 100 prog 0x801 with Some (Ok l) => beq (BasicModel.ChevronControlCodes (BasicModel.applesoft_String l)) want | _ => false end")
# ProDOS disks: the names in the chain of directory blocks that starts at block 2
DO = [0, 14, 13, 12, 11, 10, 9, 8, 7, 6, 5, 4, 3, 2, 1, 15]  # the DOS 3.3 sector that holds a ProDOS half block
def prodos_names(path):
    b = open(f"{REPO}/{path}", "rb").read()
    def block(k):
        t, s = k // 8, k % 8 * 2
        if path.endswith(".po"):
            return b[512 * k:512 * k + 512]
        return b"".join(b[(t * 16 + DO[i]) * 256:(t * 16 + DO[i]) * 256 + 256] for i in (s, s + 1))
    k, first, out = 2, True, []
    while k:
        d = block(k)
        for i in range(13):
            e = d[4 + 39 * i:4 + 39 * i + 39]
            if e[0] >> 4 and not first:
                out.append(e[1:1 + (e[0] & 15)].decode())
            first = False
        k = d[2] + 256 * d[3]
    return out
for n, ext in (("ProDOS242", "po"), ("Users", "dsk")):
    listing(n, ext, names(*prodos_names(IMAGES[n])))
print("all as expected" if not BAD else f"{len(BAD)} differ: {BAD}")
